(** Shared helpers of the model. Nothing here models code except where cited. *)
From Coq Require Export ZArith Lia Relations.
From stdpp Require Export prelude gmap countable.
From stdpp Require Export list.
Open Scope nat_scope.
Set Default Goal Selector "!".

(** Models src/dsp/mod.rs:2133-2175 (enum [NodeId]): one variant per node kind, each
    carrying a [u8] instance number; [NodeId::Nop] is kind 0.
    Simplification: the variant is represented by a number; [Nop] carries instance 0. *)
Record node_id := NId { nid_kind : nat; nid_inst : nat }.

Global Instance node_id_eq_dec : EqDecision node_id.
Proof. solve_decision. Defined.
Global Instance node_id_countable : Countable node_id.
Proof.
  apply (inj_countable' (fun n => (nid_kind n, nid_inst n)) (fun p => NId (fst p) (snd p))).
  intros []; reflexivity.
Defined.
Global Instance node_id_inhabited : Inhabited node_id := populate (NId 0 0).

Definition Nop : node_id := NId 0 0.

(** [a] occurs strictly before [b] in [l]. *)
Definition before {A} (l : list A) (a b : A) : Prop :=
  exists l1 l2 l3, l = l1 ++ a :: l2 ++ b :: l3.

(** Monadic bind of [option]; [None] is used for panics throughout the model. *)
Notation "'let*' p := e 'in' f" := (@mbind option _ _ _ (fun p => f) e)
  (at level 200, p as pattern, e at level 200, f at level 200).
