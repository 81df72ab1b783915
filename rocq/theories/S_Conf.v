(** Specification vocabulary for the node configuration (C11, C14-C16) *)
From Verif Require Import Base M_Atom M_Prog M_Grid M_Conf.
Open Scope nat_scope.

(** What the theorems ask of a node table: at most 32 inputs per node, the atoms have distinct
    parameter indices after those of the inputs, and [Nop] cannot be created. The table of
    the code is shown to satisfy this where it is modelled. *)
Record table_ok (T : ntable) : Prop := {
  tok_ins : forall k, nt_ins T k <= max_node_inputs;
  tok_nop : nt_known T 0 = false;
  tok_at_ge : forall k j, j < nt_ats T k -> nt_ins T k <= nt_at_id T k j;
  tok_at_inj : forall k j j', j < nt_ats T k -> j' < nt_ats T k ->
      nt_at_id T k j = nt_at_id T k j' -> j = j';
}.

(** [ranges] is a list of half open index ranges of the given sizes that are pairwise disjoint
    and cover exactly the indices below [total] *)
Definition tiles (sizes : list nat) (ranges : list (nat * nat)) (total : nat) : Prop :=
  length ranges = length sizes /\
  (forall i r n, ranges !! i = Some r -> sizes !! i = Some n -> r.2 = r.1 + n) /\
  (forall i j r r' x, ranges !! i = Some r -> ranges !! j = Some r' ->
     r.1 <= x < r.2 -> r'.1 <= x < r'.2 -> i = j) /\
  (forall x, x < total <-> exists i r, ranges !! i = Some r /\ r.1 <= x < r.2).

(** the port instances the configuration holds, in order of the nodes *)
Definition insts (c : nconf) : list ninst := omap snd (cf_nodes c).

(** operations on a configuration, with the heap the programs are allocated in *)
Inductive cop :=
| CSet (p : pid) (a : satom)
| CModamt (p : pid) (v : option f32)
| CCreate (n : node_id)
| CRebuild
| CProgram (order : list node_id) (es : list edge_t)
| CLoad (ps : list (pid * f32 * option f32)) (ats : list (pid * satom)) (normalize : bool).

Section ops.
  Context (T : ntable) (i2f : Z -> f32) (load_sample : satom -> satom).

  Definition cop_step (s : heap * nconf) (o : cop) : option (heap * nconf) :=
    let '(h, c) := s in
    match o with
    | CSet p a => Some (h, (conf_set_param T i2f load_sample c p a).1)
    | CModamt p v => Some (h, (conf_set_modamt T c p v).1.1)
    | CCreate n => Some (h, default c (conf_create T c n))
    | CRebuild => let* (h, c, _) := conf_rebuild T h c in Some (h, c)
    | CProgram order es => let* (h, c, _) := conf_program T h c order es in Some (h, c)
    | CLoad ps ats norm => Some (h, (conf_load T i2f load_sample c ps ats norm).1)
    end.

  Definition cop_run (s : heap * nconf) (os : list cop) : option (heap * nconf) :=
    foldm cop_step s os.

  (** the operation sets parameter [p] *)
  Definition sets (p : pid) (o : cop) : Prop :=
    match o with
    | CSet q _ => q = p
    | CLoad ps ats _ => (exists v m, (p, v, m) ∈ ps) \/ (exists a, (p, a) ∈ ats)
    | _ => False
    end.

  (** the value a parameter has after being set to [a]: atoms store what the sample loader makes of
      it, inputs its float value *)
  Definition stored (p : pid) (a : satom) : satom :=
    if is_atom T p then load_sample a else AParam (atom_f i2f a).
End ops.

(** the inputs of a node that have a modulation amount *)
Definition modulated (T : ntable) (modamt : gmap pid (option f32)) (n : node_id) : list nat :=
  filter (fun j => is_Some (mjoin (modamt !! (n, j)))) (seq 0 (nt_ins T (nid_kind n))).

(** configurations that some history of operations leads to *)
Definition conf_reachable (T : ntable) (i2f : Z -> f32) (load_sample : satom -> satom) (c : nconf) : Prop :=
  exists h0 os h, cop_run T i2f load_sample (h0, conf_new) os = Some (h, c).
