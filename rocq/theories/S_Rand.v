(** What is expected of lists of nodes and of random nodes (C67) *)
From stdpp Require Import strings.
From Verif Require Import Base M_Atom M_Graph M_Conf M_Nodes M_Rand.
Open Scope string_scope.
Open Scope list_scope.
Open Scope nat_scope.

(** The nodes that can be placed: the kinds of the node list, as first instances *)
Definition placeable (n : node_id) : Prop := exists k r, n = NId (S k) 0 /\ node_rows !! k = Some r.

(** Nodes that a user does not want to get at random *)
Definition useless : list string := ["out"; "fbrd"; "test"; "rust1x1"].
Definition suits (sel : selector) (n : node_id) : Prop :=
  match sel with SelAny => True | SelOnlyUseful => node_name n ∉ useless end.
Global Instance suits_dec sel n : Decision (suits sel n).
Proof. destruct sel; cbn; apply _. Defined.

(** The entry of the node list that a random number selects *)
Definition drawn (x : N) (n : node_id) : Prop := exists k, nid_kind n = S k /\ nid_inst n = 0 /\ N.of_nat k = (x mod N.of_nat (length node_rows))%N.
