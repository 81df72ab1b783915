(** Specification vocabulary of the node list *)
From stdpp Require Import strings.
From Verif Require Import Base M_Nodes.

(** A node of one of the 42 kinds of the node list, of any instance; kind 0 is the empty node *)
Definition known (n : node_id) : Prop := 1 <= nid_kind n <= 42.

(** The high pass cutoffs of the plate reverb have the default 0 Hz, which is below what the pitch scale can show *)
Definition low_default (r : nrow) (p : prow) : Prop := nr_str r = "pverb"%string /\ (pr_name p = "ihpf"%string \/ pr_name p = "rhpf"%string).
