(** Choosing nodes: the lists of a category, random nodes, starting phases (src/dsp/mod.rs) *)
From Coq Require Import QArith.
From stdpp Require Import strings.
From Verif Require Import Base M_Atom M_Graph M_Conf M_Nodes.
Open Scope string_scope.
Open Scope list_scope.
Open Scope nat_scope.

(** src/dsp/mod.rs:2202-2207 [ui_category] *)
Definition ui_category (n : node_id) : ucat := from_option nr_cat CNone (row_of n).

(** src/dsp/mod.rs:2363 [ALL_NODE_IDS]: the node list without its first entry *)
Definition all_node_ids : list node_id := imap (fun k _ => NId (S k) 0) node_rows.

(** src/dsp/mod.rs:1788-1813 [UICategory::get_node_ids]: the macro makes one [if] for every entry of the node list, here a loop over
    its rows; the calls of [fun] are returned as a list *)
Fixpoint list_cat (c : ucat) (k : nat) (rows : list nrow) (skip : nat) : list node_id :=
  match rows with
  | [] => []
  | r :: rows =>
      if decide (nr_cat r = c) then
        match skip with
        | 0 => NId (S k) 0 :: list_cat c (S k) rows 0
        | S skip => list_cat c (S k) rows skip
        end
      else list_cat c (S k) rows skip
  end.
Definition cat_node_ids (c : ucat) (skip : nat) : list node_id := list_cat c 0 node_rows skip.

(** src/dsp/mod.rs:1817-1821 [enum RandNodeSelector] *)
Inductive selector := SelAny | SelOnlyUseful.

(** src/dsp/mod.rs:1823-1839 [rand_node_satisfies_spec]; the patterns name variants, which are the labels of the nodes *)
Definition satisfies (n : node_id) (sel : selector) : bool :=
  if decide (n = Nop) then false
  else match sel with
       | SelAny => true
       | SelOnlyUseful =>
           if decide (node_label n = "Out") then false
           else if decide (node_label n = "FbRd") then false
           else if decide (node_label n = "Test") then false
           else if decide (node_label n = "Rust1x1") then false
           else true
       end.

(** src/dsp/mod.rs:1841-1861 [get_rand_node_id]. [next i] is the [i]th number of the random number generator, whose seed is the time.
    The index is in range because of the remainder; [None] would be the panic of an empty table. On a 64 bit machine the cast to
    [usize] changes nothing. *)
Fixpoint draw (next : nat -> N) (sel : selector) (count : nat) (fuel cnt : nat) (out : list node_id) : option (list node_id) :=
  match fuel with
  | 0 => Some out
  | S fuel =>
      if length out <? count then
        let* cur := all_node_ids !! N.to_nat (next cnt mod N.of_nat (length all_node_ids))%N in
        draw next sel count fuel (S cnt) (if satisfies cur sel then out ++ [cur] else out)
      else Some out
  end.
Definition get_rand_node_id (next : nat -> N) (count : nat) (sel : selector) : option (list node_id) :=
  let* out := draw next sel count 100 0 [] in
  Some (out ++ replicate (count - length out) Nop).

(** src/dsp/mod.rs:2213-2224 [init_phase], exactly; [r] is the result of [synfx_dsp::rand_01] *)
Definition init_phase (r : Q) (n : node_id) : Q :=
  match nid_inst n with
  | 0%nat => 0%Q
  | 1%nat => 5 # 100
  | 2%nat => 1 # 10
  | _ => (r * (1 # 4))%Q
  end.
