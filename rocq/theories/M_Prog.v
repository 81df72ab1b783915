(** Model of the execution program: src/nodes/node_prog.rs and the sample buffers of src/dsp/mod.rs *)
From Verif Require Import Base M_Atom.
Open Scope nat_scope.

(** src/dsp/mod.rs MAX_BLOCK_SIZE (src/lib.rs / synfx): samples per buffer *)
Definition block_size : nat := 128.

(** The memory behind the raw pointers of [ProcBuf] (src/dsp/mod.rs:772-863): a buffer is a
    number; a released buffer has no entry, so that any use after release is a failure
    ([None]), and so is a second release. *)
Record heap := Heap { h_bufs : gmap nat (list f32); h_next : nat }.

(** src/dsp/mod.rs:777-779 [ProcBuf::new] *)
Definition buf_new (h : heap) : heap * nat :=
  (Heap (<[h_next h := replicate block_size f32_zero]> (h_bufs h)) (S (h_next h)), h_next h).

(** [resize_with(n, ProcBuf::new)] on an empty vector *)
Fixpoint bufs_new (h : heap) (n : nat) : heap * list nat :=
  match n with
  | 0 => (h, [])
  | S n => let '(h, p) := buf_new h in let '(h, ps) := bufs_new h n in (h, p :: ps)
  end.

(** src/dsp/mod.rs:858-862 [free], on a pointer that is not null *)
Definition buf_free (h : heap) (p : nat) : option heap :=
  match h_bufs h !! p with
  | Some _ => Some (Heap (delete p (h_bufs h)) (h_next h))
  | None => None
  end.

Fixpoint bufs_free (h : heap) (ps : list nat) : option heap :=
  match ps with
  | [] => Some h
  | p :: ps => let* h := buf_free h p in bufs_free h ps
  end.

(** src/dsp/mod.rs:804-808 [write] *)
Definition buf_write (h : heap) (p i : nat) (v : f32) : option heap :=
  let* b := h_bufs h !! p in
  if i <? length b then Some (Heap (<[p := <[i := v]> b]> (h_bufs h)) (h_next h)) else None.

(** src/dsp/mod.rs:823-825 [read] *)
Definition buf_read (h : heap) (p i : nat) : option f32 :=
  let* b := h_bufs h !! p in b !! i.

(** src/dsp/mod.rs:843-847 [fill] *)
Definition buf_fill (h : heap) (p : nat) (v : f32) : option heap :=
  let* b := h_bufs h !! p in
  Some (Heap (<[p := replicate (length b) v]> (h_bufs h)) (h_next h)).

(** overwriting the whole content of a buffer; used for what a node writes into its outputs *)
Definition buf_put (h : heap) (p : nat) (b : list f32) : option heap :=
  let* _ := h_bufs h !! p in
  Some (Heap (<[p := b]> (h_bufs h)) (h_next h)).

(** src/nodes/node_prog.rs:13-19 [struct ModOp]; a null pointer is [None] *)
Record modop := ModOp { mo_amt : f32; mo_buf : nat; mo_out : option nat; mo_in : option nat }.

(** src/nodes/node_prog.rs:42-46 [lock]; the returned buffer is [mo_buf] *)
Definition modop_lock (m : modop) (inb outb : nat) : modop :=
  ModOp (mo_amt m) (mo_buf m) (Some outb) (Some inb).

(** src/nodes/node_prog.rs:48-51 [unlock] *)
Definition modop_unlock (m : modop) : modop := ModOp (mo_amt m) (mo_buf m) None None.

(** src/nodes/node_prog.rs:38-40 [set_amt] *)
Definition modop_set_amt (m : modop) (a : f32) : modop := ModOp a (mo_buf m) (mo_out m) (mo_in m).

(** src/nodes/node_prog.rs:71-94 [struct NodeOp]. [op_node] stands for the DSP node handle: the
    node with that id created last. An index range is (first, past the last). The connected bit
    masks are numbers. *)
Record nodeop := NodeOp {
  op_idx : nat;
  op_node : node_id;
  op_out : nat * nat;
  op_in : nat * nat;
  op_at : nat * nat;
  op_mod : nat * nat;
  op_inputs : list (nat * nat * option nat);
  op_inc : N;
  op_outc : N;
}.

(** src/nodes/node_prog.rs:97-99, 110-112 [in_idx_belongs_to_nodeop], [out_idx_belongs_to_nodeop] *)
Definition in_range (r : nat * nat) (i : nat) : bool := (r.1 <=? i) && (i <? r.2).

(** src/nodes/node_prog.rs:101-108 [set_in_idx_connected_flag] *)
Definition op_set_in_flag (op : nodeop) (g : nat) : nodeop :=
  if in_range (op_in op) g then
    NodeOp (op_idx op) (op_node op) (op_out op) (op_in op) (op_at op) (op_mod op) (op_inputs op)
           (N.lor (op_inc op) (N.shiftl 1 (N.of_nat (g - (op_in op).1)))) (op_outc op)
  else op.

(** src/nodes/node_prog.rs:114-121 [set_out_idx_connected_flag] *)
Definition op_set_out_flag (op : nodeop) (g : nat) : nodeop :=
  if in_range (op_out op) g then
    NodeOp (op_idx op) (op_node op) (op_out op) (op_in op) (op_at op) (op_mod op) (op_inputs op)
           (op_inc op) (N.lor (op_outc op) (N.shiftl 1 (N.of_nat (g - (op_out op).1))))
  else op.

(** [inputs.push] in src/nodes/node_prog.rs:324 *)
Definition op_push_input (op : nodeop) (io : nat * nat * option nat) : nodeop :=
  NodeOp (op_idx op) (op_node op) (op_out op) (op_in op) (op_at op) (op_mod op)
         (op_inputs op ++ [io]) (op_inc op) (op_outc op).

(** src/nodes/node_prog.rs:159-203 [struct NodeProg] without the debugging id; [np_fb] is the
    vector published through the triple buffer. [np_cur] holds [None] for a null pointer. *)
Record nprog := NProg {
  np_inp : list nat;
  np_cur : list (option nat);
  np_out : list nat;
  np_params : list f32;
  np_atoms : list satom;
  np_ops : list nodeop;
  np_mods : list modop;
  np_locked : bool;
  np_fb : list f32;
}.

(** src/nodes/node_prog.rs:226-243 [empty] *)
Definition prog_empty : nprog := NProg [] [] [] [] [] [] [] false [].

(** [resize_with(n, ModOp::new)], src/nodes/node_prog.rs:29-36 [ModOp::new] *)
Fixpoint modops_new (h : heap) (n : nat) : heap * list modop :=
  match n with
  | 0 => (h, [])
  | S n => let '(h, p) := buf_new h in
           let '(h, ms) := modops_new h n in (h, ModOp f32_zero p None None :: ms)
  end.

(** src/nodes/node_prog.rs:245-278 [new] *)
Definition prog_new (h : heap) (out_len inp_len at_len mod_len : nat) : heap * nprog :=
  let '(h, out) := bufs_new h out_len in
  let '(h, inp) := bufs_new h inp_len in
  let '(h, mods) := modops_new h mod_len in
  (h, NProg inp (replicate inp_len None) out (replicate inp_len f32_zero)
            (replicate at_len (ASetting 0)) [] mods false (replicate out_len f32_zero)).

Definition with_ops (p : nprog) (ops : list nodeop) : nprog :=
  NProg (np_inp p) (np_cur p) (np_out p) (np_params p) (np_atoms p) ops (np_mods p) (np_locked p) (np_fb p).

(** src/nodes/node_prog.rs:296-306 [append_op] *)
Definition prog_append_op (p : nprog) (op : nodeop) : nprog :=
  if existsb (fun o => op_idx o =? op_idx op) (np_ops p) then p
  else with_ops p (np_ops p ++
         [NodeOp (op_idx op) (op_node op) (op_out op) (op_in op) (op_at op) (op_mod op)
                 (op_inputs op) 0%N 0%N]).

(** src/nodes/node_prog.rs:321-327: the first operation with the index gets the input *)
Fixpoint ops_add_input (ops : list nodeop) (idx inp_index out_index : nat) (md : option nat)
  : list nodeop :=
  match ops with
  | [] => []
  | o :: ops =>
      if op_idx o =? idx
      then op_push_input (op_set_in_flag o inp_index) (out_index, inp_index, md) :: ops
      else o :: ops_add_input ops idx inp_index out_index md
  end.

(** src/nodes/node_prog.rs:308-328 [append_edge]; of the passed operation only the index is used *)
Definition prog_append_edge (p : nprog) (idx inp_index out_index : nat) (md : option nat) : nprog :=
  with_ops p (ops_add_input ((fun o => op_set_out_flag o out_index) <$> np_ops p)
                            idx inp_index out_index md).

(** src/nodes/node_prog.rs:333-338 [initialize_input_buffers] *)
Fixpoint fill_from (h : heap) (inp : list nat) (vs : list f32) : option heap :=
  match vs, inp with
  | [], _ => Some h
  | v :: vs, b :: inp => let* h := buf_fill h b v in fill_from h inp vs
  | _ :: _, [] => None
  end.
Definition prog_init_inputs (h : heap) (p : nprog) : option heap :=
  fill_from h (np_inp p) (np_params p).

(** src/nodes/node_prog.rs:356-364 [unlock_buffers] *)
Definition prog_unlock (p : nprog) : nprog :=
  NProg (np_inp p) ((fun _ => None) <$> np_cur p) (np_out p) (np_params p) (np_atoms p) (np_ops p)
        (modop_unlock <$> np_mods p) false (np_fb p).

(** the element-wise [std::mem::swap] over the zipped vectors *)
Fixpoint swap_zip {A} (xs ys : list A) : list A * list A :=
  match xs, ys with
  | x :: xs, y :: ys => let '(xs', ys') := swap_zip xs ys in (y :: xs', x :: ys')
  | _, _ => (xs, ys)
  end.

Definition with_inp (p : nprog) (inp : list nat) : nprog :=
  NProg inp (np_cur p) (np_out p) (np_params p) (np_atoms p) (np_ops p) (np_mods p) (np_locked p) (np_fb p).

(** src/nodes/node_prog.rs:340-354 [swap_previous_outputs]: returns (self, prev) *)
Definition prog_swap (p prev : nprog) : nprog * nprog :=
  let p := if np_locked p then prog_unlock p else p in
  let prev := if np_locked prev then prog_unlock prev else prev in
  let '(prev_inp, inp) := swap_zip (np_inp prev) (np_inp p) in
  (with_inp p inp, with_inp prev prev_inp).

(** [cur[s..e].copy_from_slice(&inp[s..e])]; an invalid range panics *)
Definition copy_range (cur : list (option nat)) (inp : list nat) (r : nat * nat)
  : option (list (option nat)) :=
  if (r.1 <=? r.2) && (r.2 <=? length cur) && (r.2 <=? length inp)
  then Some (take r.1 cur ++ (Some <$> take (r.2 - r.1) (drop r.1 inp)) ++ drop r.2 cur)
  else None.

(** src/nodes/node_prog.rs:391-397: one input assignment *)
Definition assign_input (inp out : list nat) (st : list (option nat) * list modop)
    (io : nat * nat * option nat) : option (list (option nat) * list modop) :=
  let '(cur, mods) := st in
  let '(oi, ii, md) := io in
  let* ob := out !! oi in
  if negb (ii <? length cur) then None else
  let cur := <[ii := Some ob]> cur in
  match md with
  | None => Some (cur, mods)
  | Some m =>
      let* mo := mods !! m in
      let* ib := inp !! ii in
      Some (<[ii := Some (mo_buf mo)]> cur, <[m := modop_lock mo ib ob]> mods)
  end.

Fixpoint foldm {S X} (f : S -> X -> option S) (s : S) (xs : list X) : option S :=
  match xs with
  | [] => Some s
  | x :: xs => let* s := f s x in foldm f s xs
  end.

(** src/nodes/node_prog.rs:367-398: one operation *)
Definition assign_op (inp out : list nat) (st : list (option nat) * list modop) (op : nodeop)
  : option (list (option nat) * list modop) :=
  let* cur := copy_range st.1 inp (op_in op) in
  foldm (assign_input inp out) (cur, st.2) (op_inputs op).

(** src/nodes/node_prog.rs:366-402 [assign_outputs] *)
Definition prog_assign (p : nprog) : option nprog :=
  let* (cur, mods) := foldm (assign_op (np_inp p) (np_out p)) (np_cur p, np_mods p) (np_ops p) in
  Some (NProg (np_inp p) cur (np_out p) (np_params p) (np_atoms p) (np_ops p) mods true (np_fb p)).

(** src/nodes/node_prog.rs:205-215 [Drop for NodeProg] and 21-25 [Drop for ModOp] *)
Definition prog_drop (h : heap) (p : nprog) : option heap :=
  let* h := bufs_free h (np_inp p) in
  let* h := bufs_free h (np_out p) in
  bufs_free h (mo_buf <$> np_mods p).
