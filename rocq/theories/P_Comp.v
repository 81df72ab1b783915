(** C36: the compiler of block programs. *)
From stdpp Require Import strings pretty.
From Verif Require Import Base M_Block S_Block M_Comp S_Comp L_Block L_Block2 L_Block3 L_Block4 P_Block.
From Verif Require Import L_Comp L_Comp2 L_Comp3 L_Comp4 L_Comp5 L_Comp6.
Open Scope string_scope.
Open Scope list_scope.
Open Scope nat_scope.

(** ** C36: the wiring of a program gives each output one value, and the generated code computes them, for all numbers, arithmetics and nodes. *)
Lemma edited_ready lib is_number f sn : lib_ok lib -> edited (lang_of lib) (thin_filler (lang_of lib)) (f, sn) -> prog_ok (lang_of lib) is_number f ->
  exists a, f_areas f !! 0 = Some a /\ area_ok a /\ (forall o b, a_blocks a !! o = Some b -> typed (lang_of lib) b) /\
    (forall o o' b b', a_blocks a !! o = Some b -> a_blocks a !! o' = Some b' -> b_id b = b_id b' -> o = o').
Proof.
  intros Hlib Hed Hp. destruct (edited_typed _ _ (lang_wf _ Hlib) Hed) as [Hfun Hty]. cbn [fst] in Hfun, Hty.
  destruct (po_out _ _ _ Hp) as (o & r & (b & n & Hb & _) & _). unfold bf_block_at in Hb. destruct (f_areas f !! 0) as [a|] eqn:Ha; [|done].
  exists a. split; [done|]. destruct (fun_ok_spec _ Hfun) as (_ & _ & Hu). destruct Hfun as (Hok & _). split; [by eapply Hok|]. split; [intros p c; by eapply Hty|].
  intros p p' c c' Hc Hc' Hid. destruct (Hu 0 0 p p' c c') as [_ H]; [unfold bf_block_at; by rewrite Ha..|done|done].
Qed.

Theorem C36_dataflow (lib : list libnode) (is_number : string -> bool) (f : bfun) (sn : list bsnap) :
  lib_ok lib -> edited (lang_of lib) (thin_filler (lang_of lib)) (f, sn) -> prog_ok (lang_of lib) is_number f ->
  exists code n, (forall fuel, n <= fuel -> compile (lang_of lib) is_number fuel f = Some (inr code)) /\
    forall (V : Type) (zero : V) num bin node ext val,
      node_ok (lang_of lib) node -> denotes zero num bin node ext (lang_of lib) f val ->
      exists v s, xrun zero num bin node ext code (XState ∅ []) = Some (v, s) /\ good_run zero (lang_of lib) f val v s.
Proof.
  intros Hlib Hed Hp. destruct (edited_ready _ _ _ _ Hlib Hed Hp) as (a & Ha & Hok & Hty & Hids).
  apply (compile_ok (lang_of lib) is_number f a Ha Hok Hty (lang_shape _ Hlib) Hids Hp).
  rewrite (lang_special _ _ Hlib) by (by left). by eexists.
Qed.
Print Assumptions C36_dataflow.

Theorem C36_one_meaning (lib : list libnode) (is_number : string -> bool) (f : bfun) (sn : list bsnap)
  (V : Type) (zero : V) num bin (node : string -> nat -> list V -> list V) ext :
  lib_ok lib -> edited (lang_of lib) (thin_filler (lang_of lib)) (f, sn) -> prog_ok (lang_of lib) is_number f -> node_ok (lang_of lib) node ->
  exists val, denotes zero num bin node ext (lang_of lib) f val /\
    forall val', denotes zero num bin node ext (lang_of lib) f val' -> forall o r, out_port f o r -> val o r = val' o r.
Proof.
  intros Hlib Hed Hp Hn. destruct (edited_ready _ _ _ _ Hlib Hed Hp) as (a & Ha & Hok & Hty & Hids).
  destruct (values_exist (lang_of lib) is_number f a Ha Hok Hty (lang_shape _ Hlib) Hp zero num bin node ext Hn) as [val Hval]. exists val. split; [done|].
  intros val' Hval'. by apply (values_unique (lang_of lib) is_number f a Ha Hok Hty (lang_shape _ Hlib) Hp zero num bin node ext).
Qed.
Print Assumptions C36_one_meaning.

(** *** Cases *)
Fixpoint cx_run (types : string -> option btype) (st : bfun * list bsnap) (ops : list bop) : option (bfun * list bsnap) :=
  match ops with
  | [] => Some st
  | o :: ops => let* (st, e) := bf_step types 100 st o in cx_run types st ops
  end.
Lemma cx_edited types ok ops : forall st st', edited types ok st -> (forall f o, o ∈ ops -> ok f o) -> cx_run types st ops = Some st' -> edited types ok st'.
Proof.
  induction ops as [|o ops IH]; intros st st' Hed Hok H; cbn [cx_run] in H; [by injection H as <-|].
  apply bind_Some in H as ([st1 e] & E & H). eapply IH; [| |exact H].
  - eapply edited_step; [done| |done]. apply Hok. left.
  - intros f o' Ho. apply Hok. by right.
Qed.
Definition not_split (o : bop) : Prop := match o with BSplit _ _ _ _ => False | _ => True end.
Definition cx_prog (types : string -> option btype) (ops : list bop) : bfun := match cx_run types (bfun_new, []) ops with Some st => st.1 | None => bfun_new end.
Lemma cx_prog_edited types ops : Forall not_split ops -> match cx_run types (bfun_new, []) ops with Some _ => true | None => false end = true ->
  exists sn, edited types (thin_filler types) (cx_prog types ops, sn).
Proof.
  intros Hops H. unfold cx_prog. destruct (cx_run _ _ _) as [[f sn]|] eqn:E; [|done]. exists sn. eapply cx_edited; [apply edited_new| |exact E].
  intros g o Ho. rewrite Forall_forall in Hops. specialize (Hops _ Ho). by destruct o.
Qed.
(** all blocks of the main area *)
Definition cx_blocks (f : bfun) : list (Z * Z * block) := match f_areas f !! 0 with Some a => map_to_list (a_blocks a) | None => [] end.
Lemma cx_all f (P : Z * Z -> block -> Prop) : Forall (fun p => P p.1 p.2) (cx_blocks f) -> forall o b, bf_block_at f 0 o = Some b -> P o b.
Proof.
  unfold cx_blocks, bf_block_at. destruct (f_areas f !! 0) as [a|]; [|done]. cbn [mbind option_bind]. intros H o b Hb. rewrite Forall_forall in H.
  apply (H (o, b)). by apply elem_of_map_to_list.
Qed.

(** a node of the library with two outputs, a value that goes to both of its inputs, and a variable that is read and another that is written *)
Definition cx_lib : list libnode := [LibNode "rot" ["alpha"; "beta"] ["x"; "y"]].
Definition cx_ops : list bop :=
  [BInst 0 0 1 "value" (Some "0.5"); BInst 0 1 1 "->2" None; BInst 0 2 1 "rot" None; BInst 0 3 1 "-" None; BInst 0 0 4 "get" (Some "x"); BInst 0 1 4 "set" (Some "y")].
Definition cx : bfun := cx_prog (lang_of cx_lib) cx_ops.
Lemma cx_lib_ok : lib_ok cx_lib.
Proof.
  intros n Hn. apply elem_of_list_singleton in Hn as ->. cbn [ln_ins ln_outs ln_name]. split_and!; [cbn; lia| |left|left].
  - apply (bool_decide_unpack _). vm_compute. exact I.
  - split; apply (bool_decide_unpack _); vm_compute; exact I.
  - split; apply (bool_decide_unpack _); vm_compute; exact I.
Qed.
Ltac cx_cases := vm_compute; repeat (apply List.Forall_cons); [..|apply List.Forall_nil].
Lemma cx_ok : prog_ok (lang_of cx_lib) (fun s => String.eqb s "0.5") cx.
Proof.
  split.
  - apply cx_all. cx_cases; discriminate.
  - apply (cx_all cx (fun o b => b_typ b = "value" -> String.eqb (b_lbl b) "0.5" = true)). cx_cases; done.
  - apply (cx_all cx (fun o b => b_typ b = "set" \/ b_typ b = "get" -> reserved (b_lbl b) = false)). cx_cases; done.
  - intros o o' b b' Hb. revert o o' b Hb b'.
    assert (forall o b, bf_block_at cx 0 o = Some b -> b_typ b = "set" -> b_lbl b = "y") as H1 by (apply (cx_all cx (fun _ b => b_typ b = "set" -> b_lbl b = "y")); cx_cases; done).
    assert (forall o b, bf_block_at cx 0 o = Some b -> b_typ b = "get" -> b_lbl b = "x") as H2 by (apply (cx_all cx (fun _ b => b_typ b = "get" -> b_lbl b = "x")); cx_cases; done).
    intros o o' b Hb b' Hb' E E'. by rewrite (H1 _ _ Hb E), (H2 _ _ Hb' E').
  - exists (3, 1)%Z, 0. split.
    + eexists _, _. split_and!; [vm_compute; reflexivity|vm_compute; lia|vm_compute; reflexivity].
    + intros o' r' (b & n & Hb & _ & Hn) [H1 _]. cbn [fst] in H1.
      assert (o'.1 <> 4)%Z as Hne by (revert o' b Hb Hn H1; intros o' b Hb _ _; revert o' b Hb; apply (cx_all cx (fun o _ => o.1 <> 4%Z)); cx_cases; discriminate). lia.
  - intros o b Hb. left. revert o b Hb.
    assert (forall o b, bf_block_at cx 0 o = Some b -> omap id (b_inputs b) = match lang_of cx_lib (b_typ b) with Some ty => omap id (t_inputs ty) | None => [] end) as H
      by (apply (cx_all cx (fun _ b => omap id (b_inputs b) = match lang_of cx_lib (b_typ b) with Some ty => omap id (t_inputs ty) | None => [] end)); cx_cases; reflexivity).
    intros o b Hb ty E. by rewrite (H _ _ Hb), E.
Qed.
Example C36_case : lib_ok cx_lib /\ (exists sn, edited (lang_of cx_lib) (thin_filler (lang_of cx_lib)) (cx, sn)) /\
  prog_ok (lang_of cx_lib) (fun s => String.eqb s "0.5") cx /\
  compile (lang_of cx_lib) (fun s => String.eqb s "0.5") 100 cx = Some (inr (XStmts [
    XStmts [
      XAssign "_res_" (XBin "-"
        (XStmts [
          XAssign "_tmp2_x_" (XCall "rot" 3 [XStmts [XAssign "_tmp1__" (XLit "0.5"); XVar "_tmp1__"]; XVar "_tmp1__"]);
          XAssign "_tmp3_y_" (XVar "%1"); XVar "_tmp2_x_"])
        (XVar "_tmp3_y_"));
      XAssign "y" (XVar "x")];
    XVar "_res_"])).
Proof.
  split; [exact cx_lib_ok|]. split; [|split; [exact cx_ok|vm_compute; reflexivity]].
  apply cx_prog_edited; [|vm_compute; reflexivity]. repeat (apply List.Forall_cons; [exact I|]). apply List.Forall_nil.
Qed.

(** *** Without the conditions it is false *)

(** The inputs of a "-" are swapped, and both come from a "->2": the code reads the temporary variable before it is assigned. *)
Definition swapped : bfun :=
  cx_prog (lang_of []) [BInst 0 0 1 "value" (Some "0.5"); BInst 0 1 1 "->2" None; BInst 0 2 1 "-" None; BShift 0 2 1 0 false].
Theorem C36_swapped_inputs_refuted : (exists sn, edited (lang_of []) (thin_filler (lang_of [])) (swapped, sn)) /\
  exists code, compile (lang_of []) (fun _ => true) 100 swapped = Some (inr code) /\
    forall (V : Type) (zero : V) num bin node ext, xrun zero num bin node ext code (XState ∅ []) = None.
Proof.
  split.
  { apply cx_prog_edited; [|vm_compute; reflexivity]. repeat (apply List.Forall_cons; [exact I|]). apply List.Forall_nil. }
  eexists. split; [vm_compute; reflexivity|]. intros V zero num bin node ext. reflexivity.
Qed.
Print Assumptions C36_swapped_inputs_refuted.

(** Without an open output the code ends with a read of the result, which was not assigned. *)
Definition no_output : bfun := cx_prog (lang_of []) [BInst 0 0 1 "value" (Some "0.5"); BInst 0 1 1 "set" (Some "x")].
Theorem C36_no_output_refuted : (exists sn, edited (lang_of []) (thin_filler (lang_of [])) (no_output, sn)) /\
  exists code, compile (lang_of []) (fun _ => true) 100 no_output = Some (inr code) /\
    forall (V : Type) (zero : V) num bin node ext, xrun zero num bin node ext code (XState ∅ []) = None.
Proof.
  split.
  { apply cx_prog_edited; [|vm_compute; reflexivity]. repeat (apply List.Forall_cons; [exact I|]). apply List.Forall_nil. }
  eexists. split; [vm_compute; reflexivity|]. intros V zero num bin node ext. reflexivity.
Qed.
Print Assumptions C36_no_output_refuted.

(** A node of the library with the inputs "in1" and "in2": both become "in", and the second argument is the first input. *)
Definition mix_lib : list libnode := [LibNode "mix" ["in1"; "in2"] ["sig"]].
Definition two_ins : bfun := cx_prog (lang_of mix_lib) [BInst 0 0 1 "value" (Some "0.5"); BInst 0 0 2 "value" (Some "0.7"); BInst 0 1 1 "mix" None].
Theorem C36_same_names_refuted : (exists sn, edited (lang_of mix_lib) (thin_filler (lang_of mix_lib)) (two_ins, sn)) /\
  (b_lbl <$> bf_block_at two_ins 0 (0, 1)%Z) = Some "0.5" /\ (b_lbl <$> bf_block_at two_ins 0 (0, 2)%Z) = Some "0.7" /\
  (b_typ <$> bf_block_at two_ins 0 (1, 1)%Z) = Some "mix" /\
  exists id, compile (lang_of mix_lib) (fun _ => true) 100 two_ins =
    Some (inr (XStmts [XStmts [XAssign "_res_" (XCall "mix" id [XLit "0.5"; XLit "0.5"])]; XVar "_res_"])).
Proof.
  split.
  { apply cx_prog_edited; [|vm_compute; reflexivity]. repeat (apply List.Forall_cons; [exact I|]). apply List.Forall_nil. }
  split; [vm_compute; reflexivity|]. split; [vm_compute; reflexivity|]. split; [vm_compute; reflexivity|]. exists 3. vm_compute. reflexivity.
Qed.
Print Assumptions C36_same_names_refuted.

(** A program with an "if" does not compile. *)
Definition with_if : bfun := cx_prog (lang_of []) [BInst 0 0 1 "value" (Some "0.5"); BInst 0 1 1 "if" None; BInst 1 0 0 "zero" None; BInst 2 0 0 "zero" None].
Theorem C36_if_refuted : (exists sn, edited (lang_of []) (thin_filler (lang_of [])) (with_if, sn)) /\
  forall fuel, 100 <= fuel -> compile (lang_of []) (fun _ => true) fuel with_if = Some (inl UnknownError).
Proof.
  split.
  { apply cx_prog_edited; [|vm_compute; reflexivity]. repeat (apply List.Forall_cons; [exact I|]). apply List.Forall_nil. }
  intros fuel Hf. eapply compile_more; [|exact Hf]. vm_compute. reflexivity.
Qed.
Print Assumptions C36_if_refuted.
