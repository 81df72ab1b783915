(** C32, C33, C34, C37: block programs. *)
From stdpp Require Import strings.
From Verif Require Import Base M_Block S_Block L_Block L_Block2 L_Block3 L_Block4.
Open Scope string_scope.
Open Scope list_scope.
Open Scope nat_scope.

(** ** C32: after every history of calls, successful or not, blocks do not overlap, each covered cell resolves to its block, and ids are
    unique. *)
Lemma fun_ok_spec f : fun_ok f -> no_overlaps f /\ cells_resolve f /\ unique_ids f.
Proof.
  intros (Ha & H1 & H0). split_and!.
  - intros id o1 o2 b1 b2 c E1 E2. unfold bf_block_at in *. destruct (f_areas f !! id) as [a|] eqn:Hi; [|done]. cbn [mbind option_bind] in *.
    destruct (Ha _ _ Hi) as (Hap & _). by eapply Hap.
  - intros id c o. unfold bf_origin_at, bf_block_at. destruct (f_areas f !! id) as [a|] eqn:Hi; cbn [mbind option_bind].
    + destruct (Ha _ _ Hi) as (Hap & _ & ->). by apply origin_map_lookup.
    + split; [done|]. by intros (b & ? & _).
  - intros i1 i2 o1 o2 b1 b2 E1 E2 Hid. unfold bf_block_at in *.
    destruct (f_areas f !! i1) as [a1|] eqn:Hi1; [|done]. destruct (f_areas f !! i2) as [a2|] eqn:Hi2; [|done]. cbn [mbind option_bind] in *.
    specialize (H1 (b_id b1)). destruct (decide (i1 = i2)) as [->|Hne].
    + rewrite Hi1 in Hi2. injection Hi2 as <-. split; [done|]. destruct (decide (o1 = o2)) as [|Hno]; [done|]. exfalso.
      pose proof (bcnt_two _ _ _ _ _ E1 E2 Hid Hno). pose proof (fcnt_ge _ _ _ (b_id b1) Hi1). lia.
    + exfalso. pose proof (fcnt_two _ _ _ _ _ (b_id b1) Hi1 Hi2 Hne). pose proof (bcnt_pos _ _ _ E1). pose proof (bcnt_pos _ _ _ E2).
      rewrite <- Hid in *. lia.
Qed.
Theorem C32_wellformed (types : string -> option btype) (st : bfun * list bsnap) :
  types_ok types -> edited types (thin_filler types) st -> no_overlaps st.1 /\ cells_resolve st.1 /\ unique_ids st.1.
Proof. intros Hty Hed. apply fun_ok_spec. by destruct (edited_fun_ok _ _ Hty Hed). Qed.
Print Assumptions C32_wellformed.

(** No call panics or goes on forever. *)
Theorem C32_total (types : string -> option btype) (st : bfun * list bsnap) (o : bop) :
  types_ok types -> edited types (plain types) st -> shift_in_range st.1 o ->
  exists n, forall fuel, n <= fuel -> exists st' e, bf_step types fuel st o = Some (st', e).
Proof.
  intros Hty Hed Hsh. destruct (edited_inv _ _ Hty Hed) as [Hi Hs]. destruct (step_total types st o Hi Hs Hsh) as [n Hn].
  exists n. intros fuel Hf. destruct (Hn fuel Hf) as [[st' e] H]. eauto.
Qed.
Print Assumptions C32_total.

(** *** Cases *)
Definition ex_types (t : string) : option btype :=
  match t with
  | "two" => Some (BType "two" 2 [] [Some "a"; Some "b"] 0 0)
  | "three" => Some (BType "three" 3 [] [Some "a"; Some "b"; Some "c"] 0 0)
  | "sum" => Some (BType "sum" 2 [Some "x"; Some "y"] [Some "s"] 0 0)
  | "sum3" => Some (BType "sum3" 3 [Some "x"; Some "y"; Some "z"] [Some "s"] 0 0)
  | "->" => Some (BType "->" 1 [Some ""] [Some ""] 0 0)
  | "->2" => Some (BType "->2" 2 [Some ""] [Some ""; Some ""] 0 0)
  | "if" => Some (BType "if" 1 [Some ""] [Some ""] 2 0)
  | _ => None
  end.
Ltac crack H :=
  match type of H with
  | context [match ?x with _ => _ end] => is_var x; destruct x; try discriminate H
  end.
Lemma ex_types_ok : types_ok ex_types.
Proof. intros t ty H. unfold ex_types in H. repeat crack H; injection H as <-; cbn; lia. Qed.

Fixpoint ex_run (st : bfun * list bsnap) (ops : list bop) : option (bfun * list bsnap * list (option berr)) :=
  match ops with
  | [] => Some (st, [])
  | o :: ops => let* (st, e) := bf_step ex_types 100 st o in let* (st, es) := ex_run st ops in Some (st, e :: es)
  end.
Lemma ex_run_edited ok ops : forall st st' es, edited ex_types ok st -> (forall f o, o ∈ ops -> ok f o) ->
  ex_run st ops = Some (st', es) -> edited ex_types ok st'.
Proof.
  induction ops as [|o ops IH]; intros st st' es Hed Hok H; cbn [ex_run] in H; [by injection H as <- <-|].
  apply bind_Some in H as ([st1 e] & E & H). apply bind_Some in H as ([st2 es2] & E2 & [= <- <-]).
  eapply IH; [| |exact E2].
  - eapply edited_step; [done| |done]. apply Hok. left.
  - intros f o' Ho. apply Hok. by right.
Qed.

Ltac ops_ok := intros ?f; apply Forall_forall; repeat (apply Forall_cons; split);
  [try exact I; intros ty Hty; vm_compute in Hty; injection Hty as <-; try split; reflexivity..|apply Forall_nil; exact I].

(** a program with an "if" whose areas hold blocks, after a failing and a succeeding split and moves *)
Definition ex_ops : list bop :=
  [BInst 0 0 0 "two" None; BInst 0 1 0 "sum" None; BInst 0 1 1 "->" None; BInst 0 5 5 "if" None; BInst 1 0 0 "->" None;
   BSave; BSplit 0 0 0 (Some "->"); BMove 0 5 5 1 0 1; BMove 0 5 5 0 3 3; BMoveChain 0 0 0 2 0 0; BShift 2 1 1 0 true; BRecalc].
Lemma ex_run_witness (ops : list bop) (P : bfun * list bsnap -> list (option berr) -> Prop) :
  match ex_run (bfun_new, []) ops with Some (st, es) => P st es | None => False end ->
  exists st es, ex_run (bfun_new, []) ops = Some (st, es) /\ P st es.
Proof. destruct (ex_run _ _) as [[st es]|]; [eauto|done]. Qed.
Example C32_case : exists st es, ex_run (bfun_new, []) ex_ops = Some (st, es) /\
  (es = [None; None; Some (NoSpaceAvailable 0 1 1 1); None; None; None; None; Some (CircularAction 0 1); None; None; None; None] /\
   (b_typ <$> bf_block_at st.1 2 (1, 1)%Z) = Some "->" /\ (b_typ <$> bf_block_at st.1 2 (2, 0)%Z) = Some "sum").
Proof. apply ex_run_witness. vm_compute. done. Qed.
Example C32_case_edited st es : ex_run (bfun_new, []) ex_ops = Some (st, es) ->
  edited ex_types (thin_filler ex_types) st /\ edited ex_types (plain ex_types) st.
Proof.
  intros E. split.
  - eapply ex_run_edited; [constructor| |exact E]. ops_ok.
  - eapply ex_run_edited; [constructor| |exact E]. ops_ok.
Qed.

(** Without the condition on the rows of fillers it is false: "->2" fills two adjacent rows. *)
Theorem C32_wide_filler_refuted : exists types st, types_ok types /\ edited types (fun _ _ => True) st /\ ~ no_overlaps st.1.
Proof.
  exists ex_types.
  destruct (ex_run_witness [BInst 0 0 0 "three" None; BInst 0 1 0 "sum3" None; BSplit 0 0 0 (Some "->2")] (fun st es =>
    (fun b => b_rows b) <$> bf_block_at st.1 0 (1, 1)%Z = Some 2 /\ (fun b => b_rows b) <$> bf_block_at st.1 0 (1, 2)%Z = Some 2))
    as (st & es & E & H1 & H2).
  { vm_compute. done. }
  exists st. split; [exact ex_types_ok|]. split.
  - eapply ex_run_edited; [constructor| |exact E]. done.
  - intros H. destruct (bf_block_at st.1 0 (1, 1)%Z) as [b1|] eqn:E1; [|done]. destruct (bf_block_at st.1 0 (1, 2)%Z) as [b2|] eqn:E2; [|done].
    injection H1 as H1. injection H2 as H2.
    pose proof (H 0 (1, 1)%Z (1, 2)%Z b1 b2 (1, 2)%Z E1 E2) as Hx. unfold covers in Hx. rewrite H1, H2 in Hx. cbn in Hx.
    specialize (Hx ltac:(lia) ltac:(lia)). done.
Qed.
Print Assumptions C32_wide_filler_refuted.

(** With a filler that has areas of its own, recalculating the sizes does not end: an "if" put into area 1 by a split holds area 1. *)
Lemma loop_down fs a s : fs !! 1 = Some a -> sub_areas a = 1 :: s -> forallb (fun s => s <? length fs) (1 :: s) = true ->
  forall fuel work ps ss ls, 1 ∈ work -> recalc_down fuel fs work ps ss ls = None.
Proof.
  intros Ha Hs Hl fuel. induction fuel as [|fuel IH]; intros work ps ss ls Hin; [done|]. cbn [recalc_down].
  destruct work as [|i work]; [by apply elem_of_nil in Hin|].
  destruct (fs !! i) as [a'|] eqn:Hi; [|done]. cbn [mbind option_bind].
  destruct (decide (i = 1)) as [->|Hne].
  - rewrite Ha in Hi. injection Hi as <-. rewrite Hs, Hl. apply IH. apply elem_of_app. left. apply elem_of_list_In, in_rev. rewrite rev_involutive. by left.
  - apply elem_of_cons in Hin as [<-|Hin]; [done|]. destruct (sub_areas a') as [|s0 l0]; [by apply IH|].
    destruct (forallb _ (s0 :: l0)); [|done]. apply IH. apply elem_of_app. by right.
Qed.
Theorem C32_filler_areas_refuted : exists types st, types_ok types /\ edited types (thin_filler types) st /\
  forall fuel, bf_step types fuel st BRecalc = None.
Proof.
  exists ex_types.
  destruct (ex_run_witness [BInst 0 0 0 "if" None; BInst 1 0 0 "two" None; BInst 1 1 0 "sum" None; BSplit 1 0 0 (Some "if")] (fun st es =>
    es = [None; None; None; None] /\ (sub_areas <$> f_areas st.1 !! 1) = Some [1; 1] /\ (sub_areas <$> f_areas st.1 !! 0) = Some [1; 2] /\
    length (f_areas st.1) = 3)) as (st & es & E & _ & H1 & H0 & Hl).
  { vm_compute. done. }
  exists st. split; [exact ex_types_ok|]. split.
  - eapply ex_run_edited; [constructor| |exact E]. ops_ok.
  - intros fuel. destruct st as [f sn]. cbn [bf_step fst] in *. unfold recalculate.
    destruct (f_areas f !! 1) as [a1|] eqn:E1; [|done]. injection H1 as H1. destruct (f_areas f !! 0) as [a0|] eqn:E0; [|done]. injection H0 as H0.
    assert (recalc_down fuel (f_areas f) [0] (replicate (length (f_areas f)) 0) (replicate (length (f_areas f)) (0, 0)) [] = None) as ->; [|done].
    destruct fuel as [|fuel]; [done|]. cbn [recalc_down]. rewrite E0. cbn [mbind option_bind]. rewrite H0.
    destruct (forallb _ _); [|done]. eapply loop_down; [exact E1|exact H1|by rewrite Hl|].
    cbn. rewrite !elem_of_cons. auto.
Qed.
Print Assumptions C32_filler_areas_refuted.

(** Cloning an "if" into the area that is created for its clone makes it its own sub area: looking for the sub areas does not end. *)
Lemma loop_subs fs i a s : fs !! i = Some a -> i ∈ s -> sub_areas a = s -> forall fuel dq, i ∈ dq -> all_subs fuel fs dq = None.
Proof.
  intros Ha Hs E fuel. induction fuel as [|fuel IH]; intros dq Hin; [done|]. cbn [all_subs].
  destruct dq as [|j dq]; [by apply elem_of_nil in Hin|]. destruct (fs !! j) as [a'|] eqn:Hj; [|done]. cbn [mbind option_bind].
  rewrite IH; [done|]. apply elem_of_app. apply elem_of_cons in Hin as [<-|Hin]; [|by left]. right. rewrite Ha in Hj. injection Hj as <-. by rewrite E.
Qed.
Theorem C32_clone_into_itself_refuted : exists types st o, types_ok types /\ edited types (thin_filler types) st /\ shift_in_range st.1 o /\
  forall fuel, bf_step types fuel st o = None.
Proof.
  exists ex_types.
  destruct (ex_run_witness [BInst 0 0 0 "if" None; BClone 0 0 0 3 0 0] (fun st es =>
    es = [None; None] /\ (sub_areas <$> f_areas st.1 !! 3) = Some [3; 4] /\
    ((let* a := f_areas st.1 !! 3 in (fun r : block * (Z * Z) => block_subs r.1) <$> ref_at a 0 0) = Some [3; 4]))) as (st & es & E & _ & H1 & H2).
  { vm_compute. done. }
  exists st, (BMove 3 0 0 0 5 5). split; [exact ex_types_ok|]. split.
  - eapply ex_run_edited; [constructor| |exact E]. ops_ok.
  - split; [done|]. intros fuel. destruct st as [f sn]. cbn [bf_step fst] in *. unfold bf_move.
    destruct (f_areas f !! 3) as [a|] eqn:E1; [|done]. injection H1 as H1. cbn [mbind option_bind] in *.
    destruct (ref_at a 0 0) as [[b o]|] eqn:Er; [|done]. injection H2 as H2. unfold all_sub_areas_of. cbn [fst] in H2. rewrite H2.
    rewrite (loop_subs _ 3 a [3; 4]); [done|done|left|done|left].
Qed.
Print Assumptions C32_clone_into_itself_refuted.

(** ** C33: a call that reports an error leaves all areas as they are, but for empty areas that a failing clone leaves behind. *)
Theorem C33_unchanged (types : string -> option btype) (st : bfun * list bsnap) (o : bop) (fuel : nat) (st' : bfun * list bsnap) (e : berr) :
  types_ok types -> edited types (thin_filler types) st -> thin_filler types st.1 o -> existing_target st.1 o ->
  bf_step types fuel st o = Some (st', Some e) ->
  st'.2 = st.2 /\ exists k, f_areas st'.1 = f_areas st.1 ++ replicate k shrink_area /\ (is_clone o = false -> k = 0).
Proof.
  intros Hty Hed Hth Hex H. destruct (edited_fun_ok _ _ Hty Hed) as [Hf _]. destruct st as [f sn], st' as [f' sn']. cbn [fst snd] in *.
  assert (forall g : bfun, f_areas g = f_areas f -> exists k, f_areas g = f_areas f ++ replicate k shrink_area /\ (is_clone o = false -> k = 0)) as Hsame.
  { intros g Hg. exists 0. cbn. by rewrite app_nil_r. }
  destruct o as [id x y t i|id x y|id x y id2 x2 y2|id x y id2 x2 y2|id x y r out|id x y rm|id x y fl|id x y id2 x2 y2| | |k]; cbn [bf_step] in H.
  - destruct (bf_instanciate types f id x y t i) as [g e'] eqn:E. injection H as <- <- ->. split; [done|]. apply Hsame.
    unfold bf_instanciate in E. destruct (f_areas f !! id) as [a|]; [|by injection E as <- _]. destruct (types t) as [ty|]; [|by injection E as <- _].
    destruct (negb _); [by injection E as <- _|]. destruct (create_areas _ _) as [g' b']. destruct (f_areas (f_bump g') !! id); discriminate.
  - destruct (bf_remove f id x y) as [g e'] eqn:E. injection H as <- <- ->. split; [done|]. apply Hsame.
    unfold bf_remove in E. destruct (f_areas f !! id) as [a|]; [|by injection E as <- _]. destruct (area_remove_at a x y) as [[a' q]|]; [discriminate|by injection E as <- _].
  - apply bind_Some in H as ([g e'] & E & [= <- <- ->]). split; [done|]. apply Hsame.
    apply move_cases in E as [(_ & E & _)|(a & o & b & D & _ & _ & _ & _ & _ & [(_ & E & _)|(a2 & y' & E & _)])]; [done| |done|done].
    cbn in Hex. apply lookup_ge_None in E. lia.
  - destruct (bf_clone types f id x y id2 x2 y2) as [g e'] eqn:E. injection H as <- <- ->. split; [done|].
    apply clone_cases in E as [[-> _]|[(k & _ & ->)|(a2 & k & b & y' & _ & _ & _ & _ & _ & E & _)]]; [by apply Hsame| |done|done].
    exists k. done.
  - apply bind_Some in H as (g & E & H). discriminate.
  - apply bind_Some in H as ([g l] & E & H). discriminate.
  - apply bind_Some in H as ([g e'] & E & [= <- <- ->]). split; [done|]. apply Hsame.
    apply split_cases in E as [(_ & E & _)|(a & a' & E & _)]; [done|done|done|].
    intros t ty -> Et. by apply Hth.
  - apply bind_Some in H as ([g e'] & E & [= <- <- ->]). split; [done|]. apply Hsame.
    by apply movechain_cases in E as (_ & [(_ & E)|[(E & _)|(E & _)]]).
  - apply bind_Some in H as (g & E & H). discriminate.
  - discriminate.
  - destruct (sn !! k); [apply bind_Some in H as (g & E & H)|]; discriminate.
Qed.
Print Assumptions C33_unchanged.
(** In particular every position reads as before. *)
Theorem C33_reads (types : string -> option btype) (st : bfun * list bsnap) (o : bop) (fuel : nat) (st' : bfun * list bsnap) (e : berr) :
  types_ok types -> edited types (thin_filler types) st -> thin_filler types st.1 o -> existing_target st.1 o ->
  bf_step types fuel st o = Some (st', Some e) ->
  forall id p, bf_block_at st'.1 id p = bf_block_at st.1 id p /\ bf_origin_at st'.1 id p = bf_origin_at st.1 id p.
Proof.
  intros Hty Hed Hth Hex H id p. destruct (C33_unchanged _ _ _ _ _ _ Hty Hed Hth Hex H) as (_ & k & E & _).
  unfold bf_block_at, bf_origin_at. rewrite E. destruct (f_areas st.1 !! id) as [a|] eqn:Ha.
  - by rewrite (lookup_app_l_Some _ _ _ _ Ha).
  - rewrite lookup_app_r by (by apply lookup_ge_None). destruct (replicate k shrink_area !! (id - length (f_areas st.1))) as [a|] eqn:Hr; [|done].
    apply lookup_replicate in Hr as [-> _]. done.
Qed.
Print Assumptions C33_reads.

Example C33_case : exists st es, ex_run (bfun_new, []) ex_ops = Some (st, es) /\
  (existing_target st.1 (BMove 0 3 3 0 (-1) 3) /\ thin_filler ex_types st.1 (BMove 0 3 3 0 (-1) 3) /\
   exists st', bf_step ex_types 100 st (BMove 0 3 3 2 0 0) = Some (st', Some (CircularAction 0 2))).
Proof.
  apply ex_run_witness. vm_compute. split; [lia|]. split; [done|]. eexists. done.
Qed.

(** Without the condition it is false: moving a block to an area that does not exist removes it. *)
Theorem C33_move_refuted : exists types st o fuel st' e id p, types_ok types /\ edited types (thin_filler types) st /\ thin_filler types st.1 o /\
  bf_step types fuel st o = Some (st', Some e) /\ is_Some (bf_block_at st.1 id p) /\ bf_block_at st'.1 id p = None.
Proof.
  exists ex_types.
  destruct (ex_run_witness [BInst 0 0 0 "two" None] (fun st es =>
    match bf_step ex_types 1 st (BMove 0 0 0 7 0 0) with
    | Some (st', Some e) => match bf_block_at st.1 0 (0, 0)%Z, bf_block_at st'.1 0 (0, 0)%Z with Some _, None => True | _, _ => False end
    | _ => False
    end)) as (st & es & E & H); [vm_compute; done|].
  destruct (bf_step ex_types 1 st (BMove 0 0 0 7 0 0)) as [[st' [e|]]|] eqn:Es; [|done|done].
  exists st, (BMove 0 0 0 7 0 0), 1, st', e, 0, (0, 0)%Z.
  split; [exact ex_types_ok|]. split.
  { eapply ex_run_edited; [constructor| |exact E]. ops_ok. }
  split; [done|]. split; [exact Es|]. destruct (bf_block_at st.1 0 (0, 0)%Z); [|done]. destruct (bf_block_at st'.1 0 (0, 0)%Z); [done|]. eauto.
Qed.
Print Assumptions C33_move_refuted.
(** A failing clone leaves empty areas behind. *)
Theorem C33_clone_areas_refuted : exists types st o fuel st' e, types_ok types /\ edited types (thin_filler types) st /\
  bf_step types fuel st o = Some (st', Some e) /\ length (f_areas st'.1) <> length (f_areas st.1).
Proof.
  exists ex_types.
  destruct (ex_run_witness [BInst 0 0 0 "if" None] (fun st es =>
    match bf_step ex_types 1 st (BClone 0 0 0 0 0 0) with
    | Some (st', Some e) => (length (f_areas st.1), length (f_areas st'.1)) = (3, 5)
    | _ => False
    end)) as (st & es & E & H); [vm_compute; done|].
  destruct (bf_step ex_types 1 st (BClone 0 0 0 0 0 0)) as [[st' [e|]]|] eqn:Es; [|done|done].
  exists st, (BClone 0 0 0 0 0 0), 1, st', e. split; [exact ex_types_ok|]. split.
  { eapply ex_run_edited; [constructor| |exact E]. ops_ok. }
  split; [exact Es|]. injection H as -> ->. lia.
Qed.
Print Assumptions C33_clone_areas_refuted.

(** ** C34: a retrieved chain is the set of blocks connected to the block at the given cell, by any number of steps. *)
Lemma connected_in f id a : f_areas f !! id = Some a -> forall o1 o2, connected f id o1 o2 <-> conn_in (a_blocks a) o1 o2.
Proof. intros Ha o1 o2. unfold connected, conn_in, feeds, feeds_in, bf_block_at. rewrite Ha. done. Qed.
Lemma connected_rtc f id a : f_areas f !! id = Some a -> forall o1 o2, rtc (connected f id) o1 o2 <-> rtc (conn_in (a_blocks a)) o1 o2.
Proof. intros Ha o1 o2. split; apply rtc_subrel; intros ? ?; by apply (connected_in f id a Ha). Qed.
Lemma rtc_conn_dom bs o p : rtc (conn_in bs) o p -> is_Some (bs !! o) -> is_Some (bs !! p).
Proof. induction 1 as [|o q p H _ IH]; [done|]. intros _. apply IH. by apply conn_dom in H as [H _]. Qed.

Definition cl_step (a : area) (st : nat * list (block * (Z * Z))) (p : Z * Z) : nat * list (block * (Z * Z)) :=
  match ref_at a p.1 p.2 with Some (b, o) => (S st.1, st.2 ++ [(b_with_id b (S st.1), o)]) | None => st end.
Lemma cl_fold a : area_ok a -> forall ps next l n l', (forall p, p ∈ ps -> is_Some (a_blocks a !! p)) ->
  foldl (cl_step a) (next, l) ps = (n, l') ->
  next <= n /\ exists k, l' = l ++ k /\ k.*2 = ps /\ (b_id ∘ fst <$> k) = seq (S next) (n - next) /\
    (forall b p, (b, p) ∈ k -> exists b0, a_blocks a !! p = Some b0 /\ b = b_with_id b0 (b_id b)).
Proof.
  intros Hok ps. induction ps as [|p ps IH]; intros next l n l' Hin H; cbn [foldl] in H.
  - injection H as <- <-. split; [done|]. exists []. rewrite app_nil_r, Nat.sub_diag. split_and!; try done. intros b p Hb. by apply elem_of_nil in Hb.
  - destruct (Hin p ltac:(left)) as [b Hb]. unfold cl_step in H at 2. rewrite (ref_at_origin a p b Hok Hb) in H. cbn [fst snd] in H.
    apply IH in H as (Hn & k & -> & Hk2 & Hki & Hkb); [|intros q Hq; apply Hin; by right].
    split; [lia|]. exists ((b_with_id b (S next), p) :: k). split_and!.
    + by rewrite <- app_assoc.
    + cbn. by rewrite Hk2.
    + cbn [fmap list_fmap]. rewrite Hki. replace (n - next) with (S (n - S next)) by lia. done.
    + intros b' q Hb'. apply elem_of_cons in Hb' as [[= -> ->]|Hb']; [|by apply Hkb]. exists b. done.
Qed.
Lemma clone_load_ok a s next n l : area_ok a -> (forall p, p ∈ s -> is_Some (a_blocks a !! p)) -> clone_load a s next = (n, l) ->
  next <= n /\ NoDup l.*2 /\ (forall p, p ∈ l.*2 <-> p ∈ s) /\ (b_id ∘ fst <$> l) ≡ₚ seq (S next) (n - next) /\
  (forall b p, (b, p) ∈ l -> exists b0, a_blocks a !! p = Some b0 /\ b = b_with_id b0 (b_id b)).
Proof.
  intros Hok Hin H. unfold clone_load in H. fold (cl_step a) in H.
  destruct (foldl (cl_step a) (next, []) (elements s)) as [n' l'] eqn:E. injection H as <- <-.
  apply cl_fold in E as (Hn & k & -> & Hk2 & Hki & Hkb); [|done|intros p Hp; apply Hin; by apply elem_of_elements].
  cbn [app]. pose proof (load_sort_perm k) as Hp. split_and!; [done| | | |].
  - rewrite Hp. rewrite Hk2. apply NoDup_elements.
  - intros p. rewrite Hp. rewrite Hk2. apply elem_of_elements.
  - rewrite Hp. by rewrite Hki.
  - intros b p. rewrite load_sort_elem. apply Hkb.
Qed.

Theorem C34_chain (types : string -> option btype) (st : bfun * list bsnap) (id : nat) (x y : Z) (remove : bool) :
  types_ok types -> edited types (thin_filler types) st ->
  exists f' r, bf_retrieve st.1 id x y remove = Some (f', r) /\
    match r with
    | None => f' = st.1 /\ bf_origin_at st.1 id (x, y) = None
    | Some l => exists o, bf_origin_at st.1 id (x, y) = Some o /\
        NoDup l.*2 /\ (forall p, p ∈ l.*2 <-> rtc (connected st.1 id) o p) /\
        if remove
        then (forall b p, (b, p) ∈ l -> bf_block_at st.1 id p = Some b) /\
             (forall id' p, bf_block_at f' id' p = if decide (id' = id /\ p ∈ l.*2) then None else bf_block_at st.1 id' p)
        else (forall b p, (b, p) ∈ l -> exists b0, bf_block_at st.1 id p = Some b0 /\ b = b_with_id b0 (b_id b)) /\
             f_areas f' = f_areas st.1 /\ NoDup (b_id ∘ fst <$> l) /\
             (forall b p id' p' b', (b, p) ∈ l -> bf_block_at st.1 id' p' = Some b' -> b_id b <> b_id b')
    end.
Proof.
  intros Hty Hed. destruct (edited_fun_ok _ _ Hty Hed) as [Hf _]. destruct st as [f sn]. cbn [fst] in *.
  assert (forall id p, bf_origin_at f id p = None <-> forall o b, bf_block_at f id o = Some b -> ~ covers o b p) as Hnone.
  { intros id' p. destruct (fun_ok_spec f Hf) as (_ & Hres & _). split.
    - intros Hn o b Hb Hc. assert (bf_origin_at f id' p = Some o) by (apply Hres; eauto). congruence.
    - intros Hn. destruct (bf_origin_at f id' p) as [o|] eqn:E; [|done]. apply Hres in E as (b & Hb & Hc). by eapply Hn in Hc. }
  unfold bf_retrieve. destruct (f_areas f !! id) as [a|] eqn:Ha.
  2:{ eexists _, None. split; [done|]. split; [done|]. unfold bf_origin_at. by rewrite Ha. }
  assert (area_ok a) as Hok by (destruct Hf as (H & _); by eapply H).
  assert (forall p, bf_block_at f id p = a_blocks a !! p) as Hat by (intros p; unfold bf_block_at; by rewrite Ha).
  destruct (chain_at_ok a x y Hok) as (r & Er & Hr). rewrite Er. cbn [mbind option_bind]. destruct r as [s|].
  2:{ eexists _, None. split; [done|]. split; [done|]. apply Hnone. intros o b Hb. rewrite Hat in Hb. by eapply Hr. }
  destruct Hr as (o & b & Hb & Hc & Hs).
  assert (bf_origin_at f id (x, y) = Some o) as Ho.
  { destruct (fun_ok_spec f Hf) as (_ & Hres & _). apply Hres. exists b. by rewrite Hat. }
  destruct remove.
  - destruct (remove_load_ok a s Hok) as (a' & l & E & Hok' & _ & _ & _ & Hbl & Hlok & Hl & _); [by eapply chain_dom|].
    rewrite E. eexists _, (Some l). split; [done|]. exists o. split; [done|].
    assert (forall p, p ∈ l.*2 <-> p ∈ s) as Hdom.
    { intros p. rewrite elem_of_list_fmap. split.
      - intros ([b' p'] & -> & Hb'). cbn. by apply Hl in Hb' as [? _].
      - intros Hp. destruct (chain_dom a x y s Hok Er p Hp) as [b' Hb']. exists (b', p). split; [done|]. by apply Hl. }
    split; [by destruct Hlok|]. split; [intros p; by rewrite Hdom, Hs, (connected_rtc f id a Ha)|]. split.
    + intros b' p Hb'. rewrite Hat. by apply Hl in Hb' as [_ ?].
    + intros id' p. unfold bf_block_at at 1. cbn [f_with_area f_areas]. destruct (decide (id' = id)) as [->|Hne].
      * rewrite list_lookup_insert by (by eapply lookup_lt_Some). cbn [mbind option_bind]. rewrite Hat.
        destruct (decide (id = id /\ p ∈ l.*2)) as [[_ Hp]|Hp].
        -- destruct (a_blocks a' !! p) as [b'|] eqn:E'; [|done]. apply Hbl in E' as [E' _]. by apply Hdom in Hp.
        -- apply option_eq. intros b'. rewrite Hbl. split; [by intros [_ ?]|]. intros Hb'. split; [|done]. intros Hps. apply Hp. split; [done|]. by apply Hdom.
      * rewrite list_lookup_insert_ne by done. destruct (decide (id' = id /\ p ∈ l.*2)) as [[? _]|_]; done.
  - destruct (clone_load a s (f_next f)) as [n l] eqn:E. apply clone_load_ok in E as (Hn & Hnd & Hdom & Hids & Hbl); [|done|by eapply chain_dom].
    eexists _, (Some l). split; [done|]. exists o. split; [done|]. split; [done|]. split; [intros p; by rewrite Hdom, Hs, (connected_rtc f id a Ha)|].
    split_and!.
    + intros b' p Hb'. rewrite Hat. by apply Hbl.
    + done.
    + rewrite Hids. apply NoDup_seq.
    + intros b' p id' p' b'' Hb' Hb''. assert (b_id b' ∈ (b_id ∘ fst <$> l)) as Hi by (apply elem_of_list_fmap; by exists (b', p)).
      rewrite Hids in Hi. apply elem_of_seq in Hi. destruct Hf as (_ & _ & H0). unfold bf_block_at in Hb''.
      destruct (f_areas f !! id') as [a''|] eqn:Ha''; [|done]. cbn [mbind option_bind] in Hb''. intros Heq.
      pose proof (bcnt_pos _ _ _ Hb''). pose proof (fcnt_ge _ _ _ (b_id b'') Ha''). specialize (H0 (b_id b'')). lia.
Qed.
Print Assumptions C34_chain.

(** Starting from any cell of any member gives the same result. *)
Theorem C34_same_chain (types : string -> option btype) (st : bfun * list bsnap) (id : nat) (x y x' y' : Z) (o o' : Z * Z) (remove : bool) :
  types_ok types -> edited types (thin_filler types) st ->
  bf_origin_at st.1 id (x, y) = Some o -> bf_origin_at st.1 id (x', y') = Some o' -> rtc (connected st.1 id) o o' ->
  bf_retrieve st.1 id x y remove = bf_retrieve st.1 id x' y' remove.
Proof.
  intros Hty Hed Ho Ho' Hc. destruct (edited_fun_ok _ _ Hty Hed) as [Hf _]. destruct st as [f sn]. cbn [fst] in *.
  destruct (fun_ok_spec f Hf) as (Hov & Hres & _). apply Hres in Ho as (b & Hb & Hcv), Ho' as (b' & Hb' & Hcv').
  unfold bf_retrieve. unfold bf_block_at in Hb, Hb'. destruct (f_areas f !! id) as [a|] eqn:Ha; [|done]. cbn [mbind option_bind] in *.
  assert (area_ok a) as Hok by (destruct Hf as (H & _); by eapply H).
  assert (forall u v o b, a_blocks a !! o = Some b -> covers o b (u, v) -> exists s, chain_at a u v = Some (Some s) /\ forall p, p ∈ s <-> rtc (conn_in (a_blocks a)) o p) as Hch.
  { intros u v p c Hp Hcp. destruct (chain_at_ok a u v Hok) as (r & Er & Hr). destruct r as [s|]; [|by eapply Hr in Hcp].
    exists s. split; [done|]. destruct Hr as (p' & c' & Hp' & Hcp' & Hs). assert (p = p') as -> by (destruct Hok as (Hap & _); by eapply Hap). done. }
  destruct (Hch x y o b Hb Hcv) as (s & -> & Hs). destruct (Hch x' y' o' b' Hb' Hcv') as (s' & -> & Hs').
  apply (connected_rtc f id a Ha) in Hc.
  assert (rtc (conn_in (a_blocks a)) o' o) as Hc'.
  { clear - Hc. induction Hc as [|o q p H _ IH]; [done|]. etransitivity; [exact IH|]. apply rtc_once. by apply conn_sym. }
  assert (s = s') as ->; [|done]. apply set_eq. intros p. rewrite Hs, Hs'. split; intros H; (etransitivity; [|exact H]); done.
Qed.
Print Assumptions C34_same_chain.

Example C34_case : exists st es, ex_run (bfun_new, []) ex_ops = Some (st, es) /\
  (bf_origin_at st.1 2 (2, 1)%Z = Some (2, 0)%Z /\
   ((fun r : bfun * option (list (block * (Z * Z))) => snd <$> default [] r.2) <$> bf_retrieve st.1 2 2 1 false) = Some [(0, 0); (1, 1); (2, 0)]%Z /\
   ((fun r : bfun * option (list (block * (Z * Z))) => snd <$> default [] r.2) <$> bf_retrieve st.1 2 0 0 true) = Some [(0, 0); (1, 1); (2, 0)]%Z).
Proof. apply ex_run_witness. vm_compute. done. Qed.

(** ** C37: shifting the port at a row puts it on the next row and the port of that row in its place; the port at the last row goes to the
    first one and all others go down. Rows without a stored port count as empty ports. *)
Theorem C37_shift (types : string -> option btype) (st : bfun * list bsnap) (id : nat) (x y : Z) (o : Z * Z) (b : block)
    (u v : list (option string)) (p q : option string) (out : bool) (fuel : nat) :
  types_ok types -> edited types (thin_filler types) st ->
  bf_origin_at st.1 id (x, y) = Some o -> bf_block_at st.1 id o = Some b -> 2 <= b_rows b ->
  (padded (b_rows b) (side b out) = u ++ p :: q :: v ->
     exists f', bf_step types fuel st (BShift id x y (length u) out) = Some ((f', st.2), None) /\ same_except id o st.1 f' /\
       bf_block_at f' id o = Some (with_side b out (u ++ q :: p :: v))) /\
  (padded (b_rows b) (side b out) = u ++ [p] ->
     exists f', bf_step types fuel st (BShift id x y (length u) out) = Some ((f', st.2), None) /\ same_except id o st.1 f' /\
       bf_block_at f' id o = Some (with_side b out (p :: u))).
Proof.
  intros Hty Hed Ho Hb Hr. destruct (edited_fun_ok _ _ Hty Hed) as [Hf _]. destruct st as [f sn]. cbn [fst snd] in *.
  unfold bf_block_at, bf_origin_at in Ho, Hb. destruct (f_areas f !! id) as [a|] eqn:Ha; [|done]. cbn [mbind option_bind] in *.
  assert (area_ok a) as Hok by (destruct Hf as (H & _); by eapply H).
  assert (forall row b', b_shift b row out = Some b' -> exists f', bf_step types fuel (f, sn) (BShift id x y row out) = Some ((f', sn), None) /\
    same_except id o f f' /\ bf_block_at f' id o = Some b') as Hstep.
  { intros row b' Hb'. cbn [bf_step]. unfold bf_shift. rewrite Ha. cbn [mbind option_bind]. unfold ref_at. rewrite Ho. cbn [mbind option_bind]. rewrite Hb.
    cbn [mbind option_bind]. rewrite Hb'. cbn [mbind option_bind]. eexists. split; [done|]. split.
    - intros id' o' Hne. unfold bf_block_at, bf_origin_at. cbn [f_bump f_with_area f_areas]. destruct (decide (id' = id)) as [->|Hi].
      + rewrite list_lookup_insert by (by eapply lookup_lt_Some). rewrite Ha. cbn [mbind option_bind a_blocks a_origin].
        rewrite lookup_insert_ne by congruence. done.
      + by rewrite list_lookup_insert_ne.
    - unfold bf_block_at. cbn [f_bump f_with_area f_areas]. rewrite list_lookup_insert by (by eapply lookup_lt_Some).
      cbn [mbind option_bind a_blocks]. apply lookup_insert. }
  split; intros Hw; apply Hstep; rewrite <- shift_pad by done; rewrite Hw.
  - apply shift_swap; [done|]. rewrite <- Hw, padded_length. lia.
  - apply shift_last_step; [done|]. pose proof (padded_length (b_rows b) (side b out)) as Hl. rewrite Hw, app_length in Hl. cbn in Hl. lia.
Qed.
Print Assumptions C37_shift.
(** Every shift at an existing row permutes the ports and keeps the other side. *)
Theorem C37_permutes (b : block) (row : nat) (out : bool) : row < Nat.max (b_rows b) (length (side b out)) ->
  exists b', b_shift b row out = Some b' /\ padded (b_rows b') (side b' out) ≡ₚ padded (b_rows b) (side b out) /\
    b' = with_side b out (side b' out).
Proof.
  intros Hr. destruct (decide (b_rows b <= 1)) as [H1|H1].
  - exists b. unfold b_shift. destruct (Nat.leb_spec (b_rows b) 1); [|lia]. split_and!; try done. by rewrite with_side_id.
  - rewrite <- padded_length in Hr. destruct (lookup_lt_is_Some_2 _ _ Hr) as [e He]. rewrite (b_shift_eq b row out e) by (done || lia).
    eexists. split; [done|]. rewrite with_side_side. split; [|done]. rewrite padded_id.
    + rewrite ins_perm. rewrite <- delete_Permutation; done.
    + cbn [with_side b_rows]. rewrite ins_length. rewrite length_delete by (by eexists). pose proof (padded_length (b_rows b) (side b out)). lia.
Qed.
Print Assumptions C37_permutes.
(** Shifting a port on from row to row as often as there are rows restores the order; so does shifting the last row that often,
    and shifting another row twice. *)
Theorem C37_round (b : block) (row : nat) (out : bool) : 2 <= b_rows b -> row < Nat.max (b_rows b) (length (side b out)) ->
  let n := Nat.max (b_rows b) (length (side b out)) in
  shift_on n n row out b = Some (with_side b out (padded (b_rows b) (side b out))).
Proof. intros H1 H2. cbn zeta. rewrite <- padded_length in *. by apply shift_on_round. Qed.
Print Assumptions C37_round.
Lemma shift_at_pad b out k row : 2 <= b_rows b -> 0 < k ->
  shift_at k row out (with_side b out (padded (b_rows b) (side b out))) = shift_at k row out b.
Proof. intros Hr Hk. destruct k as [|k]; [lia|]. cbn [shift_at]. by rewrite shift_pad. Qed.
Theorem C37_same_row (b : block) (row : nat) (out : bool) : 2 <= b_rows b -> row < Nat.max (b_rows b) (length (side b out)) ->
  let n := Nat.max (b_rows b) (length (side b out)) in
  shift_at (if row =? n - 1 then n else 2) row out b = Some (with_side b out (padded (b_rows b) (side b out))).
Proof.
  intros Hr Hi. cbn zeta. rewrite <- padded_length in *. set (w := padded (b_rows b) (side b out)) in *.
  assert (b_rows b <= length w) as Hw by (unfold w; rewrite padded_length; lia).
  destruct (Nat.eqb_spec row (length w - 1)) as [->|Hne].
  - rewrite <- shift_at_pad by lia. fold w. replace (length w - 1) with (pred (length w)) by lia.
    pose proof (shift_last_round b out (length w) [] w eq_refl Hr Hw) as H. by rewrite app_nil_r in H.
  - rewrite <- shift_at_pad by lia. fold w.
    destruct (lookup_lt_is_Some_2 w row Hi) as [p Hp]. destruct (lookup_lt_is_Some_2 w (S row)) as [q Hq]; [lia|].
    assert (w = take row w ++ p :: q :: drop (S (S row)) w) as Ew.
    { rewrite <- (take_drop_middle w row p Hp) at 1. f_equal. f_equal. by rewrite (drop_S w q (S row)). }
    assert (length (take row w) = row) as El by (rewrite take_length; lia).
    set (u := take row w) in *. set (v := drop (S (S row)) w) in *. rewrite Ew, <- El. cbn [shift_at].
    rewrite shift_swap by (done || (rewrite <- Ew; done)). rewrite shift_swap; [done|done|]. rewrite Ew in Hw. rewrite app_length in *. done.
Qed.
Print Assumptions C37_same_row.
(** Shifting the same row as often as there are rows does not restore the order in general. *)
Theorem C37_same_row_refuted : exists b, b_rows b = 3 /\ length (b_outputs b) = 3 /\ shift_at 3 0 true b <> Some b /\ is_Some (shift_at 3 0 true b).
Proof.
  exists (Block 0 3 (None, None) true "t" "t" [] [Some "a"; Some "b"; Some "c"] 0). split_and!; try done; by eexists.
Qed.
Print Assumptions C37_same_row_refuted.
Example C37_case :
  let b := Block 7 3 (None, None) true "t" "t" [Some "x"] [Some "a"; Some "b"; Some "c"] 0 in
  padded 3 (side b false) = [Some "x"] ++ None :: None :: [] /\
  b_shift b 2 true = Some (with_side b true [Some "c"; Some "a"; Some "b"]) /\
  b_shift b 0 false = Some (with_side b false [None; Some "x"; None]) /\
  shift_on 3 3 1 true b = Some b.
Proof. vm_compute. done. Qed.
Example C37_case_reached : exists st es, ex_run (bfun_new, []) ex_ops = Some (st, es) /\
  (bf_origin_at st.1 2 (2, 1)%Z = Some (2, 0)%Z /\
   match bf_block_at st.1 2 (2, 0)%Z with
   | Some b => 2 <= b_rows b /\ padded (b_rows b) (side b false) = [] ++ Some "x" :: Some "y" :: []
   | None => False
   end).
Proof. apply ex_run_witness. vm_compute. split; [done|]. split; [lia|done]. Qed.
