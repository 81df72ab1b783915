(** The blocks of an edited program are instances of types of the language. *)
From stdpp Require Import strings pretty.
From Verif Require Import Base M_Block S_Block L_Block L_Block2 L_Block3 M_Comp S_Comp.
Open Scope string_scope.
Open Scope list_scope.
Open Scope nat_scope.

Definition types_wf (types : string -> option btype) : Prop := forall t ty, types t = Some ty ->
  t_name ty = t /\ 1 <= t_rows ty /\ length (t_inputs ty) <= t_rows ty /\ length (t_outputs ty) <= t_rows ty.

Definition typed (types : string -> option btype) (b : block) : Prop := 1 <= b_id b /\ exists ty, types (b_typ b) = Some ty /\ b_rows b = t_rows ty /\
  omap id (b_inputs b) ≡ₚ omap id (t_inputs ty) /\ omap id (b_outputs b) ≡ₚ omap id (t_outputs ty) /\
  length (b_inputs b) <= b_rows b /\ length (b_outputs b) <= b_rows b /\ (t_areas ty = 0 -> block_subs b = []).

Definition all_typed types (fs : list area) : Prop := forall i a o b, fs !! i = Some a -> a_blocks a !! o = Some b -> typed types b.

Lemma all_typed_upd types fs i a' : all_typed types fs -> (forall o b, a_blocks a' !! o = Some b -> typed types b) -> all_typed types (<[i := a']> fs).
Proof.
  intros H H' j a o b Ha Hb. apply list_lookup_insert_Some in Ha as [(<- & <- & _)|(_ & Ha)]; [by eapply H'|by eapply H].
Qed.
Lemma all_typed_grow types fs k : all_typed types fs -> all_typed types (fs ++ replicate k shrink_area).
Proof.
  intros H i a o b Ha Hb. apply lookup_app_Some in Ha as [Ha|[_ Ha]]; [by eapply H|]. apply lookup_replicate in Ha as [-> _].
  cbn in Hb. by rewrite lookup_empty in Hb.
Qed.

Lemma omap_replicate_None {A} n : omap id (replicate n (@None A)) = [].
Proof. induction n; [done|]. cbn. done. Qed.
Lemma pad_omap (v : list (option string)) n : omap id (if length v <? n then v ++ replicate (n - length v) None else v) = omap id v.
Proof. destruct (length v <? n); [|done]. by rewrite omap_app, omap_replicate_None, (right_id_L [] (++)). Qed.
Lemma omap_perm {A B} (g : A -> option B) (l l' : list A) : l ≡ₚ l' -> omap g l ≡ₚ omap g l'.
Proof.
  induction 1 as [|x l l' _ IH|x y l|l1 l2 l3 _ IH1 _ IH2]; cbn; [done| | |by etrans].
  - destruct (g x); by rewrite IH.
  - destruct (g x), (g y); done || by constructor.
Qed.
Lemma shift_list_perm rows v idx v' : shift_list rows v idx = Some v' ->
  omap id v' ≡ₚ omap id v /\ length v' = Nat.max rows (length v).
Proof.
  unfold shift_list. set (w := if length v <? rows then _ else _). intros H. apply bind_Some in H as (e & He & [= <-]).
  rewrite <- (pad_omap v rows). fold w.
  assert (length w = Nat.max rows (length v)) as Hw.
  { unfold w. destruct (Nat.ltb_spec (length v) rows); [rewrite app_length, replicate_length; lia|lia]. }
  assert (take (S idx mod length w) (delete idx w) ++ e :: drop (S idx mod length w) (delete idx w) ≡ₚ w) as Hp.
  { rewrite <- Permutation_middle, take_drop. symmetry. by apply delete_Permutation. }
  split; [by apply omap_perm|]. by rewrite Hp.
Qed.
Lemma shift_typed types b r out b' : types_wf types -> typed types b -> b_shift b r out = Some b' -> typed types b'.
Proof.
  intros Hwf (Hid & ty & Ht & Hr & Hi & Ho & Li & Lo & Ha). unfold b_shift.
  destruct (Nat.leb_spec (b_rows b) 1); [intros [= <-]; split; [done|]; by exists ty|].
  destruct out; intros E; apply bind_Some in E as (v & Hv & [= <-]); apply shift_list_perm in Hv as [Hp Hl];
    (split; [done|]; exists ty; cbn; split_and!; [done|done| | |lia|lia|done]); by rewrite ?Hp.
Qed.

Lemma with_contains_typed types b c : typed types b -> (block_subs b = [] -> block_subs (b_with_contains b c) = []) -> typed types (b_with_contains b c).
Proof.
  intros (Hid & ty & Ht & Hr & Hi & Ho & Li & Lo & Ha) Hc. split; [done|]. exists ty. cbn [b_with_contains b_typ b_rows b_inputs b_outputs].
  split_and!; try done. intros H0. by apply Hc, Ha.
Qed.
Lemma create_typed types f b f' b' : typed types b -> create_areas f b = (f', b') ->
  typed types b' /\ f_next f' = f_next f /\ exists k, f_areas f' = f_areas f ++ replicate k shrink_area.
Proof.
  intros Hb. pose proof (create_areas_eq f b) as (k & c & E & _). rewrite E. intros [= <- <-].
  split; [|split; [done|by exists k]]. apply with_contains_typed; [done|]. intros H0.
  unfold create_areas in E. unfold block_subs in *. destruct (b_contains b) as [[?|] [?|]]; cbn in H0; try done.
  cbn in E. by injection E as _ <-.
Qed.
Lemma touch_typed types ty b : types (b_typ b) = Some ty ->
  1 <= b_id b -> b_rows b = t_rows ty -> omap id (b_inputs b) ≡ₚ omap id (t_inputs ty) -> omap id (b_outputs b) ≡ₚ omap id (t_outputs ty) ->
  length (b_inputs b) <= b_rows b -> length (b_outputs b) <= b_rows b -> typed types (touch_contains ty b).
Proof.
  intros. split; [done|]. exists ty. unfold touch_contains. cbn [b_with_contains b_typ b_rows b_inputs b_outputs]. split_and!; try done.
  intros ->. done.
Qed.
Lemma inst_typed types t ty i n : types_wf types -> types t = Some ty -> 1 <= n -> typed types (instanciate_block ty i n).
Proof.
  intros Hwf Ht Hn. destruct (Hwf _ _ Ht) as (En & Hr & Hi & Ho). apply touch_typed; cbn; try done. by rewrite En.
Qed.

Lemma set_block_typed types a x y b : (forall o b, a_blocks a !! o = Some b -> typed types b) -> typed types b ->
  forall o b', a_blocks (set_block_at a x y b) !! o = Some b' -> typed types b'.
Proof. intros H Hb o b' E. cbn in E. apply lookup_insert_Some in E as [[_ <-]|[_ E]]; [done|by eapply H]. Qed.

Lemma bcnt_typed types bs : (forall o b, bs !! o = Some b -> typed types b) -> bcnt bs 0 = 0.
Proof.
  intros H. destruct (decide (bcnt bs 0 = 0)) as [|Hn]; [done|]. exfalso. revert H Hn. induction bs as [|o b bs Hnone IH] using map_ind; [done|].
  rewrite bcnt_insert by done. intros H Hn. destruct (H o b) as [Hid _]; [by simplify_map_eq|].
  assert (one b 0 = 0) as H1 by (apply one_ne; lia). apply IH; [|lia]. intros o' b' Hb'. apply (H o'). rewrite lookup_insert_ne; [done|]. congruence.
Qed.

Lemma step_typed types fuel st o st' e : types_wf types -> fun_ok st.1 -> thin_filler types st.1 o -> all_typed types (f_areas st.1) ->
  Forall (fun s => all_typed types (sn_areas s)) st.2 -> bf_step types fuel st o = Some (st', e) ->
  all_typed types (f_areas st'.1) /\ Forall (fun s => all_typed types (sn_areas s)) st'.2.
Proof.
  destruct st as [f sn]. cbn [fst snd]. intros Hwf Hf Hth Ht Hsn. destruct o; cbn [bf_step].
  - destruct (bf_instanciate _ _ _ _ _ _ _) as [f' e'] eqn:E. intros [= <- <-]. split; [|done]. revert E. unfold bf_instanciate. cbn [fst].
    destruct (f_areas f !! id) as [a|] eqn:Ha; [|by intros [= <- <-]]. destruct (types typ) as [ty|] eqn:Ety; [|by intros [= <- <-]].
    destruct (space_at _ _ _ _); cbn [negb]; [|by intros [= <- <-]].
    destruct (create_areas _ _) as [f1 b] eqn:Ec. apply (create_typed types) in Ec as (Hb & _ & k & Hk); [|eapply inst_typed; [done|done|lia]].
    cbn [f_areas] in Hk. cbn [f_bump f_areas]. pose proof (all_typed_grow _ _ k Ht) as Hg. rewrite <- Hk in Hg.
    destruct (f_areas f1 !! id) as [a1|] eqn:Ea; intros [= <- <-]; cbn [f_areas f_with_area]; [|done].
    apply all_typed_upd; [done|]. apply set_block_typed; [|done]. intros o b'. by eapply Hg.
  - destruct (bf_remove _ _ _ _) as [f' e'] eqn:E. intros [= <- <-]. split; [|done].
    apply remove_cases in E as [[-> _]|(a & o & b & Ha & Hb & _ & _ & ->)]; [done| |done]. cbn. apply all_typed_upd; [done|].
    cbn. intros o' b' H'. apply lookup_delete_Some in H' as [_ H']. by eapply Ht.
  - intros H. apply bind_Some in H as ([f' e'] & E & [= <- <-]). split; [|done]. cbn [fst].
    apply move_cases in E as [(_ & -> & _)|(a & o & b & D & Ha & Hb & _ & _ & _ & [(_ & _ & ->)|(a2 & y2' & _ & Ha2 & _ & ->)])]; [done| | |done].
    + cbn. apply all_typed_upd; [done|]. cbn. intros o' b' H'. apply lookup_delete_Some in H' as [_ H']. by eapply Ht.
    + cbn. assert (all_typed types (<[id:=a_with_blocks a (delete o (a_blocks a))]> (f_areas f))) as Hd.
      { apply all_typed_upd; [done|]. cbn. intros o' b' H'. apply lookup_delete_Some in H' as [_ H']. by eapply Ht. }
      apply all_typed_upd; [done|]. apply set_block_typed; [intros ? ?; by eapply Hd|by eapply Ht].
  - destruct (bf_clone _ _ _ _ _ _ _ _) as [f' e'] eqn:E. intros [= <- <-]. split; [|done]. revert E. unfold bf_clone. cbn [fst].
    destruct (f_areas f !! id) as [a|] eqn:Ha; [|by intros [= <- <-]]. destruct (ref_at a x y) as [[b o]|] eqn:Er; [|by intros [= <- <-]].
    apply ref_at_ok in Er as [Hb _]; [|destruct Hf as (Hf & _); by eapply Hf]. pose proof (Ht _ _ _ _ Ha Hb) as (Hid & ty & Ety & Hr & Hi & Ho & Li & Lo & Har).
    cbn [b_with_id b_typ]. rewrite Ety.
    destruct (create_areas _ _) as [f1 b1] eqn:Ec. apply (create_typed types) in Ec as (Hb1 & _ & k & Hk).
    2:{ apply touch_typed; cbn; try done. lia. }
    cbn [f_areas] in Hk. pose proof (all_typed_grow _ _ k Ht) as Hg. rewrite <- Hk in Hg.
    destruct (f_areas f1 !! id2) as [a2|] eqn:Ea; [|by intros [= <- <-]]. destruct (space_at _ _ _ _); intros [= <- <-]; [|done]. cbn.
    apply all_typed_upd; [done|]. apply set_block_typed; [|done]. intros o' b'. by eapply Hg.
  - intros H. apply bind_Some in H as (f' & E & [= <- <-]). split; [|done]. cbn [fst].
    apply shift_cases in E as [->|(a & o & b & b' & Ha & Hb & _ & Hsh & ->)]; [done| |done]. cbn. apply all_typed_upd; [done|]. cbn. intros o' c H'.
    apply lookup_insert_Some in H' as [[_ <-]|[_ H']]; [|by eapply Ht]. eapply shift_typed; [done|by eapply Ht|done].
  - intros H. apply bind_Some in H as ([f' l] & E & [= <- <-]). split; [|done]. cbn [fst].
    apply retrieve_cases in E as [[-> _]|(a & a' & Ha & _ & _ & Hs & ->)]; [done| |done]. cbn. apply all_typed_upd; [done|].
    intros o b Hb. by eapply Ht, Hs.
  - intros H. apply bind_Some in H as ([f' e'] & E & [= <- <-]). split; [|done]. cbn [fst].
    apply split_cases in E as [(_ & -> & _)|(a & a' & _ & Ha & Hok & _ & Hc & Hs & ->)]; [done| |done|].
    2:{ intros t ty -> Et. by eapply Hth. }
    apply all_typed_upd; [done|]. intros o b Hb. destruct (Hs _ _ Hb) as [(o' & Hb')|(t & ty & i & -> & Et & ->)]; [by eapply Ht|].
    eapply inst_typed; [done|done|]. destruct i; [|lia]. exfalso.
    pose proof (bcnt_pos _ _ _ Hb) as Hpos. cbn in Hpos. rewrite Hc, (bcnt_typed types (a_blocks a)) in Hpos; [|intros ? ?; by eapply Ht].
    rewrite decide_False in Hpos by lia. lia.
  - intros H. apply bind_Some in H as ([f' e'] & E & [= <- <-]). split; [|done]. cbn [fst].
    apply movechain_cases in E as (_ & [(_ & ->)|[(_ & _ & a & a' & Ha & _ & -> & _ & Hs)|(_ & _ & a & a' & a2 & a2' & D & Ha & Ha2 & _ & _ & -> & _ & _ & _ & H1 & H2)]]); [done| | |done].
    + apply all_typed_upd; [done|]. intros o b Hb. destruct (Hs _ _ Hb) as [o' Hb']. by eapply Ht.
    + apply all_typed_upd; [apply all_typed_upd; [done|]|].
      * intros o b Hb. by eapply Ht, H1.
      * intros o b Hb. destruct (H2 _ _ Hb) as [Hb'|(o' & Hb' & _)]; [exact (Ht _ _ _ _ Ha2 Hb')|exact (Ht _ _ _ _ Ha Hb')].
  - intros H. apply bind_Some in H as (f' & E & [= <- <-]). split; [|done]. cbn [fst]. apply recalc_ok in E as (E1 & _).
    intros i a' o b Ha' Hb. destruct (same_lookup _ _ E1 _ _ Ha') as (a & Ha & Hsame & _). rewrite Hsame in Hb. by eapply Ht.
  - intros [= <- <-]. split; [done|]. apply Forall_app. split; [done|]. constructor; [|done]. done.
  - destruct (sn !! k) as [s|] eqn:Hk; [|by intros [= <- <-]]. intros H. apply bind_Some in H as (f' & E & [= <- <-]). split; [|done]. cbn [fst].
    unfold bf_load in E. apply bind_Some in E as (f1 & E & [= <-]). apply recalc_ok in E as (E1 & _). cbn.
    pose proof (Forall_lookup_1 _ _ _ _ Hsn Hk) as Hs. intros i a' o b Ha' Hb. destruct (same_lookup _ _ E1 _ _ Ha') as (a & Ha & Hsame & _).
    rewrite Hsame in Hb. by eapply Hs.
Qed.

Lemma edited_typed types st : types_wf types -> edited types (thin_filler types) st -> fun_ok st.1 /\ all_typed types (f_areas st.1).
Proof.
  intros Hwf Hed. assert (types_ok types) as Hty by (intros t ty Ht; by apply Hwf in Ht as (_ & ? & _)).
  split; [by apply (edited_fun_ok types)|].
  enough (all_typed types (f_areas st.1) /\ Forall (fun s => all_typed types (sn_areas s)) st.2) as [? _] by done.
  induction Hed as [|st o fuel st' e Hed [IH1 IH2] Hok Hs].
  - split; [|constructor]. cbn. intros i a o b Ha Hb. destruct i as [|i]; [|done].
    injection Ha as <-. cbn in Hb. by rewrite lookup_empty in Hb.
  - eapply step_typed; [done| |done|done|done|done]. by apply (edited_fun_ok types).
Qed.

(** ** The language *)
Lemma foldl_last (l : list btype) t : forall r0 ty,
  foldl (fun (r : option btype) (d : btype) => if String.eqb (t_name d) t then Some d else r) r0 l = Some ty -> r0 = Some ty \/ (ty ∈ l /\ t_name ty = t).
Proof.
  induction l as [|d l IH]; intros r0 ty; cbn [foldl]; [by left|]. intros H. apply IH in H as [H|[H1 H2]]; [|right; split; [by right|done]].
  destruct (String.eqb_spec (t_name d) t) as [E|_]; [|by left]. injection H as <-. right. split; [by left|done].
Qed.
Lemma lang_elem lib t ty : lang_of lib t = Some ty -> t_name ty = t /\ (ty ∈ base_types \/ exists n, n ∈ lib /\ ty = lib_type n).
Proof.
  intros H. apply foldl_last in H as [H|[H <-]]; [done|]. split; [done|]. apply elem_of_app in H as [H|H]; [by left|].
  apply elem_of_list_fmap in H as (n & -> & H). right. by exists n.
Qed.
Lemma foldl_miss (l : list btype) t : forall r0, (forall ty, ty ∈ l -> t_name ty <> t) ->
  foldl (fun (r : option btype) (d : btype) => if String.eqb (t_name d) t then Some d else r) r0 l = r0.
Proof.
  induction l as [|d l IH]; intros r0 H; cbn [foldl]; [done|]. rewrite IH; [|intros ty Hty; apply H; by right].
  destruct (String.eqb_spec (t_name d) t) as [E|_]; [|done]. exfalso. eapply H; [by left|done].
Qed.
Lemma lang_special lib t : lib_ok lib -> t ∈ special -> lang_of lib t = lang_of [] t.
Proof.
  intros Hlib Ht. unfold lang_of. rewrite !foldl_app. cbn [fmap list_fmap]. cbn [foldl].
  apply foldl_miss. intros ty Hty. apply elem_of_list_fmap in Hty as (n & -> & Hn). cbn. intros <-. by apply (Hlib n Hn).
Qed.
Lemma base_wf : forallb (fun ty => (1 <=? t_rows ty) && (length (t_inputs ty) <=? t_rows ty) && (length (t_outputs ty) <=? t_rows ty)) base_types = true.
Proof. done. Qed.
Lemma lang_wf lib : lib_ok lib -> types_wf (lang_of lib).
Proof.
  intros Hlib t ty Ht. apply lang_elem in Ht as (Hn & [Hb|(n & Hin & ->)]).
  - split; [done|]. pose proof base_wf as Hw. rewrite forallb_forall in Hw. apply elem_of_list_In in Hb. specialize (Hw _ Hb).
    rewrite !andb_true_iff, !Nat.leb_le in Hw. tauto.
  - split; [done|]. destruct (Hlib _ Hin) as (H1 & _). cbn. rewrite !fmap_length. lia.
Qed.
