(** Every call of the block editor keeps the program well formed. *)
From stdpp Require Import strings.
From Verif Require Import Base M_Block S_Block L_Block.
Open Scope string_scope.
Open Scope list_scope.
Open Scope nat_scope.

Definition fun_ok (f : bfun) : Prop :=
  (forall i a, f_areas f !! i = Some a -> area_ok a) /\ (forall n, fcnt (f_areas f) n <= 1) /\
  (forall n, f_next f < n -> fcnt (f_areas f) n = 0).
Definition edge (fs : list area) (i s : nat) : Prop := exists a o b, fs !! i = Some a /\ a_blocks a !! o = Some b /\ s ∈ block_subs b.
Definition tree_ok (fs : list area) : Prop := exists rank : nat -> nat, forall i s, edge fs i s -> s < length fs /\ rank s < rank i.
Definition inv (f : bfun) : Prop := fun_ok f /\ tree_ok (f_areas f) /\ 0 < length (f_areas f).

Lemma tree_sub fs fs' : tree_ok fs -> length fs <= length fs' -> (forall i s, edge fs' i s -> edge fs i s) -> tree_ok fs'.
Proof. intros [rank H] Hl He. exists rank. intros i s E. apply He, H in E. lia. Qed.

(** ** One area is replaced *)
Lemma upd_ok f i a a' next gen : fun_ok f -> f_areas f !! i = Some a -> area_ok a' -> f_next f <= next ->
  (forall n, n <= f_next f -> bcnt (a_blocks a') n <= bcnt (a_blocks a) n) ->
  (forall n, f_next f < n <= next -> bcnt (a_blocks a') n <= 1) ->
  (forall n, next < n -> bcnt (a_blocks a') n = 0) ->
  fun_ok (BFun (<[i := a']> (f_areas f)) next gen).
Proof.
  intros (Ha & H1 & H0) Hi Ha' Hn Hold Hnew Hnone. split; [|split]; cbn [f_areas f_next].
  - intros j c H. apply list_lookup_insert_Some in H as [(<- & <- & _)|(_ & H)]; [done|by eapply Ha].
  - intros n. pose proof (fcnt_insert _ _ _ a' n Hi) as E. specialize (H1 n). specialize (H0 n). specialize (Hold n). specialize (Hnew n).
    specialize (Hnone n). pose proof (fcnt_ge _ _ _ n Hi). lia.
  - intros n Hlt. pose proof (fcnt_insert _ _ _ a' n Hi) as E. specialize (H0 n). specialize (Hnone n). pose proof (fcnt_ge _ _ _ n Hi). lia.
Qed.
Lemma edge_upd fs i a a' j s : fs !! i = Some a -> edge (<[i := a']> fs) j s ->
  edge fs j s \/ (j = i /\ exists o b, a_blocks a' !! o = Some b /\ s ∈ block_subs b).
Proof.
  intros Hi (c & o & b & Hc & Hb & Hs). apply list_lookup_insert_Some in Hc as [(<- & <- & _)|(_ & H)].
  - right. eauto.
  - left. by exists c, o, b.
Qed.
Lemma edge_upd_sub fs i a a' : fs !! i = Some a ->
  (forall o b, a_blocks a' !! o = Some b -> exists o' b', a_blocks a !! o' = Some b' /\ block_subs b ⊆ block_subs b') ->
  forall j s, edge (<[i := a']> fs) j s -> edge fs j s.
Proof.
  intros Hi H j s E. apply (edge_upd _ _ _ _ _ _ Hi) in E as [E|(-> & o & b & Hb & Hs)]; [done|].
  destruct (H _ _ Hb) as (o' & b' & Hb' & Hsub). exists a, o', b'. split_and!; [done|done|by apply Hsub].
Qed.

(** ** Blocks *)
Lemma set_block_ok a x y b : area_ok a -> 1 <= b_rows b -> space_at a x y (b_rows b) = true ->
  area_ok (set_block_at a x y b) /\ a_blocks a !! (x, y) = None /\
  (forall n, bcnt (a_blocks (set_block_at a x y b)) n = one b n + bcnt (a_blocks a) n).
Proof.
  intros Hok Hb Hs. pose proof (proj1 (space_at_ok _ _ _ _ Hok) Hs) as Hc. assert (Hok' := Hok). destruct Hok' as (Ha & Hr & Ho).
  assert (a_blocks a !! (x, y) = None) as Hnone.
  { destruct (a_blocks a !! (x, y)) as [b'|] eqn:E; [|done]. exfalso. eapply (Hc (x, y) b' (x, y)); [done| |done|cbn [snd]; lia].
    apply covers_self. by eapply Hr. }
  split; [|split; [done|]].
  - apply area_ok_with; [|by apply insert_rows]. apply insert_apart; [done|]. intros o b' c Hb' C1 [C2 C3]. by eapply Hc.
  - intros n. cbn [set_block_at a_with_blocks a_blocks]. by apply bcnt_insert.
Qed.
Lemma one_le b n : one b n <= 1.
Proof. unfold one. destruct (decide _); lia. Qed.
Lemma one_ne b n : b_id b <> n -> one b n = 0.
Proof. intros. unfold one. by rewrite decide_False. Qed.

Lemma create_areas_eq f b : exists k c, create_areas f b = (BFun (f_areas f ++ replicate k shrink_area) (f_next f) (f_gen f), b_with_contains b c) /\
  (forall s, s ∈ opt_list c.1 ++ opt_list c.2 -> length (f_areas f) <= s < length (f_areas f) + k).
Proof.
  unfold create_areas. destruct (b_contains b) as [[c0|] [c1|]]; cbn [fst snd].
  - exists 2, (Some (length (f_areas f)), Some (length (f_areas f ++ [shrink_area]))). split.
    + by rewrite <- app_assoc.
    + intros s. cbn [opt_list fst snd app]. rewrite !elem_of_cons, app_length. cbn [length]. intros [->|[->|H]]; [lia|lia|by apply elem_of_nil in H].
  - exists 1, (Some (length (f_areas f)), None). split; [done|]. intros s. cbn [opt_list fst snd app]. rewrite !elem_of_cons.
    intros [->|H]; [lia|by apply elem_of_nil in H].
  - exists 1, (None, Some (length (f_areas f))). split; [done|]. intros s. cbn [opt_list fst snd app]. rewrite !elem_of_cons.
    intros [->|H]; [lia|by apply elem_of_nil in H].
  - exists 0, (None, None). split; [|intros s H; by apply elem_of_nil in H]. cbn [replicate]. by rewrite app_nil_r.
Qed.
Lemma shrink_ok : area_ok shrink_area.
Proof. split; [|split]; [intros o1 o2 b1 b2 c H; cbn in H; by rewrite lookup_empty in H|intros o b H; cbn in H; by rewrite lookup_empty in H|done]. Qed.
Lemma fcnt_shrink k n : fcnt (replicate k shrink_area) n = 0.
Proof. induction k as [|k IH]; [done|]. cbn [replicate]. rewrite fcnt_cons, IH. cbn [shrink_area a_blocks]. by rewrite bcnt_empty. Qed.
Lemma grow_ok f k next gen : fun_ok f -> f_next f <= next -> fun_ok (BFun (f_areas f ++ replicate k shrink_area) next gen).
Proof.
  intros (Ha & H1 & H0) Hn. split; [|split]; cbn [f_areas f_next].
  - intros i a H. apply lookup_app_Some in H as [H|[_ H]]; [by eapply Ha|]. apply lookup_replicate in H as [-> _]. apply shrink_ok.
  - intros n. rewrite fcnt_app, fcnt_shrink. specialize (H1 n). lia.
  - intros n H. rewrite fcnt_app, fcnt_shrink. rewrite H0; [done|]. lia.
Qed.
Lemma edge_grow fs k i s : edge (fs ++ replicate k shrink_area) i s <-> edge fs i s.
Proof.
  split; intros (a & o & b & H & Hb & Hs).
  - apply lookup_app_Some in H as [H|[_ H]]; [by exists a, o, b|].
    apply lookup_replicate in H as [-> _]. cbn [shrink_area a_blocks] in Hb. by rewrite lookup_empty in Hb.
  - exists a, o, b. split_and!; [by apply lookup_app_l_Some|done|done].
Qed.

(** A new block with new areas is placed. *)
Lemma place_new f k id a x y b gen : fun_ok f -> 1 <= b_rows b -> b_id b = S (f_next f) ->
  (f_areas f ++ replicate k shrink_area) !! id = Some a -> space_at a x y (b_rows b) = true ->
  fun_ok (BFun (<[id := set_block_at a x y b]> (f_areas f ++ replicate k shrink_area)) (S (f_next f)) gen).
Proof.
  intros Hinv Hb Hid Ha Hs. pose proof (grow_ok f k (f_next f) 0 Hinv ltac:(lia)) as Hfok. cbn [f_areas] in *.
  assert (area_ok a) as Hok by (destruct Hfok as (H & _); by eapply H).
  destruct (set_block_ok a x y b Hok Hb Hs) as (Hok' & Hnone & Hcnt).
  eapply (upd_ok (BFun (f_areas f ++ replicate k shrink_area) (f_next f) 0)); [done|done|done|cbn [f_next]; lia| | |].
  - intros n Hn. cbn [f_next] in Hn. rewrite Hcnt, one_ne; lia.
  - intros n Hn. cbn [f_next] in Hn. rewrite Hcnt. pose proof (one_le b n).
    destruct Hfok as (_ & _ & H0). specialize (H0 n). cbn [f_next f_areas] in H0. pose proof (fcnt_ge _ _ _ n Ha). lia.
  - intros n Hn. rewrite Hcnt, one_ne; [|lia].
    destruct Hfok as (_ & _ & H0). specialize (H0 n). cbn [f_next f_areas] in H0. pose proof (fcnt_ge _ _ _ n Ha). lia.
Qed.
Lemma place_new_tree fs k id a x y b : tree_ok fs ->
  (forall s, s ∈ block_subs b -> length fs <= s < length fs + k) -> fs !! id = Some a ->
  tree_ok (<[id := set_block_at a x y b]> (fs ++ replicate k shrink_area)).
Proof.
  intros (rank & Ht) Hc Ha. assert (H := lookup_lt_Some _ _ _ Ha).
  assert ((fs ++ replicate k shrink_area) !! id = Some a) as Ha' by (by apply lookup_app_l_Some).
  exists (fun i => if decide (i < length fs) then S (rank i) else 0). intros i s E. rewrite insert_length.
  rewrite app_length, replicate_length.
  assert (edge fs i s \/ (i = id /\ s ∈ block_subs b)) as [Ei|[-> Hs]].
  { apply (edge_upd _ _ _ _ _ _ Ha') in E as [E|(-> & o & b' & Hb' & Hs')]; [left; by eapply edge_grow|].
    cbn [set_block_at a_with_blocks a_blocks] in Hb'. apply lookup_insert_Some in Hb' as [[_ <-]|[_ Hb']]; [by right|].
    left. by exists a, o, b'. }
  - assert (i < length fs) by (destruct Ei as (a' & o & b' & Hi & _); by eapply lookup_lt_Some). apply Ht in Ei.
    rewrite !decide_True by lia. lia.
  - apply Hc in Hs. rewrite (decide_False (P := s < _)) by lia. rewrite decide_True by lia. lia.
Qed.

Lemma gen_ok f gen : fun_ok f -> fun_ok (BFun (f_areas f) (f_next f) gen).
Proof. done. Qed.
Lemma next_ok f next gen : fun_ok f -> f_next f <= next -> fun_ok (BFun (f_areas f) next gen).
Proof. intros (Ha & H1 & H0) Hn. split; [|split]; [done|done|]. cbn [f_next f_areas]. intros n H. apply H0. lia. Qed.

Section edit.
Context (types : string -> option btype) (fuel : nat).
Hypothesis Hty : types_ok types.

(** ** instanciate, remove, clone, shift *)
Lemma inst_cases f id x y t i f' e : bf_instanciate types f id x y t i = (f', e) ->
  (f' = f /\ is_Some e) \/
  exists a ty k b, f_areas f !! id = Some a /\ types t = Some ty /\ space_at a x y (b_rows b) = true /\ b_rows b = t_rows ty /\
    b_id b = S (f_next f) /\ (forall s, s ∈ block_subs b -> length (f_areas f) <= s < length (f_areas f) + k) /\ e = None /\
    f' = BFun (<[id := set_block_at a x y b]> (f_areas f ++ replicate k shrink_area)) (S (f_next f)) (S (f_gen f)).
Proof.
  unfold bf_instanciate. destruct (f_areas f !! id) as [a|] eqn:Ha; [|intros [= <- <-]; left; eauto].
  destruct (types t) as [ty|] eqn:Ht; [|intros [= <- <-]; left; eauto].
  destruct (space_at a x y (t_rows ty)) eqn:Hs; cbn [negb]; [|intros [= <- <-]; left; eauto].
  destruct (create_areas_eq (BFun (f_areas f) (S (f_next f)) (f_gen f)) (instanciate_block ty i (S (f_next f)))) as (k & c & -> & Hc).
  cbn [f_bump f_areas f_next f_gen] in *.
  assert ((f_areas f ++ replicate k shrink_area) !! id = Some a) as -> by (by apply lookup_app_l_Some).
  intros [= <- <-]. right. exists a, ty, k, (b_with_contains (instanciate_block ty i (S (f_next f))) c). split_and!; done.
Qed.
Lemma inst_ok f id x y t i f' e : fun_ok f -> bf_instanciate types f id x y t i = (f', e) -> fun_ok f'.
Proof.
  intros Hf H. apply inst_cases in H as [[-> _]|(a & ty & k & b & Ha & Ht & Hs & Hr & Hid & Hc & -> & ->)]; [done|].
  apply place_new; [done| |done| |done].
  - rewrite Hr. by eapply Hty.
  - by apply lookup_app_l_Some.
Qed.
Lemma inst_tree f id x y t i f' e : tree_ok (f_areas f) -> bf_instanciate types f id x y t i = (f', e) -> tree_ok (f_areas f').
Proof.
  intros Hf H. apply inst_cases in H as [[-> _]|(a & ty & k & b & Ha & Ht & Hs & Hr & Hid & Hc & -> & ->)]; [done|].
  by apply place_new_tree.
Qed.

Lemma remove_blocks_ok f id a a' : fun_ok f -> f_areas f !! id = Some a -> area_ok a' -> (forall n, bcnt (a_blocks a') n <= bcnt (a_blocks a) n) ->
  fun_ok (f_with_area f id a').
Proof.
  intros Hf Ha Ha' Hc. eapply upd_ok; [done|done|done|done| | |].
  - intros n _. apply Hc.
  - intros n Hn. lia.
  - intros n Hn. destruct Hf as (_ & _ & H0). specialize (H0 _ Hn). specialize (Hc n). pose proof (fcnt_ge _ _ _ n Ha). lia.
Qed.
Lemma remove_cases f id x y f' e : fun_ok f -> bf_remove f id x y = (f', e) ->
  (f' = f /\ is_Some e) \/
  exists a o b, f_areas f !! id = Some a /\ a_blocks a !! o = Some b /\ covers o b (x, y) /\ e = None /\
    f' = f_bump (f_with_area f id (a_with_blocks a (delete o (a_blocks a)))).
Proof.
  intros Hf. unfold bf_remove. destruct (f_areas f !! id) as [a|] eqn:Ha; [|intros [= <- <-]; left; eauto].
  destruct (area_remove_at a x y) as [[a' [b o]]|] eqn:Hr; [|intros [= <- <-]; left; eauto].
  intros [= <- <-]. right. assert (area_ok a) as Hok by (destruct Hf as (H & _); by eapply H).
  apply area_remove_inv in Hr as (Hb & Hc & ->); [|done]. exists a, o, b. split_and!; done.
Qed.
Lemma delete_area_ok a o : area_ok a -> area_ok (a_with_blocks a (delete o (a_blocks a))).
Proof. intros (H1 & H2 & H3). apply area_ok_with; [by apply delete_apart|by apply delete_rows]. Qed.
Lemma delete_fun_ok f id a o b : fun_ok f -> f_areas f !! id = Some a -> a_blocks a !! o = Some b ->
  fun_ok (f_with_area f id (a_with_blocks a (delete o (a_blocks a)))).
Proof.
  intros Hf Ha Hb. assert (area_ok a) as Hok by (destruct Hf as (H & _); by eapply H).
  eapply remove_blocks_ok; [done|done|by apply delete_area_ok|]. intros n. cbn [a_with_blocks a_blocks]. rewrite (bcnt_delete _ _ _ n Hb). lia.
Qed.
Lemma delete_edges fs id a o : fs !! id = Some a ->
  forall i s, edge (<[id := a_with_blocks a (delete o (a_blocks a))]> fs) i s -> edge fs i s.
Proof.
  intros Ha. eapply edge_upd_sub; [done|]. intros o' b' H. cbn [a_with_blocks a_blocks] in H. apply lookup_delete_Some in H as [_ H].
  exists o', b'. done.
Qed.
Lemma remove_ok f id x y f' e : fun_ok f -> bf_remove f id x y = (f', e) -> fun_ok f'.
Proof.
  intros Hf H. apply remove_cases in H as [[-> _]|(a & o & b & Ha & Hb & Hc & -> & ->)]; [done| |done].
  apply gen_ok. by eapply delete_fun_ok.
Qed.
Lemma remove_tree f id x y f' e : fun_ok f -> tree_ok (f_areas f) -> bf_remove f id x y = (f', e) -> tree_ok (f_areas f').
Proof.
  intros Hf Ht H. apply remove_cases in H as [[-> _]|(a & o & b & Ha & Hb & Hc & -> & ->)]; [done| |done].
  cbn [f_bump f_with_area f_areas]. eapply tree_sub; [exact Ht|by rewrite insert_length|by apply delete_edges].
Qed.

Lemma clone_cases f id x y id2 x2 y2 f' e : fun_ok f -> bf_clone types f id x y id2 x2 y2 = (f', e) ->
  (f' = f /\ is_Some e) \/
  (exists k, is_Some e /\ f' = BFun (f_areas f ++ replicate k shrink_area) (S (f_next f)) (f_gen f)) \/
  exists a2 k b y2', (f_areas f ++ replicate k shrink_area) !! id2 = Some a2 /\ space_at a2 x2 y2' (b_rows b) = true /\ 1 <= b_rows b /\
    b_id b = S (f_next f) /\ (forall s, s ∈ block_subs b -> length (f_areas f) <= s < length (f_areas f) + k) /\ e = None /\
    f' = BFun (<[id2 := set_block_at a2 x2 y2' b]> (f_areas f ++ replicate k shrink_area)) (S (f_next f)) (S (f_gen f)).
Proof.
  intros Hf. unfold bf_clone. destruct (f_areas f !! id) as [a|] eqn:Ha; [|intros [= <- <-]; left; eauto].
  destruct (ref_at a x y) as [[b o]|] eqn:Hr; [|intros [= <- <-]; left; eauto].
  assert (area_ok a) as Hok by (destruct Hf as (H & _); by eapply H). apply ref_at_ok in Hr as [Hb _]; [|done].
  assert (1 <= b_rows b) as Hrow by (destruct Hok as (_ & H & _); by eapply H).
  set (b1 := match types (b_typ (b_with_id b (S (f_next f)))) with Some t => touch_contains t (b_with_id b (S (f_next f))) | None => b_with_id b (S (f_next f)) end).
  assert (b_rows b1 = b_rows b /\ b_id b1 = S (f_next f)) as [Hr1 Hi1] by (unfold b1; destruct (types _); done).
  destruct (create_areas_eq (BFun (f_areas f) (S (f_next f)) (f_gen f)) b1) as (k & c & -> & Hc). cbn [f_areas f_next f_gen] in *.
  destruct ((f_areas f ++ replicate k shrink_area) !! id2) as [a2|] eqn:Ha2; [|intros [= <- <-]; right; left; exists k; eauto].
  destruct (space_at a2 x2 (grab_y y o.2 y2) (b_rows (b_with_contains b1 c))) eqn:Hs; [|intros [= <- <-]; right; left; exists k; eauto].
  intros [= <- <-]. right. right. exists a2, k, (b_with_contains b1 c), (grab_y y o.2 y2). cbn [b_with_contains b_rows b_id] in *. split_and!; try done. lia.
Qed.
Lemma clone_ok f id x y id2 x2 y2 f' e : fun_ok f -> bf_clone types f id x y id2 x2 y2 = (f', e) -> fun_ok f'.
Proof.
  intros Hf H. apply clone_cases in H as [[-> _]|[(k & _ & ->)|(a2 & k & b & y2' & Ha & Hs & Hr & Hid & Hc & -> & ->)]]; [done| | |done].
  - apply grow_ok; [done|lia].
  - by apply place_new.
Qed.
Lemma grow_tree fs k : tree_ok fs -> tree_ok (fs ++ replicate k shrink_area).
Proof. intros H. eapply tree_sub; [exact H|rewrite app_length; lia|]. intros i s E. by eapply edge_grow. Qed.
Lemma clone_tree f id x y id2 x2 y2 f' e : fun_ok f -> tree_ok (f_areas f) -> id2 < length (f_areas f) ->
  bf_clone types f id x y id2 x2 y2 = (f', e) -> tree_ok (f_areas f').
Proof.
  intros Hf Ht Hid2 H.
  apply clone_cases in H as [[-> _]|[(k & _ & ->)|(a2 & k & b & y2' & Ha & Hs & Hr & Hid & Hc & -> & ->)]]; [done| | |done]; cbn [f_areas].
  - by apply grow_tree.
  - apply place_new_tree; [done|done|]. by rewrite lookup_app_l in Ha.
Qed.

Lemma shift_same b r out b' : b_shift b r out = Some b' -> b_id b' = b_id b /\ b_rows b' = b_rows b /\ b_contains b' = b_contains b.
Proof.
  unfold b_shift. destruct (b_rows b <=? 1); [by intros [= ->]|]. destruct out; intros H; apply bind_Some in H as (v & _ & [= <-]); done.
Qed.
Lemma shift_cases f id x y r out f' : fun_ok f -> bf_shift f id x y r out = Some f' ->
  f' = f \/ exists a o b b', f_areas f !! id = Some a /\ a_blocks a !! o = Some b /\ covers o b (x, y) /\ b_shift b r out = Some b' /\
    f' = f_bump (f_with_area f id (a_with_blocks a (<[o := b']> (a_blocks a)))).
Proof.
  intros Hf. unfold bf_shift. destruct (f_areas f !! id) as [a|] eqn:Ha; cbn [mbind option_bind]; [|intros [= <-]; by left].
  destruct (ref_at a x y) as [[b o]|] eqn:Hr; cbn [mbind option_bind]; [|intros [= <-]; by left].
  intros H. apply bind_Some in H as (b' & Hb' & [= <-]). right. assert (area_ok a) as Hok by (destruct Hf as (H & _); by eapply H).
  apply ref_at_ok in Hr as [Hb Hc]; [|done]. exists a, o, b, b'. split_and!; try done. unfold f_with_area, a_with_blocks. do 3 f_equal. f_equal.
  destruct Hok as (Hap & _ & ->). apply map_eq. intros c.
  apply shift_same in Hb' as (_ & Hrow & _).
  assert (apart (<[o:=b']> (a_blocks a))) as Hap'.
  { intros o1 o2 b1 b2 c' H1 H2 C1 C2. apply lookup_insert_Some in H1 as [[<- <-]|[N1 H1]], H2 as [[<- <-]|[N2 H2]]; [done| | |by eapply Hap].
    - eapply (Hap _ _ b b2 c'); try done. by unfold covers in *; rewrite Hrow in C1.
    - eapply (Hap _ _ b1 b c'); try done. by unfold covers in *; rewrite Hrow in C2. }
  apply option_eq. intros p. rewrite !origin_map_lookup by done. split.
  - intros (b0 & H0 & Hc0). destruct (decide (p = o)) as [->|N].
    + exists b'. rewrite lookup_insert. split; [done|]. unfold covers in *. rewrite Hrow. rewrite Hb in H0. by injection H0 as <-.
    + exists b0. by rewrite lookup_insert_ne.
  - intros (b0 & H0 & Hc0). apply lookup_insert_Some in H0 as [[<- <-]|[N H0]].
    + exists b. split; [done|]. unfold covers in *. by rewrite Hrow in Hc0.
    + by exists b0.
Qed.
Lemma replace_area_ok a o b b' : area_ok a -> a_blocks a !! o = Some b -> b_rows b' = b_rows b -> area_ok (a_with_blocks a (<[o := b']> (a_blocks a))).
Proof.
  intros (Hap & Hr & Ho) Hb Hrow. apply area_ok_with.
  - intros o1 o2 b1 b2 c' H1 H2 C1 C2. apply lookup_insert_Some in H1 as [[<- <-]|[N1 H1]], H2 as [[<- <-]|[N2 H2]]; [done| | |by eapply Hap].
    + eapply (Hap _ _ b b2 c'); try done. by unfold covers in *; rewrite Hrow in C1.
    + eapply (Hap _ _ b1 b c'); try done. by unfold covers in *; rewrite Hrow in C2.
  - apply insert_rows; [done|]. rewrite Hrow. by eapply Hr.
Qed.
Lemma shift_ok f id x y r out f' : fun_ok f -> bf_shift f id x y r out = Some f' -> fun_ok f'.
Proof.
  intros Hf H. apply shift_cases in H as [->|(a & o & b & b' & Ha & Hb & Hc & Hs & ->)]; [done| |done]. apply gen_ok.
  assert (area_ok a) as Hok by (destruct Hf as (H & _); by eapply H). apply shift_same in Hs as (Hi & Hr & Hct).
  eapply remove_blocks_ok; [done|done|by eapply replace_area_ok|]. intros n. cbn [a_with_blocks a_blocks]. by erewrite bcnt_replace.
Qed.
Lemma shift_tree f id x y r out f' : fun_ok f -> tree_ok (f_areas f) -> bf_shift f id x y r out = Some f' -> tree_ok (f_areas f').
Proof.
  intros Hf Ht H. apply shift_cases in H as [->|(a & o & b & b' & Ha & Hb & Hc & Hs & ->)]; [done| |done].
  cbn [f_bump f_with_area f_areas]. eapply tree_sub; [exact Ht|by rewrite insert_length|]. eapply edge_upd_sub; [done|].
  intros o' b0 H. cbn [a_with_blocks a_blocks] in H. apply lookup_insert_Some in H as [[<- <-]|[N H]]; [|by exists o', b0].
  exists o, b. split; [done|]. apply shift_same in Hs as (_ & _ & Hct). unfold block_subs. by rewrite Hct.
Qed.

(** ** move *)
Lemma sub_areas_elem a s : s ∈ sub_areas a <-> exists o b, a_blocks a !! o = Some b /\ s ∈ block_subs b.
Proof.
  unfold sub_areas. rewrite elem_of_list_join. setoid_rewrite elem_of_list_fmap. split.
  - intros (l & Hs & b & -> & Hb). apply elem_of_list_fmap in Hb as ([o b'] & -> & Hb). apply elem_of_map_to_list in Hb. eauto.
  - intros (o & b & Hb & Hs). exists (block_subs b). split; [done|]. exists b. split; [done|]. apply elem_of_list_fmap.
    exists (o, b). split; [done|]. by apply elem_of_map_to_list.
Qed.
Lemma all_subs_ok fs : forall fu dq l, all_subs fu fs dq = Some l ->
  (forall i, i ∈ dq -> i ∈ l) /\ (forall i s, i ∈ l -> edge fs i s -> s ∈ l).
Proof.
  clear. intros fu. induction fu as [|fu IH]; intros dq l H; cbn [all_subs] in H; [done|]. destruct dq as [|d dq].
  - injection H as <-. split; [done|]. intros i s Hi. by apply elem_of_nil in Hi.
  - apply bind_Some in H as (a & Ha & H). apply bind_Some in H as (l' & Hl & [= <-]). apply IH in Hl as [H1 H2]. split.
    + intros i Hi. apply elem_of_cons in Hi as [->|Hi]; [left|]. right. apply H1. apply elem_of_app. by left.
    + intros i s Hi E. right. apply elem_of_cons in Hi as [->|Hi]; [|by eapply H2]. apply H1. apply elem_of_app. right.
      destruct E as (a' & o & b & Ha' & Hb & Hs). rewrite Ha in Ha'. injection Ha' as <-. apply sub_areas_elem. eauto.
Qed.
Lemma list_bound (g : nat -> nat) (l : list nat) : exists K, forall i, i ∈ l -> g i < K.
Proof.
  clear. induction l as [|x l [K IH]]; [exists 0; intros i H; by apply elem_of_nil in H|]. exists (Nat.max K (S (g x))).
  intros i H. apply elem_of_cons in H as [->|H]; [lia|]. apply IH in H. lia.
Qed.
Lemma attach_tree fs fs' id2 (D : list nat) : tree_ok fs -> length fs' = length fs -> (forall i s, i ∈ D -> edge fs i s -> s ∈ D) -> id2 ∉ D ->
  (forall i s, edge fs' i s -> edge fs i s \/ (i = id2 /\ s ∈ D /\ s < length fs)) -> tree_ok fs'.
Proof.
  intros (rank & Ht) Hl Hcl Hid He. destruct (list_bound rank D) as [K HK].
  exists (fun i => if decide (i ∈ D) then rank i else K + rank i). intros i s E. rewrite Hl. apply He in E as [E|(-> & Hs & Hlt)].
  - destruct (Ht _ _ E) as [H1 H2]. split; [done|]. destruct (decide (i ∈ D)) as [Hi|Hi].
    + rewrite decide_True by (by eapply Hcl). done.
    + destruct (decide (s ∈ D)) as [Hs|Hs]; [|lia]. apply HK in Hs. lia.
  - split; [done|]. rewrite decide_True, decide_False by done. apply HK in Hs. lia.
Qed.

Lemma restore_area a o b : area_ok a -> a_blocks a !! o = Some b ->
  set_block_at (a_with_blocks a (delete o (a_blocks a))) o.1 o.2 b = a.
Proof.
  intros (_ & _ & Ho) Hb. unfold set_block_at, a_with_blocks. cbn [a_blocks a_size a_shrink a_header].
  rewrite <- surjective_pairing, insert_delete by done. destruct a; cbn in *. congruence.
Qed.
Lemma move_cases f id x y id2 x2 y2 f' e : fun_ok f -> bf_move fuel f id x y id2 x2 y2 = Some (f', e) ->
  (is_Some e /\ f_areas f' = f_areas f /\ f_next f' = f_next f) \/
  exists a o b D, f_areas f !! id = Some a /\ a_blocks a !! o = Some b /\ covers o b (x, y) /\
    all_sub_areas_of fuel (f_areas f) b = Some D /\ id2 ∉ D /\
    ((e = Some (UnknownArea id2) /\ f_areas f !! id2 = None /\ f' = f_with_area f id (a_with_blocks a (delete o (a_blocks a)))) \/
     exists a2 y2', e = None /\ <[id := a_with_blocks a (delete o (a_blocks a))]> (f_areas f) !! id2 = Some a2 /\ space_at a2 x2 y2' (b_rows b) = true /\
       f' = BFun (<[id2 := set_block_at a2 x2 y2' b]> (<[id := a_with_blocks a (delete o (a_blocks a))]> (f_areas f))) (f_next f) (S (f_gen f))).
Proof.
  intros Hf. unfold bf_move. intros H. apply bind_Some in H as (circ & Hcirc & H).
  destruct circ; [injection H as <- <-; left; eauto|].
  destruct (f_areas f !! id) as [a|] eqn:Ha; [|injection H as <- <-; left; eauto].
  assert (area_ok a) as Hok by (destruct Hf as (H' & _); by eapply H').
  destruct (area_remove_at a x y) as [[a' [b o]]|] eqn:Hr; [|injection H as <- <-; left; eauto].
  apply area_remove_inv in Hr as (Hb & Hc & ->); [|done].
  cbn [mbind option_bind] in Hcirc. rewrite (proj2 (ref_at_ok a x y b o Hok)) in Hcirc by done.
  apply bind_Some in Hcirc as (D & HD & Hbd). injection Hbd as Hbd. apply bool_decide_eq_false in Hbd.
  cbn [f_with_area f_areas f_next f_gen f_bump] in H.
  assert (forall i, <[id := a_with_blocks a (delete o (a_blocks a))]> (f_areas f) !! i = None -> f_areas f !! i = None) as Hnone.
  { intros i Hi. apply lookup_ge_None. apply lookup_ge_None in Hi. by rewrite insert_length in Hi. }
  destruct (<[id := a_with_blocks a (delete o (a_blocks a))]> (f_areas f) !! id2) as [a2|] eqn:Ha2.
  - destruct (space_at a2 x2 (grab_y y o.2 y2) (b_rows b)) eqn:Hs.
    + injection H as <- <-. right. exists a, o, b, D. split; [done|]. split; [done|]. split; [done|]. split; [done|]. split; [done|].
      right. exists a2, (grab_y y o.2 y2). done.
    + rewrite list_lookup_insert in H by (by eapply lookup_lt_Some).
      injection H as <- <-. left. split; [eauto|]. split; [|done]. cbn [f_areas f_with_area f_bump]. 
      rewrite list_insert_insert, restore_area by done.
      by apply list_insert_id.
  - injection H as <- <-. right. exists a, o, b, D. split; [done|]. split; [done|]. split; [done|]. split; [done|]. split; [done|].
    left. split; [done|]. split; [by apply Hnone|done].
Qed.
Lemma same_ok f f' : f_areas f' = f_areas f -> f_next f' = f_next f -> fun_ok f -> fun_ok f'.
Proof. unfold fun_ok. by intros -> ->. Qed.
Lemma move_ok f id x y id2 x2 y2 f' e : fun_ok f -> bf_move fuel f id x y id2 x2 y2 = Some (f', e) -> fun_ok f'.
Proof.
  intros Hf H. apply move_cases in H as [(_ & Ea & En)|(a & o & b & D & Ha & Hb & Hc & HD & Hn & H)]; [by eapply same_ok| |done].
  assert (area_ok a) as Hok by (destruct Hf as (H' & _); by eapply H').
  pose proof (delete_fun_ok _ _ _ _ _ Hf Ha Hb) as Hd. destruct H as [(_ & _ & ->)|(a2 & y2' & -> & Ha2 & Hs & ->)]; [done|].
  assert (area_ok a2) as Hok2 by (destruct Hd as (H' & _); by eapply H').
  assert (1 <= b_rows b) as Hr by (destruct Hok as (_ & H & _); by eapply H).
  destruct (set_block_ok a2 x2 y2' b Hok2 Hr Hs) as (Hok' & Hnone & Hcnt).
  pose proof Hd as (Hda & Hd1 & Hd0). cbn [f_with_area f_areas f_next] in *.
  assert (forall n, fcnt (<[id2 := set_block_at a2 x2 y2' b]> (<[id := a_with_blocks a (delete o (a_blocks a))]> (f_areas f))) n = fcnt (f_areas f) n) as E.
  { intros n. pose proof (fcnt_insert _ _ _ (set_block_at a2 x2 y2' b) n Ha2) as E2. rewrite Hcnt in E2.
    pose proof (fcnt_insert _ _ _ (a_with_blocks a (delete o (a_blocks a))) n Ha) as E1. change (a_blocks (a_with_blocks a (delete o (a_blocks a)))) with (delete o (a_blocks a)) in E1.
    rewrite (bcnt_delete _ _ _ n Hb) in E1. lia. }
  split; [|split]; cbn [f_areas f_next].
  - intros i c H. apply list_lookup_insert_Some in H as [(<- & <- & _)|(_ & H)]; [done|by eapply Hda].
  - intros n. rewrite E. by destruct Hf as (_ & H & _).
  - intros n. rewrite E. destruct Hf as (_ & _ & H); apply H.
Qed.
Lemma move_tree f id x y id2 x2 y2 f' e : fun_ok f -> tree_ok (f_areas f) -> bf_move fuel f id x y id2 x2 y2 = Some (f', e) -> tree_ok (f_areas f').
Proof.
  intros Hf Ht H. apply move_cases in H as [(_ & -> & En)|(a & o & b & D & Ha & Hb & Hc & HD & Hn & H)]; [done| |done].
  destruct H as [(_ & _ & ->)|(a2 & y2' & -> & Ha2 & Hs & ->)]; cbn [f_with_area f_areas].
  - eapply tree_sub; [exact Ht|by rewrite insert_length|by apply delete_edges].
  - apply all_subs_ok in HD as [HD1 HD2]. eapply (attach_tree _ _ id2 D); [exact Ht|by rewrite !insert_length|done|done|].
    intros i s E. apply (edge_upd _ _ _ _ _ _ Ha2) in E as [E|(-> & o' & b' & Hb' & Hs')].
    + left. by eapply delete_edges.
    + cbn [set_block_at a_with_blocks a_blocks] in Hb'. apply lookup_insert_Some in Hb' as [[_ <-]|[_ Hb']].
      * right. split_and!; [done|by apply HD1|]. destruct Ht as (rank & Ht). destruct (Ht id s); [by exists a, o, b|done].
      * left. eapply delete_edges; [done|]. by exists a2, o', b'.
Qed.

(** ** Loads that are moved and split *)
Definition warp (g : Z -> Z) (dy : Z) (p : block * (Z * Z)) : block * (Z * Z) := (p.1, (g p.2.1, (p.2.2 + dy)%Z)).
Lemma warp_ok g dy l : (forall x x', g x = g x' -> x = x') -> load_ok l -> load_ok (warp g dy <$> l).
Proof.
  intros Hg (Hn & Hm & Hr). split_and!.
  - rewrite <- list_fmap_compose. assert (snd ∘ warp g dy = (fun o : Z * Z => (g o.1, (o.2 + dy)%Z)) ∘ snd) as -> by done.
    rewrite list_fmap_compose. apply NoDup_fmap_2; [|done]. intros [x y] [x' y'] [= H1 H2]. f_equal; [by apply Hg|lia].
  - intros p q Hp Hq ([cx cy] & [C1 C2] & [C3 C4]). apply elem_of_list_fmap in Hp as (p' & -> & Hp), Hq as (q' & -> & Hq).
    cbn [warp fst snd] in *. assert (p'.2.1 = q'.2.1) as E by (apply Hg; congruence).
    assert (p'.2 = q'.2) as ->; [|done]. apply Hm; [done|done|]. exists (p'.2.1, (cy - dy)%Z). split; (split; cbn [fst snd]; [done|lia]).
  - intros p Hp. apply elem_of_list_fmap in Hp as (p' & -> & Hp). exact (Hr p' Hp).
Qed.
Lemma warp_cnt g dy l n : lcnt (warp g dy <$> l) n = lcnt l n.
Proof. by apply lcnt_fmap. Qed.
Lemma load_move_warp l dx dy : load_move l dx dy = warp (fun x => (x + dx)%Z) dy <$> l.
Proof. done. Qed.
Lemma load_move_ok l dx dy : load_ok l -> load_ok (load_move l dx dy).
Proof. intros H. rewrite load_move_warp. apply warp_ok; [|done]. intros x x' E. lia. Qed.
Lemma load_move_cnt l dx dy n : lcnt (load_move l dx dy) n = lcnt l n.
Proof. rewrite load_move_warp. apply warp_cnt. Qed.
Lemma load_move_blocks l dx dy b o : (b, o) ∈ load_move l dx dy -> exists o', (b, o') ∈ l.
Proof. intros H. apply elem_of_list_fmap in H as ([b' o'] & [= -> ->] & H). eauto. Qed.
Lemma has_space_move a l dx dy : has_space a l dx dy = has_space a (load_move l dx dy) 0 0.
Proof.
  unfold has_space, load_move. induction l as [|p l IH]; [done|]. rewrite fmap_cons. cbn [forallb fst snd]. rewrite IH. by rewrite !Z.add_0_r.
Qed.
Lemma try_fit_ok a l : forall offs l', try_fit a l offs = Some l' -> exists dx dy, l' = load_move l dx dy /\ has_space a l' 0 0 = true.
Proof.
  induction offs as [|o offs IH]; intros l' H; cbn [try_fit] in H; [done|]. destruct (has_space a l o.1 o.2) eqn:Hs; [|by apply IH].
  injection H as <-. exists o.1, o.2. split; [done|]. by rewrite <- has_space_move.
Qed.
Lemma load_sort_elem l p : p ∈ load_sort l <-> p ∈ l.
Proof. by rewrite load_sort_perm. Qed.
Lemma load_sort_ok l : load_ok l -> load_ok (load_sort l).
Proof. apply load_ok_perm. symmetry. apply load_sort_perm. Qed.
Lemma load_sort_cnt l n : lcnt (load_sort l) n = lcnt l n.
Proof. apply lcnt_perm, load_sort_perm. Qed.

Lemma filter_pos_nodup (P : block * (Z * Z) -> Prop) {HP : forall p, Decision (P p)} (l : list (block * (Z * Z))) : NoDup l.*2 -> NoDup (filter P l).*2.
Proof.
  induction l as [|p l IH]; [done|]. rewrite fmap_cons. intros [H1 H2]%NoDup_cons. rewrite filter_cons. destruct (decide (P p)); [|by apply IH].
  rewrite fmap_cons. apply NoDup_cons. split; [|by apply IH]. intros H. apply H1. apply elem_of_list_fmap in H as (q & E & Hq).
  apply elem_of_list_filter in Hq as [_ Hq]. apply elem_of_list_fmap. by exists q.
Qed.
Lemma join_cells_nodup (h : block * (Z * Z) -> list (Z * Z)) l : load_ok l -> (forall p, NoDup (h p)) ->
  (forall p c, c ∈ h p -> covers p.2 p.1 c) -> NoDup (mjoin (h <$> l)).
Proof.
  intros Hl Hh Hc. induction l as [|p l IH]; [constructor|]. rewrite fmap_cons. cbn [mjoin list_join].
  destruct Hl as (Hn & Hm & Hr). rewrite fmap_cons in Hn. apply NoDup_cons in Hn as [Hn1 Hn2]. apply NoDup_app. split_and!.
  - apply Hh.
  - intros c C1 C2. apply elem_of_list_join in C2 as (cs & C2 & Hcs). apply elem_of_list_fmap in Hcs as (q & -> & Hq).
    apply Hn1. apply elem_of_list_fmap. exists q. split; [|done]. apply Hm; [left|by right|]. exists c. split; by apply Hc.
  - apply IH. split_and!; [done| |]; intros; [apply Hm; [by right|by right|done]|apply Hr; by right].
Qed.
Lemma port_rows_nodup rows ps : NoDup (port_rows rows ps).
Proof. unfold port_rows. apply NoDup_filter, NoDup_seq. Qed.
Lemma connected_nodup l xs : load_ok l -> NoDup (connected_inputs l xs).
Proof.
  intros (Hn & Hm & Hr). unfold connected_inputs. apply join_cells_nodup.
  - split_and!; [by apply filter_pos_nodup| |].
    + intros p q Hp Hq. apply elem_of_list_filter in Hp as [_ Hp], Hq as [_ Hq]. by apply Hm.
    + intros p Hp. apply elem_of_list_filter in Hp as [_ Hp]. by apply Hr.
  - intros p. apply NoDup_fmap_2; [intros r r' [=]; lia|]. apply NoDup_filter, port_rows_nodup.
  - intros p c H. apply elem_of_list_fmap in H as (r & -> & H). apply elem_of_list_filter in H as [_ H]. apply port_rows_elem in H as [H _].
    split; cbn [fst snd]; [done|lia].
Qed.
Lemma connected_x l xs c : c ∈ connected_inputs l xs -> c.1 = (xs + 1)%Z.
Proof.
  unfold connected_inputs. intros H. apply elem_of_list_join in H as (cs & H & Hcs). apply elem_of_list_fmap in Hcs as (p & -> & Hp).
  apply elem_of_list_filter in Hp as [E _]. apply elem_of_list_fmap in H as (r & -> & _). done.
Qed.

Definition fill_step (t : btype) (ys : Z) (st : nat * list (block * (Z * Z))) (c : Z * Z) : nat * list (block * (Z * Z)) :=
  if (c.2 =? ys)%Z then st else (S st.1, st.2 ++ [(instanciate_block t None (S st.1), c)]).
Lemma fill_fold t ys cs : forall next l, exists fl, foldl (fill_step t ys) (next, l) cs = (next + length fl, l ++ fl) /\
  fl.*2 = filter (fun c : Z * Z => c.2 <> ys) cs /\ (forall p, p ∈ fl -> exists i, p.1 = instanciate_block t None i) /\
  (forall n, lcnt fl n = if decide (next < n <= next + length fl) then 1 else 0).
Proof.
  induction cs as [|c cs IH]; intros next l; cbn [foldl].
  - exists []. rewrite app_nil_r, Nat.add_0_r. split_and!; [done|done| |].
    + intros p H. by apply elem_of_nil in H.
    + intros n. rewrite decide_False by lia. done.
  - unfold fill_step at 2. cbn [fst snd]. destruct (Z.eqb_spec c.2 ys) as [E|E].
    + destruct (IH next l) as (fl & H1 & H2 & H3 & H4). exists fl. split_and!; [done| |done|done].
      rewrite filter_cons, decide_False; [done|]. by intros H.
    + destruct (IH (S next) (l ++ [(instanciate_block t None (S next), c)])) as (fl & H1 & H2 & H3 & H4).
      exists ((instanciate_block t None (S next), c) :: fl). split_and!.
      * rewrite H1, <- app_assoc. cbn [length app]. by rewrite Nat.add_succ_r.
      * rewrite fmap_cons, filter_cons, decide_True by done. by rewrite H2.
      * intros p Hp. apply elem_of_cons in Hp as [->|Hp]; [by eexists|by apply H3].
      * intros n. rewrite lcnt_cons, H4. unfold one. cbn [fst instanciate_block touch_contains b_with_contains b_id length].
        destruct (decide (S next = n)), (decide (S next < n <= S next + length fl)), (decide (next < n <= next + S (length fl))); lia.
Qed.
Lemma app_load_ok l l' : load_ok l -> load_ok l' -> (forall p q, p ∈ l -> q ∈ l' -> p.2 = q.2 \/ meets p q -> False) -> load_ok (l ++ l').
Proof.
  intros (Hn & Hm & Hr) (Hn' & Hm' & Hr') Hd. split_and!.
  - rewrite fmap_app. apply NoDup_app. split_and!; [done| |done]. intros c C1 C2. apply elem_of_list_fmap in C1 as (p & -> & Hp), C2 as (q & E & Hq).
    eapply Hd; [done|done|by left].
  - intros p q Hp Hq Hpq. apply elem_of_app in Hp as [Hp|Hp], Hq as [Hq|Hq]; [by apply Hm| | |by apply Hm'].
    + exfalso. eapply Hd; [done|done|by right].
    + exfalso. eapply Hd; [exact Hq|exact Hp|right]. destruct Hpq as (c & ? & ?). by exists c.
  - intros p Hp. apply elem_of_app in Hp as [Hp|Hp]; [by apply Hr|by apply Hr'].
Qed.
Definition widen (xs x : Z) : Z := if (xs <? x)%Z then (x + 1)%Z else x.
Lemma split_load_ok l xs ys t next n l' : load_ok l -> (forall ty, t = Some ty -> t_rows ty = 1) ->
  split_load l xs ys t next = (n, l') ->
  load_ok l' /\ next <= n /\
  (forall k, lcnt l' k = lcnt l k + if decide (next < k <= n) then 1 else 0) /\
  (forall b o, (b, o) ∈ l' -> (exists o', (b, o') ∈ l /\ o = (widen xs o'.1, o'.2)) \/ exists ty i, t = Some ty /\ b = instanciate_block ty None i).
Proof.
  intros Hl Ht. unfold split_load.
  assert ((λ p : block * (Z * Z), (p.1, (if (xs <? p.2.1)%Z then (p.2.1 + 1)%Z else p.2.1, p.2.2))) <$> l = warp (widen xs) 0 <$> l) as ->.
  { apply list_fmap_ext. intros i p _. unfold warp, widen. by rewrite Z.add_0_r. }
  assert (load_ok (warp (widen xs) 0 <$> l)) as Hw.
  { apply warp_ok; [|done]. intros x x'. unfold widen. destruct (Z.ltb_spec xs x), (Z.ltb_spec xs x'); lia. }
  assert (forall b o, (b, o) ∈ warp (widen xs) 0 <$> l -> exists o', (b, o') ∈ l /\ o = (widen xs o'.1, o'.2)) as Hin.
  { intros b o H. apply elem_of_list_fmap in H as ([b' o'] & [= -> ->] & H). cbn [fst snd] in *. exists o'. by rewrite Z.add_0_r. }
  destruct t as [ty|].
  - fold (fill_step ty ys). destruct (fill_fold ty ys (connected_inputs l xs) next (warp (widen xs) 0 <$> l)) as (fl & -> & H2 & H3 & H4).
    intros [= <- <-]. specialize (Ht _ eq_refl). split_and!.
    + apply load_sort_ok, app_load_ok; [done| |].
      * split_and!.
        -- rewrite H2. apply NoDup_filter. by apply connected_nodup.
        -- intros p q Hp Hq (c & [C1 C2] & [C3 C4]). destruct (H3 _ Hp) as (i & E1), (H3 _ Hq) as (j & E2). rewrite E1 in C2. rewrite E2 in C4.
           cbn [instanciate_block touch_contains b_with_contains b_rows] in *. rewrite Ht in *. destruct p as [? [? ?]], q as [? [? ?]]; cbn [fst snd] in *.
           f_equal; [congruence|lia].
        -- intros p Hp. destruct (H3 _ Hp) as (i & ->). cbn [instanciate_block touch_contains b_with_contains b_rows]. lia.
      * intros [b o] q Hp Hq Hor. apply Hin in Hp as (o' & Hp & ->).
        assert (q.2.1 = xs + 1)%Z as Hx.
        { apply (connected_x l). assert (q.2 ∈ fl.*2) as Hf by (apply elem_of_list_fmap; by exists q). rewrite H2 in Hf.
          by apply elem_of_list_filter in Hf as [_ Hf]. }
        assert (widen xs o'.1 = q.2.1) as E.
        { destruct Hor as [E|(c & [C1 _] & [C2 _])]; [by rewrite <- E|]. cbn [fst snd] in *. congruence. }
        unfold widen in E. destruct (Z.ltb_spec xs o'.1); lia.
    + lia.
    + intros k. rewrite load_sort_cnt, lcnt_app, warp_cnt, H4. done.
    + intros b o H. rewrite load_sort_elem in H; apply elem_of_app in H as [H|H]; [left; by apply Hin|]. right. destruct (H3 _ H) as (i & E). exists ty, i. done.
  - intros [= <- <-]. split_and!.
    + by apply load_sort_ok.
    + lia.
    + intros k. rewrite load_sort_cnt, warp_cnt, decide_False by lia. lia.
    + intros b o H. rewrite load_sort_elem in H. left. by apply Hin.
Qed.
Lemma normalize_ok l l' o : load_ok l -> load_normalize l = (l', o) ->
  load_ok l' /\ (forall n, lcnt l' n = lcnt l n) /\ (forall b o, (b, o) ∈ l' -> exists o', (b, o') ∈ l).
Proof.
  intros Hl. unfold load_normalize. intros [= <- <-]. split_and!.
  - by apply load_sort_ok, load_move_ok.
  - intros n. by rewrite load_sort_cnt, load_move_cnt.
  - intros b o' H. rewrite load_sort_elem in H. by eapply load_move_blocks.
Qed.

(** ** Chains *)
Lemma chain_dom a x y s : area_ok a -> chain_at a x y = Some (Some s) -> forall p, p ∈ s -> is_Some (a_blocks a !! p).
Proof.
  intros Hok H p Hp. destruct (chain_at_ok a x y Hok) as (r & E & Hr). rewrite H in E. injection E as <-.
  destruct Hr as (o & b & Hb & _ & Hs). apply Hs in Hp. apply rtc_inv_r in Hp as [->|(q & _ & Hq)]; [by eexists|].
  by apply conn_dom in Hq as [? _].
Qed.
Lemma retrieve_cases f id x y r f' l : fun_ok f -> bf_retrieve f id x y r = Some (f', l) ->
  (f_areas f' = f_areas f /\ f_next f <= f_next f') \/
  exists a a', f_areas f !! id = Some a /\ area_ok a' /\ (forall n, bcnt (a_blocks a') n <= bcnt (a_blocks a) n) /\
    (forall o b, a_blocks a' !! o = Some b -> a_blocks a !! o = Some b) /\ f' = f_with_area f id a'.
Proof.
  intros Hf. unfold bf_retrieve. destruct (f_areas f !! id) as [a|] eqn:Ha; [|intros [= <- <-]; by left].
  assert (area_ok a) as Hok by (destruct Hf as (H' & _); by eapply H').
  intros H. apply bind_Some in H as ([s|] & Hs & H); [|injection H as <- <-; by left]. destruct r.
  - destruct (remove_load_ok a s Hok) as (a' & l' & E & Hok' & _ & _ & _ & Hbl & _ & _ & Hc); [by eapply chain_dom|].
    rewrite E in H. injection H as <- <-. right. exists a, a'. split_and!; try done.
    + intros n. rewrite Hc. lia.
    + intros o b Hb. by apply Hbl in Hb as [_ Hb].
  - unfold clone_load in H. match type of H with context [foldl ?g _ _] => set (stp := g) in H end.
    destruct (foldl stp (f_next f, []) (elements s)) as [n l'] eqn:E. injection H as <- <-. left. split; [done|]. cbn [f_next].
    assert (forall ps st, st.1 <= (foldl stp st ps).1) as Hm.
    { induction ps as [|p ps IH]; intros st; [done|]. cbn [foldl]. etransitivity; [|apply IH]. unfold stp. destruct (ref_at a p.1 p.2) as [[??]|]; cbn [fst]; lia. }
    specialize (Hm (elements s) (f_next f, [])). by rewrite E in Hm.
Qed.
Lemma retrieve_ok f id x y r f' l : fun_ok f -> bf_retrieve f id x y r = Some (f', l) -> fun_ok f'.
Proof.
  intros Hf H. apply retrieve_cases in H as [[E Hn]|(a & a' & Ha & Hok & Hc & _ & ->)]; [| |done].
  - destruct f' as [fs n g]. cbn [f_areas f_next] in *. subst fs. by apply next_ok.
  - by eapply remove_blocks_ok.
Qed.
Lemma retrieve_tree f id x y r f' l : fun_ok f -> tree_ok (f_areas f) -> bf_retrieve f id x y r = Some (f', l) -> tree_ok (f_areas f').
Proof.
  intros Hf Ht H. apply retrieve_cases in H as [[-> Hn]|(a & a' & Ha & Hok & Hc & Hsub & ->)]; [done| |done].
  cbn [f_with_area f_areas]. eapply tree_sub; [exact Ht|by rewrite insert_length|]. eapply edge_upd_sub; [done|]. intros o b Hb. exists o, b. split; [by apply Hsub|done].
Qed.

Lemma split_cases f id x y fl f' e : fun_ok f -> (forall t ty, fl = Some t -> types t = Some ty -> t_rows ty = 1) ->
  bf_split types f id x y fl = Some (f', e) ->
  (is_Some e /\ f_areas f' = f_areas f /\ f_next f <= f_next f') \/
  exists a a' , e = None /\ f_areas f !! id = Some a /\ area_ok a' /\ f_next f <= f_next f' /\
    (forall k, bcnt (a_blocks a') k = bcnt (a_blocks a) k + if decide (f_next f < k <= f_next f') then 1 else 0) /\
    (forall o b, a_blocks a' !! o = Some b -> (exists o', a_blocks a !! o' = Some b) \/
       exists t ty i, fl = Some t /\ types t = Some ty /\ b = instanciate_block ty None i) /\
    f_areas f' = <[id := a']> (f_areas f).
Proof.
  intros Hf Hfl. unfold bf_split. destruct (f_areas f !! id) as [a|] eqn:Ha; [|intros [= <- <-]; left; eauto].
  assert (area_ok a) as Hok by (destruct Hf as (H' & _); by eapply H').
  intros H. apply bind_Some in H as ([s|] & Hs & H); [|injection H as <- <-; left; eauto].
  destruct (remove_load_ok a s Hok) as (a' & l & E & Hok' & _ & _ & _ & Hbl & Hlok & Hl & Hc); [by eapply chain_dom|].
  rewrite E in H.
  assert (exists ot, (match fl with Some t => match types t with Some t0 => Some (Some t0) | None => None end | None => Some None end) = ot /\
     forall ty, ot = Some (Some ty) -> exists t, fl = Some t /\ types t = Some ty) as (ot & Eot & Hot).
  { eexists. split; [done|]. destruct fl as [t|]; [|done]. destruct (types t) as [ty'|] eqn:Et; [|done]. intros ty [= <-]. eauto. }
  rewrite Eot in H. destruct ot as [t|]; [|injection H as <- <-; left; eauto].
  destruct (split_load l x y t (f_next f)) as [n l'] eqn:El.
  apply split_load_ok in El as (Hlok' & Hn & Hcnt & Hin); [|done|].
  2:{ intros ty ->. destruct (Hot _ eq_refl) as (t & -> & Et). by eapply Hfl. }
  destruct (has_space a' l' 0 0) eqn:Hsp; injection H as <- <-; [|left; eauto].
  right. destruct (place_ok a' l' Hok' Hlok' Hsp) as [Hok2 Hc2]. exists a, (set_blocks_from a' l'). split_and!; try done.
  - intros k. rewrite Hc2, Hcnt, Hc. cbn [f_bump f_with_area f_next]. lia.
  - intros o b Hb. cbn [set_blocks_from a_with_blocks a_blocks] in Hb. fold (put_load (a_blocks a') l') in Hb.
    apply put_load_lookup in Hb as [Hb|[_ Hb]]; [| |by destruct Hlok'].
    + apply Hin in Hb as [(o' & Hb & _)|(ty & i & -> & ->)].
      * left. exists o'. by apply Hl in Hb as [_ Hb].
      * right. destruct (Hot _ eq_refl) as (t & -> & Et). by exists t, ty, i.
    + left. exists o. by apply Hbl in Hb as [_ Hb].
Qed.
Lemma split_ok f id x y fl f' e : fun_ok f -> (forall t ty, fl = Some t -> types t = Some ty -> t_rows ty = 1) ->
  bf_split types f id x y fl = Some (f', e) -> fun_ok f'.
Proof.
  intros Hf Hfl H. apply split_cases in H as [(_ & E & Hn)|(a & a' & -> & Ha & Hok & Hn & Hc & _ & E)]; [| |done|done].
  - destruct f' as [fs n g]. cbn [f_areas f_next] in *. subst fs. by apply next_ok.
  - destruct f' as [fs n g]. cbn [f_areas f_next] in *. subst fs.
    assert (forall k, f_next f < k -> bcnt (a_blocks a) k = 0) as H0.
    { intros k Hk. destruct Hf as (_ & _ & H0). specialize (H0 k Hk). pose proof (fcnt_ge _ _ _ k Ha). lia. }
    eapply upd_ok; [done|done|done|done| | |]; intros k Hk; rewrite Hc.
    + rewrite decide_False by lia. lia.
    + rewrite H0 by lia. destruct (decide _); lia.
    + rewrite H0, decide_False by lia. done.
Qed.
Lemma split_tree f id x y fl f' e : fun_ok f -> tree_ok (f_areas f) ->
  (forall t ty, fl = Some t -> types t = Some ty -> t_rows ty = 1 /\ t_areas ty = 0) ->
  bf_split types f id x y fl = Some (f', e) -> tree_ok (f_areas f').
Proof.
  intros Hf Ht Hfl H. apply split_cases in H as [(_ & -> & Hn)|(a & a' & -> & Ha & Hok & Hn & _ & Hsub & ->)]; [done| |done|].
  2:{ intros t ty E1 E2. by destruct (Hfl _ _ E1 E2). }
  eapply tree_sub; [exact Ht|by rewrite insert_length|]. intros i s E. apply (edge_upd _ _ _ _ _ _ Ha) in E as [E|(-> & o & b & Hb & Hs)]; [done|].
  apply Hsub in Hb as [(o' & Hb)|(t & ty & i & -> & Et & ->)]; [by exists a, o', b|]. exfalso. destruct (Hfl _ _ eq_refl Et) as [_ E].
  unfold block_subs, instanciate_block, touch_contains in Hs. rewrite E in Hs. cbn in Hs. by apply elem_of_nil in Hs.
Qed.

Lemma load_contains_ok fs l id2 : load_contains fuel fs l id2 = Some false ->
  exists D : list nat, id2 ∉ D /\ (forall i s, i ∈ D -> edge fs i s -> s ∈ D) /\ (forall p s, p ∈ l -> s ∈ block_subs p.1 -> s ∈ D).
Proof.
  unfold load_contains. intros H. apply bind_Some in H as (ls & Hls & H). injection H as H. apply bool_decide_eq_false in H.
  exists (mjoin ls). split; [done|]. apply mapM_Some in Hls. split.
  - intros i s Hi E. apply elem_of_list_join in Hi as (D & Hi & HD). apply elem_of_list_join. exists D. split; [|done].
    apply elem_of_list_lookup in HD as (k & HD). apply Forall2_lookup_r with (1 := Hls) in HD as (p & _ & HD).
    apply all_subs_ok in HD as [_ HD]. by eapply HD.
  - intros p s Hp Hs. apply elem_of_list_lookup in Hp as (k & Hp). apply Forall2_lookup_l with (1 := Hls) in Hp as (D & HDk & HD).
    apply elem_of_list_join. exists D. split; [|by eapply elem_of_list_lookup_2]. apply all_subs_ok in HD as [HD _]. by apply HD.
Qed.

Lemma movechain_cases f id x y id2 x2 y2 f' e : fun_ok f -> bf_move_chain fuel f id x y id2 x2 y2 = Some (f', e) ->
  f_next f' = f_next f /\
  ((is_Some e /\ f_areas f' = f_areas f) \/
   (e = None /\ id2 = id /\ exists a a', f_areas f !! id = Some a /\ area_ok a' /\ f_areas f' = <[id := a']> (f_areas f) /\
     (forall k, bcnt (a_blocks a') k = bcnt (a_blocks a) k) /\ (forall o b, a_blocks a' !! o = Some b -> exists o', a_blocks a !! o' = Some b)) \/
   (e = None /\ id2 <> id /\ exists a a' a2 a2' D, f_areas f !! id = Some a /\ f_areas f !! id2 = Some a2 /\ area_ok a' /\ area_ok a2' /\
     f_areas f' = <[id2 := a2']> (<[id := a']> (f_areas f)) /\
     (forall k, bcnt (a_blocks a') k + bcnt (a_blocks a2') k = bcnt (a_blocks a) k + bcnt (a_blocks a2) k) /\
     id2 ∉ (D : list nat) /\ (forall i s, i ∈ D -> edge (f_areas f) i s -> s ∈ D) /\
     (forall o b, a_blocks a' !! o = Some b -> a_blocks a !! o = Some b) /\
     (forall o b, a_blocks a2' !! o = Some b -> a_blocks a2 !! o = Some b \/ exists o', a_blocks a !! o' = Some b /\ forall s, s ∈ block_subs b -> s ∈ D))).
Proof.
  intros Hf. unfold bf_move_chain. destruct (f_areas f !! id) as [a|] eqn:Ha; [|intros [= <- <-]; eauto].
  assert (area_ok a) as Hok by (destruct Hf as (H' & _); by eapply H').
  intros H. apply bind_Some in H as ([s|] & Hs & H); [|injection H as <- <-; eauto].
  destruct (remove_load_ok a s Hok) as (a' & l & E & Hok' & _ & _ & _ & Hbl & Hlok & Hl & Hc); [by eapply chain_dom|].
  rewrite E in H. destruct (Nat.eqb_spec id2 id) as [->|Hne].
  - destruct (try_fit a' _ fit_offsets) as [l'|] eqn:Hfit; injection H as <- <-; [|split; [done|left; eauto]].
    split; [done|]. right. left. split; [done|]. split; [done|]. apply try_fit_ok in Hfit as (dx & dy & -> & Hsp).
    destruct (place_ok a' _ Hok' (load_move_ok _ dx dy (load_move_ok _ (x2 - x) (y2 - y) Hlok)) Hsp) as [Hok2 Hc2].
    eexists a, _. split_and!; [done|exact Hok2|done| |].
    + intros k. rewrite Hc2, !load_move_cnt. by rewrite Hc.
    + intros o b Hb. cbn [set_blocks_from a_with_blocks a_blocks] in Hb. fold (put_load (a_blocks a') (load_move (load_move l (x2 - x) (y2 - y)) dx dy)) in Hb.
      apply put_load_lookup in Hb as [Hb|[_ Hb]].
      * apply load_move_blocks in Hb as (o1 & Hb). apply load_move_blocks in Hb as (o2 & Hb). exists o2. by apply Hl in Hb as [_ Hb].
      * exists o. by apply Hbl in Hb as [_ Hb].
      * by destruct (load_move_ok _ dx dy (load_move_ok _ (x2 - x) (y2 - y) Hlok)).
  - apply bind_Some in H as (circ & Hcirc & H). destruct circ; [injection H as <- <-; split; [done|left; eauto]|].
    apply load_contains_ok in Hcirc as (D & HD1 & HD2 & HD3). cbn [f_bump f_areas] in *.
    destruct (load_normalize l) as [l1 o1] eqn:Hnorm. apply normalize_ok in Hnorm as (Hl1 & Hc1 & Hb1); [|done].
    destruct (f_areas f !! id2) as [a2|] eqn:Ha2; [|injection H as <- <-; split; [done|left; eauto]].
    assert (area_ok a2) as Hoka2 by (destruct Hf as (H' & _); by eapply H').
    set (l2 := load_move l1 (Z.max (o1.1 - x + x2) 0) (Z.max (o1.2 - y + y2) 0)) in H.
    destruct (try_fit a2 l2 fit_offsets) as [l'|] eqn:Hfit; injection H as <- <-; [|split; [done|left; eauto]].
    split; [done|]. right. right. split; [done|]. split; [done|]. apply try_fit_ok in Hfit as (dx & dy & -> & Hsp).
    assert (load_ok l2) as Hl2 by (by apply load_move_ok).
    destruct (place_ok a2 _ Hoka2 (load_move_ok _ dx dy Hl2) Hsp) as [Hok2 Hc2].
    exists a, a', a2, (set_blocks_from a2 (load_move l2 dx dy)), D. split_and!; try done.
    + intros k. unfold l2 in Hc2. rewrite Hc2, !load_move_cnt, Hc1. rewrite (Hc k). lia.
    + intros o b Hb. by apply Hbl in Hb as [_ Hb].
    + intros o b Hb. cbn [set_blocks_from a_with_blocks a_blocks] in Hb. fold (put_load (a_blocks a2) (load_move l2 dx dy)) in Hb.
      apply put_load_lookup in Hb as [Hb|[_ Hb]]; [|by left|by destruct (load_move_ok _ dx dy Hl2)].
      apply load_move_blocks in Hb as (o3 & Hb). apply load_move_blocks in Hb as (o2 & Hb). apply Hb1 in Hb as (o4 & Hb). right. exists o4.
      split; [by apply Hl in Hb as [_ Hb]|]. intros s' Hs'. eapply HD3; [done|done].
Qed.
Lemma movechain_ok f id x y id2 x2 y2 f' e : fun_ok f -> bf_move_chain fuel f id x y id2 x2 y2 = Some (f', e) -> fun_ok f'.
Proof.
  intros Hf H. apply movechain_cases in H as (En & H); [|done]. destruct f' as [fs n g]. cbn [f_areas f_next] in *. subst n.
  destruct H as [(_ & ->)|[(-> & -> & a & a' & Ha & Hok & -> & Hc & _)|(-> & Hne & a & a' & a2 & a2' & D & Ha & Ha2 & Hok & Hok2 & -> & Hc & _)]].
  - by apply next_ok.
  - eapply remove_blocks_ok; [done|done|done|]. intros k. by rewrite Hc.
  - destruct Hf as (Hfa & Hf1 & Hf0).
    assert (forall k, fcnt (<[id2:=a2']> (<[id:=a']> (f_areas f))) k = fcnt (f_areas f) k) as E.
    { intros k. pose proof (fcnt_insert _ _ _ a' k Ha) as E1.
      assert (<[id:=a']> (f_areas f) !! id2 = Some a2) as Ha2' by (by rewrite list_lookup_insert_ne).
      pose proof (fcnt_insert _ _ _ a2' k Ha2') as E2. specialize (Hc k). lia. }
    split; [|split]; cbn [f_areas f_next].
    + intros i c H. apply list_lookup_insert_Some in H as [(<- & <- & _)|(_ & H)]; [done|].
      apply list_lookup_insert_Some in H as [(<- & <- & _)|(_ & H)]; [done|by eapply Hfa].
    + intros k. by rewrite E.
    + intros k Hk. rewrite E. by apply Hf0.
Qed.
Lemma movechain_tree f id x y id2 x2 y2 f' e : fun_ok f -> tree_ok (f_areas f) -> bf_move_chain fuel f id x y id2 x2 y2 = Some (f', e) -> tree_ok (f_areas f').
Proof.
  intros Hf Ht H. apply movechain_cases in H as (En & H); [|done].
  destruct H as [(_ & ->)|[(-> & -> & a & a' & Ha & Hok & -> & Hc & Hsub)|(-> & Hne & a & a' & a2 & a2' & D & Ha & Ha2 & Hok & Hok2 & -> & Hc & HD1 & HD2 & Hs1 & Hs2)]]; [done| |].
  - eapply tree_sub; [exact Ht|by rewrite insert_length|]. eapply edge_upd_sub; [done|]. intros o b Hb. destruct (Hsub _ _ Hb) as (o' & Hb'). by exists o', b.
  - eapply (attach_tree _ _ id2 D); [exact Ht|by rewrite !insert_length|done|done|]. intros i s E.
    assert (<[id:=a']> (f_areas f) !! id2 = Some a2) as Ha2' by (by rewrite list_lookup_insert_ne).
    apply (edge_upd _ _ _ _ _ _ Ha2') in E as [E|(-> & o & b & Hb & Hs)].
    + left. eapply (edge_upd_sub _ id a a' Ha); [|exact E]. intros o b Hb. exists o, b. split; [by apply Hs1|done].
    + apply Hs2 in Hb as [Hb|(o' & Hb & HsD)]; [left; by exists a2, o, b|]. right. split_and!; [done|by apply HsD|].
      destruct Ht as (rank & Ht). destruct (Ht id s); [by exists a, o', b|done].
Qed.

(** ** sizes *)
Lemma same_refl fs : Forall2 same_blocks fs fs.
Proof. induction fs; constructor; [done|done]. Qed.
Lemma recalc_up_ok : forall fu fs work ps ss fs', recalc_up fu fs work ps ss = Some fs' -> Forall2 same_blocks fs fs'.
Proof.
  clear. intros fu. induction fu as [|fu IH]; intros fs work ps ss fs' H; cbn [recalc_up] in H; [done|].
  destruct work as [|i work]; [injection H as <-; induction fs; by constructor|]. apply bind_Some in H as (a & Ha & H). apply IH in H.
  apply Forall2_same_length_lookup. split; [apply Forall2_length in H; by rewrite insert_length in H|].
  intros j c c' Hc Hc'. apply Forall2_lookup_r with (1 := H) in Hc' as (d & Hd & H1 & H2 & H3 & H4).
  apply list_lookup_insert_Some in Hd as [(<- & <- & _)|(_ & Hd)]; [|rewrite Hc in Hd; injection Hd as ->; done].
  rewrite Hc in Ha. injection Ha as ->. done.
Qed.
Lemma recalc_ok fu f f' : recalculate fu f = Some f' -> Forall2 same_blocks (f_areas f) (f_areas f') /\ f_next f' = f_next f /\ f_gen f' = f_gen f.
Proof.
  unfold recalculate. intros H. apply bind_Some in H as ([[ps ss] ls] & Hd & H). apply bind_Some in H as (fs & Hu & [= <-]).
  apply recalc_up_ok in Hu. done.
Qed.
Lemma same_lookup fs fs' : Forall2 same_blocks fs fs' -> forall i a', fs' !! i = Some a' -> exists a, fs !! i = Some a /\ same_blocks a a'.
Proof. intros H i a' Ha. apply Forall2_lookup_r with (1 := H) in Ha as (a & Ha & Hs). eauto. Qed.
Lemma same_fcnt fs fs' n : Forall2 same_blocks fs fs' -> fcnt fs' n = fcnt fs n.
Proof. induction 1 as [|a a' fs fs' Hs Hf IH]; [done|]. rewrite !fcnt_cons, IH. destruct Hs as (-> & _). done. Qed.
Lemma same_fun_ok f f' : Forall2 same_blocks (f_areas f) (f_areas f') -> f_next f' = f_next f -> fun_ok f -> fun_ok f'.
Proof.
  intros Hs En (Ha & H1 & H0). split; [|split].
  - intros i a' H. destruct (same_lookup _ _ Hs _ _ H) as (a & Hi & E1 & E2 & _). apply Ha in Hi. unfold area_ok in *. by rewrite E1, E2.
  - intros n. by rewrite (same_fcnt _ _ _ Hs).
  - intros n. rewrite (same_fcnt _ _ _ Hs), En. apply H0.
Qed.
Lemma same_tree fs fs' : Forall2 same_blocks fs fs' -> tree_ok fs -> tree_ok fs'.
Proof.
  intros Hs Ht. eapply tree_sub; [exact Ht|by rewrite (Forall2_length _ _ _ Hs)|]. intros i s (a' & o & b & Ha & Hb & Hsub).
  destruct (same_lookup _ _ Hs _ _ Ha) as (a & Hi & E1 & _). rewrite E1 in Hb. by exists a, o, b.
Qed.

(** ** one call *)
Definition snap_fun (s : bsnap) : bfun := BFun (sn_areas s) (sn_id s) 0.
Lemma step_fun_ok st o st' e : fun_ok st.1 -> Forall (fun s => fun_ok (snap_fun s)) st.2 -> thin_filler types st.1 o ->
  bf_step types fuel st o = Some (st', e) -> fun_ok st'.1 /\ Forall (fun s => fun_ok (snap_fun s)) st'.2.
Proof.
  destruct st as [f sn]. cbn [fst snd]. intros Hf Hsn Hth. destruct o; cbn [bf_step].
  - destruct (bf_instanciate _ _ _ _ _ _ _) as [f' e'] eqn:E. intros [= <- <-]. split; [|done]. by eapply inst_ok.
  - destruct (bf_remove _ _ _ _) as [f' e'] eqn:E. intros [= <- <-]. split; [|done]. by eapply remove_ok.
  - intros H. apply bind_Some in H as ([f' e'] & E & [= <- <-]). split; [|done]. by eapply move_ok.
  - destruct (bf_clone _ _ _ _ _ _ _ _) as [f' e'] eqn:E. intros [= <- <-]. split; [|done]. by eapply clone_ok.
  - intros H. apply bind_Some in H as (f' & E & [= <- <-]). split; [|done]. by eapply shift_ok.
  - intros H. apply bind_Some in H as ([f' l] & E & [= <- <-]). split; [|done]. by eapply retrieve_ok.
  - intros H. apply bind_Some in H as ([f' e'] & E & [= <- <-]). split; [|done]. eapply split_ok; [done| |done].
    intros t ty -> Et. by eapply Hth.
  - intros H. apply bind_Some in H as ([f' e'] & E & [= <- <-]). split; [|done]. by eapply movechain_ok.
  - intros H. apply bind_Some in H as (f' & E & [= <- <-]). split; [|done]. apply recalc_ok in E as (E1 & E2 & _). by eapply same_fun_ok.
  - intros [= <- <-]. split; [done|]. apply Forall_app. split; [done|]. constructor; [|done]. done.
  - destruct (sn !! k) as [s|] eqn:Hk; [|by intros [= <- <-]]. intros H. apply bind_Some in H as (f' & E & [= <- <-]). split; [|done].
    unfold bf_load in E. apply bind_Some in E as (f1 & E & [= <-]). apply recalc_ok in E as (E1 & E2 & _).
    apply gen_ok. eapply same_fun_ok; [exact E1|done|]. by apply (Forall_lookup_1 _ _ _ _ Hsn Hk).
Qed.
Definition snaps_ok (sn : list bsnap) : Prop := Forall (fun s => fun_ok (snap_fun s) /\ tree_ok (sn_areas s) /\ 0 < length (sn_areas s)) sn.
Lemma step_inv st o st' e : inv st.1 -> snaps_ok st.2 -> plain types st.1 o ->
  bf_step types fuel st o = Some (st', e) -> inv st'.1 /\ snaps_ok st'.2.
Proof.
  intros (Hf & Ht & Hl) Hsn Hpl H.
  assert (fun_ok st'.1 /\ Forall (fun s => fun_ok (snap_fun s)) st'.2) as [Hf' _].
  { eapply step_fun_ok; [done| | |done].
    - eapply Forall_impl; [exact Hsn|]. by intros s (? & _).
    - destruct o; try done. cbn [thin_filler plain] in *. destruct filler; [|done]. intros ty Ety. by destruct (Hpl _ Ety). }
  assert (tree_ok (f_areas st'.1) /\ 0 < length (f_areas st'.1) /\ snaps_ok st'.2) as (? & ? & ?); [|by split_and!].
  clear Hf'. destruct st as [f sn]. cbn [fst snd] in *. destruct o; cbn [bf_step] in H.
  - destruct (bf_instanciate _ _ _ _ _ _ _) as [f' e'] eqn:E. injection H as <- <-. split_and!; [by eapply inst_tree| |done]. cbn [fst].
    apply inst_cases in E as [[-> _]|(a & ty & k & b & _ & _ & _ & _ & _ & _ & _ & ->)]; [done|]. cbn [f_areas]. rewrite insert_length, app_length. lia.
  - destruct (bf_remove _ _ _ _) as [f' e'] eqn:E. injection H as <- <-. split_and!; [by eapply remove_tree| |done]. cbn [fst].
    apply remove_cases in E as [[-> _]|(a & o & b & _ & _ & _ & _ & ->)]; [done| |done]. cbn [f_bump f_with_area f_areas]. by rewrite insert_length.
  - apply bind_Some in H as ([f' e'] & E & [= <- <-]). split_and!; [by eapply move_tree| |done]. cbn [fst].
    apply move_cases in E as [(_ & -> & _)|(a & o & b & D & _ & _ & _ & _ & _ & [(_ & _ & ->)|(a2 & y2' & _ & _ & _ & ->)])]; [done| | |done];
      cbn [f_bump f_with_area f_areas]; by rewrite !insert_length.
  - destruct (bf_clone _ _ _ _ _ _ _ _) as [f' e'] eqn:E. injection H as <- <-. split_and!; [by eapply clone_tree| |done]. cbn [fst].
    apply clone_cases in E as [[-> _]|[(k & _ & ->)|(a2 & k & b & y2' & _ & _ & _ & _ & _ & _ & ->)]]; [done| | |done]; cbn [f_areas];
      rewrite ?insert_length, app_length; lia.
  - apply bind_Some in H as (f' & E & [= <- <-]). split_and!; [by eapply shift_tree| |done]. cbn [fst].
    apply shift_cases in E as [->|(a & o & b & b' & _ & _ & _ & _ & ->)]; [done| |done]. cbn [f_bump f_with_area f_areas]. by rewrite insert_length.
  - apply bind_Some in H as ([f' l] & E & [= <- <-]). split_and!; [by eapply retrieve_tree| |done]. cbn [fst].
    apply retrieve_cases in E as [[-> _]|(a & a' & _ & _ & _ & _ & ->)]; [done| |done]. cbn [f_with_area f_areas]. by rewrite insert_length.
  - apply bind_Some in H as ([f' e'] & E & [= <- <-]).
    assert (forall t ty, filler = Some t -> types t = Some ty -> t_rows ty = 1 /\ t_areas ty = 0) as Hfl.
    { intros t ty -> Et. by eapply Hpl. }
    split_and!; [by eapply split_tree| |done]. cbn [fst].
    apply split_cases in E as [(_ & -> & _)|(a & a' & _ & _ & _ & _ & _ & _ & ->)]; [done|by rewrite insert_length|done|].
    intros t ty E1 E2. by destruct (Hfl _ _ E1 E2).
  - apply bind_Some in H as ([f' e'] & E & [= <- <-]). split_and!; [by eapply movechain_tree| |done]. cbn [fst].
    apply movechain_cases in E as (_ & E); [|done].
    destruct E as [(_ & ->)|[(_ & _ & a & a' & _ & _ & -> & _)|(_ & _ & a & a' & a2 & a2' & D & _ & _ & _ & _ & -> & _)]]; [done| |]; by rewrite !insert_length.
  - apply bind_Some in H as (f' & E & [= <- <-]). apply recalc_ok in E as (E1 & E2 & _). cbn [fst snd].
    split_and!; [by eapply same_tree|by rewrite <- (Forall2_length _ _ _ E1)|done].
  - injection H as <- <-. cbn [fst snd]. split_and!; [done|done|]. apply Forall_app. split; [done|]. constructor; [|done]. done.
  - destruct (sn !! k) as [s|] eqn:Hk; [|by injection H as <- <-]. apply bind_Some in H as (f' & E & [= <- <-]). cbn [fst snd].
    unfold bf_load in E. apply bind_Some in E as (f1 & E & [= <-]). apply recalc_ok in E as (E1 & E2 & _). cbn [f_areas] in E1.
    destruct (Forall_lookup_1 _ _ _ _ Hsn Hk) as (_ & Hs1 & Hs2). cbn [f_bump f_areas].
    split_and!; [by eapply same_tree|by rewrite <- (Forall2_length _ _ _ E1)|done].
Qed.
End edit.

Lemma new_inv : inv bfun_new.
Proof.
  split; [|split].
  - split; [|split].
    + intros i a H. apply list_lookup_singleton_Some in H as [_ <-]. split; [|split].
      * intros o1 o2 b1 b2 c H. cbn in H. by rewrite lookup_empty in H.
      * intros o b H. cbn in H. by rewrite lookup_empty in H.
      * done.
    + intros n. cbn [bfun_new f_areas]. rewrite fcnt_cons. cbn. rewrite bcnt_empty. cbn. lia.
    + intros n _. cbn [bfun_new f_areas]. rewrite fcnt_cons. cbn. by rewrite bcnt_empty.
  - exists (fun _ => 0). intros i s (a & o & b & H & Hb & _). apply list_lookup_singleton_Some in H as [_ <-]. cbn in Hb. by rewrite lookup_empty in Hb.
  - cbn. lia.
Qed.
