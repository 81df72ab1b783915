(** Proofs for C59: the generation of a program, and what compiling depends on. *)
From stdpp Require Import strings.
From Verif Require Import Base M_Block S_Block M_Comp M_Code S_Code L_Block L_Block2 L_Block3 L_Comp6.
Open Scope list_scope.
Open Scope nat_scope.

(** The same blocks, up to the sizes of the areas and areas that were added. *)
Definition extends (fs fs' : list area) : Prop := exists gs ex, fs' = gs ++ ex /\ Forall2 same_blocks fs gs /\ Forall (fun a => a_blocks a = ∅) ex.

Lemma same_blocks_refl a : same_blocks a a.
Proof. done. Qed.
Lemma same_all_refl fs : Forall2 same_blocks fs fs.
Proof. induction fs; constructor; done. Qed.
Lemma extends_refl fs : extends fs fs.
Proof. exists fs, []. rewrite app_nil_r. split_and!; [done|apply same_all_refl|constructor]. Qed.
Lemma extends_grow fs k : extends fs (fs ++ replicate k shrink_area).
Proof. exists fs, (replicate k shrink_area). split_and!; [done|apply same_all_refl|]. apply Forall_replicate. done. Qed.
Lemma same_blocks_trans a b c : same_blocks a b -> same_blocks b c -> same_blocks a c.
Proof. intros (A1 & A2 & A3 & A4) (B1 & B2 & B3 & B4). unfold same_blocks. split_and!; congruence. Qed.
Lemma extends_trans fs gs hs : extends fs gs -> extends gs hs -> extends fs hs.
Proof.
  intros (g1 & e1 & -> & H1 & N1) (g2 & e2 & -> & H2 & N2). apply Forall2_app_inv_l in H2 as (g3 & e3 & H3 & H4 & ->).
  exists g3, (e3 ++ e2). split_and!; [by rewrite app_assoc| |].
  - eapply Forall2_transitive; [|exact H1|exact H3]. intros a b c Hab Hbc. exact (same_blocks_trans a b c Hab Hbc).
  - apply Forall_app. split; [|done]. clear -H4 N1. induction H4 as [|a b l l' (E & _) _ IH]; constructor.
    + apply Forall_cons in N1 as [N _]. congruence.
    + apply IH. by apply Forall_cons in N1 as [_ N].
Qed.
Lemma extends_same fs gs : Forall2 same_blocks fs gs -> extends fs gs.
Proof. intros H. exists gs, []. rewrite app_nil_r. split_and!; [done|done|constructor]. Qed.
Lemma extends_lookup fs gs i a : extends fs gs -> fs !! i = Some a -> exists a', gs !! i = Some a' /\ same_blocks a a'.
Proof.
  intros (g & ex & -> & H & _) Hi. destruct (Forall2_lookup_l _ _ _ _ _ H Hi) as (a' & Ha' & Hs). exists a'. split; [|done]. by apply lookup_app_l_Some.
Qed.
Lemma extends_reads f f' i p : extends (f_areas f) (f_areas f') -> bf_block_at f' i p = bf_block_at f i p.
Proof.
  intros He. unfold bf_block_at. destruct (f_areas f !! i) as [a|] eqn:Ha.
  - destruct (extends_lookup _ _ _ _ He Ha) as (a' & -> & (E & _)). cbn [mbind option_bind]. by rewrite E.
  - cbn [mbind option_bind]. destruct He as (gs & ex & E & H & N). destruct (f_areas f' !! i) as [a'|] eqn:Ha'; [|done]. cbn [mbind option_bind].
    rewrite E in Ha'. apply lookup_app_Some in Ha' as [Ha'|[_ Ha']].
    + destruct (Forall2_lookup_r _ _ _ _ _ H Ha') as (a & Ha2 & _). congruence.
    + rewrite (Forall_lookup_1 _ _ _ _ N Ha'). apply lookup_empty.
Qed.
Lemma extends_differ f f' : extends (f_areas f) (f_areas f') -> ~ differ f f'.
Proof. intros He (i & p & Hd). apply Hd. symmetry. by apply extends_reads. Qed.

(** ** The generation *)
Lemma step_gen types fuel st o st' e : noticed st.1 o -> bf_step types fuel st o = Some (st', e) ->
  f_gen st.1 <= f_gen st'.1 /\ (f_gen st'.1 = f_gen st.1 -> extends (f_areas st.1) (f_areas st'.1)).
Proof.
  destruct st as [f sn]. cbn [fst].
  assert (forall g : bfun, f_gen g = f_gen f -> f_areas g = f_areas f -> f_gen f <= f_gen g /\ (f_gen g = f_gen f -> extends (f_areas f) (f_areas g))) as Hsame.
  { intros g E1 E2. split; [lia|]. rewrite E2. intros _. apply extends_refl. }
  intros Hn H. destruct o; cbn [bf_step noticed] in *.
  - destruct (bf_instanciate _ _ _ _ _ _ _) as [f' e'] eqn:E. injection H as <- <-. cbn [fst].
    apply inst_cases in E as [[-> _]|(a & ty & k & b & _ & _ & _ & _ & _ & _ & _ & ->)]; [by apply Hsame|]. cbn [f_gen]. (split; [lia|intros Hx; exfalso; lia]).
  - destruct (bf_remove _ _ _ _) as [f' e'] eqn:E. injection H as <- <-. cbn [fst]. unfold bf_remove in E.
    destruct (f_areas f !! id); [|injection E as <- <-; by apply Hsame]. destruct (area_remove_at _ _ _) as [[a' b]|]; injection E as <- <-; [|by apply Hsame].
    cbn [f_bump f_with_area f_gen]. (split; [lia|intros Hx; exfalso; lia]).
  - apply bind_Some in H as ([f' e'] & E & [= <- <-]). cbn [fst]. unfold bf_move in E. apply bind_Some in E as (circ & _ & E).
    destruct circ; [injection E as <- <-; by apply Hsame|].
    destruct (f_areas f !! id) as [a|] eqn:Ha; [|injection E as <- <-; by apply Hsame].
    destruct (area_remove_at _ _ _) as [[a' [b o]]|]; [|injection E as <- <-; by apply Hsame]. cbn [f_with_area f_areas] in E.
    destruct (lookup_lt_is_Some_2 (<[id:=a']> (f_areas f)) id2) as [a2 Ha2]; [by rewrite insert_length|]. rewrite Ha2 in E.
    destruct (space_at _ _ _ _); [injection E as <- <-; cbn [f_with_area f_bump f_gen]; (split; [lia|intros Hx; exfalso; lia])|].
    injection E as <- <-. cbn [f_bump f_with_area f_areas]. destruct (<[id := a']> (f_areas f) !! id); cbn [f_with_area f_bump f_gen]; (split; [lia|intros Hx; exfalso; lia]).
  - destruct (bf_clone _ _ _ _ _ _ _ _) as [f' e'] eqn:E. injection H as <- <-. cbn [fst]. unfold bf_clone in E.
    destruct (f_areas f !! id) as [a|] eqn:Ha; [|injection E as <- <-; by apply Hsame].
    destruct (ref_at _ _ _) as [[b o]|]; [|injection E as <- <-; by apply Hsame].
    match type of E with context [create_areas ?g ?c] => destruct (create_areas_eq g c) as (k & c' & Ec & _); rewrite Ec in E; clear Ec end. cbn [f_areas f_next f_gen] in E.
    assert (forall g : bfun, f_gen g = f_gen f -> f_areas g = f_areas f ++ replicate k shrink_area ->
      f_gen f <= f_gen g /\ (f_gen g = f_gen f -> extends (f_areas f) (f_areas g))) as Hgrow.
    { intros g E1 E2. split; [lia|]. rewrite E2. intros _. apply extends_grow. }
    destruct (_ !! id2); [|injection E as <- <-; by apply Hgrow].
    destruct (space_at _ _ _ _); injection E as <- <-; [cbn [f_with_area f_bump f_gen]; (split; [lia|intros Hx; exfalso; lia])|by apply Hgrow].
  - apply bind_Some in H as (f' & E & [= <- <-]). cbn [fst]. unfold bf_shift in E.
    destruct (mbind _ _) as [[a [b o]]|]; [|injection E as <-; by apply Hsame]. apply bind_Some in E as (b' & _ & [= <-]). cbn [f_bump f_with_area f_gen]. (split; [lia|intros Hx; exfalso; lia]).
  - subst remove. apply bind_Some in H as ([f' l] & E & [= <- <-]). cbn [fst]. unfold bf_retrieve in E.
    destruct (f_areas f !! id) as [a|]; [|injection E as <- <-; by apply Hsame]. apply bind_Some in E as (oc & _ & E).
    destruct oc as [s|]; [|injection E as <- <-; by apply Hsame]. destruct (clone_load _ _ _) as [n l']. injection E as <- <-. by apply Hsame.
  - apply bind_Some in H as ([f' e'] & E & [= <- <-]). cbn [fst]. unfold bf_split in E.
    destruct (f_areas f !! id) as [a|]; [|injection E as <- <-; by apply Hsame]. apply bind_Some in E as (oc & _ & E).
    destruct oc as [s|]; [|injection E as <- <-; by apply Hsame]. destruct (remove_load _ _) as [a' l].
    destruct (match filler with Some t => _ | None => _ end) as [t|]; [|injection E as <- <-; by apply Hsame].
    destruct (split_load _ _ _ _ _) as [n l']. destruct (has_space _ _ _ _); injection E as <- <-; [cbn [f_with_area f_bump f_gen]; (split; [lia|intros Hx; exfalso; lia])|by apply Hsame].
  - apply bind_Some in H as ([f' e'] & E & [= <- <-]). cbn [fst]. unfold bf_move_chain in E.
    destruct (f_areas f !! id) as [a|]; [|injection E as <- <-; by apply Hsame]. apply bind_Some in E as (oc & _ & E).
    destruct oc as [s|]; [|injection E as <- <-; by apply Hsame]. destruct (remove_load _ _) as [a' l].
    destruct (id2 =? id).
    + destruct (try_fit _ _ _); injection E as <- <-; cbn [f_with_area f_bump f_gen]; (split; [lia|intros Hx; exfalso; lia]).
    + apply bind_Some in E as (circ & _ & E). destruct circ; [injection E as <- <-; cbn [f_with_area f_bump f_gen]; (split; [lia|intros Hx; exfalso; lia])|].
      destruct (load_normalize _) as [l' o]. destruct (_ !! id2); [|injection E as <- <-; cbn [f_with_area f_bump f_gen]; (split; [lia|intros Hx; exfalso; lia])].
      destruct (try_fit _ _ _); injection E as <- <-; cbn [f_with_area f_bump f_gen]; (split; [lia|intros Hx; exfalso; lia]).
  - apply bind_Some in H as (f' & E & [= <- <-]). cbn [fst]. apply recalc_ok in E as (E1 & _ & E3). split; [lia|]. intros _. by apply extends_same.
  - injection H as <- <-. by apply Hsame.
  - destruct (sn !! k) as [s|]; [|injection H as <- <-; by apply Hsame]. apply bind_Some in H as (f' & E & [= <- <-]). cbn [fst].
    unfold bf_load in E. apply bind_Some in E as (f1 & E & [= <-]). apply recalc_ok in E as (_ & _ & E3). cbn [f_gen] in E3. cbn [f_bump f_gen]. (split; [lia|intros Hx; exfalso; lia]).
Qed.

(** ** Compiling *)
Lemma ref_at_same a a' x y : same_blocks a a' -> ref_at a' x y = ref_at a x y.
Proof. intros (E1 & E2 & _). unfold ref_at. by rewrite E1, E2. Qed.
Lemma find_port_same a a' x y out : same_blocks a a' -> find_port_at a' x y out = find_port_at a x y out.
Proof. intros H. unfold find_port_at. by rewrite (ref_at_same _ _ _ _ H). Qed.
Lemma block_sinks_same a a' o b : same_blocks a a' -> block_sinks a' o b = block_sinks a o b.
Proof.
  intros H. unfold block_sinks. destruct (port_rows _ _) as [|r rs]; [done|]. apply list_omap_ext.
  apply Forall_Forall2_diag, Forall_forall. intros s _. by rewrite (find_port_same _ _ _ _ _ H).
Qed.
Lemma collect_same a a' : same_blocks a a' -> collect_sinks a' = collect_sinks a.
Proof.
  intros H. unfold collect_sinks. destruct (id H) as (E & _). rewrite E. f_equal. f_equal. apply list_fmap_ext. intros i [o b] _. cbn [fst snd]. by apply block_sinks_same.
Qed.

Definition job_area (j : tjob) (n : nat) : Prop :=
  match j with JArea i _ | JSink i _ _ _ | JOut i _ _ _ _ => i < n | JAdd _ _ => True end.
Definition jobs_in (n : nat) (js : list tjob) : Prop := forall j, j ∈ js -> job_area j n.
Definition closed (fs : list area) : Prop := forall i a o b s, fs !! i = Some a -> a_blocks a !! o = Some b -> s ∈ block_subs b -> s < length fs.

Lemma tree_closed fs : tree_ok fs -> closed fs.
Proof. intros H i a o b s Ha Hb Hs. eapply block_subs_lt; eauto. Qed.
Lemma jobs_app n l l' : jobs_in n l -> jobs_in n l' -> jobs_in n (l ++ l').
Proof. intros H H' j Hj. apply elem_of_app in Hj as [Hj|Hj]; auto. Qed.
Lemma sink_jobs_in n aid an ss : aid < n -> forall h, jobs_in n (sink_jobs h aid an ss).2.
Proof.
  intros Ha. induction ss as [|[[x y] [r|]] ss IH]; intros h; cbn [sink_jobs].
  - intros j Hj. by apply elem_of_nil in Hj.
  - cbn [h_new]. pose proof (IH (h ++ [JNode 0 "<res>" "" []])) as Hi. destruct (sink_jobs _ _ _ _) as [h' js]. cbn [snd] in *.
    intros j [->|[->|Hj]%elem_of_cons]%elem_of_cons; [done|done|by apply Hi].
  - pose proof (IH h) as Hi. destruct (sink_jobs _ _ _ _) as [h' js]. cbn [snd] in *. intros j [->|Hj]%elem_of_cons; [done|by apply Hi].
Qed.
Lemma block_jobs_in fs aid a o b n : closed fs -> fs !! aid = Some a -> a_blocks a !! o = Some b -> jobs_in (length fs) (block_jobs aid o b n).
Proof.
  intros Hc Ha Hb. apply jobs_app; intros j Hj; apply elem_of_list_fmap in Hj as (r & -> & Hr); cbn [job_area].
  - by eapply lookup_lt_Some.
  - by eapply Hc.
Qed.
Lemma ref_at_block a x y b o : ref_at a x y = Some (b, o) -> a_blocks a !! o = Some b.
Proof. unfold ref_at. intros H. apply bind_Some in H as (o' & _ & H). apply bind_Some in H as (b' & E & [= <- <-]). done. Qed.

Lemma tree_step_ext fs fs' null st : extends fs fs' -> closed fs -> jobs_in (length fs) st.1.2 ->
  tree_step fs' null st = tree_step fs null st /\ match tree_step fs null st with inl _ => True | inr st' => jobs_in (length fs) st'.1.2 end.
Proof.
  intros He Hc Hj. destruct st as [[h js] m]. cbn [fst snd] in Hj. destruct js as [|j js]; [split; done|].
  assert (jobs_in (length fs) js) as Hjs by (intros j' H'; apply Hj; by right).
  assert (job_area j (length fs)) as H1 by (apply Hj; by left).
  destruct j as [aid out|n out|aid x y out|aid x y ip out]; cbn [job_area] in H1; cbn [tree_step].
  - destruct (lookup_lt_is_Some_2 _ _ H1) as [a Ha]. destruct (extends_lookup _ _ _ _ He Ha) as (a' & Ha' & Hs). rewrite Ha, Ha', (collect_same _ _ Hs).
    split; [done|]. cbn [h_new].
    match goal with |- context [sink_jobs ?h ?i ?n ?ss] => pose proof (sink_jobs_in (length fs) i n ss H1 h) as Hin; destruct (sink_jobs h i n ss) as [h' js'] end.
    cbn [fst snd] in *. apply jobs_app; [|done]. intros j Hj'. apply elem_of_list_In, in_rev, elem_of_list_In in Hj'. by apply Hin.
  - split; done.
  - destruct (lookup_lt_is_Some_2 _ _ H1) as [a Ha]. destruct (extends_lookup _ _ _ _ He Ha) as (a' & Ha' & Hs). rewrite Ha, Ha', (ref_at_same _ _ _ _ Hs).
    split; [done|]. destruct (ref_at a x y) as [[b o]|] eqn:Hr; [|done]. destruct (m !! (aid, o)); [done|]. cbn [h_new fst snd].
    apply jobs_app; [|done]. eapply block_jobs_in; [done|done|by eapply ref_at_block].
  - destruct (lookup_lt_is_Some_2 _ _ H1) as [a Ha]. destruct (extends_lookup _ _ _ _ He Ha) as (a' & Ha' & Hs). rewrite Ha, Ha', (ref_at_same _ _ _ _ Hs).
    split; [done|]. destruct (ref_at a x y) as [[b o]|] eqn:Hr; [|done].
    assert (forall n, jobs_in (length fs) (block_jobs aid o b n ++ js)) as Hb.
    { intros n. apply jobs_app; [|done]. eapply block_jobs_in; [done|done|by eapply ref_at_block]. }
    destruct (m !! (aid, o)); cbn [h_new fst snd]; [done|apply Hb].
Qed.
Lemma tree_loop_ext fs fs' null : extends fs fs' -> closed fs -> forall fuel st, jobs_in (length fs) st.1.2 ->
  tree_loop fuel fs' null st = tree_loop fuel fs null st.
Proof.
  intros He Hc. induction fuel as [|fuel IH]; intros st Hj; [done|]. cbn [tree_loop]. destruct (st.1.2) as [|j js] eqn:E; [done|].
  rewrite <- E in Hj. destruct (tree_step_ext fs fs' null st He Hc Hj) as [-> H]. destruct (tree_step fs null st) as [e|st']; [done|]. by apply IH.
Qed.
Lemma compile_ext types is_number fuel f f' : extends (f_areas f) (f_areas f') -> tree_ok (f_areas f) -> 0 < length (f_areas f) ->
  compile types is_number fuel f' = compile types is_number fuel f.
Proof.
  intros He Ht Hl. unfold compile, generate_tree. destruct (types "zero"); [|done].
  rewrite (tree_loop_ext (f_areas f) (f_areas f')); [done|done|by apply tree_closed|]. cbn [fst snd]. intros j Hj. apply elem_of_list_singleton in Hj as ->. done.
Qed.

(** The generation never goes down. *)
Lemma step_gen_mono types fuel st o st' e : bf_step types fuel st o = Some (st', e) -> f_gen st.1 <= f_gen st'.1.
Proof.
  intros H. destruct o; try (match type of H with bf_step _ _ _ ?o = _ => exact (proj1 (step_gen types fuel st o st' e I H)) end).
  - destruct st as [f sn]. cbn [bf_step] in H. apply bind_Some in H as ([f' e'] & E & [= <- <-]). cbn [fst]. unfold bf_move in E. apply bind_Some in E as (circ & _ & E).
    destruct circ; [injection E as <- <-; done|].
    destruct (f_areas f !! id) as [a|] eqn:Ha; [|injection E as <- <-; done].
    destruct (area_remove_at _ _ _) as [[a' [b o]]|]; [|injection E as <- <-; done]. cbn [f_with_area f_areas] in E.
    destruct (<[id := a']> (f_areas f) !! id2) as [a2|]; [|injection E as <- <-; done].
    destruct (space_at _ _ _ _); [injection E as <- <-; cbn [f_with_area f_bump f_gen]; lia|].
    injection E as <- <-. cbn [f_bump f_with_area f_areas]. destruct (<[id := a']> (f_areas f) !! id); cbn [f_with_area f_bump f_gen]; lia.
  - destruct st as [f sn]. cbn [bf_step] in H. apply bind_Some in H as ([f' l] & E & [= <- <-]). cbn [fst]. unfold bf_retrieve in E.
    destruct (f_areas f !! id) as [a|]; [|injection E as <- <-; done]. apply bind_Some in E as (oc & _ & E).
    destruct oc as [s|]; [|injection E as <- <-; done].
    destruct remove; [destruct (remove_load _ _)|destruct (clone_load _ _ _)]; injection E as <- <-; done.
Qed.

(** ** The table *)
Section hub.
Context (types : string -> option btype) (is_number : string -> bool).
Hypothesis Hty : types_ok types.
Implicit Types (h : hub) (f g : bfun).

Definition slot_ok (s : slot) : Prop := inv (sl_prog s).1 /\ snaps_ok (sl_prog s).2 /\ sl_seen s <= f_gen (sl_prog s).1.
Definition hinv h : Prop := forall id s, hb_funs h !! id = Some s -> id ∈ hb_engines h /\ slot_ok s.

Lemma hinv_new : hinv hub_new.
Proof. intros id s H. cbn in H. by rewrite lookup_empty in H. Qed.
Lemma slot_new : slot_ok (Slot 0 (bfun_new, [])).
Proof. split_and!; [apply new_inv|constructor|cbn; lia]. Qed.
Lemma hinv_step fuel h o h' r : hinv h -> (forall id b f, o = HEdit id b -> program h id = Some f -> plain types f b) ->
  hub_step types is_number fuel h o = Some (h', r) -> hinv h'.
Proof.
  intros Hi Hok H. destruct o as [id|id|id b|id t]; cbn [hub_step] in H.
  - injection H as <- <-. intros id' s Hs. cbn [hub_engine hb_funs hb_engines] in *. destruct (Hi _ _ Hs). split; [set_solver|done].
  - injection H as <- <-. unfold hub_fetch. cbn [hub_engine hb_funs hb_engines hb_sent]. destruct (hb_funs h !! id) as [s0|] eqn:E.
    + intros id' s Hs. cbn [hub_engine hb_funs hb_engines] in *. destruct (Hi _ _ Hs). split; [set_solver|done].
    + intros id' s Hs. cbn [hb_funs hb_engines] in *. apply lookup_insert_Some in Hs as [[<- <-]|[_ Hs]]; [split; [set_solver|apply slot_new]|].
      destruct (Hi _ _ Hs). split; [set_solver|done].
  - unfold hub_edit in H. destruct (hb_funs h !! id) as [[seen p]|] eqn:E; [|injection H as <- <-; done].
    apply bind_Some in H as ([p' e] & Eb & [= <- <-]). destruct (Hi _ _ E) as (Hin & Hv & Hs & Hle). cbn [sl_prog sl_seen] in *.
    intros id' s Hs'. cbn [hb_funs hb_engines] in *. apply lookup_insert_Some in Hs' as [[<- <-]|[_ Hs']]; [|by apply Hi]. split; [done|].
    assert (plain types p.1 b) as Hp. { eapply Hok; [done|]. unfold program. by rewrite E. }
    destruct (step_inv types fuel Hty p b p' e Hv Hs Hp Eb). pose proof (step_gen_mono _ _ _ _ _ _ Eb). unfold slot_ok. cbn [sl_prog sl_seen]. split_and!; [done|done|lia].
  - unfold hub_check in H. destruct (decide _); [|injection H as <- <-; done]. destruct (hb_funs h !! id) as [[seen p]|] eqn:E; [|injection H as <- <-; done].
    destruct (seen =? f_gen p.1); [injection H as <- <-; done|]. apply bind_Some in H as (r0 & _ & H). cbn [hb_engines hb_funs hb_sent] in H.
    destruct (Hi _ _ E) as (Hin & Hv & Hs & Hle). cbn [sl_prog sl_seen] in *.
    assert (forall sent, hinv (Hub (hb_engines h) (<[id:=Slot (f_gen p.1) p]> (hb_funs h)) sent)) as Hn.
    { intros sent id' s Hs'. cbn [hb_funs hb_engines] in *. apply lookup_insert_Some in Hs' as [[<- <-]|[_ Hs']]; [|by apply Hi]. split; [done|].
      unfold slot_ok. cbn [sl_prog sl_seen]. split_and!; [done|done|lia]. }
    destruct r0 as [e0|c]; [injection H as <- <-; apply Hn|]. destruct t; injection H as <- <-; apply Hn.
Qed.

(** What one call does for [id]: nothing but what it is about. *)
Lemma step_other fuel h o h' r id : about o <> id -> hub_step types is_number fuel h o = Some (h', r) ->
  hb_funs h' !! id = hb_funs h !! id /\ hb_sent h' !! id = hb_sent h !! id.
Proof.
  intros Hne H. destruct o as [id'|id'|id' b|id' t]; cbn [about hub_step] in *.
  - by injection H as <- <-.
  - injection H as <- <-. unfold hub_fetch. cbn [hub_engine hb_funs hb_engines hb_sent]. destruct (hb_funs h !! id') as [s0|] eqn:E; [done|].
    cbn [hb_funs hb_sent]. by rewrite lookup_insert_ne.
  - unfold hub_edit in H. destruct (hb_funs h !! id') as [[seen p]|] eqn:E; [|injection H as <- <-; done].
    apply bind_Some in H as ([p' e] & Eb & [= <- <-]). cbn [hb_funs hb_sent]. by rewrite lookup_insert_ne.
  - unfold hub_check in H. destruct (decide _); [|injection H as <- <-; done]. destruct (hb_funs h !! id') as [[seen p]|] eqn:E; [|injection H as <- <-; done].
    destruct (seen =? f_gen p.1); [injection H as <- <-; done|]. apply bind_Some in H as (r0 & _ & H). cbn [hb_engines hb_funs hb_sent] in H.
    destruct r0 as [e0|c]; [injection H as <- <-; cbn [hb_funs hb_sent]; by rewrite lookup_insert_ne|].
    destruct t; injection H as <- <-; cbn [hb_funs hb_sent]; by rewrite !lookup_insert_ne.
Qed.
Lemma step_fetch fuel h h' r id : hub_step types is_number fuel h (HFetch id) = Some (h', r) ->
  hb_funs h' !! id = Some (default (Slot 0 (bfun_new, [])) (hb_funs h !! id)) /\ hb_sent h' = hb_sent h.
Proof.
  intros [= <- <-]. unfold hub_fetch. cbn [hub_engine hb_funs hb_engines hb_sent]. destruct (hb_funs h !! id) as [s0|] eqn:E; cbn [hb_funs hb_sent]; [done|].
  by rewrite lookup_insert.
Qed.
Lemma step_edit fuel h h' r id b : hub_step types is_number fuel h (HEdit id b) = Some (h', r) ->
  hb_sent h' = hb_sent h /\
  match hb_funs h !! id with
  | None => hb_funs h' !! id = None
  | Some (Slot seen p) => exists p' e, bf_step types fuel p b = Some (p', e) /\ hb_funs h' !! id = Some (Slot seen p')
  end.
Proof.
  cbn [hub_step]. unfold hub_edit. destruct (hb_funs h !! id) as [[seen p]|] eqn:E; [|intros [= <- <-]; done].
  intros H. apply bind_Some in H as ([p' e] & Eb & [= <- <-]). cbn [hb_funs hb_sent]. rewrite lookup_insert. eauto.
Qed.
Lemma step_check fuel h h' r id t s : hinv h -> hb_funs h !! id = Some s -> hub_step types is_number fuel h (HCheck id t) = Some (h', r) ->
  (sl_seen s = f_gen (sl_prog s).1 /\ h' = h /\ r = HOk) \/
  (sl_seen s <> f_gen (sl_prog s).1 /\ hb_funs h' !! id = Some (Slot (f_gen (sl_prog s).1) (sl_prog s)) /\
   exists out, compile types is_number fuel (sl_prog s).1 = Some out /\
     match out with
     | inl e => r = HCompile e /\ hb_sent h' = hb_sent h
     | inr c => if t then r = HOk /\ hb_sent h' = <[id := sent h id ++ [c]]> (hb_sent h) else r = HJit /\ hb_sent h' = hb_sent h
     end).
Proof.
  intros Hi Hs. destruct (Hi _ _ Hs) as [Hin _]. cbn [hub_step]. unfold hub_check. rewrite decide_True by done. rewrite Hs. destruct s as [seen p]. cbn [sl_seen sl_prog].
  destruct (Nat.eqb_spec seen (f_gen p.1)) as [E|E]; [intros [= <- <-]; by left|]. intros H. right. split; [done|].
  apply bind_Some in H as (out & Ec & H). cbn [hb_engines hb_funs hb_sent] in H. destruct out as [e|c].
  - injection H as <- <-. cbn [hb_funs hb_sent]. rewrite lookup_insert. split; [done|]. exists (inl e). done.
  - destruct t; injection H as <- <-; cbn [hb_funs hb_sent]; rewrite lookup_insert; (split; [done|]); exists (inr c); done.
Qed.
Lemma step_check_none fuel h h' r id t : hb_funs h !! id = None -> hub_step types is_number fuel h (HCheck id t) = Some (h', r) -> h' = h /\ r = HOk.
Proof. intros Hs. cbn [hub_step]. unfold hub_check. rewrite Hs. destruct (decide _); intros [= <- <-]; done. Qed.

(** The state of [id], since a moment where its program was [f0] and nothing newer than [f0] had been checked *)
Definition since (f0 : bfun) (id : nat) h : Prop :=
  match hb_funs h !! id with
  | None => f0 = bfun_new
  | Some s =>
      let f := (sl_prog s).1 in
      f_gen f0 <= f_gen f /\ (f_gen f = f_gen f0 -> extends (f_areas f0) (f_areas f)) /\
      (sl_seen s = f_gen f -> f_gen f <> f_gen f0 ->
         exists c g fuel, running h id = Some c /\ compile types is_number fuel g = Some (inr c) /\ inv g /\ extends (f_areas g) (f_areas f))
  end.
Lemma since_same f0 id h h' : hb_funs h' !! id = hb_funs h !! id -> hb_sent h' !! id = hb_sent h !! id -> since f0 id h -> since f0 id h'.
Proof. unfold since, running, sent. intros -> ->. done. Qed.
Lemma since_start id h : hinv h -> since (prog_or_new h id) id h.
Proof.
  intros Hi. unfold since, prog_or_new, program. destruct (hb_funs h !! id) as [s|]; [|done]. cbn. split_and!; [done| |done]. intros _. apply extends_refl.
Qed.
Lemma since_step f0 id fuel h o h' r : hinv h -> since f0 id h -> (forall id b f, o = HEdit id b -> program h id = Some f -> good types f b) ->
  hub_step types is_number fuel h o = Some (h', r) -> ~ fails id (o, r) -> since f0 id h'.
Proof.
  intros Hi Hs Hok H Hf. destruct (decide (about o = id)) as [Ha|Ha].
  2:{ destruct (step_other _ _ _ _ _ _ Ha H) as [E1 E2]. eapply since_same; eauto. }
  destruct o as [id'|id'|id' b|id' t]; cbn [about] in Ha; subst id'.
  - cbn [hub_step] in H. injection H as <- <-. exact Hs.
  - destruct (step_fetch _ _ _ _ _ H) as [E1 E2]. unfold since in *. unfold running, sent in *. rewrite E1, E2. destruct (hb_funs h !! id) as [s|]; [exact Hs|].
    cbn [default from_option sl_prog sl_seen fst]. subst f0. split_and!; [done| |done]. intros _. apply extends_refl.
  - destruct (step_edit _ _ _ _ _ _ H) as [E1 E2]. unfold since in *. unfold running, sent in *. rewrite E1. destruct (hb_funs h !! id) as [[seen p]|] eqn:Ep.
    2:{ by rewrite E2. }
    destruct E2 as (p' & e & Eb & ->). cbn [sl_prog sl_seen fst] in *. destruct Hs as (H1 & H2 & H3).
    destruct (Hi _ _ Ep) as (_ & _ & _ & Hle). cbn [sl_prog sl_seen] in Hle.
    assert (good types p.1 b) as [_ Hn]. { eapply Hok; [done|]. unfold program. by rewrite Ep. }
    destruct (step_gen _ _ _ _ _ _ Hn Eb) as [G1 G2]. split_and!; [lia| |].
    + intros E. eapply extends_trans; [apply H2; lia|apply G2; lia].
    + intros E Hne. destruct (H3 ltac:(lia) ltac:(lia)) as (c & g & fu & Hr & Hc & Hg & Hx). exists c, g, fu. split_and!; [done|done|done|].
      eapply extends_trans; [exact Hx|apply G2; lia].
  - unfold since in Hs. destruct (hb_funs h !! id) as [s|] eqn:Ep.
    2:{ destruct (step_check_none _ _ _ _ _ _ Ep H) as [-> _]. unfold since. by rewrite Ep. }
    destruct (step_check _ _ _ _ _ _ _ Hi Ep H) as [(_ & -> & _)|(Hne & E & out & Hc & Ho)]; [unfold since; by rewrite Ep|].
    unfold since. rewrite E. cbn [sl_prog sl_seen]. destruct Hs as (H1 & H2 & H3). split_and!; [done|done|]. intros _ Hne2.
    destruct out as [e|c]. { exfalso. destruct Ho as [-> _]. apply Hf. split; [by exists t|done]. }
    destruct t; [|exfalso; destruct Ho as [-> _]; apply Hf; split; [by exists false|done]].
    destruct Ho as [_ Hsent]. exists c, (sl_prog s).1, fuel. split_and!; [|done|by destruct (Hi _ _ Ep) as (_ & ? & _)|apply extends_refl].
    unfold running, sent. rewrite Hsent, lookup_insert. cbn. by rewrite last_snoc.
Qed.
Lemma calls_hinv (ok : bfun -> bop -> Prop) h tr h' : (forall f b, ok f b -> plain types f b) -> calls types is_number ok h tr h' -> hinv h -> hinv h'.
Proof. intros Hok. induction 1; [done|]. intros Hi. apply IHcalls. eapply hinv_step; [done| |done]. intros. eapply Hok. eauto. Qed.
Lemma calls_since f0 id h tr h' : calls types is_number (good types) h tr h' -> Forall (fun c => ~ fails id c) tr -> hinv h -> since f0 id h -> since f0 id h'.
Proof.
  induction 1 as [h|h o fuel h1 r tr h2 Hok H Hc IH]; [done|]. intros Hf Hi Hs. apply Forall_cons in Hf as [Hf1 Hf2].
  apply IH; [done| |eapply since_step; eauto]. eapply hinv_step; [done| |done]. intros. by destruct (Hok id0 b f).
Qed.
Lemma no_edit_step fuel h o h' r id : (forall b, o <> HEdit id b) -> hub_step types is_number fuel h o = Some (h', r) -> hinv h ->
  is_Some (program h id) -> program h' id = program h id.
Proof.
  intros Hne H Hi Hp. destruct (decide (about o = id)) as [Ha|Ha].
  2:{ destruct (step_other _ _ _ _ _ _ Ha H) as [E1 E2]. unfold program. by rewrite E1. }
  destruct o as [id'|id'|id' b|id' t]; cbn [about] in Ha; subst id'.
  - cbn [hub_step] in H. by injection H as <- <-.
  - destruct (step_fetch _ _ _ _ _ H) as [E1 E2]. unfold program in *. rewrite E1. destruct (hb_funs h !! id); [done|]. by destruct Hp.
  - by destruct (Hne b).
  - unfold program in *. destruct (hb_funs h !! id) as [s|] eqn:Ep; [|by destruct Hp].
    destruct (step_check _ _ _ _ _ _ _ Hi Ep H) as [(_ & -> & _)|(_ & E & _)]; [by rewrite Ep|by rewrite E].
Qed.

(** The program of [id] has been checked. *)
Definition seen_all (id : nat) h : Prop := forall s, hb_funs h !! id = Some s -> sl_seen s = f_gen (sl_prog s).1.
Lemma check_seen fuel h h' r id t : hinv h -> hub_step types is_number fuel h (HCheck id t) = Some (h', r) -> seen_all id h'.
Proof.
  intros Hi H s Hs. destruct (hb_funs h !! id) as [s0|] eqn:E.
  - destruct (step_check _ _ _ _ _ _ _ Hi E H) as [(E1 & -> & _)|(_ & E1 & _)]; [congruence|]. rewrite E1 in Hs. by injection Hs as <-.
  - destruct (step_check_none _ _ _ _ _ _ E H) as [-> _]. congruence.
Qed.
Lemma quiet_step fuel h o h' r id : hinv h -> seen_all id h -> (forall b, o <> HEdit id b) -> hub_step types is_number fuel h o = Some (h', r) ->
  seen_all id h' /\ hb_sent h' !! id = hb_sent h !! id /\ (is_Some (hb_funs h !! id) -> hb_funs h' !! id = hb_funs h !! id) /\
  (forall t, o = HCheck id t -> h' = h /\ r = HOk).
Proof.
  intros Hi Hs Hne H. destruct (decide (about o = id)) as [Ha|Ha].
  2:{ destruct (step_other _ _ _ _ _ _ Ha H) as [E1 E2]. split_and!; [|done|done|].
      - intros s Hs'. rewrite E1 in Hs'. by apply Hs.
      - intros t ->. done. }
  destruct o as [id'|id'|id' b|id' t]; cbn [about] in Ha; subst id'.
  - cbn [hub_step] in H. injection H as <- <-. by split_and!.
  - destruct (step_fetch _ _ _ _ _ H) as [E1 E2]. split_and!; [|by rewrite E2| |done].
    + intros s Hs'. rewrite E1 in Hs'. destruct (hb_funs h !! id) as [s0|] eqn:E; cbn in Hs'; injection Hs' as <-; [by apply Hs|done].
    + intros [s0 E]. by rewrite E1, E.
  - by destruct (Hne b).
  - destruct (hb_funs h !! id) as [s|] eqn:Ep.
    + destruct (step_check _ _ _ _ _ _ _ Hi Ep H) as [(_ & -> & ->)|(Hx & _)]; [|by destruct Hx; apply Hs].
      split_and!; [done|done|done|by intros].
    + destruct (step_check_none _ _ _ _ _ _ Ep H) as [-> ->]. split_and!; [done|done|done|by intros].
Qed.
Lemma quiet_calls h tr h' id : calls types is_number (plain types) h tr h' -> hinv h -> seen_all id h -> Forall (fun c => ~ is_edit id c) tr ->
  seen_all id h' /\ hinv h' /\ hb_sent h' !! id = hb_sent h !! id /\ (is_Some (hb_funs h !! id) -> hb_funs h' !! id = hb_funs h !! id) /\
  Forall (fun c => ~ fails id c) tr.
Proof.
  induction 1 as [h|h o fuel h1 r tr h2 Hok H Hc IH]; intros Hi Hs Hf; [by split_and!|]. apply Forall_cons in Hf as [Hf1 Hf2].
  assert (forall b, o <> HEdit id b) as Hne. { intros b ->. apply Hf1. by exists b. }
  destruct (quiet_step _ _ _ _ _ _ Hi Hs Hne H) as (Hs1 & E1 & E2 & E3).
  assert (hinv h1) as Hi1. { eapply hinv_step; [done| |done]. intros. by eapply Hok. }
  destruct (IH Hi1 Hs1 Hf2) as (Hs2 & Hi2 & F1 & F2 & F3). split_and!; [done|done|congruence| |].
  - intros Hx. rewrite F2; [by apply E2|]. by rewrite (E2 Hx).
  - constructor; [|done]. intros [[t Et] Hr]. cbn in Et, Hr. by destruct (E3 t Et).
Qed.
(** Edits alone do not change what was checked. *)
Definition seen_is (n : nat) (id : nat) h : Prop := match hb_funs h !! id with None => n = 0 | Some s => sl_seen s = n end.
Lemma seen_is_calls (ok : bfun -> bop -> Prop) n id h tr h' : calls types is_number ok h tr h' -> Forall (fun c => ~ is_check id c) tr -> seen_is n id h -> seen_is n id h' /\ sent h' id = sent h id.
Proof.
  induction 1 as [h|h o fuel h1 r tr h2 Hok H Hc IH]; [done|]. intros Hf Hs. apply Forall_cons in Hf as [Hf1 Hf2].
  assert (seen_is n id h1 /\ sent h1 id = sent h id) as [H1 E1].
  { destruct (decide (about o = id)) as [Ha|Ha].
    2:{ destruct (step_other _ _ _ _ _ _ Ha H) as [E1 E2]. unfold seen_is, sent in *. by rewrite E1, E2. }
    unfold seen_is, sent in *.
    destruct o as [id'|id'|id' b|id' t]; cbn [about] in Ha; subst id'.
    - cbn [hub_step] in H. by injection H as <- <-.
    - destruct (step_fetch _ _ _ _ _ H) as [E1 E2]. rewrite E1, E2. destruct (hb_funs h !! id); [done|]. by subst n.
    - destruct (step_edit _ _ _ _ _ _ H) as [E1 E2]. rewrite E1. destruct (hb_funs h !! id) as [[seen p]|]; [destruct E2 as (p' & e & _ & ->)|rewrite E2]; done.
    - destruct Hf1. by exists t. }
  destruct (IH Hf2 H1) as [H2 E2]. split; [done|congruence].
Qed.
(** Nothing is sent before the first change. *)
Definition sent_pos h : Prop := forall id, sent h id <> [] -> exists s, hb_funs h !! id = Some s /\ 0 < sl_seen s.
Lemma sent_pos_step fuel h o h' r : hinv h -> sent_pos h -> hub_step types is_number fuel h o = Some (h', r) -> sent_pos h'.
Proof.
  intros Hi Hs H id Hn. destruct (decide (about o = id)) as [Ha|Ha].
  2:{ destruct (step_other _ _ _ _ _ _ Ha H) as [E1 E2]. unfold sent in Hn. rewrite E2 in Hn. rewrite E1. by apply Hs. }
  destruct o as [id'|id'|id' b|id' t]; cbn [about] in Ha; subst id'.
  - cbn [hub_step] in H. injection H as <- <-. by apply Hs.
  - destruct (step_fetch _ _ _ _ _ H) as [E1 E2]. unfold sent in Hn. rewrite E2 in Hn. destruct (Hs _ Hn) as (s & E & Hp). exists s. by rewrite E1, E.
  - destruct (step_edit _ _ _ _ _ _ H) as [E1 E2]. unfold sent in Hn. rewrite E1 in Hn. destruct (Hs _ Hn) as (s & E & Hp). rewrite E in E2. destruct s as [seen p].
    destruct E2 as (p' & e & _ & ->). by eexists.
  - destruct (hb_funs h !! id) as [s|] eqn:Ep.
    + destruct (Hi _ _ Ep) as (_ & _ & _ & Hle).
      destruct (step_check _ _ _ _ _ _ _ Hi Ep H) as [(_ & -> & ->)|(Hx & -> & _)]; [by apply Hs|]. eexists. split; [done|]. cbn [sl_seen]. lia.
    + destruct (step_check_none _ _ _ _ _ _ Ep H) as [-> ->]. by apply Hs.
Qed.
Lemma sent_pos_calls h tr h' : calls types is_number (plain types) h tr h' -> hinv h -> sent_pos h -> sent_pos h'.
Proof.
  induction 1 as [h|h o fuel h1 r tr h2 Hok H Hc IH]; intros Hi Hs; [done|]. apply IH; [|by eapply sent_pos_step].
  eapply hinv_step; [done| |done]. intros. by eapply Hok.
Qed.
Lemma calls_weaken (ok ok' : bfun -> bop -> Prop) h tr h' : (forall f b, ok f b -> ok' f b) -> calls types is_number ok h tr h' -> calls types is_number ok' h tr h'.
Proof. intros Hw. induction 1; econstructor; eauto. Qed.
Lemma sent_pos_new : sent_pos hub_new.
Proof. intros id H. by destruct H. Qed.
End hub.
