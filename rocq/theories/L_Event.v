(** Proofs about the events that come back from the audio thread *)
From Verif Require Import Base M_Midi S_Midi L_Midi M_Event S_Event.
Open Scope nat_scope.
Local Opaque max_notes_per_block max_ccs_per_block.

Lemma ev_run_app a : forall s b, ev_run s (a ++ b) = (let* s := ev_run s a in ev_run s b).
Proof.
  induction a as [|c a IH]; intros s b; [done|]. cbn [app ev_run]. destruct (ev_step s c) as [s1|]; [|done]. cbn [mbind option_bind]. apply IH.
Qed.
Lemma ev_run_snoc s a c s2 : ev_run s (a ++ [c]) = Some s2 <-> exists s1, ev_run s a = Some s1 /\ ev_step s1 c = Some s2.
Proof.
  rewrite ev_run_app. cbn [ev_run]. split.
  - intros E. apply bind_Some in E as (s1 & E1 & E). apply bind_Some in E as (s2' & E2 & [= ->]). eauto.
  - intros (s1 & E1 & E2). rewrite E1. cbn [mbind option_bind]. rewrite E2. done.
Qed.

(** What the loop that asks for events gives: events of the source in their order, and their copies *)
Lemma feed_loop_ev_spec offs n : forall fuel s nc s' nc' copies, feed_loop_ev fuel s offs n nc = Some (s', nc', copies) ->
  exists host, nc' = foldl push_event nc host /\ te_kind <$> host = copies /\ copies `prefix_of` (te_kind <$> pending s).
Proof.
  induction fuel as [|fuel IH]; intros s nc s' nc' copies E; [done|]. cbn [feed_loop_ev] in E. rewrite next_event_spec in E.
  assert (forall l : list midi, [] `prefix_of` l) as Hnil by (intros l; by exists l).
  destruct (pending s) as [|e rest] eqn:Ep.
  { cbn [mbind option_bind] in E. injection E as <- <- <-. exists []. done. }
  destruct (te_time e <? offs + n).
  - destruct (te_time e <? offs); [done|]. cbn [mbind option_bind] in E.
    set (nc1 := push_event nc (shift offs e)) in *.
    destruct ((length nc1.2 =? max_ccs_per_block) || (length nc1.1 =? max_notes_per_block)).
    + injection E as <- <- <-. exists [shift offs e]. split_and!; [done|done|]. rewrite fmap_cons. apply prefix_cons. apply Hnil.
    + apply bind_Some in E as ([[s2 nc2] copies2] & E2 & E). injection E as <- <- <-.
      destruct (IH _ _ _ _ _ E2) as (host & -> & <- & HP). exists (shift offs e :: host). split_and!; [done|done|].
      rewrite fmap_cons. apply prefix_cons. exact HP.
  - cbn [mbind option_bind] in E. injection E as <- <- <-. exists []. split_and!; [done|done|apply Hnil].
Qed.

Lemma kinds_filter (b : bool) (l : list tev) :
  te_kind <$> filter (fun e => midi_is_cc (te_kind e) = b) l = filter (fun k => midi_is_cc k = b) (te_kind <$> l).
Proof. induction l as [|e l IHl]; [done|]. rewrite fmap_cons, !filter_cons. case_decide; rewrite ?fmap_cons; [f_equal|]; done. Qed.
Lemma kinds_zero (l : list midi) : te_kind <$> (TEv 0 <$> l) = l.
Proof. rewrite <- list_fmap_compose. rewrite <- (list_fmap_id l) at 2. by apply list_fmap_ext. Qed.
Lemma filter_zero (b : bool) (l : list midi) :
  filter (fun e => midi_is_cc (te_kind e) = b) (TEv 0 <$> l) = TEv 0 <$> filter (fun k => midi_is_cc k = b) l.
Proof. induction l as [|e l IHl]; [done|]. rewrite fmap_cons, !filter_cons. cbn [te_kind]. case_decide; rewrite ?fmap_cons; [f_equal|]; done. Qed.

Lemma feed_midi_ev_spec inj s offs n s' nc copies : feed_midi_ev inj s offs n = Some (s', nc, copies) ->
  block_of inj (pending s) nc /\ te_kind <$> nc.1 = notes_of copies /\ te_kind <$> nc.2 = ccs_of copies.
Proof.
  intros E. unfold feed_midi_ev in E. apply bind_Some in E as ([[s1 nc1] c1] & E1 & E). injection E as <- <- <-.
  destruct (feed_loop_ev_spec _ _ _ _ _ _ _ _ E1) as (host & -> & <- & HP).
  rewrite <- foldl_app, push_all. cbn [fst snd app]. rewrite !kinds_filter, !fmap_app, kinds_zero. split; [|done].
  exists host. split; [done|]. cbn [fst snd]. rewrite !filter_app, !filter_zero. done.
Qed.

(** The feeding of the other model, without the copies *)
Lemma feed_loop_same offs n : forall fuel s nc,
  feed_loop fuel s offs n nc = (let* (s, nc, _) := feed_loop_ev fuel s offs n nc in Some (s, nc)).
Proof.
  induction fuel as [|fuel IH]; intros s nc; [done|]. cbn [feed_loop feed_loop_ev].
  destruct (next_event s offs n) as [[s1 [e|]]|]; cbn [mbind option_bind]; [|done|done].
  destruct (_ || _); [done|]. rewrite IH. destruct (feed_loop_ev fuel s1 offs n (push_event nc e)) as [[[s2 nc2] c2]|]; done.
Qed.
Lemma feed_midi_same inj s offs n : feed_midi inj s offs n = (let* (s, nc, _) := feed_midi_ev inj s offs n in Some (s, nc)).
Proof.
  unfold feed_midi, feed_midi_ev. rewrite feed_loop_same. destruct (feed_loop_ev _ _ _ _ _) as [[[s2 nc2] c2]|]; done.
Qed.

(** The events on their way back *)
Definition way_back (s : evst) : list midi := ev_told s ++ ev_ring s ++ ev_todo s.

Lemma mjoin_snoc {A} (l : list (list A)) x : mjoin (l ++ [x]) = mjoin l ++ x.
Proof. rewrite mjoin_app. cbn. by rewrite app_nil_r. Qed.

Lemma notes_app a b : notes_of (a ++ b) = notes_of a ++ notes_of b. Proof. apply filter_app. Qed.
Lemma ccs_app a b : ccs_of (a ++ b) = ccs_of a ++ ccs_of b. Proof. apply filter_app. Qed.

Lemma block_delivers s fd offs n s2 nc copies : feed_midi_ev (ev_inj s) fd offs n = Some (s2, nc, copies) ->
  forall up inj todo ring on told,
  let s' := EvSt up inj todo ring on told (ev_blocks s ++ [nc]) in
  delivered_notes s' = delivered_notes s ++ notes_of copies /\ delivered_ccs s' = delivered_ccs s ++ ccs_of copies.
Proof.
  intros E up inj todo ring on told. cbn. destruct (feed_midi_ev_spec _ _ _ _ _ _ _ E) as (_ & E1 & E2).
  unfold delivered_notes, delivered_ccs. cbn [ev_blocks]. rewrite !fmap_app. cbn [fmap list_fmap]. rewrite !mjoin_snoc, E1, E2. done.
Qed.

Lemma sublist_filter {A} (P : A -> Prop) `{!forall x, Decision (P x)} (l k : list A) : l `sublist_of` k -> filter P l `sublist_of` filter P k.
Proof.
  induction 1 as [|x l k HS IH|x l k HS IH]; [done| |].
  - rewrite !filter_cons. case_decide; [by constructor|done].
  - rewrite (filter_cons P x k). case_decide; [by constructor|done].
Qed.
Lemma ring_push_sub {A} (r : list A) x : ring_push r x `sublist_of` r ++ [x].
Proof. unfold ring_push. destruct (_ <? _); [done|]. by apply sublist_inserts_r. Qed.

(** What is told and on its way is part of what was delivered *)
Lemma step_sub s c s' : ev_step s c = Some s' ->
  notes_of (way_back s) `sublist_of` delivered_notes s -> ccs_of (way_back s) `sublist_of` delivered_ccs s ->
  notes_of (way_back s') `sublist_of` delivered_notes s' /\ ccs_of (way_back s') `sublist_of` delivered_ccs s'.
Proof.
  intros E H1 H2. destruct c as [e| | |fd offs n| | |on]; cbn [ev_step] in E.
  - injection E as <-. done.
  - injection E as <-. done.
  - destruct (ev_todo s) as [|] eqn:Et; [|done]. destruct (ev_up s) as [|m up]; [done|]. injection E as <-.
    unfold way_back in *. rewrite Et in *. done.
  - destruct (ev_todo s) as [|] eqn:Et; [|done]. apply bind_Some in E as ([[s2 nc] copies] & E & [= <-]).
    destruct (block_delivers _ _ _ _ _ _ _ E (ev_up s) [] copies (ev_ring s) (ev_on s) (ev_told s)) as [D1 D2].
    cbn zeta in D1, D2. rewrite D1, D2. unfold way_back in *. rewrite Et, app_nil_r in *. cbn [ev_told ev_ring ev_todo].
    rewrite app_assoc, notes_app, ccs_app. split; by apply sublist_app.
  - destruct (ev_todo s) as [|e todo] eqn:Et; [done|]. injection E as <-.
    assert (way_back (EvSt (ev_up s) (ev_inj s) todo (ring_push (ev_ring s) e) (ev_on s) (ev_told s) (ev_blocks s)) `sublist_of` way_back s) as HS.
    { unfold way_back. cbn [ev_told ev_ring ev_todo]. rewrite Et. apply sublist_app; [done|].
      rewrite (cons_middle e), (app_assoc (ev_ring s)). apply sublist_app; [apply ring_push_sub|done]. }
    split; (etrans; [by apply sublist_filter|]); done.
  - destruct (ev_ring s) as [|e ring] eqn:Er; [injection E as <-; done|]. injection E as <-.
    assert (way_back (EvSt (ev_up s) (ev_inj s) (ev_todo s) ring (ev_on s) (if ev_on s then ev_told s ++ [e] else ev_told s) (ev_blocks s)) `sublist_of` way_back s) as HS.
    { unfold way_back. cbn [ev_told ev_ring ev_todo]. rewrite Er. destruct (ev_on s).
      - by rewrite <- app_assoc.
      - apply sublist_app; [done|]. cbn [app]. by constructor. }
    split; (etrans; [by apply sublist_filter|]); done.
  - injection E as <-. done.
Qed.

Lemma run_ind (P : list estep -> evst -> Prop) : P [] evst_new ->
  (forall tr s c s', ev_run evst_new tr = Some s -> P tr s -> ev_step s c = Some s' -> P (tr ++ [c]) s') ->
  forall tr s, ev_run evst_new tr = Some s -> P tr s.
Proof.
  intros H0 HS. induction tr as [|c tr IH] using rev_ind; intros s E.
  - injection E as <-. done.
  - apply ev_run_snoc in E as (s1 & E1 & E2). eauto.
Qed.

Lemma run_sub tr s : ev_run evst_new tr = Some s ->
  notes_of (way_back s) `sublist_of` delivered_notes s /\ ccs_of (way_back s) `sublist_of` delivered_ccs s.
Proof.
  revert tr s. apply (run_ind (fun _ s => notes_of (way_back s) `sublist_of` delivered_notes s /\ ccs_of (way_back s) `sublist_of` delivered_ccs s)).
  - done.
  - intros tr s c s' _ [H1 H2] E. by apply (step_sub _ _ _ E).
Qed.

Lemma ring_bound tr s : ev_run evst_new tr = Some s -> length (ev_ring s) <= comm_size.
Proof.
  revert tr s. apply (run_ind (fun _ s => length (ev_ring s) <= comm_size)).
  - cbn [evst_new ev_ring length]. lia.
  - intros tr s c s' _ H E. destruct c as [e| | |fd offs n| | |on]; cbn [ev_step] in E.
    + injection E as <-. done.
    + injection E as <-. done.
    + destruct (ev_todo s); [|done]. destruct (ev_up s); [done|]. by injection E as <-.
    + destruct (ev_todo s); [|done]. apply bind_Some in E as ([[s2 nc] copies] & E & [= <-]). done.
    + destruct (ev_todo s); [done|]. injection E as <-. cbn [ev_ring]. unfold ring_push.
      destruct (Nat.ltb_spec (length (ev_ring s)) comm_size); [rewrite app_length; cbn [length]; lia|done].
    + destruct (ev_ring s) as [|e r] eqn:Er; injection E as <-; [rewrite Er; cbn [length]; lia|]. cbn [ev_ring length] in *. lia.
    + injection E as <-. done.
Qed.

Lemma split_count (l : list midi) : length (notes_of l) + length (ccs_of l) = length l.
Proof.
  unfold notes_of, ccs_of. induction l as [|e l IH]; [done|]. rewrite !filter_cons. cbn [length].
  destruct (midi_is_cc e).
  - rewrite decide_False, decide_True by done. cbn [length]. lia.
  - rewrite decide_True, decide_False by done. cbn [length]. lia.
Qed.

Lemma keeps_up_prefix a b : keeps_up (a ++ b) -> keeps_up a.
Proof. intros H pre s HP. apply H. by apply prefix_app_r. Qed.

(** Nothing is lost while the frontend keeps up *)
Lemma run_exact tr' s : ev_run evst_new (EObserver true :: tr') = Some s -> (forall b, EObserver b ∉ tr') -> keeps_up (EObserver true :: tr') ->
  ev_on s = true /\ notes_of (way_back s) = delivered_notes s /\ ccs_of (way_back s) = delivered_ccs s.
Proof.
  revert s. induction tr' as [|c tr IH] using rev_ind; intros s E Hb HK.
  { cbn in E. injection E as <-. done. }
  rewrite app_comm_cons in E, HK. apply ev_run_snoc in E as (s1 & E1 & E2).
  pose proof (HK _ s1 (prefix_app_r _ _ _ (reflexivity _)) E1) as HL.
  destruct (IH s1 E1) as (Ho & H1 & H2); [set_solver|by eapply keeps_up_prefix|].
  assert (length (way_back s1) = delivered_count s1) as HC.
  { unfold delivered_count. rewrite <- H1, <- H2. symmetry. apply split_count. }
  unfold way_back in HC. rewrite !app_length in HC.
  destruct c as [e| | |fd offs n| | |on]; cbn [ev_step] in E2.
  - injection E2 as <-. done.
  - injection E2 as <-. done.
  - destruct (ev_todo s1) as [|] eqn:Et; [|done]. destruct (ev_up s1) as [|m up]; [done|]. injection E2 as <-.
    unfold way_back in *. rewrite Et in *. done.
  - destruct (ev_todo s1) as [|] eqn:Et; [|done]. apply bind_Some in E2 as ([[s2 nc] copies] & E2 & [= <-]).
    destruct (block_delivers _ _ _ _ _ _ _ E2 (ev_up s1) [] copies (ev_ring s1) (ev_on s1) (ev_told s1)) as [D1 D2].
    cbn zeta in D1, D2. rewrite D1, D2. split; [done|]. unfold way_back in *. rewrite Et, app_nil_r in *. cbn [ev_told ev_ring ev_todo].
    rewrite app_assoc, notes_app, ccs_app, H1, H2. done.
  - destruct (ev_todo s1) as [|e todo] eqn:Et; [done|]. injection E2 as <-. split; [done|].
    assert (ring_push (ev_ring s1) e = ev_ring s1 ++ [e]) as ER.
    { unfold ring_push. cbn [length] in HC. destruct (Nat.ltb_spec (length (ev_ring s1)) comm_size) as [|Hge]; [done|].
      unfold comm_size in Hge. lia. }
    unfold way_back in *. cbn [ev_told ev_ring ev_todo]. rewrite ER. rewrite <- (app_assoc (ev_ring s1)). cbn [app]. rewrite Et in *. done.
  - destruct (ev_ring s1) as [|e ring] eqn:Er; injection E2 as <-; [done|]. split; [done|]. rewrite Ho.
    unfold way_back in *. cbn [ev_told ev_ring ev_todo]. rewrite <- app_assoc. cbn [app]. rewrite Er in *. done.
  - exfalso. apply (Hb on). set_solver.
Qed.

(** Polling until nothing is left *)
Lemma poll_all n : forall s, length (ev_ring s) <= n ->
  ev_run s (replicate n EPoll) = Some (EvSt (ev_up s) (ev_inj s) (ev_todo s) [] (ev_on s)
    (if ev_on s then ev_told s ++ ev_ring s else ev_told s) (ev_blocks s)).
Proof.
  induction n as [|n IH]; intros [up inj todo ring on told bl] H; cbn [ev_ring ev_up ev_inj ev_todo ev_on ev_told ev_blocks] in *.
  - destruct ring; [|cbn [length] in H; lia]. cbn. rewrite app_nil_r. by destruct on.
  - cbn [replicate ev_run ev_step ev_ring]. destruct ring as [|e ring].
    + cbn [mbind option_bind]. rewrite IH by (cbn; lia). done.
    + cbn [mbind option_bind]. rewrite IH by (cbn [ev_ring length] in *; lia). cbn [ev_ring ev_up ev_inj ev_todo ev_on ev_told ev_blocks].
      destruct on; [|done]. by rewrite <- app_assoc.
Qed.

(** * The way to the audio thread *)
Definition way_there (s : evst) : list midi := ev_inj s ++ omap id (ev_up s).

Lemma injected_snoc tr c : injected_of (tr ++ [c]) = injected_of tr ++ match c with EInject e => [e] | _ => [] end.
Proof. unfold injected_of. rewrite omap_app. cbn. by destruct c. Qed.
Lemma sources_snoc tr c : sources_of (tr ++ [c]) = sources_of tr ++ match c with EBlock fd _ _ => [pending fd] | _ => [] end.
Proof. unfold sources_of. rewrite omap_app. cbn. by destruct c. Qed.

Lemma way_snoc tr c : on_their_way (tr ++ [c]) = match c with EInject _ | EOther => S (on_their_way tr) | EApply => on_their_way tr - 1 | _ => on_their_way tr end.
Proof. unfold on_their_way. by rewrite foldl_app. Qed.
Lemma taken_snoc tr c : taken_since_block (tr ++ [c]) = match c with EApply => S (taken_since_block tr) | EBlock _ _ _ => 0 | _ => taken_since_block tr end.
Proof. unfold taken_since_block. by rewrite foldl_app. Qed.

Lemma in_time_prefix a b : in_time (a ++ b) -> in_time a.
Proof. intros H pre HP. apply H. by apply prefix_app_r. Qed.

(** [part_of parts tr s rest]: the parts of the blocks of [s] followed by [rest] *)
Lemma run_parts tr s : ev_run evst_new tr = Some s ->
  exists parts, (mjoin parts ++ way_there s) `sublist_of` injected_of tr /\
    Forall (fun p => length p <= max_injected) parts /\ length (ev_inj s) <= max_injected /\
    length parts = length (ev_blocks s) /\ length (sources_of tr) = length (ev_blocks s) /\
    (forall i p src b, parts !! i = Some p -> sources_of tr !! i = Some src -> ev_blocks s !! i = Some b -> block_of p src b) /\
    (in_time tr -> mjoin parts ++ way_there s = injected_of tr /\ length (ev_up s) = on_their_way tr /\ length (ev_inj s) <= taken_since_block tr).
Proof.
  revert tr s. apply run_ind.
  { exists []. split_and!; try done. cbn. unfold max_injected. lia. }
  intros tr s c s' _ (parts & HS & HF & HI & HL1 & HL2 & HB & HT) E.
  destruct c as [e| | |fd offs n| | |on]; cbn [ev_step] in E.
  - injection E as <-. exists parts. rewrite injected_snoc, sources_snoc, app_nil_r. cbn [ev_blocks ev_inj ev_up].
    split_and!; try done.
    + etrans; [|apply sublist_app; [exact HS|reflexivity]]. unfold way_there. cbn [ev_inj ev_up]. rewrite <- !app_assoc.
      do 2 (apply sublist_app; [done|]). unfold ring_push. destruct (_ <? _); [by rewrite omap_app|]. by apply sublist_inserts_r.
    + intros Ht. destruct (HT (in_time_prefix _ _ Ht)) as (E1 & E2 & E3).
      pose proof (proj1 (Ht _ (reflexivity _))) as Hw. rewrite ?way_snoc, ?taken_snoc in *.
      unfold way_there, ring_push. cbn [ev_inj ev_up]. unfold comm_size in *. destruct (Nat.ltb_spec (length (ev_up s)) 512); [|lia].
      rewrite omap_app, app_length. cbn [length]. split_and!; [|lia|done]. rewrite <- E1. unfold way_there. rewrite <- !app_assoc. done.
  - injection E as <-. exists parts. rewrite injected_snoc, sources_snoc, !app_nil_r. cbn [ev_blocks ev_inj ev_up].
    assert (omap id (ring_push (ev_up s) None) = omap id (ev_up s)) as EO.
    { unfold ring_push. destruct (_ <? _); [|done]. rewrite omap_app. cbn. by rewrite app_nil_r. }
    unfold way_there in *. cbn [ev_inj ev_up] in *. rewrite EO. split_and!; try done.
    intros Ht. destruct (HT (in_time_prefix _ _ Ht)) as (E1 & E2 & E3).
    pose proof (proj1 (Ht _ (reflexivity _))) as Hw. rewrite ?way_snoc, ?taken_snoc in *.
    unfold ring_push. unfold comm_size in *. destruct (Nat.ltb_spec (length (ev_up s)) 512); [|lia].
    rewrite app_length. cbn [length]. split_and!; [done|lia|done].
  - destruct (ev_todo s) as [|] eqn:Et; [|done]. destruct (ev_up s) as [|m up] eqn:Eu; [done|]. injection E as <-.
    exists parts. rewrite injected_snoc, sources_snoc, !app_nil_r. unfold way_there in *. cbn [ev_blocks ev_inj ev_up] in *. rewrite Eu in *.
    set (inj := match m with Some e => _ | None => _ end).
    assert (length inj <= max_injected) as HI'.
    { subst inj. destruct m as [e|]; [|done]. destruct (Nat.ltb_spec (length (ev_inj s)) max_injected); [|done]. rewrite app_length. cbn [length]. lia. }
    split_and!; try done.
    + etrans; [|exact HS]. apply sublist_app; [done|]. subst inj. destruct m as [e|]; [|done]. cbn [omap list_omap id]. destruct (_ <? _).
      * rewrite <- app_assoc. done.
      * apply sublist_app; [done|]. by constructor.
    + intros Ht. destruct (HT (in_time_prefix _ _ Ht)) as (E1 & E2 & E3).
      pose proof (proj2 (Ht _ (reflexivity _))) as Hw. rewrite ?way_snoc, ?taken_snoc in *.
      subst inj. destruct m as [e|]; cbn [omap list_omap id length] in *.
      * destruct (Nat.ltb_spec (length (ev_inj s)) max_injected); [|unfold max_injected in *; lia].
        rewrite <- app_assoc, app_length. cbn [app length]. split_and!; [done|lia|lia].
      * split_and!; [done|lia|lia].
  - destruct (ev_todo s) as [|] eqn:Et; [|done]. apply bind_Some in E as ([[s2 nc] copies] & E & [= <-]).
    exists (parts ++ [ev_inj s]). rewrite injected_snoc, sources_snoc, app_nil_r. unfold way_there in *. cbn [ev_blocks ev_inj ev_up].
    destruct (feed_midi_ev_spec _ _ _ _ _ _ _ E) as (HBl & _ & _).
    rewrite mjoin_snoc. cbn [app]. rewrite <- app_assoc. split_and!; try done.
    + apply Forall_app. split; [done|]. by constructor.
    + cbn [length]. lia.
    + rewrite !app_length. cbn [length]. lia.
    + rewrite !app_length. cbn [length]. lia.
    + intros i p src b Hp Hs Hb. destruct (decide (i < length parts)) as [Hi|Hi].
      * rewrite lookup_app_l in Hp by lia. rewrite lookup_app_l in Hs by lia. rewrite lookup_app_l in Hb by lia. by eapply HB.
      * rewrite lookup_app_r in Hp by lia. rewrite lookup_app_r in Hs by lia. rewrite lookup_app_r in Hb by lia.
        replace (i - length parts) with (i - length (ev_blocks s)) in Hp by lia.
        replace (i - length (sources_of tr)) with (i - length (ev_blocks s)) in Hs by lia.
        destruct (i - length (ev_blocks s)); [|done]. cbn in Hp, Hs, Hb. injection Hp as <-. injection Hs as <-. injection Hb as <-. done.
    + intros Ht. destruct (HT (in_time_prefix _ _ Ht)) as (E1 & E2 & E3). rewrite way_snoc, taken_snoc. cbn [length].
      split_and!; [done|done|lia].
  - destruct (ev_todo s) as [|e todo] eqn:Et; [done|]. injection E as <-. exists parts. rewrite injected_snoc, sources_snoc, !app_nil_r.
    split_and!; try done. intros Ht. rewrite way_snoc, taken_snoc. apply HT. by eapply in_time_prefix.
  - assert (ev_up s' = ev_up s /\ ev_inj s' = ev_inj s /\ ev_blocks s' = ev_blocks s) as (F1 & F2 & F3).
    { destruct (ev_ring s); injection E as <-; done. }
    exists parts. rewrite injected_snoc, sources_snoc, !app_nil_r. unfold way_there in *. rewrite F1, F2, F3.
    split_and!; try done. intros Ht. rewrite way_snoc, taken_snoc. apply HT. by eapply in_time_prefix.
  - injection E as <-. exists parts. rewrite injected_snoc, sources_snoc, !app_nil_r. 
    split_and!; try done. intros Ht. rewrite way_snoc, taken_snoc. apply HT. by eapply in_time_prefix.
Qed.
