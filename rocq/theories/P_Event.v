(** C54: MIDI events come back from the audio thread to the observer, and injected ones reach the nodes *)
From Verif Require Import Base M_Midi S_Midi L_Midi M_Event S_Event L_Event.
Open Scope nat_scope.

(** The blocks are those of the delivery to the nodes (C20). *)
Theorem C54_same_blocks inj s offs n : feed_midi inj s offs n = (let* (s, nc, _) := feed_midi_ev inj s offs n in Some (s, nc)).
Proof. apply feed_midi_same. Qed.
Print Assumptions C54_same_blocks.

(** Whatever the two threads do: what the observer is told is what the nodes have seen, in the same order and at most once; events can
    only be missing. *)
Theorem C54_same_order tr s : ev_run evst_new tr = Some s ->
  notes_of (ev_told s) `sublist_of` delivered_notes s /\ ccs_of (ev_told s) `sublist_of` delivered_ccs s.
Proof.
  intros E. destruct (run_sub tr s E) as [H1 H2]. unfold way_back in *. rewrite notes_app in H1. rewrite ccs_app in H2.
  split; (etrans; [|eassumption]); by apply sublist_inserts_r.
Qed.
Print Assumptions C54_same_order.

(** None is missing if the frontend keeps up: a call of [handle_graph_events] tells everything that the nodes have seen. *)
Theorem C54_all_told tr s : observed_throughout tr -> keeps_up tr -> ev_run evst_new tr = Some s -> quiet s ->
  exists s', ev_run s handle_all = Some s' /\ ev_blocks s' = ev_blocks s /\
    notes_of (ev_told s') = delivered_notes s' /\ ccs_of (ev_told s') = delivered_ccs s'.
Proof.
  intros (tr' & -> & Hb) HK E HQ. destruct (run_exact tr' s E Hb HK) as (Ho & H1 & H2). eexists.
  split; [unfold handle_all; apply poll_all; exact (ring_bound _ _ E)|]. split; [done|]. rewrite Ho.
  unfold way_back in H1, H2. unfold quiet in HQ. rewrite HQ, app_nil_r in H1, H2. done.
Qed.
Print Assumptions C54_all_told.

(** Injected events: they can be cut into parts, one for each block, so that every block has the events of its part at its first frame,
    the last one first, and then events of its source. No event is in two parts, and no part has more than 64. *)
Theorem C54_injected_at_most_once tr s : ev_run evst_new tr = Some s ->
  exists parts, mjoin parts `sublist_of` injected_of tr /\ Forall (fun p => length p <= 64) parts /\ length parts = length (ev_blocks s) /\
    forall i b, ev_blocks s !! i = Some b -> exists p src, parts !! i = Some p /\ sources_of tr !! i = Some src /\ block_of p src b.
Proof.
  intros E. destruct (run_parts tr s E) as (parts & HS & HF & _ & HL1 & HL2 & HB & _). exists parts. split_and!.
  - etrans; [|exact HS]. by apply sublist_inserts_r.
  - exact HF.
  - done.
  - intros i b Hb. pose proof (lookup_lt_Some _ _ _ Hb) as Hi.
    destruct (lookup_lt_is_Some_2 parts i) as [p Hp]; [lia|]. destruct (lookup_lt_is_Some_2 (sources_of tr) i) as [src Hs]; [lia|]. exists p, src. split; [done|]. split; [done|]. by apply (HB i p src b).
Qed.
Print Assumptions C54_injected_at_most_once.

(** None is lost if the audio thread takes messages in time: once nothing is on its way, every injected event has been in exactly one
    block. *)
Theorem C54_injected_once tr s : in_time tr -> ev_run evst_new tr = Some s -> on_their_way tr = 0 -> taken_since_block tr = 0 ->
  exists parts, mjoin parts = injected_of tr /\ length parts = length (ev_blocks s) /\
    forall i b, ev_blocks s !! i = Some b -> exists p src, parts !! i = Some p /\ sources_of tr !! i = Some src /\ block_of p src b.
Proof.
  intros Ht E H1 H2. destruct (run_parts tr s E) as (parts & HS & HF & _ & HL1 & HL2 & HB & HT). exists parts.
  destruct (HT Ht) as (EQ & EU & EI). rewrite H1 in EU. rewrite H2 in EI. split_and!.
  - unfold way_there in EQ. apply nil_length_inv in EU. destruct (ev_inj s); [|cbn [length] in EI; lia]. rewrite EU in EQ. cbn in EQ.
    by rewrite app_nil_r in EQ.
  - done.
  - intros i b Hb. pose proof (lookup_lt_Some _ _ _ Hb) as Hi.
    destruct (lookup_lt_is_Some_2 parts i) as [p Hp]; [lia|]. destruct (lookup_lt_is_Some_2 (sources_of tr) i) as [src Hs]; [lia|]. exists p, src. split; [done|]. split; [done|]. by apply (HB i p src b).
Qed.
Print Assumptions C54_injected_once.

(** Both together: an injected event is told to the observer. *)
Theorem C54_round_trip tr s e : observed_throughout tr -> keeps_up tr -> in_time tr -> ev_run evst_new tr = Some s -> quiet s ->
  on_their_way tr = 0 -> taken_since_block tr = 0 -> EInject e ∈ tr ->
  exists s', ev_run s handle_all = Some s' /\ e ∈ ev_told s'.
Proof.
  intros Ho HK Ht E HQ H1 H2 He. destruct (C54_all_told tr s Ho HK E HQ) as (s' & E' & EB & T1 & T2). exists s'. split; [done|].
  destruct (C54_injected_once tr s Ht E H1 H2) as (parts & EP & HL & HB).
  assert (e ∈ injected_of tr) as Hi. { unfold injected_of. apply elem_of_list_omap. exists (EInject e). done. }
  rewrite <- EP in Hi. apply elem_of_list_join in Hi as (p & Hep & Hp). apply elem_of_list_lookup in Hp as [i Hp].
  destruct (lookup_lt_is_Some_2 (ev_blocks s) i) as [b Hb]; [rewrite <- HL; by eapply lookup_lt_Some|].
  destruct (HB i b Hb) as (p' & src & Hp' & _ & (host & _ & B1 & B2)). rewrite Hp in Hp'. injection Hp' as <-.
  assert (forall k (f : list tev * list tev -> list tev), k ∈ te_kind <$> f b -> k ∈ mjoin ((fun b => te_kind <$> f b) <$> ev_blocks s)) as HJ.
  { intros k f Hk. apply elem_of_list_join. exists (te_kind <$> f b). split; [done|]. apply elem_of_list_fmap. exists b. split; [done|].
    by eapply elem_of_list_lookup_2. }
  destruct (midi_is_cc e) eqn:Ec.
  - assert (e ∈ ccs_of (ev_told s')) as H; [|by apply elem_of_list_filter in H as [_ H]]. rewrite T2. unfold delivered_ccs. rewrite EB.
    apply (HJ e snd). rewrite B2, fmap_app, kinds_zero. apply elem_of_app. left. apply elem_of_list_filter. split; [done|].
    apply elem_of_list_In, in_rev. rewrite rev_involutive. by apply elem_of_list_In.
  - assert (e ∈ notes_of (ev_told s')) as H; [|by apply elem_of_list_filter in H as [_ H]]. rewrite T1. unfold delivered_notes. rewrite EB.
    apply (HJ e fst). rewrite B1, fmap_app, kinds_zero. apply elem_of_app. left. apply elem_of_list_filter. split; [done|].
    apply elem_of_list_In, in_rev. rewrite rev_involutive. by apply elem_of_list_In.
Qed.
Print Assumptions C54_round_trip.

(** Injected events do not keep their order: a note that is started and released is released and then started. *)
Theorem C54_order_refuted : exists tr s, observed_throughout tr /\ ev_run evst_new tr = Some s /\
  injected_of tr = [NoteOn 0 60 1; NoteOff 0 60] /\ ev_told s = [NoteOff 0 60; NoteOn 0 60 1].
Proof.
  exists [EObserver true; EInject (NoteOn 0 60 1); EInject (NoteOff 0 60); EApply; EApply; EBlock (Feeder None []) 0 64; ECopy; ECopy; EPoll; EPoll].
  eexists. split; [|split; [vm_compute; reflexivity|]].
  - eexists. split; [reflexivity|]. intros b. rewrite !elem_of_cons, elem_of_nil. naive_solver.
  - split; reflexivity.
Qed.
Print Assumptions C54_order_refuted.

(** A frontend that falls behind loses events: one of 513 controls in one block is not told. *)
Theorem C54_overflow_refuted : exists tr s s', observed_throughout tr /\ ev_run evst_new tr = Some s /\ quiet s /\
  ev_run s handle_all = Some s' /\ length (delivered_ccs s') = 513 /\ length (ccs_of (ev_told s')) = 512.
Proof.
  set (tr := EObserver true :: EBlock (Feeder None (replicate 513 (TEv 0 (CC 0 7 1)))) 0 64 :: replicate 513 ECopy).
  assert (match ev_run evst_new tr with
          | Some s => match ev_run s handle_all with
                      | Some s' => (length (ev_todo s) =? 0) && (length (delivered_ccs s') =? 513) && (length (ccs_of (ev_told s')) =? 512)
                      | None => false
                      end
          | None => false
          end = true) as H by (vm_compute; reflexivity).
  destruct (ev_run evst_new tr) as [s|] eqn:E; [|discriminate]. destruct (ev_run s handle_all) as [s'|] eqn:E'; [|discriminate].
  apply andb_prop in H as [H H3]. apply andb_prop in H as [H1 H2]. apply Nat.eqb_eq in H1, H2, H3.
  exists tr, s, s'. split; [|split; [exact E|split; [by apply nil_length_inv|split; [exact E'|split; [exact H2|exact H3]]]]].
  clear. eexists. split; [reflexivity|]. intros b Hb. apply elem_of_cons in Hb as [Hb|Hb]; [discriminate|].
  apply elem_of_replicate in Hb as [Hb _]. discriminate.
Qed.
Print Assumptions C54_overflow_refuted.

(** More than 64 events injected before a block: the rest is lost. *)
Theorem C54_injected_limit_refuted : exists tr s, ev_run evst_new tr = Some s /\ on_their_way tr = 0 /\ taken_since_block tr = 0 /\
  length (injected_of tr) = 65 /\ delivered_count s = 64.
Proof.
  set (tr := replicate 65 (EInject (NoteOn 0 60 1)) ++ replicate 65 EApply ++ [EBlock (Feeder None []) 0 64]).
  assert (match ev_run evst_new tr with Some s => delivered_count s =? 64 | None => false end = true) as H by (vm_compute; reflexivity).
  destruct (ev_run evst_new tr) as [s|] eqn:E; [|discriminate]. apply Nat.eqb_eq in H. exists tr, s.
  split; [exact E|]. clear E. split; [vm_compute; reflexivity|]. split; [vm_compute; reflexivity|]. split; [vm_compute; reflexivity|]. exact H.
Qed.
Print Assumptions C54_injected_limit_refuted.

(** A schedule that meets the hypotheses of [C54_round_trip]: two injections, a block with an event of the host, polls in between. *)
Definition case54 : list estep :=
  [EObserver true; EInject (NoteOn 0 60 1); EOther; EApply; EInject (CC 0 1 5); EApply; EApply;
   EBlock (Feeder None [TEv 3 (NoteOff 0 60); TEv 70 (NoteOn 0 62 1)]) 0 64; ECopy; EPoll; EPoll; ECopy; ECopy].
Lemma prefixes_check (P : list estep -> bool) (tr : list estep) :
  forallb (fun n => P (take n tr)) (seq 0 (S (length tr))) = true -> forall pre, pre `prefix_of` tr -> P pre = true.
Proof.
  intros H pre Hp. destruct Hp as [k ->]. rewrite forallb_forall in H.
  rewrite <- (take_app pre k). apply H. apply in_seq. rewrite app_length. lia.
Qed.
Example C54_case : exists s s', ev_run evst_new case54 = Some s /\ observed_throughout case54 /\ keeps_up case54 /\ in_time case54 /\ quiet s /\
  on_their_way case54 = 0 /\ taken_since_block case54 = 0 /\ ev_run s handle_all = Some s' /\
  ev_told s' = [CC 0 1 5; NoteOn 0 60 1; NoteOff 0 60] /\
  ev_blocks s' = [([TEv 0 (NoteOn 0 60 1); TEv 3 (NoteOff 0 60)], [TEv 0 (CC 0 1 5)])].
Proof.
  eexists _, _. split; [vm_compute; reflexivity|]. split.
  { eexists. split; [reflexivity|]. intros b. rewrite !elem_of_cons, elem_of_nil. naive_solver. }
  split.
  { intros pre s Hp E. assert (match ev_run evst_new pre with Some s => delivered_count s <=? length (ev_told s) + 512 | None => true end = true) as H.
    { revert pre Hp E. intros pre Hp _. revert pre Hp. apply (prefixes_check (fun pre => match ev_run evst_new pre with Some s => delivered_count s <=? length (ev_told s) + 512 | None => true end)). vm_compute. reflexivity. }
    rewrite E in H. by apply Nat.leb_le in H. }
  split.
  { intros pre Hp. assert ((on_their_way pre <=? 512) && (taken_since_block pre <=? 64) = true) as H.
    { revert pre Hp. apply (prefixes_check (fun pre => (on_their_way pre <=? 512) && (taken_since_block pre <=? 64))). vm_compute. reflexivity. }
    apply andb_prop in H as [H1 H2]. apply Nat.leb_le in H1, H2. done. }
  split; [reflexivity|]. split; [reflexivity|]. split; [reflexivity|]. split; [vm_compute; reflexivity|]. split; reflexivity.
Qed.
