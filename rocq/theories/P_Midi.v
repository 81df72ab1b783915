(** Properties of the MIDI events and the MidiP gate: C20, C44 *)
From Coq Require Import Sorting.Sorted.
From Verif Require Import Base M_Midi S_Midi L_Midi.
Open Scope nat_scope.

(** C20: time-ordered events are delivered in the block and at the frame of their time, in order, each exactly once: a
    node that runs through the frames of a block sees at each frame the events of that time. Injected events come in the
    first frame of their block. *)
Theorem C20_delivery evs blocks : time_ordered evs -> within_limits evs blocks ->
  exists res, run_blocks (Feeder None evs) 0 blocks = Some res /\ length res = length blocks /\
    forall i inj n, blocks !! i = Some (inj, n) ->
      exists notes ccs, res !! i = Some (notes, ccs) /\
        length (node_reads 0 n notes) = n /\ length (node_reads 0 n ccs) = n /\
        forall f, f < n ->
          node_reads 0 n notes !! f =
            Some (notes_of ((if f =? 0 then rev inj else []) ++ events_at evs (block_start blocks.*2 i + f))) /\
          node_reads 0 n ccs !! f =
            Some (ccs_of ((if f =? 0 then rev inj else []) ++ events_at evs (block_start blocks.*2 i + f))).
Proof.
  intros Ho Hl. destruct (run_blocks_spec evs Ho blocks (Feeder None evs) 0) as (res & E & L & G).
  { unfold pending. cbn. symmetry. apply filter_all. intros; lia. }
  { exact Hl. }
  exists res. split_and!; try done. intros i inj n Hi. specialize (G i inj n Hi). cbn zeta in G. rewrite Nat.add_0_l in G.
  set (d := block_start blocks.*2 i) in *. set (l := (TEv 0 <$> rev inj) ++ (shift d <$> window evs d n)) in *.
  pose proof (ordered_block (rev inj) evs d n Ho) as Hol. fold l in Hol.
  eexists _, _. split; [exact G|].
  rewrite !node_reads_spec by (try apply ordered_filter; try done; apply Forall_forall; intros; lia).
  rewrite !fmap_length, !seq_length. split_and!; try done. intros f Hf. rewrite !list_lookup_fmap, lookup_seq_lt by done. cbn [fmap option_fmap option_map].
  rewrite !Nat.add_0_l, !events_at_kind. unfold l. rewrite !events_at_app, events_at_injected, events_at_window by done. done.
Qed.
Print Assumptions C20_delivery.

(** Three events, two blocks: one event falls into the second block at its frame 2 *)
Definition midi_demo : list tev := [TEv 1 (NoteOn 0 60 1); TEv 3 (CC 0 7 2); TEv 6 (NoteOff 0 60)].
Example C20_example :
  time_ordered midi_demo /\ within_limits midi_demo [([], 4); ([NoteOn 1 40 1], 4)] /\
  run_blocks (Feeder None midi_demo) 0 [([], 4); ([NoteOn 1 40 1], 4)] =
    Some [([TEv 1 (NoteOn 0 60 1)], [TEv 3 (CC 0 7 2)]); ([TEv 0 (NoteOn 1 40 1); TEv 2 (NoteOff 0 60)], [])].
Proof.
  split; [|split].
  - repeat constructor; cbn; lia.
  - intros [|[|i]] inj n H; [injection H as <- <-|injection H as <- <-|done]; vm_compute; lia.
  - reflexivity.
Qed.

(** C20, refuted for injected events: those of one block are delivered in the reverse order. *)
Theorem C20_injected_order_refuted : exists inj res,
  run_blocks (Feeder None []) 0 [(inj, 4)] = Some res /\ inj = [NoteOn 0 60 1; NoteOff 0 60] /\
  (fun r : list tev * list tev => node_reads 0 4 r.1 !! 0) <$> res = [Some [NoteOff 0 60; NoteOn 0 60 1]].
Proof. eexists _, _. split_and!; [|reflexivity|]; vm_compute; reflexivity. Qed.
Print Assumptions C20_injected_order_refuted.

(** C20, refuted for blocks with too many events: the event that exceeds the limit is kept for the next block, where the
    subtraction of the times underflows. *)
Theorem C20_limit_refuted : exists evs, time_ordered evs /\ run_blocks (Feeder None evs) 0 [([], 4); ([], 4)] = None.
Proof.
  exists (replicate 513 (TEv 0 (NoteOn 0 60 1))). split; [|vm_compute; reflexivity].
  generalize 513. intros k. induction k; constructor; [done|]. apply Forall_replicate. done.
Qed.
Print Assumptions C20_limit_refuted.

Lemma take_seq' : forall m a k, take k (seq a m) = seq a (k `min` m).
Proof. induction m as [|m IH]; intros a [|k]; cbn; try done. by rewrite IH. Qed.

Section midip.
  Context (chan : nat) (evs : list tev) (sizes : list nat).

  (** The frames of all blocks, one after the other *)
  Lemma song_frames : time_ordered evs -> within_limits evs ((fun n => ([], n)) <$> sizes) ->
    exists res, run_blocks (Feeder None evs) 0 ((fun n => ([], n)) <$> sizes) = Some res /\
      midip_blocks chan midip_new (zip res.*1 sizes) =
        (midip_frames chan midip_new ((fun t => notes_of (events_at evs t)) <$> seq 0 (sum_list sizes))).2.
  Proof.
    intros Ho Hl. destruct (C20_delivery evs _ Ho Hl) as (res & E & L & G). exists res. split; [done|].
    rewrite midip_blocks_frames. f_equal. f_equal.
    assert (((fun n : nat => ([] : list midi, n)) <$> sizes).*2 = sizes) as ES.
    { rewrite <- list_fmap_compose. rewrite <- (list_fmap_id sizes) at 2. by apply list_fmap_ext. }
    rewrite ES in G. rewrite fmap_length in L. clear Hl E ES.
    assert (forall k, k <= length sizes -> mjoin ((fun b : list tev * nat => node_reads 0 b.2 b.1) <$> take k (zip res.*1 sizes)) =
      (fun t => notes_of (events_at evs t)) <$> seq 0 (block_start sizes k)) as H.
    { induction k as [|k IH]; intros Hk; [done|].
      destruct (lookup_lt_is_Some_2 sizes k) as [n Hn]; [lia|]. destruct (G k [] n) as (notes & ccs & Er & Ln & _ & Gf).
      { by rewrite list_lookup_fmap, Hn. }
      assert (zip res.*1 sizes !! k = Some (notes, n)) as Ez.
      { apply lookup_zip_with_Some. exists notes, n. by rewrite list_lookup_fmap, Er. }
      rewrite (take_S_r _ _ _ Ez), fmap_app, mjoin_app, IH by lia. cbn. rewrite app_nil_r.
      assert (block_start sizes (S k) = block_start sizes k + n) as ->.
      { unfold block_start. rewrite (take_S_r _ _ _ Hn), sum_list_with_app. cbn [sum_list_with]. unfold id. lia. }
      rewrite seq_app, fmap_app. f_equal. apply list_eq. intros f. rewrite list_lookup_fmap.
      destruct (decide (f < n)) as [Hf|Hf].
      - rewrite lookup_seq_lt by done. cbn. destruct (Gf f Hf) as [-> _]. by destruct (f =? 0).
      - rewrite lookup_seq_ge by lia. apply lookup_ge_None_2. lia. }
    specialize (H (length sizes) ltac:(lia)). unfold block_start in H.
    rewrite firstn_all in H. rewrite (take_ge (zip _ _)) in H; [done|]. rewrite zip_with_length, fmap_length. lia.
  Qed.

  (** C44: the gate of a MidiP node, over any sequence of blocks, when no frame has two note events of its channel. It is
      high while the last note that was started on the channel is held, and low in the frame of a new note-on that comes
      while it is high. A note-on raises a low gate in its frame; a release lowers it in the next frame. *)
  Theorem C44_gate_partial : time_ordered evs -> within_limits evs ((fun n => ([], n)) <$> sizes) ->
    (forall t, length (filter (fun e => on_channel chan e = true) (events_at evs t)) <= 1) ->
    exists res, run_blocks (Feeder None evs) 0 ((fun n => ([], n)) <$> sizes) = Some res /\
      forall t, t < sum_list sizes -> exists o, midip_blocks chan midip_new (zip res.*1 sizes) !! t = Some o /\
        let b := notes_of (events_before evs t) in
        (mo_gate o = true <->
          (starts chan (events_at evs t) /\ ~ exists n, held chan b n) \/ (~ starts chan (events_at evs t) /\ exists n, held chan b n)).
  Proof.
    intros Ho Hl H1. destruct (song_frames Ho Hl) as (res & E & EB). exists res. split; [done|]. intros t Ht. rewrite EB.
    destruct (frames_gate chan ((fun t => notes_of (events_at evs t)) <$> seq 0 (sum_list sizes)) [] midip_new) with (t := t) (fs := notes_of (events_at evs t)) as (o & Eo & P).
    - split.
      + intros n v (pre & post & Hx & _). by destruct pre.
      + split; [done|]. intros (n & pre & v & post & Hx & _). by destruct pre.
    - apply Forall_fmap, Forall_forall. intros t' _. cbn. etransitivity; [|apply (H1 t')]. unfold notes_of.
      rewrite list_filter_filter. generalize (events_at evs t'). intros l. induction l as [|e l IH]; [done|]. rewrite !filter_cons. repeat case_decide; cbn; try lia. tauto.
    - rewrite list_lookup_fmap, lookup_seq_lt by done. done.
    - exists o. split; [done|]. cbn [app] in P. rewrite <- fmap_take, take_seq' in P. replace (t `min` sum_list sizes) with t in P by lia.
      rewrite frames_before in P by done. cbn zeta in P |- *. rewrite P.
      assert (starts chan (notes_of (events_at evs t)) <-> starts chan (events_at evs t)) as ->; [|done].
      split; intros (n & v & H); exists n, v; [by apply elem_of_list_filter in H as [_ ?]|]. apply elem_of_list_filter. done.
  Qed.

  (** C44: the note and the velocity are those of the last note-on of the channel, whatever else comes. *)
  Theorem C44_note : time_ordered evs -> within_limits evs ((fun n => ([], n)) <$> sizes) ->
    exists res, run_blocks (Feeder None evs) 0 ((fun n => ([], n)) <$> sizes) = Some res /\
      forall t, t < sum_list sizes -> exists o, midip_blocks chan midip_new (zip res.*1 sizes) !! t = Some o /\
        forall n v, last_started chan (notes_of (events_before evs (S t))) n v -> mo_note o = n /\ mo_vel o = v.
  Proof.
    intros Ho Hl. destruct (song_frames Ho Hl) as (res & E & EB). exists res. split; [done|]. intros t Ht. rewrite EB.
    destruct (frames_note chan ((fun t => notes_of (events_at evs t)) <$> seq 0 (sum_list sizes)) [] midip_new) with (t := t) (fs := notes_of (events_at evs t)) as (o & Eo & P).
    - intros n v (pre & post & Hx & _). by destruct pre.
    - rewrite list_lookup_fmap, lookup_seq_lt by done. done.
    - exists o. split; [done|]. cbn [app] in P. rewrite <- fmap_take, take_seq' in P. replace (S t `min` sum_list sizes) with (S t) in P by lia.
      rewrite frames_before in P by done. exact P.
  Qed.
End midip.
Print Assumptions C44_gate_partial.
Print Assumptions C44_note.

(** A note-on while the gate is high gives a gap of one frame; the release of the first note is ignored *)
Definition gate_demo : list tev := [TEv 1 (NoteOn 0 60 1); TEv 2 (NoteOn 3 50 1); TEv 3 (NoteOn 0 64 1); TEv 5 (NoteOff 0 60); TEv 6 (NoteOff 0 64)].
Example C44_example :
  time_ordered gate_demo /\ within_limits gate_demo [([], 4); ([], 5)] /\
  (forall t, t < 9 -> length (filter (fun e => on_channel 0 e = true) (events_at gate_demo t)) <= 1) /\
  match run_blocks (Feeder None gate_demo) 0 [([], 4); ([], 5)] with
  | Some res => mo_gate <$> midip_blocks 0 midip_new (zip res.*1 [4; 5]) = [false; true; true; false; true; true; true; false; false]
  | None => False
  end.
Proof.
  split; [|split; [|split]].
  - repeat constructor; cbn; lia.
  - intros [|[|i]] inj n H; [injection H as <- <-|injection H as <- <-|done]; vm_compute; lia.
  - intros t Ht. do 9 (destruct t as [|t]; [vm_compute; lia|]). lia.
  - vm_compute. reflexivity.
Qed.

(** C44, refuted for frames with two events: two note-ons in one frame while the gate is high give no gap. *)
Theorem C44_two_ons_refuted : exists evs res,
  evs = [TEv 1 (NoteOn 0 60 1); TEv 3 (NoteOn 0 64 1); TEv 3 (NoteOn 0 67 1)] /\
  run_blocks (Feeder None evs) 0 [([], 8)] = Some res /\
  mo_gate <$> midip_blocks 0 midip_new (zip res.*1 [8]) = [false; true; true; true; true; true; true; true].
Proof. eexists _, _. split_and!; [reflexivity| |]; vm_compute; reflexivity. Qed.
Print Assumptions C44_two_ons_refuted.

(** C44, refuted for frames with two events: a second release of the last note and a new note-on in one frame leave the gate low,
    although the new note is held. *)
Theorem C44_off_on_refuted : exists evs res,
  evs = [TEv 1 (NoteOn 0 60 1); TEv 2 (NoteOff 0 60); TEv 4 (NoteOff 0 60); TEv 4 (NoteOn 0 60 1)] /\
  run_blocks (Feeder None evs) 0 [([], 8)] = Some res /\
  mo_gate <$> midip_blocks 0 midip_new (zip res.*1 [8]) = [false; true; true; false; true; false; false; false] /\
  held 0 (notes_of (events_before evs 8)) 60.
Proof.
  eexists _, _. split_and!; [reflexivity| | |]; [vm_compute; reflexivity|vm_compute; reflexivity|].
  exists [NoteOn 0 60 1; NoteOff 0 60; NoteOff 0 60], 1%Z, []. split_and!; [vm_compute; reflexivity| |]; set_solver.
Qed.
Print Assumptions C44_off_on_refuted.
