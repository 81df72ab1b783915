(** C44: the gate modes of MidiP; C48: MidiCC *)
From Coq Require Import Sorting.Sorted.
From Verif Require Import Base M_Midi S_Midi L_Midi M_MidiN S_MidiN P_Midi L_MidiN.
Open Scope nat_scope.

Lemma fst_zip_frames {B} (f : nat -> list midi) (bs : list B) n : n = length bs ->
  (zip (f <$> seq 0 n) bs).*1 = f <$> seq 0 n.
Proof. intros ->. apply fst_zip. by rewrite fmap_length, seq_length. Qed.
Lemma snd_zip_frames {B} (f : nat -> list midi) (bs : list B) n : n = length bs ->
  (zip (f <$> seq 0 n) bs).*2 = bs.
Proof. intros ->. apply snd_zip. by rewrite fmap_length, seq_length. Qed.
Lemma take_frames (f : nat -> list midi) n t : t <= n -> take t (f <$> seq 0 n) = f <$> seq 0 t.
Proof. intros H. rewrite <- fmap_take, take_seq'. by replace (t `min` n) with t by lia. Qed.
Lemma note_ons_notes ch es : note_ons ch (notes_of es) = note_ons ch es.
Proof.
  unfold note_ons, notes_of. rewrite list_filter_filter. induction es as [|e es IH]; [done|]. rewrite !filter_cons.
  destruct e as [c n v|c n|c n v]; cbn; repeat case_decide; cbn; try lia; try tauto; try done.
Qed.
Lemma on_channel_notes ch es : length (filter (fun e => on_channel ch e = true) (notes_of es)) <= length (filter (fun e => on_channel ch e = true) es).
Proof.
  unfold notes_of. rewrite list_filter_filter. induction es as [|e l IH]; [done|]. rewrite !filter_cons. repeat case_decide; cbn; try lia. tauto.
Qed.

Section midip.
  Context {T Gs V L : Type} (ttrigger : T -> T) (tnext : T -> V * T) (gtrigger : Gs -> Gs) (gnext : L -> Gs -> V * Gs)
    (ceil8 : V -> nat) (zero one : V) (t0 : T) (g0 : Gs).
  Context (chan : nat) (evs : list tev) (bs : list (Z * list L)).
  Notation sizes := ((fun b => ([], length b.2)) <$> bs).
  Notation new := (MidiPN midip_new t0 g0).
  Notation node res := (midipn_blocks ttrigger tnext gtrigger gnext ceil8 zero one chan new (zip res.*1 bs)).

  (** C44: in every gate mode the note and the velocity are those of the last note-on of the channel. *)
  Theorem C44_note_all_modes : time_ordered evs -> within_limits evs sizes ->
    exists res, run_blocks (Feeder None evs) 0 sizes = Some res /\
      forall t, t < length (settings bs) -> exists o, node res !! t = Some o /\
        forall n v, last_started chan (notes_of (events_before evs (S t))) n v -> mno_note o = n /\ mno_vel o = v.
  Proof.
    intros Ho Hl. destruct (song_prun ttrigger tnext gtrigger gnext ceil8 zero one chan evs bs new Ho Hl) as (res & E & EB).
    exists res. split; [done|]. intros t Ht. rewrite EB. destruct (lookup_lt_is_Some_2 (settings bs) t Ht) as [st Hst].
    destruct (prun_note ttrigger tnext gtrigger gnext ceil8 zero one chan (zip ((fun t => notes_of (events_at evs t)) <$> seq 0 (length (settings bs))) (settings bs)) [] new)
      with (t := t) (f := (notes_of (events_at evs t), st)) as (o & Eo & P).
    - intros n v (pre & post & Hx & _). by destruct pre.
    - apply lookup_zip_with_Some. eexists _, _. split; [reflexivity|]. split; [|done]. rewrite list_lookup_fmap, lookup_seq_lt by done. done.
    - exists o. split; [done|]. cbn [app] in P. rewrite fst_zip_frames, take_frames in P by lia. rewrite frames_before in P by done. exact P.
  Qed.

  (** C44: in the gate mode MIDI the gate is as in [C44_gate_partial]. *)
  Theorem C44_midi_mode : time_ordered evs -> within_limits evs sizes ->
    Forall (fun b => b.1 <> 1%Z /\ b.1 <> 2%Z) bs ->
    (forall t, length (filter (fun e => on_channel chan e = true) (events_at evs t)) <= 1) ->
    exists res, run_blocks (Feeder None evs) 0 sizes = Some res /\
      forall t, t < length (settings bs) -> exists o up, node res !! t = Some o /\ mno_gate o = (if up : bool then one else zero) /\
        let b := notes_of (events_before evs t) in
        (up = true <->
          (starts chan (events_at evs t) /\ ~ exists n, held chan b n) \/ (~ starts chan (events_at evs t) /\ exists n, held chan b n)).
  Proof.
    intros Ho Hl Hm H1. destruct (song_prun ttrigger tnext gtrigger gnext ceil8 zero one chan evs bs new Ho Hl) as (res & E & EB).
    exists res. split; [done|]. intros t Ht. rewrite EB.
    assert (Forall (fun st : Z * L => st.1 <> 1%Z /\ st.1 <> 2%Z) (settings bs)) as Hs.
    { clear -Hm. induction bs as [|[m ls] bs' IH]; [by constructor|]. apply Forall_cons in Hm as [Hm Hr]. change (settings ((m, ls) :: bs')) with (((fun l => (m, l)) <$> ls) ++ settings bs').
      apply Forall_app. split; [|by apply IH]. apply Forall_fmap, Forall_forall. intros l _. exact Hm. }
    pose proof (prun_midi ttrigger tnext gtrigger gnext ceil8 zero one chan (zip ((fun t => notes_of (events_at evs t)) <$> seq 0 (length (settings bs))) (settings bs)) new) as P.
    rewrite fst_zip_frames in P by done.
    specialize (P ltac:(apply Forall_forall; intros [e st] Hin; apply elem_of_zip_r in Hin; exact (proj1 (Forall_forall _ _) Hs st Hin))).
    destruct (frames_gate chan ((fun t => notes_of (events_at evs t)) <$> seq 0 (length (settings bs))) [] midip_new) with (t := t) (fs := notes_of (events_at evs t)) as (o & Eo & Q).
    - split.
      + intros n v (pre & post & Hx & _). by destruct pre.
      + split; [done|]. intros (n & pre & v & post & Hx & _). by destruct pre.
    - apply Forall_fmap, Forall_forall. intros t' _. cbn. etransitivity; [apply on_channel_notes|apply H1].
    - rewrite list_lookup_fmap, lookup_seq_lt by done. done.
    - assert ((mno_gate <$> (prun ttrigger tnext gtrigger gnext ceil8 zero one chan new (zip ((fun t => notes_of (events_at evs t)) <$> seq 0 (length (settings bs))) (settings bs))).2) !! t = Some (if mo_gate o then one else zero)) as Ep.
      { rewrite P, list_lookup_fmap. change (mn_core new) with midip_new. by rewrite Eo. }
      rewrite list_lookup_fmap in Ep. destruct ((prun _ _ _ _ _ _ _ _ _ _).2 !! t) as [o'|]; [|done]. injection Ep as Ep.
      exists o', (mo_gate o). split; [done|]. split; [done|]. cbn [app] in Q. rewrite take_frames in Q by lia. rewrite frames_before in Q by done. cbn zeta in Q |- *. rewrite Q.
      assert (starts chan (notes_of (events_at evs t)) <-> starts chan (events_at evs t)) as ->; [|done].
      split; intros (n & v & H); exists n, v; [by apply elem_of_list_filter in H as [_ ?]|]. apply elem_of_list_filter. done.
  Qed.

  (** C44: in the gate mode Trigger the output is a trigger generator that is triggered in every frame once for each
      note-on of the channel in this frame, and by nothing else. *)
  Theorem C44_trigger_mode : time_ordered evs -> within_limits evs sizes -> Forall (fun b => b.1 = 1%Z) bs ->
    exists res, run_blocks (Feeder None evs) 0 sizes = Some res /\
      mno_gate <$> node res =
        trig_signal ttrigger tnext t0 ((fun t => note_ons chan (events_at evs t)) <$> seq 0 (length (settings bs))).
  Proof.
    intros Ho Hl Hm. destruct (song_prun ttrigger tnext gtrigger gnext ceil8 zero one chan evs bs new Ho Hl) as (res & E & EB).
    exists res. split; [done|]. rewrite EB, prun_trig.
    - rewrite fst_zip_frames by done. f_equal. rewrite <- list_fmap_compose. apply list_fmap_ext. intros _ t _. apply note_ons_notes.
    - apply Forall_forall. intros [e st] Hin. apply elem_of_zip_r in Hin. clear -Hm Hin. cbn in *. revert st Hin.
      induction bs as [|[m ls] bs' IH]; intros st Hin; [by apply elem_of_nil in Hin|]. apply Forall_cons in Hm as [Hm Hr]. change (settings ((m, ls) :: bs')) with (((fun l => (m, l)) <$> ls) ++ settings bs') in Hin.
      apply elem_of_app in Hin as [Hin|Hin]; [|by apply IH]. apply elem_of_list_fmap in Hin as (l & -> & _). exact Hm.
  Qed.

  (** C44: in the gate mode Gate Len, when no frame has two note events of the channel, the output is a gate generator that
      is triggered by the note-ons of the channel, with the gate length of each frame. A note-on that comes while the
      gate is up is preceded by one frame of silence. For this a gate counts as down in the frame after the release of its note,
      although the release does not end the gate. [idle] describes the generator before its first trigger. *)
  Theorem C44_gate_len_mode (idle : Gs -> Prop) : (forall l g, idle g -> ceil8 (gnext l g).1 = 0 /\ idle (gnext l g).2) -> idle g0 ->
    time_ordered evs -> within_limits evs sizes -> Forall (fun b => b.1 = 2%Z) bs ->
    (forall t, length (filter (fun e => on_channel chan e = true) (events_at evs t)) <= 1) ->
    forall fes : list frame_event, length fes = length (settings bs) ->
      (forall t e, fes !! t = Some e -> event_of chan (notes_of (events_before evs t)) (notes_of (events_at evs t)) e) ->
    exists res, run_blocks (Feeder None evs) 0 sizes = Some res /\
      mno_gate <$> node res = gate_signal gtrigger gnext (fun v => 0 <? ceil8 v) zero g0 false (zip fes (settings bs).*2).
  Proof.
    intros Hin0 Hi Ho Hl Hm H1 fes HL HE. destruct (song_prun ttrigger tnext gtrigger gnext ceil8 zero one chan evs bs new Ho Hl) as (res & E & EB).
    exists res. split; [done|]. rewrite EB.
    rewrite (prun_glen ttrigger tnext gtrigger gnext ceil8 zero one idle Hin0 chan _ [] _ false fes).
    - by rewrite snd_zip_frames.
    - apply Forall_forall. intros [e st] Hin. apply elem_of_zip_r in Hin. clear -Hm Hin. cbn in *. revert st Hin.
      induction bs as [|[m ls] bs' IH]; intros st Hin; [by apply elem_of_nil in Hin|]. apply Forall_cons in Hm as [Hm Hr]. change (settings ((m, ls) :: bs')) with (((fun l => (m, l)) <$> ls) ++ settings bs') in Hin.
      apply elem_of_app in Hin as [Hin|Hin]; [|by apply IH]. apply elem_of_list_fmap in Hin as (l & -> & _). exact Hm.
    - apply Forall_forall. intros [e st] Hin. apply elem_of_zip_l in Hin. apply elem_of_list_fmap in Hin as (t & -> & _). cbn.
      etransitivity; [apply on_channel_notes|apply H1].
    - split; [split_and!|].
      + intros n v (pre & post & Hx & _). by destruct pre.
      + cbn. tauto.
      + done.
      + right. done.
    - by rewrite zip_with_length, fmap_length, seq_length, Nat.min_id.
    - intros t f e Hf He. apply lookup_zip_with_Some in Hf as (x & st & -> & Hx & Hst). cbn [fst].
      assert (t < length (settings bs)) as Ht by by eapply lookup_lt_Some. rewrite list_lookup_fmap, lookup_seq_lt in Hx by done. injection Hx as <-.
      rewrite fst_zip_frames, take_frames by lia. rewrite frames_before by done. cbn [app]. by apply HE.
  Qed.
End midip.
Print Assumptions C44_note_all_modes.
Print Assumptions C44_midi_mode.
Print Assumptions C44_trigger_mode.
Print Assumptions C44_gate_len_mode.

(** Generators for examples: a trigger of one frame, and a gate that is up for the given number of frames after the trigger.
    Their states are the frames since the trigger, if there was one. *)
Definition demo_ttrigger (_ : bool) : bool := true.
Definition demo_tnext (t : bool) : nat * bool := (if t then 1 else 0, false).
Definition demo_gtrigger (_ : option nat) : option nat := Some 0.
Definition demo_gnext (len : nat) (g : option nat) : nat * option nat :=
  match g with Some k => if k <? len then (1, Some (S k)) else (0, None) | None => (0, None) end.
Notation demo_node m evs := (match run_blocks (Feeder None evs) 0 [([], 4); ([], 8)] with
  | Some res => mno_gate <$> midipn_blocks demo_ttrigger demo_tnext demo_gtrigger demo_gnext id 0 1 0 (MidiPN midip_new false None)
                  (zip res.*1 [(m, [4; 4; 4; 4]); (m, [4; 4; 4; 4; 4; 4; 4; 4])])
  | None => [] end).

Example C44_modes_example :
  (forall l g, g = None -> id (demo_gnext l g).1 = 0 /\ (demo_gnext l g).2 = None) /\
  demo_node 0%Z gate_demo = [0; 1; 1; 0; 1; 1; 1; 0; 0; 0; 0; 0] /\
  demo_node 1%Z gate_demo = [0; 1; 0; 1; 0; 0; 0; 0; 0; 0; 0; 0] /\
  demo_node 2%Z gate_demo = [0; 1; 1; 0; 1; 1; 1; 1; 0; 0; 0; 0] /\
  demo_node 2%Z gate_demo = gate_signal demo_gtrigger demo_gnext (fun v => 0 <? v) 0 None false
    ((fun e => (e, 4)) <$> [Neither; Starts; Neither; Starts; Neither; Neither; Releases; Neither; Neither; Neither; Neither; Neither]).
Proof. split; [by intros l g ->|]. vm_compute. done. Qed.

(** C44, refuted: the gate restarts after a very short pause when a new note is played in the gate mode Gate Len. If the note
    before it was released one frame earlier, the gate goes on without a pause. *)
Theorem C44_restart_gap_refuted : exists evs,
  evs = [TEv 1 (NoteOn 0 60 1); TEv 3 (NoteOff 0 60); TEv 4 (NoteOn 0 64 1)] /\
  demo_node 2%Z evs = [0; 1; 1; 1; 1; 1; 1; 1; 0; 0; 0; 0] /\
  demo_node 2%Z [TEv 1 (NoteOn 0 60 1); TEv 4 (NoteOn 0 64 1)] = [0; 1; 1; 1; 0; 1; 1; 1; 1; 0; 0; 0].
Proof. eexists. split; [reflexivity|]. vm_compute. done. Qed.
Print Assumptions C44_restart_gap_refuted.

Lemma ccs_before evs t : time_ordered evs ->
  mjoin ((fun t => ccs_of (events_at evs t)) <$> seq 0 t) = ccs_of (events_before evs t).
Proof.
  intros Ho. induction t as [|t IH].
  - unfold events_before. rewrite filter_none; [done|]. intros; lia.
  - rewrite seq_S, fmap_app, mjoin_app, IH, events_before_S by done. cbn. rewrite app_nil_r. unfold ccs_of. by rewrite filter_app.
Qed.

Section midicc.
  Context {W V L : Type} (snext : Z -> L -> W -> V * W) (w1 w2 w3 : W) (chan cc1 cc2 cc3 : Z) (evs : list tev) (bs : list (list L)).
  Notation sizes := ((fun b => ([], length b)) <$> bs).
  Notation new := (MidiCC (0, 0, 0)%Z (w1, w2, w3)).
  Notation node res := (midicc_blocks snext chan cc1 cc2 cc3 new (zip res.*2 bs)).
  Notation ch := (Z.to_nat (chan mod 16)).

  Lemma song_cc : time_ordered evs -> within_limits evs sizes ->
    exists res, run_blocks (Feeder None evs) 0 sizes = Some res /\
      mjoin (node res).*1 = (midicc_frames snext ch (Z.to_nat (cc1 mod 128)) (Z.to_nat (cc2 mod 128)) (Z.to_nat (cc3 mod 128)) (new, false)
        (zip ((fun t => ccs_of (events_at evs t)) <$> seq 0 (length (mjoin bs))) (mjoin bs))).2.
  Proof.
    intros Ho Hl. destruct (song_reads evs (fun b : list L => length b) bs Ho Hl) as (res & E & L' & HF & _ & R2). exists res. split; [done|].
    destruct (blocks_cc snext chan cc1 cc2 cc3 bs res.*2 new) as [-> _].
    - apply Forall2_fmap_l. eapply Forall2_impl; [exact HF|]. by intros r b [_ ?].
    - assert (length (mjoin bs) = sum_list ((fun b : list L => length b) <$> bs)) as ->.
      { clear. induction bs as [|b bs' IH]; [done|]. change (mjoin (b :: bs')) with (b ++ mjoin bs'). rewrite app_length, IH. done. }
      rewrite <- R2. do 3 f_equal. clear. revert bs. induction res as [|r res IH]; intros [|b bs]; try done. cbn. by rewrite IH.
  Qed.

  (** C48: each output of a MidiCC node is a slew limiter that is fed, in every frame, with the value of the last event of its
      controller on the channel up to and including this frame. This holds for an output whose controller is not also that of an
      output before it. *)
  Theorem C48_outputs : time_ordered evs -> within_limits evs sizes ->
    exists res, run_blocks (Feeder None evs) 0 sizes = Some res /\
      let out := mjoin (node res).*1 in
      let follows (cc : Z) (w : W) (sig : list V) := forall vals : list Z, length vals = length (mjoin bs) ->
        (forall t v, vals !! t = Some v -> controller ch (Z.to_nat (cc mod 128)) (ccs_of (events_before evs (S t))) v) ->
        sig = slew_signal snext w (zip vals (mjoin bs)) in
      follows cc1 w1 out.*1.*1 /\
      ((cc2 mod 128 <> cc1 mod 128)%Z -> follows cc2 w2 out.*1.*2) /\
      ((cc3 mod 128 <> cc1 mod 128)%Z -> (cc3 mod 128 <> cc2 mod 128)%Z -> follows cc3 w3 out.*2).
  Proof.
    intros Ho Hl. destruct (song_cc Ho Hl) as (res & E & EO). exists res. split; [done|]. cbv zeta. rewrite EO. clear E EO res.
    match goal with |- context [midicc_frames ?a ?b ?c ?d ?e ?f ?g] => destruct (midicc_frames a b c d e f g) as [[s' b'] os] eqn:Ef end.
    destruct (frames_cc _ _ _ _ _ _ _ _ _ _ _ Ef) as (_ & H1 & H2 & H3). clear Ef. cbn [snd].
    rewrite fst_zip_frames, snd_zip_frames in H1, H2, H3 by done. cbn [mc_slew mc_cur fst snd] in H1, H2, H3.
    assert (forall cc vals, length vals = length (mjoin bs) ->
      (forall t v, vals !! t = Some v -> controller ch cc (ccs_of (events_before evs (S t))) v) ->
      vals = seen ch cc 0%Z ((fun t => ccs_of (events_at evs t)) <$> seq 0 (length (mjoin bs)))) as HV.
    { intros cc vals HL HV. apply list_eq. intros t. destruct (vals !! t) as [v|] eqn:Ev.
      - assert (t < length (mjoin bs)) as Ht by (rewrite <- HL; by eapply lookup_lt_Some).
        destruct (lookup_lt_is_Some_2 (seen ch cc 0%Z ((fun t => ccs_of (events_at evs t)) <$> seq 0 (length (mjoin bs)))) t) as [x Hx].
        { by rewrite seen_length, fmap_length, seq_length. }
        rewrite Hx. f_equal. apply seen_lookup in Hx as ->. rewrite take_frames, ccs_before by (done || lia). apply controller_lastcc. by apply HV.
      - symmetry. apply lookup_ge_None_2. rewrite seen_length, fmap_length, seq_length, <- HL. by apply lookup_ge_None_1. }
    split_and!.
    - intros vals HL Hv. by rewrite H1, <- (HV _ vals HL Hv).
    - intros N vals HL Hv. rewrite H2, <- (HV _ vals HL Hv); [done|].
      intros Ec. apply N. apply Z2Nat.inj in Ec; [done| |]; apply Z.mod_pos_bound; lia.
    - intros Na Nb vals HL Hv. rewrite H3, <- (HV _ vals HL Hv); [done| |].
      + intros Ec. apply Na. apply Z2Nat.inj in Ec; [done| |]; apply Z.mod_pos_bound; lia.
      + intros Ec. apply Nb. apply Z2Nat.inj in Ec; [done| |]; apply Z.mod_pos_bound; lia.
  Qed.

  (** C48: the LED of the node is lit after a block exactly if an event of one of its controllers came in the frames of this block. *)
  Theorem C48_led : time_ordered evs -> within_limits evs sizes ->
    exists res, run_blocks (Feeder None evs) 0 sizes = Some res /\
      forall i b, bs !! i = Some b -> exists o, node res !! i = Some o /\
        let start := block_start (length <$> bs) i in
        (o.2 = true <-> exists f e, f < length b /\ e ∈ events_at evs (start + f) /\ selects chan cc1 cc2 cc3 e).
  Proof.
    intros Ho Hl. destruct (song_reads evs (fun b : list L => length b) bs Ho Hl) as (res & E & L' & HF & _ & _).
    destruct (C20_delivery evs _ Ho Hl) as (res' & E' & _ & G). rewrite E in E'. injection E' as <-.
    exists res. split; [done|]. intros i b Hb.
    destruct (blocks_cc snext chan cc1 cc2 cc3 bs res.*2 new) as [_ EL].
    { apply Forall2_fmap_l. eapply Forall2_impl; [exact HF|]. by intros r b' [_ ?]. }
    destruct (G i [] (length b)) as (notes & ccs & Er & _ & Lc & Gf); [by rewrite list_lookup_fmap, Hb|].
    assert (((fun b : list L => ([] : list midi, length b)) <$> bs).*2 = length <$> bs) as ES.
    { rewrite <- list_fmap_compose. by apply list_fmap_ext. }
    rewrite ES in Gf.
    assert ((node res).*2 !! i = Some (existsb (hits ch (Z.to_nat (cc1 mod 128)) (Z.to_nat (cc2 mod 128)) (Z.to_nat (cc3 mod 128))) (mjoin (node_reads 0 (length b) ccs)))) as Ei.
    { rewrite EL. apply lookup_zip_with_Some. exists ccs, b. split; [done|]. split; [|done]. by rewrite list_lookup_fmap, Er. }
    rewrite list_lookup_fmap in Ei. destruct (node res !! i) as [o|]; [|done]. injection Ei as Ei. exists o. split; [done|]. cbv zeta.
    rewrite Ei, hits_selects. split.
    - intros (e & He & Hs). apply elem_of_list_join in He as (x & Hex & Hx). apply elem_of_list_lookup in Hx as (f & Hf).
      assert (f < length b) as Hlt by (rewrite <- Lc; by eapply lookup_lt_Some).
      destruct (Gf f Hlt) as [_ Gc]. rewrite Hf in Gc. injection Gc as ->. exists f, e. split; [done|]. split; [|done].
      assert (e ∈ ccs_of (events_at evs (block_start (length <$> bs) i + f))) as Hin by (by destruct (f =? 0)).
      by apply elem_of_list_filter in Hin as [_ ?].
    - intros (f & e & Hlt & He & Hs). exists e. split; [|done]. destruct (Gf f Hlt) as [_ Gc].
      apply elem_of_list_join. eexists. split; [|eapply elem_of_list_lookup_2; exact Gc].
      assert (e ∈ ccs_of (events_at evs (block_start (length <$> bs) i + f))) as Hin.
      { apply elem_of_list_filter. split; [|done]. by destruct Hs as (? & ? & -> & _). }
      by destruct (f =? 0).
  Qed.
End midicc.
Print Assumptions C48_outputs.
Print Assumptions C48_led.

(** A limiter that moves by at most the given amount per frame *)
Definition demo_slew (x l w : Z) : Z * Z := let y := Z.max (w - l) (Z.min (w + l) x) in (y, y).
Definition cc_demo : list tev := [TEv 1 (CC 0 7 5); TEv 2 (CC 1 7 9); TEv 4 (CC 0 8 3); TEv 5 (CC 0 7 1)].
Example C48_example :
  time_ordered cc_demo /\ within_limits cc_demo [([], 4); ([], 4)] /\
  match run_blocks (Feeder None cc_demo) 0 [([], 4); ([], 4)] with
  | Some res => midicc_blocks demo_slew 16 7 136 9 (MidiCC (0, 0, 0)%Z (0, 0, 0)%Z) (zip res.*2 [[9; 9; 9; 9]%Z; [2; 2; 2; 2]%Z])
  | None => [] end =
  [([(0, 0, 0); (5, 0, 0); (5, 0, 0); (5, 0, 0)]%Z, true); ([(5, 2, 0); (3, 3, 0); (1, 3, 0); (1, 3, 0)]%Z, true)] /\
  controller 0 7 (ccs_of (events_before cc_demo 4)) 5 /\ controller 0 9 (ccs_of (events_before cc_demo 8)) 0.
Proof.
  split; [|split; [|split; [|split]]].
  - repeat constructor; cbn; lia.
  - intros [|[|i]] inj n H; [injection H as <- <-|injection H as <- <-|done]; vm_compute; lia.
  - vm_compute. reflexivity.
  - left. exists [], [CC 1 7 9]. split; [vm_compute; reflexivity|]. set_solver.
  - right. split; [|done]. intros w. vm_compute. set_solver.
Qed.

(** C48, refuted for equal controllers: two outputs that select the same controller do not both follow it. The second one
    stays at its value. *)
Theorem C48_same_controller_refuted : exists evs res,
  evs = [TEv 1 (CC 0 7 5)] /\ run_blocks (Feeder None evs) 0 [([], 4)] = Some res /\
  midicc_blocks demo_slew 0 7 7 9 (MidiCC (0, 0, 0)%Z (0, 0, 0)%Z) (zip res.*2 [[9; 9; 9; 9]%Z]) =
    [([(0, 0, 0); (5, 0, 0); (5, 0, 0); (5, 0, 0)]%Z, true)].
Proof. eexists _, _. split_and!; [reflexivity| |]; vm_compute; reflexivity. Qed.
Print Assumptions C48_same_controller_refuted.
