(** C72: notes are played in the equal temperament. *)
From Coq Require Import Reals Lra String Ascii.
From Verif Require Import Base M_Midi S_Midi L_Midi M_MidiN S_MidiN P_MidiN M_Norm P_Norm M_Prog M_Track S_Track P_Track M_Pitch S_Pitch.
Open Scope R_scope.

Lemma osc_tempered x d k : playable k -> x + d = (k - 69) / 120 -> osc_freq x d = tempered k.
Proof.
  unfold playable. intros Hk E. unfold osc_freq, d_pit, tempered, rclamp. rewrite E.
  destruct (Rlt_dec _ _); [lra|]. destruct (Rlt_dec _ _); [lra|]. f_equal. f_equal. lra.
Qed.

(** ** C72: twelve keys are an octave, key 69 has 440 Hz, and higher keys have higher frequencies. *)
Theorem C72_octaves : tempered 69 = 440 /\ (forall k, tempered (k + 12) = 2 * tempered k) /\ forall k k', k < k' -> tempered k < tempered k'.
Proof.
  unfold tempered. split_and!.
  - replace ((69 - 69) / 12) with 0 by lra. rewrite Rpower_O by lra. lra.
  - intros k. replace ((k + 12 - 69) / 12) with (1 + (k - 69) / 12) by lra. rewrite Rpower_plus, Rpower_1 by lra. lra.
  - intros k k' Hk. apply Rmult_lt_compat_l; [lra|]. apply Rpower_lt; lra.
Qed.
Print Assumptions C72_octaves.

(** An input freq that is set to the frequency of a key, and an input det that is set to [s] semitones, sound [s] keys higher. *)
Theorem C72_knob k s : playable k -> playable (k + s) -> osc_freq (n_pit (tempered k)) (n_det s) = tempered (k + s).
Proof.
  intros Hk Hs. apply osc_tempered; [done|]. unfold n_det.
  assert (n_pit (tempered k) = (k - 69) / 120) as ->; [|lra].
  pose proof ln2_pos as Hl. pose proof pit_low as Hlow. unfold playable in Hk.
  assert (440 * Rpower 2 (-10) <= tempered k) as Hge by (unfold tempered; apply Rmult_le_compat_l; [lra|]; apply Rle_Rpower; lra).
  unfold n_pit. rewrite Rmax_left by lra. unfold tempered. replace (440 * Rpower 2 ((k - 69) / 12) / 440) with (Rpower 2 ((k - 69) / 12)) by (field; lra).
  unfold Rpower. rewrite ln_exp. field. lra.
Qed.
Print Assumptions C72_knob.

(** A MIDI note that goes through MidiP to an oscillator sounds as its key, moved by the semitones of both detune inputs. *)
Theorem C72_midi {T Gs V L} (ttrigger : T -> T) (tnext : T -> V * T) (gtrigger : Gs -> Gs) (gnext : L -> Gs -> V * Gs) (ceil8 : V -> nat) (zero one : V)
    (t0 : T) (g0 : Gs) (chan : nat) (evs : list tev) (bs : list (Z * list L)) (det : list R) :
  time_ordered evs -> within_limits evs ((fun b => ([], length b.2)) <$> bs) ->
  exists res, run_blocks (Feeder None evs) 0 ((fun b => ([], length b.2)) <$> bs) = Some res /\
    forall t n v s s', (t < length (settings bs))%nat -> det !! t = Some (n_det s) ->
      last_started chan (notes_of (events_before evs (S t))) n v -> playable (INR n + s + s') ->
      exists x, midip_freqs (midipn_blocks ttrigger tnext gtrigger gnext ceil8 zero one chan (MidiPN midip_new t0 g0) (zip res.*1 bs)) det !! t = Some x /\
        osc_freq x (n_det s') = tempered (INR n + s + s').
Proof.
  intros Ho Hl. destruct (C44_note_all_modes ttrigger tnext gtrigger gnext ceil8 zero one t0 g0 chan evs bs Ho Hl) as (res & E & H).
  exists res. split; [done|]. intros t n v s s' Ht Hd Hn Hp. destruct (H t Ht) as (o & Eo & Hnote). destruct (Hnote n v Hn) as [En _].
  exists (midip_freq n (n_det s)). split.
  - unfold midip_freqs. apply lookup_zip_with_Some. exists o, (n_det s). by rewrite En.
  - apply osc_tempered; [done|]. unfold midip_freq, n_det. lra.
Qed.
Print Assumptions C72_midi.

(** A cell with a key in a column of notes sounds as this key until the next one, once the sequencer has received the pattern. *)
Theorem C72_tracker (val gate : Z -> R) (lerp : R -> R -> nat -> nat -> R) t sent c rows :
  history 0 val track_note gate lerp t sent -> tracker_send 0 val track_note gate lerp t = Some (t, false) -> tr_queue t = [] ->
  pt_types (tr_pat t) !! c = Some CNote -> (c < 6)%nat -> sent !! c = Some rows -> (0 < rows)%nat ->
  exists d, bk_data (tr_back t) !! c = Some d /\
    forall r v s, (r < 256)%nat -> last_given (column (tr_pat t) c) r (Some v) -> playable (IZR v) -> playable (IZR v + s) ->
      exists x g, d !! r = Some (x, g) /\ osc_freq x (n_det s) = tempered (IZR v + s).
Proof.
  intros Hh Hs Hq Hty Hc Hsent Hrows. destruct (C23_backend_plays_pattern_partial 0 val track_note gate lerp t sent Hh Hs Hq) as [_ H].
  destruct (H c Hc) as (ty & d & R' & _ & Ety & Ed & Er & Hp). rewrite Hty in Ety. injection Ety as <-. rewrite Hsent in Er. injection Er as <-.
  exists d. split; [done|]. intros r v s Hr Hv Hk Hks. specialize (Hp Hrows). cbn [column_plays] in Hp. specialize (Hp r (Some v) Hr Hv).
  eexists _, _. split; [exact Hp|]. apply osc_tempered; [done|]. unfold track_note, n_det, rclamp, playable in *.
  destruct (Rlt_dec _ _); [lra|]. destruct (Rlt_dec _ _); lra.
Qed.
Print Assumptions C72_tracker.

(** Key 60 is detuned by a quarter tone at MidiP and by one octave at the oscillator; the concert pitch through both ways *)
Example C72_case_midi : playable (INR 60 + 1 / 2 + 12) /\ last_started 0 (notes_of (events_before [TEv 1 (NoteOn 0 60 1); TEv 3 (NoteOff 0 60)] 5)) 60 1.
Proof. split; [unfold playable; simpl; lra|]. exists [], [NoteOff 0 60]. split; [reflexivity|]. intros n v H. apply elem_of_list_singleton in H. done. Qed.
Example C72_case_a : osc_freq (midip_freq 69 0) 0 = 440 /\ osc_freq (track_note 69) 0 = 440 /\ osc_freq (midip_freq 57 0) 0 = 220.
Proof.
  destruct C72_octaves as (H69 & Hoct & _). split_and!.
  - rewrite <- H69. apply osc_tempered; [unfold playable; lra|]. unfold midip_freq. simpl. lra.
  - rewrite <- H69. apply osc_tempered; [unfold playable; lra|]. unfold track_note, rclamp. destruct (Rlt_dec _ _); [lra|]. destruct (Rlt_dec _ _); lra.
  - assert (tempered 57 = 220) as <-; [|apply osc_tempered; [unfold playable; lra|]; unfold midip_freq; simpl; lra].
    pose proof (Hoct 57) as H. replace (57 + 12) with 69 in H by lra. lra.
Qed.

(** A tracker with a column of notes, that has received its pattern *)
Section demo.
  Local Notation rsend := (tracker_send 0 (fun _ => 0) track_note (fun _ => 0) (fun _ _ _ _ => 0)).
  Local Notation rstep := (track_step 0 (fun _ => 0) track_note (fun _ => 0) (fun _ _ _ _ => 0)).
  Local Notation rhistory := (history 0 (fun _ => 0) track_note (fun _ => 0) (fun _ _ _ _ => 0)).
  Local Definition pstep (ts : @tracker R * list nat) (o : trop) : option (@tracker R * list nat) :=
    let '(t, sent) := ts in
    match o with
    | TSend =>
        if (length (tr_queue t) <? max_ringbuf_size)%nat then
          match rsend t with
          | Some (t', true) =>
              let* col := head (filter (fun c => pt_dirty (tr_pat t) !! c = Some true /\ pt_dirty (tr_pat t') !! c = Some false) (seq 0 6)) in
              Some (t', <[col := pt_rows (tr_pat t)]> sent)
          | _ => None
          end
        else None
    | TBackend => None
    | _ => let* t' := rstep t o in Some (t', sent)
    end.
  Local Lemma prun_history os : forall t sent ts', rhistory t sent -> foldm pstep (t, sent) os = Some ts' -> rhistory ts'.1 ts'.2.
  Proof.
    induction os as [|o os IH]; intros t sent ts' H E; cbn [foldm] in E; [by injection E as <-|].
    apply bind_Some in E as ([t1 s1] & E1 & E). eapply IH; [|exact E]. clear E IH.
    destruct o as [o| | |]; cbn [pstep] in E1; [| | |done].
    - apply bind_Some in E1 as (t' & E & [= <- <-]). by eapply h_edit.
    - destruct (Nat.ltb_spec (length (tr_queue t)) max_ringbuf_size); [|done].
      destruct (rsend t) as [[t' []]|] eqn:Es; try done. apply bind_Some in E1 as (col & E & [= <- <-]).
      apply head_Some_elem_of, elem_of_list_filter in E as [[? ?] _]. by eapply h_send.
    - apply bind_Some in E1 as (t' & E & [= <- <-]). by eapply h_recv.
  Qed.
  Example C72_case_tracker : exists t sent, rhistory t sent /\ rsend t = Some (t, false) /\ tr_queue t = [] /\ pt_types (tr_pat t) !! 2%nat = Some CNote /\
    sent !! 2%nat = Some 4%nat /\ last_given (column (tr_pat t) 2) 3 (Some 72%Z).
  Proof.
    assert (P : (fun ts => (tr_queue ts.1, pt_types (tr_pat ts.1) !! 2%nat, ts.2 !! 2%nat, first_dirty (take max_cols (pt_dirty (tr_pat ts.1))) 0, column (tr_pat ts.1) 2 <$> seq 0 4)) <$>
      foldm pstep (tracker_new 0, replicate max_cols 0%nat) track_demo = Some ([], Some CNote, Some 4%nat, None, [Some 72%Z; None; None; None])) by (vm_compute; reflexivity).
    destruct (foldm pstep (tracker_new 0, replicate max_cols 0%nat) track_demo) as [[t sent]|] eqn:E; [|done].
    exists t, sent. split; [exact (prun_history _ _ _ _ (h_new _ _ _ _ _) E)|]. clear E. cbn [fmap option_fmap option_map fst snd seq list_fmap] in P.
    injection P as P1 P2 P3 P4 C0 C1 C2 C3. split_and!; try done.
    - unfold tracker_send. by rewrite P4.
    - exists 0%nat. split; [lia|]. split; [done|]. intros i Hi. assert (i = 1 \/ i = 2 \/ i = 3)%nat as [->|[->| ->]] by lia; done.
  Qed.
End demo.
