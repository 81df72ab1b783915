(** Proofs about the MidiP gate modes and the MidiCC node *)
From Coq Require Import Sorting.Sorted.
From Verif Require Import Base M_Midi S_Midi L_Midi M_MidiN S_MidiN P_Midi.
Open Scope nat_scope.

Lemma zip_mjoin {A B} (xs : list (list A)) (ys : list (list B)) : Forall2 (fun a b => length a = length b) xs ys ->
  zip (mjoin xs) (mjoin ys) = mjoin (zip_with zip xs ys).
Proof.
  induction 1 as [|a b xs ys E H IH]; [done|]. cbn. rewrite zip_with_app by done. f_equal. exact IH.
Qed.

(** The events that a node reads in all frames of a song *)
Lemma song_reads {B} (evs : list tev) (len : B -> nat) (bs : list B) : time_ordered evs -> within_limits evs ((fun b => ([], len b)) <$> bs) ->
  exists res, run_blocks (Feeder None evs) 0 ((fun b => ([], len b)) <$> bs) = Some res /\ length res = length bs /\
    Forall2 (fun r b => length (node_reads 0 (len b) r.1) = len b /\ length (node_reads 0 (len b) r.2) = len b) res bs /\
    mjoin (zip_with (fun r b => node_reads 0 (len b) r.1) res bs) = (fun t => notes_of (events_at evs t)) <$> seq 0 (sum_list (len <$> bs)) /\
    mjoin (zip_with (fun r b => node_reads 0 (len b) r.2) res bs) = (fun t => ccs_of (events_at evs t)) <$> seq 0 (sum_list (len <$> bs)).
Proof.
  intros Ho Hl. destruct (C20_delivery evs _ Ho Hl) as (res & E & L & G). exists res. split; [done|]. clear Hl E.
  assert (((fun b => ([] : list midi, len b)) <$> bs).*2 = len <$> bs) as ES.
  { rewrite <- list_fmap_compose. by apply list_fmap_ext. }
  rewrite ES in G. rewrite fmap_length in L. clear ES. set (sizes := len <$> bs) in *. split; [done|].
  assert (Forall2 (fun r b => length (node_reads 0 (len b) r.1) = len b /\ length (node_reads 0 (len b) r.2) = len b) res bs) as HF.
  { apply Forall2_lookup. intros i. destruct (bs !! i) as [b|] eqn:Eb.
    - destruct (G i [] (len b)) as (notes & ccs & Er & L1 & L2 & _); [by rewrite list_lookup_fmap, Eb|]. rewrite Er. by constructor.
    - rewrite (lookup_ge_None_2 res i); [constructor|]. apply lookup_ge_None_1 in Eb. lia. }
  split; [done|].
  assert (forall k, k <= length bs ->
    mjoin (take k (zip_with (fun r b => node_reads 0 (len b) r.1) res bs)) = (fun t => notes_of (events_at evs t)) <$> seq 0 (block_start sizes k) /\
    mjoin (take k (zip_with (fun r b => node_reads 0 (len b) r.2) res bs)) = (fun t => ccs_of (events_at evs t)) <$> seq 0 (block_start sizes k)) as H.
  { induction k as [|k IH]; intros Hk; [done|]. destruct (IH ltac:(lia)) as [IH1 IH2].
    destruct (lookup_lt_is_Some_2 bs k) as [b Hb]; [lia|]. destruct (G k [] (len b)) as (notes & ccs & Er & L1 & L2 & Gf).
    { by rewrite list_lookup_fmap, Hb. }
    assert (sizes !! k = Some (len b)) as Hn by (unfold sizes; by rewrite list_lookup_fmap, Hb).
    assert (block_start sizes (S k) = block_start sizes k + len b) as Eb.
    { unfold block_start. rewrite (take_S_r _ _ _ Hn), sum_list_with_app. cbn [sum_list_with]. unfold id. lia. }
    rewrite Eb. split.
    - assert (zip_with (fun r b => node_reads 0 (len b) r.1) res bs !! k = Some (node_reads 0 (len b) notes)) as Ez.
      { apply lookup_zip_with_Some. exists (notes, ccs), b. done. }
      rewrite (take_S_r _ _ _ Ez), mjoin_app, IH1, seq_app, fmap_app. f_equal. cbn. rewrite app_nil_r.
      apply list_eq. intros f. rewrite list_lookup_fmap. destruct (decide (f < len b)) as [Hf|Hf].
      + rewrite lookup_seq_lt by done. cbn. destruct (Gf f Hf) as [-> _]. by destruct (f =? 0).
      + rewrite lookup_seq_ge by lia. apply lookup_ge_None_2. lia.
    - assert (zip_with (fun r b => node_reads 0 (len b) r.2) res bs !! k = Some (node_reads 0 (len b) ccs)) as Ez.
      { apply lookup_zip_with_Some. exists (notes, ccs), b. done. }
      rewrite (take_S_r _ _ _ Ez), mjoin_app, IH2, seq_app, fmap_app. f_equal. cbn. rewrite app_nil_r.
      apply list_eq. intros f. rewrite list_lookup_fmap. destruct (decide (f < len b)) as [Hf|Hf].
      + rewrite lookup_seq_lt by done. cbn. destruct (Gf f Hf) as [_ ->]. by destruct (f =? 0).
      + rewrite lookup_seq_ge by lia. apply lookup_ge_None_2. lia. }
  specialize (H (length bs) ltac:(lia)). unfold block_start in H. rewrite (firstn_all2 sizes) in H by (unfold sizes; rewrite fmap_length; lia).
  rewrite !take_ge in H by (rewrite zip_with_length; lia). exact H.
Qed.

Section midip.
  Context {T Gs V L : Type} (ttrigger : T -> T) (tnext : T -> V * T) (gtrigger : Gs -> Gs) (gnext : L -> Gs -> V * Gs)
    (ceil8 : V -> nat) (zero one : V).
  Notation event := (midipn_event ttrigger gtrigger).
  Notation frame := (midipn_frame ttrigger tnext gtrigger gnext ceil8 zero one).
  Notation frames := (midipn_frames ttrigger tnext gtrigger gnext ceil8 zero one).
  Notation blocks_out := (midipn_blocks ttrigger tnext gtrigger gnext ceil8 zero one).

  (** frame by frame, with the gate mode of every frame *)
  Fixpoint prun (chan : nat) (s : midipn) (fs : list (list midi * (Z * L))) : midipn * list midipn_out :=
    match fs with
    | [] => (s, [])
    | (es, (m, l)) :: fs => let '(s, o) := frame chan m s es l in let '(s, os) := prun chan s fs in (s, o :: os)
    end.
  Lemma prun_app chan a : forall s b, prun chan s (a ++ b) =
    let '(s1, os1) := prun chan s a in let '(s2, os2) := prun chan s1 b in (s2, os1 ++ os2).
  Proof.
    induction a as [|[es [m l]] a IH]; intros s b; cbn [prun app].
    - by destruct (prun chan s b).
    - destruct (frame chan m s es l) as [s1 o]. rewrite IH. destruct (prun chan s1 a) as [s2 os]. by destruct (prun chan s2 b).
  Qed.
  Lemma frames_prun chan m : forall ess s ls, frames chan m s (zip ess ls) = prun chan s (zip ess ((fun l => (m, l)) <$> ls)).
  Proof.
    induction ess as [|es ess IH]; intros s [|l ls]; try done. cbn. destruct (frame chan m s es l) as [s1 o]. by rewrite IH.
  Qed.
  Lemma blocks_prun chan : forall (bs : list (Z * list L)) (ns : list (list tev)) s,
    Forall2 (fun n b => length (node_reads 0 (length b.2) n) = length b.2) ns bs ->
    blocks_out chan s (zip ns bs) = (prun chan s (zip (mjoin (zip_with (fun n b => node_reads 0 (length b.2) n) ns bs)) (settings bs))).2.
  Proof.
    induction bs as [|[m ls] bs IH]; intros ns s H; [apply Forall2_nil_inv_r in H as ->; done|].
    apply Forall2_cons_inv_r in H as (n & ns' & E & H & ->). cbn [zip zip_with midipn_blocks]. unfold settings. cbn [fmap list_fmap mjoin list_join fst snd] in *.
    rewrite zip_with_app by (by rewrite fmap_length). rewrite prun_app, frames_prun.
    destruct (prun chan s (zip (node_reads 0 (length ls) n) ((fun l => (m, l)) <$> ls))) as [s1 os1]. rewrite IH by done. fold (settings bs).
    by destruct (prun chan s1 _).
  Qed.
  Lemma settings_length (bs : list (Z * list L)) : length (settings bs) = sum_list ((fun b => length b.2) <$> bs).
  Proof. induction bs as [|[m ls] bs IH]; [done|]. change (settings ((m, ls) :: bs)) with (((fun l => (m, l)) <$> ls) ++ settings bs). rewrite app_length, fmap_length, IH. done. Qed.

  Lemma song_prun chan (evs : list tev) (bs : list (Z * list L)) s : time_ordered evs -> within_limits evs ((fun b => ([], length b.2)) <$> bs) ->
    exists res, run_blocks (Feeder None evs) 0 ((fun b => ([], length b.2)) <$> bs) = Some res /\
      blocks_out chan s (zip res.*1 bs) = (prun chan s (zip ((fun t => notes_of (events_at evs t)) <$> seq 0 (length (settings bs))) (settings bs))).2.
  Proof.
    intros Ho Hl. destruct (song_reads evs (fun b : Z * list L => length b.2) bs Ho Hl) as (res & E & L' & HF & R1 & _). exists res. split; [done|].
    rewrite blocks_prun.
    - rewrite settings_length, <- R1. do 3 f_equal. clear. revert bs. induction res as [|r res IH]; intros [|b bs]; try done. cbn. by rewrite IH.
    - apply Forall2_fmap_l. eapply Forall2_impl; [exact HF|]. by intros r b [? _].
  Qed.

  (** events act on the parts of the state *)
  Lemma events_core chan es : forall s, mn_core (foldl (event chan) s es) = foldl (midip_event chan) (mn_core s) es.
  Proof.
    induction es as [|e es IH]; intros s; [done|]. cbn [foldl]. rewrite IH. f_equal. destruct e as [c n v|c n|c n v]; cbn [midipn_event midip_event]; try done.
    by destruct (c =? chan).
  Qed.
  Lemma events_trig chan es : forall s, mn_trig (foldl (event chan) s es) = Nat.iter (note_ons chan es) ttrigger (mn_trig s).
  Proof.
    induction es as [|e es IH]; intros s; [done|]. cbn [foldl]. rewrite IH. unfold note_ons. rewrite filter_cons.
    destruct e as [c n v|c n|c n v]; cbn [midipn_event]; try done. destruct (c =? chan); cbn [negb]; [|done].
    rewrite decide_True by done. cbn [length]. by rewrite Nat.iter_succ_r.
  Qed.
  Lemma events_gsig chan es : forall s, mn_gate (foldl (event chan) s es) = Nat.iter (note_ons chan es) gtrigger (mn_gate s).
  Proof.
    induction es as [|e es IH]; intros s; [done|]. cbn [foldl]. rewrite IH. unfold note_ons. rewrite filter_cons.
    destruct e as [c n v|c n|c n v]; cbn [midipn_event]; try done. destruct (c =? chan); cbn [negb]; [|done].
    rewrite decide_True by done. cbn [length]. by rewrite Nat.iter_succ_r.
  Qed.

  (** the note and velocity in any mode *)
  Lemma frame_note chan m s fs l s' o es : note_ok chan es (mn_core s) -> frame chan m s fs l = (s', o) ->
    note_ok chan (es ++ fs) (mn_core s') /\ mno_note o = mp_note (mn_core s') /\ mno_vel o = mp_vel (mn_core s').
  Proof.
    intros H E. unfold midipn_frame in E. cbv zeta in E. rewrite !events_core in E. cbn [mn_core] in E.
    set (g := if (0 <? mp_next _)%Z then _ else _) in E. set (c0 := MidiP 0 _ g _) in E.
    assert (note_ok chan es c0) as H0. { intros n v Hn. apply (H n v Hn). }
    pose proof (events_note chan fs es c0 H0) as H1. set (c := foldl (midip_event chan) c0 fs) in *.
    destruct (m =? 1)%Z.
    { destruct (tnext _) as [v t]. injection E as <- <-. done. }
    destruct (m =? 2)%Z.
    { destruct (0 <? mp_next c)%Z; [by injection E as <- <-|]. destruct (gnext _ _) as [v g2]. by injection E as <- <-. }
    injection E as <- <-. rewrite events_core. done.
  Qed.
  Lemma prun_note chan fs : forall es s, note_ok chan es (mn_core s) ->
    forall t f, fs !! t = Some f -> exists o, (prun chan s fs).2 !! t = Some o /\
      forall n v, last_started chan (es ++ mjoin (take (S t) fs.*1)) n v -> mno_note o = n /\ mno_vel o = v.
  Proof.
    induction fs as [|[e [m l]] fs IH]; intros es s HN t f Ht; [done|]. cbn [prun].
    destruct (frame chan m s e l) as [s1 o] eqn:E. destruct (prun chan s1 fs) as [s2 os] eqn:E2.
    destruct (frame_note _ _ _ _ _ _ _ es HN E) as (HN1 & Eo1 & Eo2). destruct t as [|t].
    - exists o. split; [done|]. intros n v. cbn. rewrite app_nil_r, Eo1, Eo2. apply HN1.
    - destruct (IH _ _ HN1 t f Ht) as (o' & Eo & P). rewrite E2 in Eo. exists o'. split; [done|].
      cbn [fmap list_fmap fst]. change (take (S (S t)) (e :: fs.*1)) with (e :: take (S t) fs.*1). cbn [mjoin list_join]. rewrite app_assoc. exact P.
  Qed.

  (** trigger mode *)
  Lemma prun_trig chan fs : forall s, Forall (fun f => f.2.1 = 1%Z) fs ->
    mno_gate <$> (prun chan s fs).2 = trig_signal ttrigger tnext (mn_trig s) (note_ons chan <$> fs.*1).
  Proof.
    induction fs as [|[e [m l]] fs IH]; intros s H; [done|]. apply Forall_cons in H as [Hm H]. cbn in Hm. subst m. cbn [prun].
    destruct (frame chan 1 s e l) as [s1 o] eqn:E. unfold midipn_frame in E. cbv zeta in E. cbn [Z.eqb Pos.eqb] in E.
    rewrite events_trig in E. cbn [mn_trig] in E. cbn [fmap list_fmap fst trig_signal].
    destruct (tnext _) as [v t]. injection E as <- <-.
    match goal with |- context [prun chan ?s1 fs] => specialize (IH s1 H); destruct (prun chan s1 fs) as [s2 os] end.
    cbn. f_equal. exact IH.
  Qed.

  (** MIDI mode *)
  Lemma prun_midi chan fs : forall s, Forall (fun f => f.2.1 <> 1%Z /\ f.2.1 <> 2%Z) fs ->
    mno_gate <$> (prun chan s fs).2 = (fun o => if mo_gate o then one else zero) <$> (midip_frames chan (mn_core s) fs.*1).2.
  Proof.
    induction fs as [|[e [m l]] fs IH]; intros s H; [done|]. apply Forall_cons in H as [[H1 H2] H]. cbn in H1, H2. cbn [prun].
    destruct (frame chan m s e l) as [s1 o] eqn:E. unfold midipn_frame in E. cbv zeta in E.
    rewrite (proj2 (Z.eqb_neq m 1) H1), (proj2 (Z.eqb_neq m 2) H2) in E. injection E as <- <-.
    cbn [fmap list_fmap fst midip_frames]. unfold midip_frame. cbv zeta. specialize (IH (foldl (event chan) (MidiPN (MidiP 0 (mp_note (mn_core s)) (if (0 <? mp_next (mn_core s))%Z then 1 else if (mp_next (mn_core s) <? 0)%Z then 0 else mp_gate (mn_core s)) (mp_vel (mn_core s))) (mn_trig s) (mn_gate s)) e) H).
    rewrite events_core in *. cbn [mn_core] in *. destruct (prun chan _ fs) as [s2 os]. destruct (midip_frames chan _ fs.*1) as [s3 os3]. cbn in *. f_equal. exact IH.
  Qed.

  (** gate length mode *)
  Definition glen_ok (chan : nat) (es : list midi) (up : bool) (s : midipn (T := T) (Gs := Gs)) : Prop :=
    let c := mn_core s in
    note_ok chan es c /\ (mp_next c = -1 \/ mp_next c = 0 \/ mp_next c = 1)%Z /\
    up = (if (0 <? mp_next c)%Z then true else if (mp_next c <? 0)%Z then false else 0 <? mp_gate c).
  Lemma note_ons_one chan es e fs : filter (fun e => on_channel chan e = true) es = [] ->
    note_ons chan (es ++ e :: fs) = note_ons chan (e :: fs).
  Proof.
    intros H. unfold note_ons. rewrite filter_app. rewrite app_length. replace (length (filter _ es)) with 0; [done|].
    induction es as [|x es IH]; [done|]. rewrite filter_cons in H |- *. destruct (decide (on_channel chan x = true)) as [|N]; [done|].
    rewrite decide_False; [by apply IH|]. intros Hx. apply N. by destruct x.
  Qed.
  Lemma off_none chan es : filter (fun e => on_channel chan e = true) es = [] -> note_ons chan es = 0.
  Proof. intros H. pose proof (note_ons_one chan es (CC 0 0 0) [] H) as E. unfold note_ons in *. rewrite filter_app, app_length in E. lia. Qed.

  (** at most one event of the channel: the core and the generators after the frame *)
  Lemma one_event chan es : length (filter (fun e => on_channel chan e = true) es) <= 1 ->
    (filter (fun e => on_channel chan e = true) es = [] /\ note_ons chan es = 0 /\ forall c, foldl (midip_event chan) c es = c) \/
    (exists e, on_channel chan e = true /\ e ∈ es /\ (forall x, x ∈ es -> on_channel chan x = true -> x = e) /\
       note_ons chan es = note_ons chan [e] /\ forall c, foldl (midip_event chan) c es = midip_event chan c e).
  Proof.
    intros H. destruct (filter (fun e => on_channel chan e = true) es) as [|e [|e' l]] eqn:E; [| |cbn in H; lia].
    - left. split; [done|]. split; [by apply off_none|]. intros c. by apply off_channel.
    - right. exists e.
      assert (e ∈ filter (fun e => on_channel chan e = true) es) as He by (rewrite E; by left).
      apply elem_of_list_filter in He as [He1 He2]. split_and!; try done.
      + intros x Hx Hc. assert (x ∈ filter (fun e => on_channel chan e = true) es) as Hf by by apply elem_of_list_filter. rewrite E in Hf. by apply elem_of_list_singleton in Hf.
      + unfold note_ons.
        assert (filter (fun e => match e with NoteOn c _ _ => c =? chan | _ => false end = true) es =
          filter (fun e => match e with NoteOn c _ _ => c =? chan | _ => false end = true) (filter (fun e => on_channel chan e = true) es)) as Ef.
        { rewrite list_filter_filter. clear. induction es as [|x es IH]; [done|]. rewrite !filter_cons. rewrite IH.
          destruct x as [c n v|c n|c n v]; cbn; repeat case_decide; try done; try tauto. }
        by rewrite Ef, E.
      + intros c. clear H He1 He2. revert e E c. induction es as [|x es IH]; intros e E c; [done|]. rewrite filter_cons in E. cbn [foldl].
        destruct (decide (on_channel chan x = true)) as [Hx|Hx].
        * injection E as -> E. by rewrite off_channel.
        * rewrite IH with (e := e) by done. f_equal. destruct x as [c' n v|c' n|c' n v]; cbn [midip_event on_channel] in *; try done; destruct (c' =? chan); done.
  Qed.

  (** before the first note the generator is not triggered, and low *)
  Context (idle : Gs -> Prop).
  Hypothesis idle_next : forall l g, idle g -> ceil8 (gnext l g).1 = 0 /\ idle (gnext l g).2.

  Definition glen_inv (chan : nat) (es : list midi) (up : bool) (s : midipn (T := T) (Gs := Gs)) : Prop :=
    glen_ok chan es up s /\ ((exists n v, last_started chan es n v) \/ (idle (mn_gate s) /\ up = false)).

  Lemma started_app chan es fs n v : last_started chan es n v -> exists n' v', last_started chan (es ++ fs) n' v'.
  Proof.
    revert es n v. induction fs as [|f fs IH]; intros es n v H; [rewrite app_nil_r; eauto|].
    replace (es ++ f :: fs) with ((es ++ [f]) ++ fs) by (by rewrite <- app_assoc).
    destruct f as [c k w|c k|c k w].
    - destruct (decide (c = chan)) as [->|N].
      + eapply IH. by apply started_on.
      + eapply IH. apply started_other; [congruence|exact H].
    - eapply IH. apply started_other; [congruence|exact H].
    - eapply IH. apply started_other; [congruence|exact H].
  Qed.

  Lemma prun_glen chan fs : forall es s up evs, Forall (fun f => f.2.1 = 2%Z) fs ->
    Forall (fun f => length (filter (fun e => on_channel chan e = true) f.1) <= 1) fs ->
    glen_inv chan es up s -> length evs = length fs ->
    (forall t f e, fs !! t = Some f -> evs !! t = Some e -> event_of chan (es ++ mjoin (take t fs.*1)) f.1 e) ->
    mno_gate <$> (prun chan s fs).2 = gate_signal gtrigger gnext (fun v => 0 <? ceil8 v) zero (mn_gate s) up (zip evs fs.*2.*2).
  Proof.
    induction fs as [|[e [m l]] fs IH]; intros es s up evs H2 H1 HI HL HE; [by destruct evs|].
    apply Forall_cons in H2 as [Hm H2]. apply Forall_cons in H1 as [H1 H1']. cbn in Hm, H1. subst m. destruct evs as [|ev evs]; [done|].
    injection HL as HL. pose proof (HE 0 _ _ eq_refl eq_refl) as He. cbn in He. rewrite app_nil_r in He.
    assert (forall t f e0, fs !! t = Some f -> evs !! t = Some e0 -> event_of chan ((es ++ e) ++ mjoin (take t fs.*1)) f.1 e0) as HE'.
    { intros t f e0 Hf He0. specialize (HE (S t) f e0 Hf He0). cbn in HE. by rewrite <- app_assoc. }
    cbn [prun]. destruct (frame chan 2 s e l) as [s1 o] eqn:E.
    destruct HI as [(HN & Hx & Hup) Hid].
    pose proof (frame_note _ _ _ _ _ _ _ es HN E) as (HN1 & _ & _).
    unfold midipn_frame in E. cbv zeta in E. cbn [Z.eqb Pos.eqb] in E. rewrite !events_core, events_trig, events_gsig in E. cbn [mn_core mn_trig mn_gate] in E.
    assert (forall up', glen_inv chan (es ++ e) up' s1 -> mno_gate <$> (s1, o :: (prun chan s1 fs).2).2 =
      mno_gate o :: gate_signal gtrigger gnext (fun v => 0 <? ceil8 v) zero (mn_gate s1) up' (zip evs fs.*2.*2)) as Step.
    { intros up' HI'. cbn. f_equal. by apply (IH (es ++ e)). }
    replace (mno_gate <$> (let '(s2, os) := prun chan s1 fs in (s2, o :: os)).2) with (mno_gate <$> (s1, o :: (prun chan s1 fs).2).2) by (by destruct (prun chan s1 fs)).
    cbn [zip zip_with fmap list_fmap fst snd gate_signal].
    set (g0 := if (0 <? mp_next _)%Z then 1 else _) in E.
    assert (up = (0 <? g0)) as Eup. { subst g0 up. destruct (0 <? mp_next (mn_core s))%Z; [done|]. by destruct (mp_next (mn_core s) <? 0)%Z. }
    destruct (one_event chan e H1) as [(Hnone & Hon & Hc)|(x & Hxc & Hxe & Hxu & Hon & Hc)].
    - (* no event of the channel *)
      rewrite Hc, Hon in E. cbn [Nat.iter nat_rect mp_next] in E. change (0 <? 0)%Z with false in E. cbn iota in E. cbn [mp_note mp_vel] in E.
      assert (ev = Neither) as ->.
      { assert (forall x, x ∈ e -> on_channel chan x = true -> False) as Hno.
        { intros x Hx' Hc'. assert (x ∈ filter (fun e => on_channel chan e = true) e) as Hf by by apply elem_of_list_filter. rewrite Hnone in Hf. by apply elem_of_nil in Hf. }
        destruct ev; [| |done]; cbn in He.
        - destruct He as (n & v & Hin). exfalso. apply (Hno _ Hin). cbn. apply Nat.eqb_refl.
        - destruct He as (n & v & _ & Hin). exfalso. apply (Hno _ Hin). cbn. apply Nat.eqb_refl. }
      destruct (gnext l (mn_gate s)) as [v g] eqn:En. injection E as <- <-. etrans; [apply (Step (0 <? ceil8 v))|done].
      split; [split_and!; try done; cbn; tauto|]. destruct Hid as [(n & w & Hst)|[Hi ->]]; [left; by eapply started_app|].
      right. destruct (idle_next l _ Hi) as [Hz Hi']. rewrite En in Hz, Hi'. cbn in Hz, Hi' |- *. rewrite Hz. done.
    - destruct x as [c k w|c k|c k w]; cbn in Hxc; [| |done]; apply Nat.eqb_eq in Hxc; subst c.
      + (* a note starts *)
        rewrite Hc, Hon in E. cbn [midip_event] in E. rewrite Nat.eqb_refl in E. cbn [negb mp_gate mp_next mp_note mp_vel] in E.
        assert (note_ons chan [NoteOn chan k w] = 1) as Ho1. { unfold note_ons. rewrite filter_cons, decide_True by (by rewrite Nat.eqb_refl). done. }
        rewrite Ho1 in E. cbn [Nat.iter nat_rect] in E.
        assert (ev = Starts) as ->.
        { destruct ev; [done| |]; cbn in He.
          - destruct He as (n & v & _ & Hin). specialize (Hxu _ Hin). cbn in Hxu. rewrite Nat.eqb_refl in Hxu. by specialize (Hxu eq_refl).
          - destruct He as [Hn _]. exfalso. apply Hn. by exists k, w. }
        assert (exists n v, last_started chan (es ++ e) n v) as Hst.
        { apply elem_of_list_split in Hxe as (e1 & e2 & ->). replace (es ++ e1 ++ NoteOn chan k w :: e2) with (((es ++ e1) ++ [NoteOn chan k w]) ++ e2) by (by rewrite <- !app_assoc).
          eapply started_app. by apply started_on. }
        destruct up.
        * rewrite <- Eup in E. cbn [mp_next mp_note mp_vel] in E. change (0 <? 1)%Z with true in E. cbn iota in E. injection E as <- <-.
          etrans; [apply (Step true)|done]. split; [|by left]. split_and!; try done. cbn. tauto.
        * rewrite <- Eup in E. cbn [mp_next mp_note mp_vel] in E. change (0 <? 0)%Z with false in E. cbn iota in E.
          destruct (gnext l (gtrigger (mn_gate s))) as [v g] eqn:En. injection E as <- <-.
          etrans; [apply (Step (0 <? ceil8 v))|done]. split; [|by left]. split_and!; try done. cbn. tauto.
      + (* a note ends *)
        rewrite Hc, Hon in E. cbn [midip_event] in E. rewrite Nat.eqb_refl in E. cbn [negb mp_gate mp_next mp_note mp_vel] in E.
        assert (note_ons chan [NoteOff chan k] = 0) as Ho0 by (unfold note_ons; by rewrite filter_cons, decide_False).
        rewrite Ho0 in E. cbn [Nat.iter nat_rect] in E.
        assert (~ starts chan e) as Hns. { intros (n & v & Hin). specialize (Hxu _ Hin). cbn in Hxu. rewrite Nat.eqb_refl in Hxu. by specialize (Hxu eq_refl). }
        assert (forall n, NoteOff chan n ∈ e -> n = k) as Hk. { intros n Hin. specialize (Hxu _ Hin). cbn in Hxu. rewrite Nat.eqb_refl in Hxu. specialize (Hxu eq_refl). congruence. }
        set (c1 := if mp_note (mn_core s) =? k then _ else _) in E.
        assert (mp_note c1 = mp_note (mn_core s) /\ mp_vel c1 = mp_vel (mn_core s) /\ mp_next c1 = (if (mp_note (mn_core s) =? k)%nat then -1 else 0)%Z) as (En1 & Ev1 & Ex1).
        { subst c1. by destruct (mp_note (mn_core s) =? k). }
        assert ((0 <? mp_next c1)%Z = false) as Ez. { rewrite Ex1. by destruct (mp_note (mn_core s) =? k). }
        rewrite Ez in E. destruct (gnext l (mn_gate s)) as [v g] eqn:En. injection E as <- <-.
        destruct Hid as [(n0 & v0 & Hst)|[Hi Hup0]].
        * destruct (HN _ _ Hst) as [Hn0 _]. rewrite Hn0 in Ex1.
          destruct (Nat.eqb_spec n0 k) as [->|Nk].
          -- assert (ev = Releases) as ->. { destruct ev; [by destruct (Hns He)|done|]. cbn in He. destruct He as [_ Hr]. exfalso. apply Hr. by exists k, v0. }
             etrans; [apply (Step false)|cbn; by rewrite En]. split; [|left; by eapply started_app]. split_and!; [done|cbn; tauto|cbn; by rewrite Ex1].
          -- assert (ev = Neither) as ->.
             { destruct ev; [by destruct (Hns He)| |done]. cbn in He. destruct He as (n & v1 & Hs' & Hin). rewrite (Hk _ Hin) in Hs'. destruct (HN _ _ Hs') as [Hk' _]. congruence. }
             etrans; [apply (Step (0 <? ceil8 v))|cbn; by rewrite En]. split; [|left; by eapply started_app]. split_and!; [done|cbn; tauto|cbn; by rewrite Ex1].
        * destruct (idle_next l _ Hi) as [Hz Hi']. rewrite En in Hz, Hi'. cbn in Hz, Hi'.
          assert (glen_inv chan (es ++ e) false (MidiPN (MidiP (mp_next c1) (mp_note c1) (ceil8 v) (mp_vel c1)) (mn_trig s) g)) as HI'.
          { split; [|right; done]. split_and!; [done|cbn; rewrite Ex1; destruct (_ =? k); tauto|]. cbn. rewrite Ez, Hz. by destruct (mp_next c1 <? 0)%Z. }
          destruct ev; [by destruct (Hns He)| |]; (etrans; [apply (Step false HI')|]); cbn; rewrite En; try done. by rewrite Hz.
  Qed.
End midip.

Section midicc.
  Context {W V L : Type} (snext : Z -> L -> W -> V * W) (chan cc1 cc2 cc3 : nat).
  Notation midicc := (@midicc W).
  Notation event := (@midicc_event W chan cc1 cc2 cc3).
  Notation frame := (midicc_frame snext chan cc1 cc2 cc3).
  Notation frames := (midicc_frames snext chan cc1 cc2 cc3).

  Definition lastcc (ch cc : nat) (v : Z) (es : list midi) : Z :=
    foldl (fun v e => match e with CC c k x => if (c =? ch) && (k =? cc) then x else v | _ => v end) v es.
  Arguments lastcc : simpl never.
  Lemma lastcc_app ch cc v a b : lastcc ch cc v (a ++ b) = lastcc ch cc (lastcc ch cc v a) b.
  Proof. apply foldl_app. Qed.
  Lemma lastcc_none ch cc v es : (forall w, CC ch cc w ∉ es) -> lastcc ch cc v es = v.
  Proof.
    revert v. induction es as [|e es IH]; intros v H; [done|]. unfold lastcc. cbn [foldl]. fold (lastcc ch cc).
    replace (match e with CC c k x => if (c =? ch) && (k =? cc) then x else v | _ => v end) with v.
    - apply IH. intros w Hw. apply (H w). by right.
    - destruct e as [| |c k x]; try done. destruct (Nat.eqb_spec c ch) as [->|]; [|done]. destruct (Nat.eqb_spec k cc) as [->|]; [|done].
      exfalso. apply (H x). by left.
  Qed.
  Lemma controller_lastcc ch cc es v : controller ch cc es v -> v = lastcc ch cc 0%Z es.
  Proof.
    intros [(pre & post & -> & H)|[H ->]]; [|by rewrite lastcc_none].
    rewrite lastcc_app. unfold lastcc at 1. cbn [foldl]. rewrite !Nat.eqb_refl. cbn. fold (lastcc ch cc v post). by rewrite lastcc_none.
  Qed.

  Definition hits (e : midi) : bool :=
    match e with CC c k _ => (c =? chan) && ((k =? cc1) || (k =? cc2) || (k =? cc3)) | _ => false end.

  Lemma events_cc es : forall s b s' b', foldl event (s, b) es = (s', b') ->
    mc_slew s' = mc_slew s /\ b' = b || existsb hits es /\
    (mc_cur s').1.1 = lastcc chan cc1 (mc_cur s).1.1 es /\
    (cc2 <> cc1 -> (mc_cur s').1.2 = lastcc chan cc2 (mc_cur s).1.2 es) /\
    (cc3 <> cc1 -> cc3 <> cc2 -> (mc_cur s').2 = lastcc chan cc3 (mc_cur s).2 es).
  Proof.
    induction es as [|e es IH]; intros s b s' b' E.
    - injection E as <- <-. cbn. by rewrite orb_false_r.
    - cbn [foldl] in E. destruct (event (s, b) e) as [s1 b1] eqn:Ee. destruct (IH _ _ _ _ E) as (-> & -> & -> & H2 & H3). clear IH E.
      destruct s as [[[v1 v2] v3] w]. unfold lastcc in *. cbn [foldl existsb]. destruct e as [c n v|c n|c k x]; cbn [midicc_event mc_cur hits] in *.
      1,2: injection Ee as <- <-; done.
      destruct (c =? chan); cbn [negb andb] in *; [|injection Ee as <- <-; by rewrite ?andb_false_l].
      destruct (Nat.eqb_spec k cc1) as [->|N1].
      { injection Ee as <- <-. cbn in *. split_and!; [done|by rewrite orb_true_r|done| |].
        - intros N. rewrite (proj2 (Nat.eqb_neq cc1 cc2)) by done. by apply H2.
        - intros Na Nb. rewrite (proj2 (Nat.eqb_neq cc1 cc3)) by done. by apply H3. }
      destruct (Nat.eqb_spec k cc2) as [->|N2].
      { injection Ee as <- <-. cbn in *. split_and!; [done|by rewrite orb_true_r|done|done|].
        intros Na Nb. rewrite (proj2 (Nat.eqb_neq cc2 cc3)) by done. by apply H3. }
      destruct (Nat.eqb_spec k cc3) as [->|N3].
      { injection Ee as <- <-. cbn in *. split_and!; [done|by rewrite orb_true_r|done|done|done]. }
      injection Ee as <- <-. cbn in *. done.
  Qed.

  (** the values that the slew limiters see *)
  Fixpoint seen (cc : nat) (v : Z) (fs : list (list midi)) : list Z :=
    match fs with [] => [] | es :: fs => let v := lastcc chan cc v es in v :: seen cc v fs end.
  Lemma seen_lookup cc fs : forall v t x, seen cc v fs !! t = Some x -> x = lastcc chan cc v (mjoin (take (S t) fs)).
  Proof.
    induction fs as [|es fs IH]; intros v [|t] x H; try done.
    - injection H as <-. cbn. by rewrite app_nil_r.
    - cbn in H. apply IH in H as ->. change (take (S (S t)) (es :: fs)) with (es :: take (S t) fs). change (mjoin (es :: take (S t) fs)) with (es ++ mjoin (take (S t) fs)).
      by rewrite lastcc_app.
  Qed.
  Lemma seen_length cc fs : forall v, length (seen cc v fs) = length fs.
  Proof. induction fs as [|es fs IH]; intros v; [done|]. cbn. by rewrite IH. Qed.

  Lemma frames_cc fs : forall s b s' b' os, frames (s, b) fs = ((s', b'), os) ->
    b' = b || existsb hits (mjoin fs.*1) /\
    os.*1.*1 = slew_signal snext (mc_slew s).1.1 (zip (seen cc1 (mc_cur s).1.1 fs.*1) fs.*2) /\
    (cc2 <> cc1 -> os.*1.*2 = slew_signal snext (mc_slew s).1.2 (zip (seen cc2 (mc_cur s).1.2 fs.*1) fs.*2)) /\
    (cc3 <> cc1 -> cc3 <> cc2 -> os.*2 = slew_signal snext (mc_slew s).2 (zip (seen cc3 (mc_cur s).2 fs.*1) fs.*2)).
  Proof.
    induction fs as [|[es l] fs IH]; intros s b s' b' os E.
    - injection E as <- <- <-. cbn. by rewrite orb_false_r.
    - cbn [midicc_frames] in E. destruct (frame (s, b) es l) as [[s1 b1] o] eqn:Ef. destruct (frames (s1, b1) fs) as [[s2 b2] os'] eqn:Er.
      injection E as <- <- <-. destruct (IH _ _ _ _ _ Er) as (-> & H1 & H2 & H3). clear IH Er.
      unfold midicc_frame in Ef. destruct (foldl event (s, b) es) as [s0 b0] eqn:E0. destruct (events_cc _ _ _ _ _ E0) as (Es & -> & C1 & C2 & C3). clear E0.
      destruct (mc_cur s0) as [[v1 v2] v3]. rewrite Es in Ef. destruct (mc_slew s) as [[w1 w2] w3]. cbn in *.
      destruct (snext v1 l w1) as [o1 w1'] eqn:E1. destruct (snext v2 l w2) as [o2 w2'] eqn:E2. destruct (snext v3 l w3) as [o3 w3'] eqn:E3.
      injection Ef as <- <- <-. cbn in *. split_and!.
      + rewrite existsb_app. by rewrite orb_assoc.
      + rewrite <- C1, E1. by f_equal.
      + intros N. rewrite <- (C2 N), E2. f_equal. by apply H2.
      + intros Na Nb. rewrite <- (C3 Na Nb), E3. f_equal. by apply H3.
  Qed.

  Lemma frames_flag fs : forall s b, exists s' os, frames (s, b) fs = ((s', b || existsb hits (mjoin fs.*1)), os).
  Proof.
    intros s b. destruct (frames (s, b) fs) as [[s' b'] os] eqn:E. destruct (frames_cc _ _ _ _ _ _ E) as (-> & _). eauto.
  Qed.
  (** the flag does not matter for the rest *)
  Lemma event_flag es : forall s b, exists b', foldl event (s, b) es = ((foldl event (s, false) es).1, b').
  Proof.
    induction es as [|e es IH]; intros s b; [eauto|]. cbn [foldl].
    destruct (event (s, b) e) as [s1 b1] eqn:E1. destruct (event (s, false) e) as [s2 b2] eqn:E2.
    assert (s1 = s2) as <-.
    { destruct s as [[[v1 v2] v3] w]. destruct e as [c n v|c n|c k x]; cbn in E1, E2; try congruence.
      destruct (c =? chan), (k =? cc1), (k =? cc2), (k =? cc3); cbn in E1, E2; congruence. }
    destruct (IH s1 b1) as [b' ->]. destruct (IH s1 b2) as [b'' ->]. cbn. eauto.
  Qed.
  Lemma frames_noflag fs : forall s b, exists b', frames (s, b) fs = (((frames (s, false) fs).1.1, b'), (frames (s, false) fs).2).
  Proof.
    induction fs as [|[es l] fs IH]; intros s b; [cbn; eauto|]. cbn [midicc_frames]. unfold midicc_frame.
    destruct (event_flag es s b) as [b1 ->]. destruct (foldl event (s, false) es) as [s1 b2]. cbn [fst].
    destruct (mc_cur s1) as [[v1 v2] v3], (mc_slew s1) as [[w1 w2] w3]. destruct (snext v1 l w1), (snext v2 l w2), (snext v3 l w3).
    match goal with |- context [frames (?s, b1) fs] => destruct (IH s b1) as [b3 ->]; destruct (IH s b2) as [b4 ->] end. cbn. eauto.
  Qed.
  Lemma frames_cc_app a : forall s b, frames (s, false) (a ++ b) =
    (((frames ((frames (s, false) a).1.1, false) b).1.1, (frames (s, false) (a ++ b)).1.2),
     (frames (s, false) a).2 ++ (frames ((frames (s, false) a).1.1, false) b).2).
  Proof.
    induction a as [|[es l] a IH]; intros s b; cbn [app].
    - cbn. by destruct (frames (s, false) b) as [[? ?] ?].
    - cbn [midicc_frames]. destruct (frame (s, false) es l) as [[s1 b1] o].
      destruct (frames_noflag (a ++ b) s1 b1) as [b2 ->]. destruct (frames_noflag a s1 b1) as [b3 ->]. rewrite IH. done.
  Qed.
End midicc.

Section midicc_blocks.
  Context {W V L : Type} (snext : Z -> L -> W -> V * W) (chan cc1 cc2 cc3 : Z).
  Notation ch := (Z.to_nat (chan mod 16)).
  Notation k1 := (Z.to_nat (cc1 mod 128)).
  Notation k2 := (Z.to_nat (cc2 mod 128)).
  Notation k3 := (Z.to_nat (cc3 mod 128)).

  Lemma blocks_cc : forall (bs : list (list L)) (ns : list (list tev)) s,
    Forall2 (fun n b => length (node_reads 0 (length b) n) = length b) ns bs ->
    let out := midicc_blocks snext chan cc1 cc2 cc3 s (zip ns bs) in
    mjoin out.*1 = (midicc_frames snext ch k1 k2 k3 (s, false) (zip (mjoin (zip_with (fun n b => node_reads 0 (length b) n) ns bs)) (mjoin bs))).2 /\
    out.*2 = zip_with (fun n b => existsb (hits ch k1 k2 k3) (mjoin (node_reads 0 (length b) n))) ns bs.
  Proof.
    induction bs as [|ls bs IH]; intros ns s H; [apply Forall2_nil_inv_r in H as ->; done|].
    apply Forall2_cons_inv_r in H as (n & ns' & E & H & ->). cbn [zip zip_with midicc_blocks]. unfold midicc_block. cbv zeta.
    change (mjoin (?x :: ?y)) with (x ++ mjoin y).
    rewrite zip_with_app by done. rewrite frames_cc_app.
    destruct (midicc_frames snext ch k1 k2 k3 (s, false) (zip (node_reads 0 (length ls) n) ls)) as [[s1 b1] os] eqn:Ef.
    destruct (frames_cc _ _ _ _ _ _ _ _ _ _ _ Ef) as (-> & _). cbn [fst snd] in *. destruct (IH ns' s1 H) as [IH1 IH2]. cbn [fmap list_fmap fst snd].
    rewrite IH2. split.
    - change (mjoin (?x :: ?y)) with (x ++ mjoin y). f_equal. exact IH1.
    - f_equal. cbn. do 2 f_equal. apply fst_zip. lia.
  Qed.

End midicc_blocks.
  Lemma hits_selects chan cc1 cc2 cc3 es : existsb (hits (Z.to_nat (chan mod 16)) (Z.to_nat (cc1 mod 128)) (Z.to_nat (cc2 mod 128)) (Z.to_nat (cc3 mod 128))) es = true <-> exists e, e ∈ es /\ selects chan cc1 cc2 cc3 e.
  Proof.
    rewrite existsb_exists. split.
    - intros (e & He & Hh). exists e. split; [by apply elem_of_list_In|]. destruct e as [| |c k x]; try done. cbn in Hh.
      apply andb_prop in Hh as [Hc%Nat.eqb_eq Hk]. exists k, x. rewrite Hc. split; [done|]. rewrite !orb_true_iff, !Nat.eqb_eq in Hk. tauto.
    - intros (e & He & k & x & -> & Hk). exists (CC (Z.to_nat (chan mod 16)) k x). split; [by apply elem_of_list_In|]. cbn. rewrite Nat.eqb_refl. cbn.
      rewrite !orb_true_iff, !Nat.eqb_eq. tauto.
  Qed.
