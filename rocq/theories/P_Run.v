(** C64: recordings are made frame by frame *)
From Verif Require Import Base M_Midi S_Midi L_Midi P_Midi M_Run S_Run.

Lemma block_sizes_big n : 128 <= n -> block_sizes n = 128 :: block_sizes (n - 128).
Proof.
  intros H. destruct (Nat.le_exists_sub 128 n H) as (m & -> & _). rewrite Nat.add_sub. unfold block_sizes.
  replace ((m + 128) / 128) with (S (m / 128)); [|replace (m + 128) with (m + 1 * 128) by lia; rewrite Nat.div_add by lia; lia].
  replace ((m + 128) mod 128) with (m mod 128); [done|]. replace (m + 128) with (m + 1 * 128) by lia. by rewrite Nat.mod_add by lia.
Qed.
Lemma block_sizes_small n : 0 < n -> n < 128 -> block_sizes n = [n].
Proof. intros H1 H2. unfold block_sizes. rewrite Nat.div_small, Nat.mod_small by lia. by destruct (Nat.eqb_spec n 0); [lia|]. Qed.
Lemma block_sizes_step n : n <> 0 -> let cur := if max_block <=? n then max_block else n in
  block_sizes n = cur :: block_sizes (n - cur) /\ 0 < cur <= n.
Proof.
  intros H. unfold max_block. cbv zeta. destruct (Nat.leb_spec 128 n) as [L|L].
  - split; [by apply block_sizes_big|lia].
  - rewrite block_sizes_small, Nat.sub_diag by lia. split; [done|lia].
Qed.

Section run.
  Context {St X : Type} (zero : X) (step : St -> X -> list midi -> list midi -> St * (X * X)).
  Notation played := (frame_by_frame step).

  Lemma played_app events a b : forall s t, played events s t (a ++ b) =
    let '(s1, o1) := played events s t a in let '(s2, o2) := played events s1 (t + length a) b in (s2, o1 ++ o2).
  Proof.
    induction a as [|x a IH]; intros s t; cbn [app frame_by_frame length].
    - rewrite Nat.add_0_r. by destruct (played events s t b).
    - destruct (step s x _ _) as [s1 o]. rewrite IH. replace (t + S (length a)) with (S t + length a) by lia.
      destruct (played events s1 (S t) a) as [s2 o2]. by destruct (played events s2 (S t + length a) b).
  Qed.
  Lemma through_played events ins : forall s t,
    through step s ins ((fun f => notes_of (events_at events f)) <$> seq t (length ins)) ((fun f => ccs_of (events_at events f)) <$> seq t (length ins)) = played events s t ins.
  Proof.
    induction ins as [|x ins IH]; intros s t; [done|]. cbn [length seq]. rewrite !fmap_cons. cbn [through frame_by_frame].
    destruct (step s x _ _) as [s1 o]. by rewrite IH.
  Qed.
  Lemma played_length events ins : forall s t, length (played events s t ins).2 = length ins.
  Proof.
    induction ins as [|x ins IH]; intros s t; [done|]. cbn [frame_by_frame]. destruct (step s x _ _) as [s1 o]. specialize (IH s1 (S t)).
    destruct (played events s1 (S t) ins). cbn [snd length] in *. by rewrite IH.
  Qed.

  (** the lists of the blocks hold the events of the frames *)
  Definition delivered (events : list tev) (t : nat) (sizes : list nat) (res : list (list tev * list tev)) : Prop :=
    forall i n, sizes !! i = Some n -> exists notes ccs, res !! i = Some (notes, ccs) /\
      node_reads 0 n notes = (fun f => notes_of (events_at events f)) <$> seq (t + block_start sizes i) n /\
      node_reads 0 n ccs = (fun f => ccs_of (events_at events f)) <$> seq (t + block_start sizes i) n.
  Lemma delivered_cons events t n sizes notes ccs res : delivered events t (n :: sizes) ((notes, ccs) :: res) ->
    node_reads 0 n notes = (fun f => notes_of (events_at events f)) <$> seq t n /\
    node_reads 0 n ccs = (fun f => ccs_of (events_at events f)) <$> seq t n /\ delivered events (t + n) sizes res.
  Proof.
    intros H. destruct (H 0 n eq_refl) as (a & b & E & E1 & E2). cbn [lookup list_lookup] in E. apply (inj Some) in E. injection E as <- <-.
    unfold block_start in E1, E2. cbn [take sum_list_with] in E1, E2. rewrite Nat.add_0_r in E1, E2. split; [done|]. split; [done|].
    intros i m Hi. destruct (H (S i) m Hi) as (a & b & E & E3 & E4). exists a, b. unfold block_start in *. cbn [take sum_list_with] in E3, E4. unfold id in E3, E4.
    rewrite Nat.add_assoc in E3, E4. done.
  Qed.

  Lemma loop_played events input : forall fuel n s ev offs out_l out_r res,
    n <= fuel -> offs + n = length input -> length out_l = length input -> length out_r = length input ->
    run_blocks ev offs ((fun k => ([], k)) <$> block_sizes n) = Some res -> delivered events offs (block_sizes n) res ->
    let '(s', os) := played events s offs (drop offs input) in
    record_loop (frame_wise step) fuel s ev offs n input out_l out_r = Some (s', take offs out_l ++ os.*1, take offs out_r ++ os.*2).
  Proof.
    induction fuel as [|fuel IH]; intros n s ev offs out_l out_r res Hf Hn Hl Hr ER HD.
    - assert (n = 0) as -> by lia. rewrite drop_ge by lia. cbn [frame_by_frame record_loop]. rewrite !fmap_nil, !app_nil_r, !take_ge by lia. done.
    - destruct n as [|n]; [rewrite drop_ge by lia; cbn [frame_by_frame record_loop]; by rewrite !fmap_nil, !app_nil_r, !take_ge by lia|].
      cbn [record_loop]. destruct (block_sizes_step (S n) ltac:(lia)) as [EB HC]. cbv zeta in EB, HC.
      set (cur := if max_block <=? S n then max_block else S n) in *. rewrite EB in ER, HD. rewrite fmap_cons in ER. cbn [run_blocks] in ER.
      destruct (feed_midi [] ev offs cur) as [[ev1 [notes ccs]]|]; [|discriminate ER]. cbn [mbind option_bind] in ER |- *.
      apply bind_Some in ER as (res' & ER & E). apply (inj Some) in E as <-.
      apply delivered_cons in HD as (E1 & E2 & HD).
      unfold range. rewrite !(proj2 (Nat.leb_le _ _)) by lia. cbn [mbind option_bind]. unfold frame_wise. rewrite E1, E2.
      assert (length (take cur (drop offs input)) = cur) as HLi by (rewrite take_length, drop_length; lia).
      pose proof (through_played events (take cur (drop offs input)) s offs) as HT. rewrite HLi in HT. rewrite HT. clear HT.
      assert (drop offs input = take cur (drop offs input) ++ drop (offs + cur) input) as ES by (by rewrite <- drop_drop, take_drop).
      assert (played events s offs (drop offs input) = played events s offs (take cur (drop offs input) ++ drop (offs + cur) input)) as EQ by (by f_equal).
      rewrite EQ, played_app, HLi. clear ES EQ. pose proof (played_length events (take cur (drop offs input)) s offs) as HO. rewrite HLi in HO.
      destruct (played events s offs (take cur (drop offs input))) as [s1 o1]. cbn [mbind option_bind snd] in *.
      specialize (IH (S n - cur) s1 ev1 (offs + cur) (put offs o1.*1 out_l) (put offs o1.*2 out_r) res').
      assert (forall (o v : list X), length o = cur -> length v = length input -> length (put offs o v) = length input /\ take (offs + cur) (put offs o v) = take offs v ++ o) as HP.
      { intros o v Ho Hv. unfold put. split; [rewrite !app_length, take_length, drop_length; lia|].
        rewrite (assoc (++)), take_app_le by (rewrite app_length, take_length; lia). apply take_ge. rewrite app_length, take_length. lia. }
      destruct (HP (o1.*1) out_l) as [P1 P2]; [by rewrite fmap_length|done|]. destruct (HP (o1.*2) out_r) as [P3 P4]; [by rewrite fmap_length|done|].
      rewrite P2, P4 in IH. specialize (IH ltac:(lia) ltac:(lia) P1 P3 ER HD).
      destruct (played events s1 (offs + cur) (drop (offs + cur) input)) as [s2 o2]. rewrite !fmap_app, !(assoc (++)). exact IH.
  Qed.

  (** C64: a recording with an input has one frame for each frame of the input; frame number [t] is what the engine makes of the
      input sample [t] and the events of time [t], one frame after the other. Events at or after the end are left out. *)
  Theorem C64_recording s input events : time_ordered events -> few_events events (length input) ->
    let '(s', frames) := frame_by_frame step events s 0 input in
    record_input zero (frame_wise step) s input events = Some (s', frames.*1, frames.*2) /\ length frames = length input.
  Proof.
    intros Ho Hl. destruct (C20_delivery events _ Ho Hl) as (res & E & L & G).
    assert (((fun n : nat => ([] : list midi, n)) <$> block_sizes (length input)).*2 = block_sizes (length input)) as ES.
    { rewrite <- list_fmap_compose. rewrite <- (list_fmap_id (block_sizes (length input))) at 2. by apply list_fmap_ext. }
    rewrite ES in G.
    pose proof (loop_played events input (length input) (length input) s (Feeder None events) 0 (replicate (length input) zero) (replicate (length input) zero) res) as P.
    specialize (P ltac:(lia) ltac:(lia) (replicate_length _ _) (replicate_length _ _) E). rewrite drop_0 in P. cbn [take app] in P.
    pose proof (played_length events input s 0) as HLn. destruct (played events s 0 input) as [s' frames]. cbn [snd] in HLn. split; [|done]. apply P.
    intros i n Hi. destruct (G i [] n) as (notes & ccs & Er & L1 & L2 & Gf); [by rewrite list_lookup_fmap, Hi|].
    exists notes, ccs. split; [done|]. cbn [Nat.add].
    split; apply list_eq; intros f; rewrite list_lookup_fmap; (destruct (decide (f < n)) as [Hf|Hf];
      [rewrite lookup_seq_lt by done; cbn [fmap option_fmap option_map]; destruct (Gf f Hf) as [G1 G2]; rewrite ?G1, ?G2; by destruct (f =? 0)
      |rewrite lookup_seq_ge by lia; apply lookup_ge_None_2; lia]).
  Qed.

  (** C64: the same for a recording of silence *)
  Theorem C64_silence s n events : time_ordered events -> few_events events n ->
    let '(s', frames) := frame_by_frame step events s 0 (replicate n zero) in
    record zero (frame_wise step) s n events = Some (s', frames.*1, frames.*2) /\ length frames = n.
  Proof.
    intros Ho Hl. pose proof (C64_recording s (replicate n zero) events Ho) as P. rewrite replicate_length in P. specialize (P Hl).
    destruct (played events s 0 (replicate n zero)) as [s' frames]. unfold record_input in P. rewrite replicate_length in P. exact P.
  Qed.

  (** C64: whatever the engine does, as long as it fills the slices that it gets, a recording has as many frames as its input. *)
  Theorem C64_length process s input events s' l r :
    (forall s notes ccs n i ol or s' l r, process s notes ccs n i ol or = Some (s', l, r) -> length l = length ol /\ length r = length or) ->
    record_input (St := St) zero process s input events = Some (s', l, r) -> length l = length input /\ length r = length input.
  Proof.
    intros HP. unfold record_input.
    assert (forall fuel s ev offs n ol or, record_loop process fuel s ev offs n input ol or = Some (s', l, r) -> length ol = length input -> length or = length input ->
      length l = length input /\ length r = length input) as H.
    { induction fuel as [|fuel IH]; intros s0 ev offs [|n] ol or E L1 L2; cbn [record_loop] in E; try discriminate E.
      1, 2: apply (inj Some) in E; injection E as _ <- <-; done.
      apply bind_Some in E as ([ev1 [notes ccs]] & _ & E). apply bind_Some in E as (sl & E1 & E). apply bind_Some in E as (sr & E2 & E).
      apply bind_Some in E as (i & _ & E). apply bind_Some in E as ([[s1 l1] r1] & EP & E). apply HP in EP as [P1 P2].
      unfold range in E1, E2.
      destruct (Nat.leb_spec (offs + (if max_block <=? S n then max_block else S n)) (length ol)) as [Q1|]; [|discriminate E1].
      destruct (Nat.leb_spec (offs + (if max_block <=? S n then max_block else S n)) (length or)) as [Q2|]; [|discriminate E2].
      apply (inj Some) in E1, E2. subst sl sr. rewrite take_length, drop_length in P1, P2.
      apply IH in E; [done|..]; unfold put; rewrite !app_length, take_length, drop_length; lia. }
    intros E. eapply H; [exact E|apply replicate_length..].
  Qed.
End run.
Print Assumptions C64_recording.
Print Assumptions C64_silence.
Print Assumptions C64_length.

(** A concrete recording: the "engine" adds the number of notes so far to its input; 200 frames, notes at frames 1 and 130, and one
    after the end *)
Definition ex_step (s : nat) (x : nat) (notes ccs : list midi) : nat * (nat * nat) := (s + length notes, (x + (s + length notes), length ccs)).
Definition ex_events : list tev := [TEv 1 (NoteOn 0 60 1); TEv 130 (NoteOff 0 60); TEv 130 (CC 0 1 5); TEv 900 (NoteOn 0 61 1)].
Example C64_ex_hyps : time_ordered ex_events /\ few_events ex_events 200.
Proof.
  split.
  - repeat constructor; cbn; lia.
  - intros i inj n Hi. cbv zeta.
    assert (inj = []) as ->. { rewrite list_lookup_fmap in Hi. destruct (block_sizes 200 !! i); [by injection Hi|done]. }
    assert (forall (P : tev -> Prop) (D : forall x, Decision (P x)), length (filter P ex_events) <= 4) as H4.
    { intros P D. transitivity (length ex_events); [apply filter_length|done]. }
    assert (forall l, length (notes_of l) <= length l /\ length (ccs_of l) <= length l) as HL by (intros; split; apply filter_length).
    match goal with |- context [notes_of (te_kind <$> ?l)] => destruct (HL (te_kind <$> l)) as [A B]; rewrite fmap_length in A, B; pose proof (H4 _ _ : length l <= 4) end.
    unfold max_notes_per_block, max_ccs_per_block. cbn [notes_of ccs_of filter list_filter length]. lia.
Qed.
Definition ex_rec : option (nat * list nat * list nat) := record_input 0 (frame_wise ex_step) 0 (replicate 200 10) ex_events.
Example C64_ex_played : (fun r => (r.1.1, length r.1.2, take 3 r.1.2, take 4 (drop 128 r.1.2), take 4 (drop 128 r.2))) <$> ex_rec =
  Some (2, 200, [10; 11; 11], [11; 11; 12; 12], [0; 0; 1; 0]).
Proof. vm_compute. reflexivity. Qed.
