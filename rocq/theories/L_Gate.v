(** Proofs about the gate columns of the sequencer *)
From Coq Require Import QArith Qround Qminmax Lqa.
From Verif Require Import Base M_Track S_Track M_Seq S_Seq L_Seq S_Gate.
Open Scope nat_scope.

Lemma nibbles_all :
  forallb (fun n => let v := Z.of_nat n in
    (Z.land v 15 =? v mod 16)%Z && (Z.shiftr (Z.land v 240) 4 =? (v / 16) mod 16)%Z &&
    (Z.shiftr (Z.land v 3840) 8 =? (v / 256) mod 16)%Z && (Z.land v 61440 =? 0)%Z) (seq 0 4096) = true.
Proof. vm_compute. reflexivity. Qed.
Lemma nibbles v : (0 <= v < 4096)%Z ->
  Z.land v 15 = (v mod 16)%Z /\ Z.shiftr (Z.land v 240) 4 = ((v / 16) mod 16)%Z /\
  Z.shiftr (Z.land v 3840) 8 = ((v / 256) mod 16)%Z /\ Z.land v 61440 = 0%Z.
Proof.
  intros H. pose proof (proj1 (forallb_forall _ _) nibbles_all (Z.to_nat v)) as N. cbv beta zeta in N.
  rewrite Z2Nat.id in N by lia. rewrite !andb_true_iff in N. destruct N as [[[N1 N2] N3] N4].
  { apply in_seq. lia. }
  split_and!; by apply Z.eqb_eq.
Qed.

Lemma clamp_clip p : (clamp01 p == clip p)%Q.
Proof.
  unfold clamp01, clip. destruct (Qle_bool p 0) eqn:E0.
  - apply Qle_bool_iff in E0. rewrite Q.min_r by lra. rewrite Q.max_l by lra. reflexivity.
  - assert (~ (p <= 0)%Q) as N0 by (rewrite <- Qle_bool_iff; congruence). destruct (Qle_bool 1 p) eqn:E1.
    + apply Qle_bool_iff in E1. rewrite Q.min_l by lra. rewrite Q.max_r by lra. reflexivity.
    + assert (~ (1 <= p)%Q) as N1 by (rewrite <- Qle_bool_iff; congruence). rewrite Q.min_r by lra. rewrite Q.max_r by lra. reflexivity.
Qed.
Lemma clip_range p : (0 <= clip p <= 1)%Q.
Proof. unfold clip. split; [apply Q.le_max_l|]. apply Q.max_lub; [lra|apply Q.le_min_l]. Qed.
Lemma clamp_range p : (0 <= clamp01 p <= 1)%Q.
Proof. rewrite clamp_clip. apply clip_range. Qed.

(** being in the first part of a gate, with the fractional part *)
Lemma in_gate_fract v h : (exists k, in_gate v h k) <-> (fract h <= gate_length v)%Q.
Proof.
  unfold in_gate, fract. split.
  - intros (k & H1 & H2 & H3). assert (Qfloor h = k) as ->; [|lra].
    pose proof (Qfloor_le h). pose proof (Qlt_floor h) as U. rewrite inject_Z_plus in U. change (inject_Z 1) with 1%Q in U.
    assert (inject_Z (Qfloor h) < inject_Z (k + 1))%Q as A by (rewrite inject_Z_plus; change (inject_Z 1) with 1%Q; lra).
    assert (inject_Z k < inject_Z (Qfloor h + 1))%Q as B by (rewrite inject_Z_plus; change (inject_Z 1) with 1%Q; lra).
    rewrite <- Zlt_Qlt in A, B. lia.
  - intros H. exists (Qfloor h). pose proof (Qfloor_le h). pose proof (Qlt_floor h) as U.
    rewrite inject_Z_plus in U. change (inject_Z 1) with 1%Q in U. split_and!; lra.
Qed.
Lemma fract_comp x y : (x == y)%Q -> (fract x == fract y)%Q.
Proof. intros E. unfold fract. rewrite (Qfloor_comp _ _ E), E. reflexivity. Qed.

Section gate.
  Context (F : Q -> Prop) (rnd : Q -> Q) (R : rounds_to_nearest F rnd) (HF : forall x, f32_grid x -> F x).
  Context {V : Type} (mix : V -> V -> Q -> V) {G : Type} (next_open01 : G -> Q * G) (bits : V -> Z) (gate : Z -> V) (zero one : V).
  Hypothesis bits_gate : forall v, (0 <= v < 65536)%Z -> bits (gate v) = v.

  Notation frame := (play_frame rnd mix next_open01 bits zero one).

  Lemma rand_val_decides st c r u st' : rand_val next_open01 st c r = Some (st', u) <-> decides next_open01 st c r u st'.
  Proof.
    unfold rand_val, decides. destruct (gs_vals st !! c) as [[r0 u0]|] eqn:E; cbn [mbind option_bind fst snd].
    - destruct (Nat.eqb_spec r0 r) as [->|N]; [|destruct (next_open01 (gs_rng st)) as [u1 g1] eqn:D]; split.
      + intros [= <- <-]. by left.
      + intros [[[= ->] ->]|(r1 & u1 & [= <- <-] & N & _)]; done.
      + intros [= <- <-]. right. exists r0, u0. done.
      + intros [[[= -> ->] ->]|(r1 & u2 & [= <- <-] & _ & [= <- ->] & Hv)]; [done|]. destruct st' as [vs g]. cbn in *. by subst.
    - split; [done|]. intros [[? _]|(? & ? & ? & _)]; done.
  Qed.

  Lemma gate_frame b c d cells st p :
    bk_types b !! c = Some CGate -> bk_data b !! c = Some d -> plays_gates gate cells d ->
    (forall r v, cells r = Some v -> (0 <= v < 4096)%Z) -> 0 < bk_rows b <= max_pattern_len -> c < length (gs_vals st) ->
    exists r st' o fires, gate_row_at rnd (bk_rows b) p = Some r /\ r < bk_rows b /\
      frame b c st p = Some (st', Some o) /\
      gate_sounds zero one (cells r) (fun v => gate_head rnd row_eps (bk_rows b) r v (clip p)) fires o /\
      row_fires next_open01 (cells r) st c r fires st'.
  Proof.
    intros Ht Hd P Hv Hr Hc.
    destruct (row_at_spec F rnd R HF (bk_rows b) (clamp01 p) Hr (clamp_range p)) as (r & Er & Hrr & Hf).
    fold (gate_row_at rnd (bk_rows b) p) in Er.
    assert (is_Some (gs_vals st !! c)) as [rv Hrv] by by apply lookup_lt_is_Some_2.
    assert (exists st1 u, rand_val next_open01 st c r = Some (st1, u)) as (st1 & u & Hu).
    { unfold rand_val. rewrite Hrv. cbn. destruct (rv.1 =? r); [eauto|]. destruct (next_open01 (gs_rng st)). eauto. }
    exists r. unfold play_frame. destruct (Nat.eqb_spec (bk_rows b) 0); [lia|]. rewrite Ht, Hd. cbn [mbind option_bind].
    unfold col_gate. rewrite Er. cbn [mbind option_bind]. rewrite (P r) by lia. cbn [mbind option_bind].
    destruct (cells r) as [v|] eqn:Ec; cbn [fst snd].
    - specialize (Hv _ _ Ec). rewrite bits_gate by lia. destruct (nibbles v Hv) as (-> & -> & -> & ->).
      assert ((fract (rnd (fract (row_phase rnd (bk_rows b) (clamp01 p)) * inject_Z (16 - (v / 16) mod 16)%Z)) ==
               fract (gate_head rnd row_eps (bk_rows b) r v (clip p)))%Q) as EH.
      { apply fract_comp. unfold gate_head. apply (rn_proper _ _ R). unfold fract, gate_count. rewrite <- Hf.
        unfold row_phase, last_row_idx, q_of_nat.
        rewrite (rn_proper _ _ R (clamp01 p * _) (clip p * rnd (inject_Z (Z.of_nat (bk_rows b)) - row_eps))).
        - reflexivity.
        - rewrite clamp_clip. reflexivity. }
      assert (Qle_bool (fract (rnd (fract (row_phase rnd (bk_rows b) (clamp01 p)) * inject_Z (16 - (v / 16) mod 16)%Z))) (fract_16th (v mod 16)) = true
        <-> exists k, in_gate v (gate_head rnd row_eps (bk_rows b) r v (clip p)) k) as EG.
      { rewrite in_gate_fract, Qle_bool_iff. unfold fract_16th, gate_length. rewrite EH. done. }
      assert (by_chance (Some v) <-> ((v / 256) mod 16 <? 15)%Z = true) as EB.
      { cbn. unfold gate_chance. rewrite Z.ltb_lt. pose proof (Z.mod_pos_bound (v / 256) 16 ltac:(lia)). unfold Qlt. cbn. lia. }
      change (0 <? 0)%Z with false. cbn iota.
      set (hi := Qle_bool (fract (rnd _)) _) in *.
      destruct ((v / 256) mod 16 <? 15)%Z eqn:EP; cbn [mbind option_bind].
      + rewrite Hu. cbn [mbind option_bind]. exists st1, (if Qle_bool u (fract_16th ((v / 256) mod 16)) then if hi then one else zero else zero, 1), (Qle_bool u (fract_16th ((v / 256) mod 16))).
        split_and!; try done.
        * destruct (Qle_bool u _); cbn; done.
        * cbn. split; [intros H1 H2; rewrite H2; apply EG in H1; by rewrite H1|].
          intros [H1|H1]; [|by rewrite H1]. destruct hi; [by destruct H1; apply EG|]. by destruct (Qle_bool u _).
        * split; [|intros N; by destruct N; apply EB]. intros _. exists u. split; [by apply rand_val_decides|]. intros ? [= <-]. apply Qle_bool_iff.
      + exists st, (if hi then one else zero, 1), true. split_and!; try done.
        * cbn. split; [intros H1 _; apply EG in H1; by rewrite H1|]. intros [H1|H1]; [|done]. destruct hi; [by destruct H1; apply EG|done].
        * split; [|done]. intros H1. by apply EB in H1.
    - rewrite bits_gate by lia. change (Z.land 61440 61440) with 61440%Z. change (Z.shiftr (Z.land 61440 3840) 8) with 0%Z. cbn [Z.ltb Z.compare].
      change (0 <? 15)%Z with true. change (0 <? 61440)%Z with true. cbn iota. rewrite Hu. cbn [mbind option_bind].
      exists st1, (zero, 0), false. split_and!; try done.
      + destruct (Qle_bool u _); cbn; done.
      + split; [|by intros []]. intros _. exists u. split; [by apply rand_val_decides|]. done.
  Qed.
End gate.

Section trace.
  Context (F : Q -> Prop) (rnd : Q -> Q) (R : rounds_to_nearest F rnd) (HF : forall x, f32_grid x -> F x).
  Context {V : Type} (mix : V -> V -> Q -> V) {G : Type} (next_open01 : G -> Q * G) (bits : V -> Z) (gate : Z -> V) (zero one : V).
  Hypothesis bits_gate : forall v, (0 <= v < 65536)%Z -> bits (gate v) = v.
  Context (b : @backend V).
  Notation frame := (play_frame rnd mix next_open01 bits zero one b).
  Notation block := (play_block rnd mix next_open01 bits zero one b).
  Notation head p r := (fun v => gate_head rnd row_eps (bk_rows b) r v (clip p)).

  (** the number of a column at a frame *)
  Definition slot_step (cell : option Z) (r : nat) (s : nat * Q) (fires : bool) (s' : nat * Q) : Prop :=
    (by_chance cell -> exists u, s' = (r, u) /\ (s.1 = r -> s = s') /\ forall v, cell = Some v -> (fires = true <-> (u <= gate_chance v)%Q)) /\
    (~ by_chance cell -> fires = true /\ s' = s).

  Inductive col_trace (cells : nat -> option Z) : nat * Q -> list Q -> list (V * nat) -> nat * Q -> Prop :=
  | ct_nil s : col_trace cells s [] [] s
  | ct_cons s p r o fires s1 ps os s' :
      gate_row_at rnd (bk_rows b) p = Some r -> r < bk_rows b -> gate_sounds zero one (cells r) (head p r) fires o ->
      slot_step (cells r) r s fires s1 -> col_trace cells s1 ps os s' -> col_trace cells s (p :: ps) (o :: os) s'.

  Lemma trace_app cells s ps os s1 ps' os' s' : col_trace cells s ps os s1 -> col_trace cells s1 ps' os' s' ->
    col_trace cells s (ps ++ ps') (os ++ os') s'.
  Proof. induction 1; [done|]. cbn. intros. econstructor; eauto. Qed.

  Lemma trace_at cells s ps os s' i p : col_trace cells s ps os s' -> ps !! i = Some p ->
    exists r fires o, gate_row_at rnd (bk_rows b) p = Some r /\ r < bk_rows b /\ os !! i = Some o /\ gate_sounds zero one (cells r) (head p r) fires o.
  Proof.
    intros T. revert i. induction T as [|s q r o fires s1 ps os s' H1 H2 H3 H4 T IH]; intros i Hi; [done|].
    destruct i as [|i]; [injection Hi as <-; eauto 8|by apply IH].
  Qed.

  Lemma trace_length cells s ps os s' : col_trace cells s ps os s' -> length os = length ps.
  Proof. induction 1; cbn; congruence. Qed.
  Lemma trace_split cells s ps ps' os s' : col_trace cells s (ps ++ ps') os s' ->
    exists s1 os1 os2, os = os1 ++ os2 /\ length os1 = length ps /\ col_trace cells s ps os1 s1 /\ col_trace cells s1 ps' os2 s'.
  Proof.
    revert s os. induction ps as [|p ps IH]; intros s os T; [exists s, [], os; split_and!; try done; constructor|].
    inversion T as [|? ? r o fires s1 ? os' ? H1 H2 H3 H4 T' E1 E2 E3]; subst.
    destruct (IH _ _ T') as (s2 & os1 & os2 & -> & L & T1 & T2). exists s2, (o :: os1), os2. split_and!; try done; [cbn; congruence|]. econstructor; eauto.
  Qed.

  (** the frames of one row agree *)
  Notation in_row r := (fun p => gate_row_at rnd (bk_rows b) p = Some r).
  Lemma fires_fun v u fires : (fires = true <-> (u <= gate_chance v)%Q) -> fires = Qle_bool u (gate_chance v).
  Proof. intros H. apply eq_true_iff_eq. rewrite H. by rewrite Qle_bool_iff. Qed.

  Lemma trace_row_from cells v r u s ps os s' : by_chance (Some v) -> cells r = Some v -> col_trace cells s ps os s' -> s = (r, u) -> Forall (in_row r) ps ->
    Forall2 (fun p o => gate_sounds zero one (Some v) (head p r) (Qle_bool u (gate_chance v)) o) ps os.
  Proof.
    intros Hb Hc T. induction T as [|s q r' o fires s1 ps os s' H1 H2 H3 H4 T IH]; intros Hs Hr; [constructor|]. subst s.
    apply Forall_cons in Hr as [E Hr]. rewrite H1 in E. injection E as ->. rewrite Hc in H3, H4.
    destruct (proj1 H4 Hb) as (u1 & -> & Hs & Hf). specialize (Hs eq_refl). injection Hs as <-.
    rewrite (fires_fun v u fires (Hf v eq_refl)) in H3. constructor; [done|]. by apply IH.
  Qed.
  Lemma trace_row cells v r s ps os s' : cells r = Some v -> col_trace cells s ps os s' -> Forall (in_row r) ps ->
    exists fires, Forall2 (fun p o => gate_sounds zero one (Some v) (head p r) fires o) ps os.
  Proof.
    intros Hc T Hr. destruct (Qlt_le_dec (gate_chance v) 1) as [Hb|Hb].
    - destruct T as [s|s q r' o fires s1 ps os s' H1 H2 H3 H4 T]; [exists true; constructor|].
      apply Forall_cons in Hr as [E Hr]. rewrite H1 in E. injection E as ->. rewrite Hc in H3, H4.
      destruct (proj1 H4 Hb) as (u & -> & _ & Hf). exists fires. constructor; [done|].
      rewrite (fires_fun v u fires (Hf v eq_refl)). by eapply trace_row_from.
    - exists true. induction T as [|s q r' o fires s1 ps os s' H1 H2 H3 H4 T IH]; [constructor|].
      apply Forall_cons in Hr as [E Hr]. rewrite H1 in E. injection E as ->. rewrite Hc in H3, H4.
      destruct (proj2 H4) as [-> _]; [cbn; intros N; by apply (Qlt_not_le _ _ N)|]. constructor; [done|]. by apply IH.
  Qed.

  (** a row that alone is left to chance *)
  Lemma trace_lone_from cells v r u s ps os s' : by_chance (Some v) -> cells r = Some v ->
    (forall r', r' < bk_rows b -> r' <> r -> ~ by_chance (cells r')) -> col_trace cells s ps os s' -> s = (r, u) ->
    forall i p o, ps !! i = Some p -> os !! i = Some o -> in_row r p -> gate_sounds zero one (Some v) (head p r) (Qle_bool u (gate_chance v)) o.
  Proof.
    intros Hb Hc Hl T. induction T as [|s q r' o fires s1 ps os s' H1 H2 H3 H4 T IH]; intros Hs i p o' Hp Ho Hr; [done|]. subst s.
    destruct (decide (r' = r)) as [->|N].
    - rewrite Hc in H3, H4. destruct (proj1 H4 Hb) as (u1 & -> & Hs & Hf). specialize (Hs eq_refl). injection Hs as <-.
      destruct i as [|i]; [|by eapply IH]. injection Hp as <-. injection Ho as <-. by rewrite (fires_fun v u fires (Hf v eq_refl)) in H3.
    - destruct (proj2 H4 (Hl r' H2 N)) as [_ ->]. destruct i as [|i]; [|by eapply IH]. injection Hp as <-. cbn in Hr. congruence.
  Qed.
  Lemma trace_lone cells v r s ps os s' : by_chance (Some v) -> cells r = Some v ->
    (forall r', r' < bk_rows b -> r' <> r -> ~ by_chance (cells r')) -> col_trace cells s ps os s' ->
    exists fires, forall i p o, ps !! i = Some p -> os !! i = Some o -> in_row r p -> gate_sounds zero one (Some v) (head p r) fires o.
  Proof.
    intros Hb Hc Hl T. induction T as [|s q r' o fires s1 ps os s' H1 H2 H3 H4 T IH]; [by exists true|].
    destruct (decide (r' = r)) as [->|N].
    - rewrite Hc in H3, H4. destruct (proj1 H4 Hb) as (u & -> & _ & Hf). exists fires. intros i p o' Hp Ho Hr.
      destruct i as [|i]; [injection Hp as <-; by injection Ho as <-|].
      rewrite (fires_fun v u fires (Hf v eq_refl)). by eapply trace_lone_from.
    - destruct IH as [f Hf']. exists f. intros i p o' Hp Ho Hr. destruct i as [|i]; [|by eapply Hf']. injection Hp as <-. cbn in Hr. congruence.
  Qed.

  (** the row of the last number *)
  Lemma trace_last cells s ps os s' r : col_trace cells s ps os s' ->
    (exists p, last ps = Some p /\ in_row r p) -> by_chance (cells r) -> s'.1 = r.
  Proof.
    intros T. induction T as [|s q r' o fires s1 ps os s' H1 H2 H3 H4 T IH]; intros (p & Hp & Hr) Hb; [done|].
    destruct T as [s0|s0 q2 r2 o2 f2 s2 ps os s3 H1' H2' H3' H4' T].
    - injection Hp as <-. cbn in Hr. rewrite H1 in Hr. injection Hr as ->. by destruct (proj1 H4 Hb) as (u & -> & _).
    - apply IH; [|done]. exists p. by split.
  Qed.
  Lemma trace_quiet cells s ps os s' : col_trace cells s ps os s' ->
    Forall (fun p => forall r, in_row r p -> ~ by_chance (cells r)) ps -> s' = s.
  Proof.
    intros T. induction T as [|s q r' o fires s1 ps os s' H1 H2 H3 H4 T IH]; intros Hf; [done|].
    apply Forall_cons in Hf as [E Hf]. destruct (proj2 H4 (E _ H1)) as [_ ->]. by apply IH.
  Qed.

  (** the sequencer has such a trace for each of its gate columns *)
  Lemma decides_vals st c r u st' : decides next_open01 st c r u st' ->
    length (gs_vals st') = length (gs_vals st) /\ forall c', c' <> c -> gs_vals st' !! c' = gs_vals st !! c'.
  Proof.
    intros [[_ ->]|(r0 & u0 & _ & _ & _ & ->)]; [done|]. split; [by rewrite insert_length|]. intros c' N. by rewrite list_lookup_insert_ne.
  Qed.
  Lemma rand_vals st c r st' u : rand_val next_open01 st c r = Some (st', u) ->
    length (gs_vals st') = length (gs_vals st) /\ forall c', c' <> c -> gs_vals st' !! c' = gs_vals st !! c'.
  Proof. intros H%rand_val_decides. by eapply decides_vals. Qed.
  Lemma frame_vals c st p st' o : frame c st p = Some (st', o) ->
    length (gs_vals st') = length (gs_vals st) /\ forall c', c' <> c -> gs_vals st' !! c' = gs_vals st !! c'.
  Proof.
    unfold play_frame. destruct (bk_rows b =? 0); [by intros [= <- <-]|]. intros H.
    apply bind_Some in H as (t & _ & H). apply bind_Some in H as (d & _ & H).
    destruct t; try (apply bind_Some in H as (? & _ & H); by injection H as <- <-).
    apply bind_Some in H as ([st1 o1] & H & E). injection E as <- <-. unfold col_gate in H.
    apply bind_Some in H as (line & _ & H). apply bind_Some in H as (cell & _ & H). cbv zeta in H.
    apply bind_Some in H as ([st2 skip] & H & E).
    assert (st1 = st2) as ->. { destruct skip; [by injection E as <- <-|]. destruct (0 <? _)%Z; by injection E as <- <-. }
    clear E. destruct (_ <? 15)%Z; [|by injection H as <- <-].
    apply bind_Some in H as ([st3 u] & H & E). injection E as -> _. by eapply rand_vals.
  Qed.
  Lemma block_vals c ps : forall st old st' o, block c st ps old = Some (st', o) ->
    length (gs_vals st') = length (gs_vals st) /\ forall c', c' <> c -> gs_vals st' !! c' = gs_vals st !! c'.
  Proof.
    induction ps as [|p ps IH]; intros st old st' o H; cbn [play_block] in H; [by injection H as <- <-|].
    destruct old as [|x old]; [by injection H as <- <-|].
    apply bind_Some in H as ([st1 r1] & H1 & H). apply bind_Some in H as ([st2 rs] & H2 & H). injection H as <- <-.
    apply frame_vals in H1 as [L1 E1]. apply IH in H2 as [L2 E2]. split; [congruence|]. intros c' N. by rewrite E2, E1.
  Qed.

  Lemma block_length c ps : forall st old st' o, length old = length ps -> block c st ps old = Some (st', o) -> length o = length ps.
  Proof.
    induction ps as [|p ps IH]; intros st old st' o L H; cbn [play_block] in H; [by injection H as <- <-|].
    destruct old as [|x old]; [done|]. injection L as L.
    apply bind_Some in H as ([st1 r1] & H1 & H). apply bind_Some in H as ([st2 rs] & H2 & H). injection H as <- <-. cbn. f_equal. by eapply IH.
  Qed.
  Lemma cols_vals n : forall col st ps old st' os, play_cols rnd mix next_open01 bits zero one b n col st ps old = Some (st', os) ->
    length (gs_vals st') = length (gs_vals st) /\ length os = n /\ forall c', c' < col \/ col + n <= c' -> gs_vals st' !! c' = gs_vals st !! c'.
  Proof.
    induction n as [|n IH]; intros col st ps old st' os H; cbn [play_cols] in H; [by injection H as <- <-|].
    apply bind_Some in H as ([st1 o] & H1 & H). apply bind_Some in H as ([st2 os'] & H2 & H). injection H as <- <-.
    apply block_vals in H1 as [L1 E1]. apply IH in H2 as (L2 & L3 & E2). split_and!; [congruence|cbn; congruence|].
    intros c' Hc'. rewrite E2, E1 by lia. done.
  Qed.
  Lemma cols_nth n c : forall col st ps old st' os, length old = length ps ->
    play_cols rnd mix next_open01 bits zero one b n col st ps old = Some (st', os) -> col <= c < col + n ->
    exists st1 st2 old1 o, block c st1 ps old1 = Some (st2, o) /\ os !! (c - col) = Some o /\ length old1 = length ps /\
      gs_vals st1 !! c = gs_vals st !! c /\ gs_vals st' !! c = gs_vals st2 !! c.
  Proof.
    induction n as [|n IH]; intros col st ps old st' os L H Hc; cbn [play_cols] in H; [lia|].
    apply bind_Some in H as ([st1 o] & H1 & H). apply bind_Some in H as ([st2 os'] & H2 & H). injection H as <- <-.
    destruct (decide (c = col)) as [->|N].
    - exists st, st1, old, o. rewrite Nat.sub_diag. split_and!; try done. apply cols_vals in H2 as (_ & _ & E). apply E. lia.
    - destruct (IH _ _ _ _ _ _ (block_length _ _ _ _ _ _ L H1) H2) as (sa & sb & olda & o' & E1 & E2 & E3 & E4 & E5); [lia|].
      exists sa, sb, olda, o'. split_and!; try done.
      + replace (c - col) with (S (c - S col)) by lia. done.
      + rewrite E4. apply block_vals in H1 as [_ E]. apply E. lia.
  Qed.

  Context (cells : nat -> option Z) (c : nat) (d : list (V * nat)).
  Hypothesis (Ht : bk_types b !! c = Some CGate) (Hd : bk_data b !! c = Some d) (HP : plays_gates gate cells d).
  Hypothesis (Hv : forall r v, cells r = Some v -> (0 <= v < 4096)%Z) (Hr : 0 < bk_rows b <= max_pattern_len).

  Lemma fires_slot cell st st' r fires s : gs_vals st !! c = Some s -> row_fires next_open01 cell st c r fires st' ->
    exists s', gs_vals st' !! c = Some s' /\ slot_step cell r s fires s'.
  Proof.
    intros Hs [H1 H2].
    assert (by_chance cell \/ ~ by_chance cell) as [Hb|Hb].
    { destruct cell as [v|]; [|by left]. cbn. destruct (Qlt_le_dec (gate_chance v) 1); [by left|]. right. by apply Qle_not_lt. }
    - destruct (H1 Hb) as (u & D & Hf). exists (r, u). split.
      + destruct D as [[? ->]|(r0 & u0 & E & _ & _ & ->)]; [done|]. apply list_lookup_insert. by eapply lookup_lt_Some.
      + split; [|done]. intros _. exists u. split_and!; try done. intros <-. destruct D as [[E _]|(r0 & u0 & E & N & _)]; rewrite Hs in E; injection E as ->; done.
    - destruct (H2 Hb) as [-> ->]. exists s. split; [done|]. split; [done|]. done.
  Qed.

  Lemma block_trace ps : forall st old s st' o, length old = length ps -> gs_vals st !! c = Some s ->
    block c st ps old = Some (st', o) -> exists s', gs_vals st' !! c = Some s' /\ col_trace cells s ps o s'.
  Proof.
    induction ps as [|p ps IH]; intros st old s st' o Ho Hs H; cbn [play_block] in H; [injection H as <- <-; exists s; split; [done|constructor]|].
    destruct old as [|x old]; [done|]. injection Ho as Ho.
    apply bind_Some in H as ([st1 r1] & H1 & H). apply bind_Some in H as ([st2 rs] & H2 & H). injection H as <- <-.
    destruct (gate_frame F rnd R HF mix next_open01 bits gate zero one bits_gate b c d cells st p) as (r & st1' & o1 & fires & Er & Hrr & E & So & Sf); try done.
    { by eapply lookup_lt_Some. }
    rewrite H1 in E. injection E as <- ->. destruct (fires_slot _ _ _ _ _ _ Hs Sf) as (s1 & Hs1 & St).
    destruct (IH _ _ _ _ _ Ho Hs1 H2) as (s' & Hs' & T). exists s'. split; [done|]. cbn. econstructor; eauto.
  Qed.
  Lemma block_ok ps : forall st old, c < length (gs_vals st) -> length old = length ps -> is_Some (block c st ps old).
  Proof.
    induction ps as [|p ps IH]; intros st old Hc Ho; cbn [play_block]; [by eexists|]. destruct old as [|x old]; [done|]. injection Ho as Ho.
    destruct (gate_frame F rnd R HF mix next_open01 bits gate zero one bits_gate b c d cells st p) as (r & st1 & o1 & fires & Er & Hrr & E & _); try done.
    rewrite E. cbn [mbind option_bind]. apply frame_vals in E as [L _]. destruct (IH st1 old) as [[st2 rs] ->]; [lia|done|]. by eexists.
  Qed.

  Lemma tseq_trace blocks : forall st s st' os, gs_vals st !! c = Some s -> c < max_cols ->
    tseq_run rnd mix next_open01 bits zero one b st blocks = Some (st', os) ->
    exists s', gs_vals st' !! c = Some s' /\ col_trace cells s (mjoin blocks) (track_of c os) s'.
  Proof.
    induction blocks as [|ps blocks IH]; intros st s st' os Hs Hc H; cbn [tseq_run] in H; [injection H as <- <-; exists s; split; [done|constructor]|].
    apply bind_Some in H as ([st1 o] & H1 & H). apply bind_Some in H as ([st2 os'] & H2 & H). injection H as <- <-.
    unfold tseq_play in H1. destruct (cols_nth max_cols c 0 _ _ _ _ _ (replicate_length _ _) H1) as (sa & sb & olda & o' & E1 & E2 & E3 & E4 & E5); [lia|].
    rewrite Hs in E4. destruct (block_trace _ _ _ _ _ _ E3 E4 E1) as (s1 & Es1 & T1). rewrite <- E5 in Es1.
    destruct (IH _ _ _ _ Es1 Hc H2) as (s' & Es' & T'). exists s'. split; [done|].
    rewrite Nat.sub_0_r in E2. unfold track_of. cbn. rewrite E2. cbn. by eapply trace_app.
  Qed.
End trace.

Section rows.
  Context (F : Q -> Prop) (rnd : Q -> Q) (R : rounds_to_nearest F rnd) (HF : forall x, f32_grid x -> F x).
  Lemma gate_row_head rows p r : 0 < rows <= max_pattern_len ->
    gate_row_at rnd rows p = Some r <-> head_in_row rnd row_eps rows (clip p) r.
  Proof.
    intros H. destruct (row_at_spec F rnd R HF rows (clamp01 p) H (clamp_range p)) as (r' & E & Hr & Hf).
    unfold gate_row_at. rewrite E. unfold head_in_row.
    assert ((row_phase rnd rows (clamp01 p) == rnd (clip p * rnd (inject_Z (Z.of_nat rows) - row_eps)))%Q) as EH.
    { unfold row_phase, last_row_idx, q_of_nat. apply (rn_proper _ _ R). rewrite clamp_clip. reflexivity. }
    rewrite (Qfloor_comp _ _ EH) in Hf. set (h := rnd (clip p * _)) in *. clearbody h.
    pose proof (Qfloor_le h) as L. pose proof (Qlt_floor h) as U. rewrite <- Hf in L, U. rewrite inject_Z_plus in U. change (inject_Z 1) with 1%Q in U. split.
    - intros [= <-]. split; lra.
    - intros [H1 H2]. f_equal.
      assert (inject_Z (Z.of_nat r) < inject_Z (Z.of_nat r' + 1))%Q as A by (rewrite inject_Z_plus; change (inject_Z 1) with 1%Q; lra).
      assert (inject_Z (Z.of_nat r') < inject_Z (Z.of_nat r + 1))%Q as B by (rewrite inject_Z_plus; change (inject_Z 1) with 1%Q; lra).
      rewrite <- Zlt_Qlt in A, B. lia.
  Qed.
End rows.

(** the node never panics *)
Section total.
  Context (rnd : Q -> Q) {V : Type} (mix : V -> V -> Q -> V) {G : Type} (next_open01 : G -> Q * G) (bits : V -> Z) (zero one : V).
  Context (b : @backend V).

  Lemma row_total rows p : 0 < rows -> exists r, row_at rnd rows p = Some r /\ r < rows.
  Proof. intros H. unfold row_at. destruct (Nat.eqb_spec rows 0); [lia|]. eexists. split; [done|]. apply Nat.mod_upper_bound. lia. Qed.
  Lemma frame_total c st p : back_shaped b -> c < max_cols -> length (gs_vals st) = max_cols ->
    exists st' o, play_frame rnd mix next_open01 bits zero one b c st p = Some (st', o).
  Proof.
    intros (S1 & S2 & S3 & S4) Hc Hg. change 6 with max_cols in S1, S2. change 256 with max_pattern_len in S3, S4. unfold play_frame. destruct (Nat.eqb_spec (bk_rows b) 0) as [|N]; [eauto|].
    destruct (lookup_lt_is_Some_2 (bk_types b) c) as [t ->]; [lia|]. destruct (lookup_lt_is_Some_2 (bk_data b) c) as [d Hd]; [lia|].
    rewrite Hd. cbn [mbind option_bind]. pose proof (proj1 (Forall_lookup _ _) S3 _ _ Hd) as L. cbn in L.
    destruct t.
    - unfold col_get. destruct (row_total (bk_rows b) p) as (r & -> & Hr); [lia|]. cbn [mbind option_bind].
      destruct (lookup_lt_is_Some_2 d r) as [x ->]; [lia|]. cbn. eauto.
    - unfold col_get. destruct (row_total (bk_rows b) p) as (r & -> & Hr); [lia|]. cbn [mbind option_bind].
      destruct (lookup_lt_is_Some_2 d r) as [x ->]; [lia|]. cbn. eauto.
    - unfold col_interpolate. destruct (row_total (bk_rows b) p) as (r & -> & Hr); [lia|]. cbn [mbind option_bind].
      destruct (lookup_lt_is_Some_2 d (if r =? 0 then bk_rows b - 1 else r - 1)) as [y ->]; [destruct (r =? 0); lia|].
      destruct (lookup_lt_is_Some_2 d r) as [x ->]; [lia|]. cbn. eauto.
    - unfold col_gate, gate_row_at. destruct (row_total (bk_rows b) (clamp01 p)) as (r & -> & Hr); [lia|]. cbn [mbind option_bind].
      destruct (lookup_lt_is_Some_2 d r) as [x ->]; [lia|]. cbn [mbind option_bind]. cbv zeta.
      assert (exists st1 u, rand_val next_open01 st c r = Some (st1, u)) as (st1 & u & Hu).
      { unfold rand_val. destruct (lookup_lt_is_Some_2 (gs_vals st) c) as [rv ->]; [lia|]. cbn. destruct (rv.1 =? r); [eauto|]. destruct (next_open01 (gs_rng st)). eauto. }
      rewrite Hu. cbn [mbind option_bind].
      destruct (_ <? 15)%Z; cbn [mbind option_bind].
      + destruct (negb _); [cbn; eauto|]. destruct (0 <? _)%Z; cbn; eauto.
      + destruct (0 <? _)%Z; cbn; eauto.
  Qed.
  Lemma block_total c ps : back_shaped b -> c < max_cols -> forall st old, length (gs_vals st) = max_cols ->
    exists st' o, play_block rnd mix next_open01 bits zero one b c st ps old = Some (st', o).
  Proof.
    intros Hs Hc. induction ps as [|p ps IH]; intros st old Hg; cbn [play_block]; [eauto|]. destruct old as [|x old]; [eauto|].
    destruct (frame_total c st p Hs Hc Hg) as (st1 & o1 & E). rewrite E. cbn [mbind option_bind].
    destruct (frame_vals rnd mix next_open01 bits zero one b c st p st1 o1 E) as [L _]. destruct (IH st1 old) as (st2 & o2 & ->); [congruence|]. cbn. eauto.
  Qed.
  Lemma cols_total n ps : back_shaped b -> forall col st old, col + n <= max_cols -> length (gs_vals st) = max_cols ->
    exists st' os, play_cols rnd mix next_open01 bits zero one b n col st ps old = Some (st', os).
  Proof.
    intros Hs. induction n as [|n IH]; intros col st old Hc Hg; cbn [play_cols]; [eauto|].
    destruct (block_total col ps Hs ltac:(lia) st old Hg) as (st1 & o1 & E). rewrite E. cbn [mbind option_bind].
    destruct (block_vals rnd mix next_open01 bits zero one b col ps st old st1 o1 E) as [L _]. destruct (IH (S col) st1 o1) as (st2 & o2 & ->); [lia|congruence|]. cbn. eauto.
  Qed.
  Lemma tseq_total blocks : back_shaped b -> forall st, length (gs_vals st) = max_cols ->
    exists st' os, tseq_run rnd mix next_open01 bits zero one b st blocks = Some (st', os).
  Proof.
    intros Hs. induction blocks as [|ps blocks IH]; intros st Hg; cbn [tseq_run]; [eauto|]. unfold tseq_play.
    destruct (cols_total max_cols ps Hs 0 st (replicate (length ps) (zero, 0))) as (st1 & o1 & E); [lia|done|]. rewrite E. cbn [mbind option_bind].
    destruct (cols_vals rnd mix next_open01 bits zero one b _ _ _ _ _ _ _ E) as [L _]. destruct (IH st1) as (st2 & o2 & ->); [congruence|]. cbn. eauto.
  Qed.
End total.
