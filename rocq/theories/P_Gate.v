(** Properties of the playback of patterns, in particular of gate columns: C23, C47 *)
From Coq Require Import QArith Qabs Qround Qminmax Lqa.
From Verif Require Import Base M_Prog M_Track S_Track L_Track L_Track2 M_Seq S_Seq L_Seq S_Gate L_Gate P_Track.
Open Scope nat_scope.
Local Opaque row_eps.

(** [rnd] is the rounding of the arithmetic, to the [f32] values or to a finer set; [next_open01] is the random number
    generator of another crate, [gate] is [f32::from_bits] and [bits] is [f32::to_bits]. *)
Section gates.
  Context (F : Q -> Prop) (rnd : Q -> Q) (R : rounds_to_nearest F rnd) (HF : forall x, f32_grid x -> F x).
  Context {V : Type} (mix : V -> V -> Q -> V) {G : Type} (next_open01 : G -> Q * G) (bits : V -> Z) (gate : Z -> V) (zero one : V).
  Hypothesis bits_gate : forall v, (0 <= v < 65536)%Z -> bits (gate v) = v.

  Notation frame := (play_frame rnd mix next_open01 bits zero one).
  Notation run b := (tseq_run rnd mix next_open01 bits zero one b).
  Notation head b r p := (fun v => gate_head rnd row_eps (bk_rows b) r v (clip p)).
  Notation in_row b r p := (head_in_row rnd row_eps (bk_rows b) (clip p) r).

  (** C47: a frame of a gate column. An empty cell gives silence, a cell with a value is high in the first part of each
      of its gates if it fires. A cell with chance 16/16 always fires; the others compare their number with their chance. *)
  Theorem C47_frame b c cells st p : gate_column gate b c cells -> c < length (gs_vals st) ->
    exists r st' o fires, r < bk_rows b /\ in_row b r p /\ frame b c st p = Some (st', Some o) /\
      gate_sounds zero one (cells r) (head b r p) fires o /\ row_fires next_open01 (cells r) st c r fires st'.
  Proof.
    intros (Hc & Ht & (d & Hd & P) & Hv & Hr) Hg.
    destruct (gate_frame F rnd R HF mix next_open01 bits gate zero one bits_gate b c d cells st p Ht Hd P Hv Hr Hg) as (r & st' & o & fires & H1 & H2 & H3 & H4 & H5).
    exists r, st', o, fires. split_and!; try done; by apply (gate_row_head F rnd R HF (bk_rows b) p r Hr).
  Qed.

  (** C47: a cell with the full gate length is high in every frame of its row in which it fires, without gaps between
      its gates. *)
  Theorem C47_full_length b c cells st p r v st' o : gate_column gate b c cells -> c < length (gs_vals st) ->
    in_row b r p -> cells r = Some v -> (v mod 16 = 15)%Z -> (v / 256 = 15)%Z ->
    frame b c st p = Some (st', Some o) -> o = (one, 1).
  Proof.
    intros Hc Hg Hr Hv H15 Hf E. destruct (C47_frame b c cells st p Hc Hg) as (r' & st1 & o1 & fires & H1 & H2 & H3 & H4 & H5).
    rewrite E in H3. injection H3 as <- <-. destruct Hc as (_ & _ & _ & _ & Hrows).
    assert (r' = r) as ->. { apply (gate_row_head F rnd R HF) in Hr, H2; [|done..]. congruence. }
    rewrite Hv in H4, H5. destruct H5 as [_ H5].
    assert (~ by_chance (Some v)) as N. { cbn. unfold gate_chance. rewrite Hf. intros C. by vm_compute in C. }
    destruct (H5 N) as [-> _]. cbn in H4. apply (proj1 H4); [|done]. apply in_gate_fract. unfold gate_length. rewrite H15.
    set (h := gate_head _ _ _ _ _ _). change (inject_Z (15 + 1) / 16)%Q with (16 # 16)%Q. unfold fract.
    pose proof (Qlt_floor h) as U. rewrite inject_Z_plus in U. change (inject_Z 1) with 1%Q in U. lra.
  Qed.

  (** C47: a row sounds as a whole or not at all. In whatever blocks the phases come and whatever the other columns do,
      as long as the play head stays in a row all its frames agree whether it fires. *)
  Theorem C47_row_all_or_nothing b c cells st blocks st' os before seg after r v :
    gate_column gate b c cells -> length (gs_vals st) = 6 -> run b st blocks = Some (st', os) ->
    mjoin blocks = before ++ seg ++ after -> Forall (fun p => in_row b r p) seg -> cells r = Some v ->
    exists fires, Forall2 (fun p o => gate_sounds zero one (Some v) (head b r p) fires o)
      seg (take (length seg) (drop (length before) (track_of c os))).
  Proof.
    intros (Hc & Ht & (d & Hd & P) & Hv & Hr) Hg H Hj Hs Hcell.
    destruct (lookup_lt_is_Some_2 (gs_vals st) c) as [s Es]; [lia|].
    destruct (tseq_trace F rnd R HF mix next_open01 bits gate zero one bits_gate b cells c d Ht Hd P Hv Hr blocks st s st' os Es Hc H) as (s' & _ & T).
    rewrite Hj in T. destruct (trace_split _ _ _ _ _ _ _ _ _ _ T) as (s1 & os1 & os2 & -> & L1 & _ & T1).
    destruct (trace_split _ _ _ _ _ _ _ _ _ _ T1) as (s2 & os3 & os4 & -> & L3 & T3 & _).
    rewrite <- L1, drop_app, <- L3, take_app. eapply trace_row; [exact Hcell|exact T3|].
    eapply Forall_impl; [exact Hs|]. intros p Hp. by apply (gate_row_head F rnd R HF).
  Qed.

  (** C47: when the play head comes from a row that is left to chance into another such row, a new number is drawn.
      Rows that are not left to chance do not count. *)
  Theorem C47_new_row_draws b c cells st blocks st' os before q between r0 r p :
    gate_column gate b c cells -> length (gs_vals st) = 6 -> run b st blocks = Some (st', os) ->
    mjoin blocks = before ++ [q] ++ between -> in_row b r0 q -> by_chance (cells r0) ->
    Forall (fun q => forall i, in_row b i q -> ~ by_chance (cells i)) between ->
    in_row b r p -> by_chance (cells r) -> r <> r0 ->
    exists o st'', frame b c st' p = Some (st'', Some o) /\ gs_rng st'' = (next_open01 (gs_rng st')).2 /\
      forall v, cells r = Some v ->
        gate_sounds zero one (Some v) (head b r p) (Qle_bool (next_open01 (gs_rng st')).1 (gate_chance v)) o.
  Proof.
    intros HC Hg H Hj Hq0 Hb0 Hbt Hp Hb N. pose proof HC as (Hc & Ht & (d & Hd & P) & Hv & Hr).
    destruct (lookup_lt_is_Some_2 (gs_vals st) c) as [s Es]; [lia|].
    destruct (tseq_trace F rnd R HF mix next_open01 bits gate zero one bits_gate b cells c d Ht Hd P Hv Hr blocks st s st' os Es Hc H) as (s' & Es' & T).
    rewrite Hj, app_assoc in T. destruct (trace_split _ _ _ _ _ _ _ _ _ _ T) as (s1 & os1 & os2 & _ & L1 & T1 & T2).
    apply trace_quiet in T2 as ->; [|eapply Forall_impl; [exact Hbt|]; intros x Hx i Hi; apply Hx; by apply (gate_row_head F rnd R HF)].
    assert (s1.1 = r0) as Hs1. { eapply trace_last; [exact T1| |exact Hb0]. exists q. split; [apply last_snoc|]. by apply (gate_row_head F rnd R HF). }
    destruct (C47_frame b c cells st' p HC) as (r' & st1 & o1 & fires & H1 & H2 & H3 & H4 & H5); [by eapply lookup_lt_Some|].
    assert (r' = r) as ->. { apply (gate_row_head F rnd R HF) in Hp, H2; [|done..]. congruence. }
    exists o1, st1. split; [done|]. destruct (proj1 H5 Hb) as (u & D & Hf).
    destruct D as [[E _]|(r1 & u1 & E & _ & D & _)]; [rewrite Es' in E; injection E as ->; cbn in Hs1; congruence|].
    rewrite D. split; [done|]. intros v Ev. rewrite Ev in H4. cbn [fst]. rewrite <- (fires_fun v u fires (Hf v Ev)). done.
  Qed.

  (** C47, refuted for a row that alone is left to chance: its first number decides for all times the row is played. *)
  Theorem C47_lone_chance_row_refuted b c cells st blocks st' os r v :
    gate_column gate b c cells -> length (gs_vals st) = 6 -> run b st blocks = Some (st', os) ->
    cells r = Some v -> (gate_chance v < 1)%Q ->
    (forall i, i < bk_rows b -> i <> r -> exists w, cells i = Some w /\ (gate_chance w == 1)%Q) ->
    exists fires, forall k p o, mjoin blocks !! k = Some p -> track_of c os !! k = Some o -> in_row b r p ->
      gate_sounds zero one (Some v) (head b r p) fires o.
  Proof.
    intros (Hc & Ht & (d & Hd & P) & Hv & Hr) Hg H Hcell Hch Hlone.
    destruct (lookup_lt_is_Some_2 (gs_vals st) c) as [s Es]; [lia|].
    destruct (tseq_trace F rnd R HF mix next_open01 bits gate zero one bits_gate b cells c d Ht Hd P Hv Hr blocks st s st' os Es Hc H) as (s' & _ & T).
    destruct (trace_lone rnd zero one b cells v r s (mjoin blocks) (track_of c os) s' Hch Hcell) as [fires Hf]; [|exact T|].
    - intros i Hi Ni. destruct (Hlone i Hi Ni) as (w & -> & Hw). cbn. rewrite Hw. apply Qlt_irrefl.
    - exists fires. intros k p o H1 H2 H3. apply (Hf k p o H1 H2). by apply (gate_row_head F rnd R HF).
  Qed.

  (** C47: the node plays all phases without panicking. *)
  Theorem C47_never_panics b st blocks : back_shaped b -> length (gs_vals st) = 6 ->
    exists st' os, run b st blocks = Some (st', os).
  Proof. intros H Hg. by apply tseq_total. Qed.
End gates.
Print Assumptions C47_frame.
Print Assumptions C47_full_length.
Print Assumptions C47_row_all_or_nothing.
Print Assumptions C47_new_row_draws.
Print Assumptions C47_lone_chance_row_refuted.
Print Assumptions C47_never_panics.

(** C47, in exact arithmetic: row [r] is divided into as many equal parts as the cell has gates, and the [k]-th gate is
    high in the first [gate_length] of the [k]-th part. [x] is the position of the play head in rows. *)
Theorem C47_gates_of_row rows r v p : 0 < rows <= 256 -> (0 <= v < 4096)%Z -> (0 <= p <= 1)%Q ->
  let x := (p * (inject_Z (Z.of_nat rows) - row_eps))%Q in
  let n := inject_Z (gate_count v) in
  head_in_row (fun x => x) row_eps rows p r ->
  (exists k, in_gate v (gate_head (fun x => x) row_eps rows r v p) k) <->
  (exists k, (0 <= k < gate_count v)%Z /\
     inject_Z (Z.of_nat r) + inject_Z k / n <= x /\ x < inject_Z (Z.of_nat r) + (inject_Z k + 1) / n /\
     x <= inject_Z (Z.of_nat r) + (inject_Z k + gate_length v) / n)%Q.
Proof.
  intros Hr Hv Hp x n [H1 H2]. unfold gate_head. fold x in H1, H2. fold x n.
  assert (1 <= gate_count v <= 16)%Z as Hn. { unfold gate_count. pose proof (Z.mod_pos_bound (v / 16) 16 ltac:(lia)). lia. }
  assert (0 < n)%Q as Hn0. { unfold n. change 0%Q with (inject_Z 0). rewrite <- Zlt_Qlt. lia. }
  assert (~ n == 0)%Q as Hn1 by lra.
  set (R := inject_Z (Z.of_nat r)) in *. clearbody x R.
  assert (forall y, (y / n * n == y)%Q) as Ed. { intros y. field. done. }
  assert (forall y, (R + y / n <= x <-> y <= (x - R) * n)%Q) as A.
  { intros y. rewrite <- (Ed y) at 2. split; intros H.
    - apply Qmult_le_compat_r; lra.
    - apply Qmult_le_r in H; lra. }
  assert (forall y, (x <= R + y / n <-> (x - R) * n <= y)%Q) as B.
  { intros y. rewrite <- (Ed y) at 2. split; intros H.
    - apply Qmult_le_compat_r; lra.
    - apply Qmult_le_r in H; lra. }
  assert (forall y, (x < R + y / n <-> (x - R) * n < y)%Q) as C.
  { intros y. rewrite <- (Ed y) at 2. split; intros H.
    - apply Qmult_lt_r; lra.
    - apply Qmult_lt_r in H; lra. }
  assert (0 <= (x - R) * n)%Q as P0. { apply Qmult_le_0_compat; lra. }
  assert ((x - R) * n < n)%Q as P1. { setoid_replace n with (1 * n)%Q at 2 by ring. apply Qmult_lt_r; lra. }
  unfold in_gate. split; intros (k & Hk).
  - destruct Hk as (K1 & K2 & K3). exists k. rewrite A, B, C. split_and!; try done.
    + assert (inject_Z 0 < inject_Z (k + 1))%Q as K by (rewrite inject_Z_plus; change (inject_Z 0) with 0%Q; change (inject_Z 1) with 1%Q; lra).
      rewrite <- Zlt_Qlt in K. lia.
    + assert (inject_Z k < n)%Q as K by lra. unfold n in K. by rewrite <- Zlt_Qlt in K.
  - destruct Hk as (_ & K1 & K2 & K3). exists k. rewrite A in K1. rewrite C in K2. rewrite B in K3. done.
Qed.
Print Assumptions C47_gates_of_row.

(** C47: in phase mode the phase is the fractional part of the clock, without its sign. *)
Theorem C47_phase_mode x : (0 <= phase_of_clock x)%Q /\ (phase_of_clock x < 1)%Q /\ exists k, (Qabs x == phase_of_clock x + inject_Z k)%Q.
Proof.
  unfold phase_of_clock, fract. pose proof (Qfloor_le (Qabs x)). pose proof (Qlt_floor (Qabs x)) as U.
  rewrite inject_Z_plus in U. change (inject_Z 1) with 1%Q in U. split_and!; [lra|lra|]. exists (Qfloor (Qabs x)). ring.
Qed.
Print Assumptions C47_phase_mode.

(** C23, C45 and C47 together: what is heard at a phase. A note or step column gives the last value set at or above the
    row of that phase; a value column slides from the value of the row before to the value of the row; a gate column
    plays the gates of the row. *)
Section heard.
  Context (F : Q -> Prop) (rnd : Q -> Q) (R : rounds_to_nearest F rnd) (HF : forall x, f32_grid x -> F x).
  Context {V : Type} (zero one : V) (val note gate : Z -> V) (lerp : V -> V -> nat -> nat -> V) (mix : V -> V -> Q -> V).
  Context {G : Type} (next_open01 : G -> Q * G) (bits : V -> Z).
  Hypothesis bits_gate : forall v, (0 <= v < 65536)%Z -> bits (gate v) = v.

  Theorem C23_heard_at_phase t sent c phase n (st : gatest) :
    history zero val note gate lerp t sent -> tracker_send zero val note gate lerp t = Some (t, false) -> tr_queue t = [] ->
    c < 6 -> sent !! c = Some n -> 0 < n -> 0 < pt_rows (tr_pat t) <= 256 -> (0 <= phase <= 1)%Q -> length (gs_vals st) = 6 ->
    exists ty r st' o, pt_types (tr_pat t) !! c = Some ty /\ r < pt_rows (tr_pat t) /\
      head_in_row rnd row_eps (pt_rows (tr_pat t)) phase r /\
      play_frame rnd mix next_open01 bits zero one (tr_back t) c st phase = Some (st', Some o) /\
      match ty with
      | CNote | CStep => st' = st /\ forall x, last_given (column (tr_pat t) c) r x ->
          o = (match x with Some v => (if decide (ty = CNote) then note else val) v | None => zero end,
               if column (tr_pat t) c r then 1 else 0)
      | CValue => st' = st /\ exists d prev next x, plays_values zero val lerp (column (tr_pat t) c) n d /\
          d !! (if r =? 0 then pt_rows (tr_pat t) - 1 else r - 1) = Some prev /\ d !! r = Some next /\
          (x == rnd (phase * rnd (inject_Z (Z.of_nat (pt_rows (tr_pat t))) - row_eps)) - inject_Z (Z.of_nat r))%Q /\
          o = (mix prev.1 next.1 x, next.2)
      | CGate => (forall i v, column (tr_pat t) c i = Some v -> (0 <= v < 4096)%Z) ->
          exists fires, gate_sounds zero one (column (tr_pat t) c r)
              (fun v => gate_head rnd row_eps (pt_rows (tr_pat t)) r v phase) fires o /\
            row_fires next_open01 (column (tr_pat t) c r) st c r fires st'
      end.
  Proof.
    intros H Hs Hq Hc Hn Hn0 Hr Hp Hg.
    destruct (C23_backend_plays_pattern_partial _ _ _ _ _ t sent H Hs Hq) as [E G'].
    destruct (G' c Hc) as (ty & d & n' & E1 & E2 & E3 & E4 & P). rewrite Hn in E4. injection E4 as <-. specialize (P Hn0).
    assert (clip phase == phase)%Q as Ecl.
    { unfold clip. rewrite Q.min_r by apply Hp. rewrite Q.max_r by apply Hp. reflexivity. }
    destruct (row_at_spec F rnd R HF (pt_rows (tr_pat t)) phase Hr Hp) as (r & Er & Hrr & Hfl).
    assert (head_in_row rnd row_eps (pt_rows (tr_pat t)) phase r) as Hrow.
    { unfold head_in_row, row_phase, last_row_idx, q_of_nat in *. rewrite Hfl. split; [apply Qfloor_le|].
      pose proof (Qlt_floor (rnd (phase * rnd (inject_Z (Z.of_nat (pt_rows (tr_pat t))) - row_eps)))) as U. rewrite inject_Z_plus in U. done. }
    assert (back_shaped (tr_back t)) as Hsh.
    { pose proof (history_tinv _ _ _ _ _ _ _ H) as [_ _ _ [[L2 F2] L3] _ _]. split_and!; try done. rewrite E. apply Hr. }
    destruct (frame_total rnd mix next_open01 bits zero one (tr_back t) c st phase Hsh Hc Hg) as (st' & o & Ef).
    unfold play_frame in Ef. rewrite E in Ef. destruct (Nat.eqb_spec (pt_rows (tr_pat t)) 0); [lia|]. rewrite E1, E3 in Ef. cbn [mbind option_bind] in Ef.
    assert (max_pattern_len = 256) as ML by done. destruct ty.
    - unfold col_get in Ef. rewrite Er in Ef. cbn [mbind option_bind] in Ef. apply bind_Some in Ef as (y & Ey & Ef). injection Ef as <- <-.
      exists CNote, r, st, y. split_and!; try done.
      + unfold play_frame. rewrite E. destruct (Nat.eqb_spec (pt_rows (tr_pat t)) 0); [lia|]. rewrite E1, E3. cbn [mbind option_bind].
        unfold col_get. rewrite Er. cbn [mbind option_bind]. by rewrite Ey.
      + intros x Hx. rewrite (P r x) in Ey by (done || lia). injection Ey as <-. done.
    - unfold col_get in Ef. rewrite Er in Ef. cbn [mbind option_bind] in Ef. apply bind_Some in Ef as (y & Ey & Ef). injection Ef as <- <-.
      exists CStep, r, st, y. split_and!; try done.
      + unfold play_frame. rewrite E. destruct (Nat.eqb_spec (pt_rows (tr_pat t)) 0); [lia|]. rewrite E1, E3. cbn [mbind option_bind].
        unfold col_get. rewrite Er. cbn [mbind option_bind]. by rewrite Ey.
      + intros x Hx. rewrite (P r x) in Ey by (done || lia). injection Ey as <-. done.
    - apply bind_Some in Ef as (y & Ey & Ef). injection Ef as <- <-.
      exists CValue, r, st, y. split_and!; try done.
      + unfold play_frame. rewrite E. destruct (Nat.eqb_spec (pt_rows (tr_pat t)) 0); [lia|]. rewrite E1, E3. cbn [mbind option_bind]. by rewrite Ey.
      + unfold col_interpolate in Ey. rewrite Er in Ey. cbn [mbind option_bind] in Ey.
        apply bind_Some in Ey as (prev & Ep & Ey). apply bind_Some in Ey as (next & En & Ey). injection Ey as <-.
        eexists d, prev, next, _. split_and!; try done. rewrite <- Hfl. reflexivity.
    - assert (play_frame rnd mix next_open01 bits zero one (tr_back t) c st phase = Some (st', o)) as Ef'.
      { unfold play_frame. rewrite E. destruct (Nat.eqb_spec (pt_rows (tr_pat t)) 0); [lia|]. rewrite E1, E3. done. }
      apply bind_Some in Ef as ([st1 y] & Ey & Ef). injection Ef as <- <-. exists CGate, r, st1, y. split_and!; try done.
      intros Hv. assert (gate_column gate (tr_back t) c (column (tr_pat t) c)) as HC.
      { split_and!; try done; [by exists d|rewrite E; lia|rewrite E; lia]. }
      destruct (C47_frame F rnd R HF mix next_open01 bits gate zero one bits_gate _ _ _ st phase HC) as (r' & st2 & o2 & fires & H1 & H2 & H3 & H4 & H5); [lia|].
      rewrite Ef' in H3. injection H3 as <- <-. rewrite E in H2, H4.
      assert (r' = r) as ->.
      { apply (gate_row_head F rnd R HF) in H2; [|done]. assert (head_in_row rnd row_eps (pt_rows (tr_pat t)) (clip phase) r) as Hrow'.
        - unfold head_in_row in *. assert (rnd (clip phase * rnd (inject_Z (Z.of_nat (pt_rows (tr_pat t))) - row_eps)) == rnd (phase * rnd (inject_Z (Z.of_nat (pt_rows (tr_pat t))) - row_eps)))%Q as ->; [|done].
          apply (rn_proper _ _ R). by rewrite Ecl.
        - apply (gate_row_head F rnd R HF) in Hrow'; [|done]. congruence. }
      exists fires. split; [|done]. clear H5. unfold gate_sounds in *. destruct (column (tr_pat t) c r) as [v|]; [|done].
      assert (gate_head rnd row_eps (pt_rows (tr_pat t)) r v (clip phase) == gate_head rnd row_eps (pt_rows (tr_pat t)) r v phase)%Q as Eh.
      { unfold gate_head. apply (rn_proper _ _ R).
        assert (rnd (clip phase * rnd (inject_Z (Z.of_nat (pt_rows (tr_pat t))) - row_eps)) == rnd (phase * rnd (inject_Z (Z.of_nat (pt_rows (tr_pat t))) - row_eps)))%Q as ->; [|reflexivity].
        apply (rn_proper _ _ R). by rewrite Ecl. }
      assert ((exists k, in_gate v (gate_head rnd row_eps (pt_rows (tr_pat t)) r v (clip phase)) k) <-> (exists k, in_gate v (gate_head rnd row_eps (pt_rows (tr_pat t)) r v phase) k)) as Eg.
      { by rewrite !in_gate_fract, (fract_comp _ _ Eh). }
      rewrite <- Eg. done.
  Qed.
End heard.
Print Assumptions C23_heard_at_phase.

(** *** Concrete cases, over whole numbers and in exact arithmetic; the generator gives the numbers of a list *)
Definition pop_rng (l : list Q) : Q * list Q := match l with x :: l => (x, l) | [] => (1%Q, []) end.
Definition demo_cells (l : list (option Z)) (r : nat) : option Z := default None (l !! r).
Definition demo_back (rows : nat) (l : list (option Z)) : @backend Z :=
  Backend rows (((fun r => match demo_cells l r with Some v => (v, 1) | None => (61440%Z, 0) end) <$> seq 0 256) :: replicate 5 (replicate 256 (0%Z, 0)))
    (CGate :: replicate 5 CValue).
Local Notation zrun b := (tseq_run (fun x => x) (fun a _ _ => a) pop_rng id 0%Z 1%Z b).
Local Notation zframe b := (play_frame (fun x => x) (fun a _ _ => a) pop_rng id 0%Z 1%Z b).

Lemma demo_gates rows l : 0 < rows <= 256 -> Forall (fun c => match c with Some v => 0 <= v < 4096 | None => True end)%Z l ->
  gate_column id (demo_back rows l) 0 (demo_cells l).
Proof.
  intros Hr Hl. split_and!; try done; [lia| | |cbn; lia..].
  - eexists. split; [done|]. intros r Hlt. rewrite list_lookup_fmap, lookup_seq_lt by exact Hlt. cbn. by destruct (demo_cells l r).
  - intros r v. unfold demo_cells. destruct (l !! r) as [c|] eqn:E; [|done]. cbn. intros ->. by apply (proj1 (Forall_lookup _ _) Hl _ _ E).
Qed.
Lemma demo_shaped rows l : rows <= 256 -> back_shaped (demo_back rows l).
Proof.
  intros H. split_and!; try done. cbn [bk_data demo_back]. constructor; [by rewrite fmap_length, seq_length|].
  apply Forall_replicate. by rewrite replicate_length.
Qed.

(** Rows with two half gates, nothing, a gate that fires in half of the cases, and a full gate. In the first pass the
    third row fires, in the second one it does not. Empty rows take numbers too. *)
Example C47_example :
  let l := [Some 4071; None; Some 2047; Some 4095]%Z in
  let ps := [0; 1 # 16; 1 # 10; 3 # 10; 6 # 10; 7 # 10; 1]%Q in
  gate_column id (demo_back 4 l) 0 (demo_cells l) /\ back_shaped (demo_back 4 l) /\
  (let* (st, os) := zrun (demo_back 4 l) (gates_new [1 # 9; 2 # 9; 4 # 9; 8 # 9]%Q) [ps; ps] in Some (gs_rng st, (track_of 0 os).*1, (track_of 0 os).*2)) =
    Some ([], [1; 1; 0; 0; 1; 1; 1; 1; 1; 0; 0; 0; 0; 1]%Z, [1; 1; 1; 0; 1; 1; 1; 1; 1; 1; 0; 1; 1; 1]).
Proof. split_and!; [apply demo_gates; [lia|repeat (apply Forall_cons_2; [first [exact I|lia]|]); apply Forall_nil_2]|apply demo_shaped; lia|vm_compute; reflexivity]. Qed.

Lemma track_cons {A} c (o : list (list A)) x os : o !! c = Some x -> track_of c (o :: os) = x ++ track_of c os.
Proof. intros H. unfold track_of. cbn. by rewrite H. Qed.

(** C47, refuted for fresh decisions: a row with an even chance, beside a row that always fires. After one pass the
    generator is not asked again, and the row is silent in all passes although every later number would let it fire. *)
Theorem C47_fresh_decision_refuted :
  let l := [Some 2047; Some 4095]%Z in
  let pass := [1 # 4; 3 # 4]%Q in
  gate_column id (demo_back 2 l) 0 (demo_cells l) /\ (gate_chance 2047 == 1 # 2)%Q /\
  forall n, exists st' os, zrun (demo_back 2 l) (gates_new ((9 # 10) :: replicate n (1 # 10))%Q) (replicate n pass) = Some (st', os) /\
    (0 < n -> gs_rng st' = replicate n (1 # 10)%Q) /\ track_of 0 os = mjoin (replicate n [(0%Z, 1); (1%Z, 1)]).
Proof.
  intros l pass. split_and!; [apply demo_gates; [lia|repeat (apply Forall_cons_2; [lia|]); apply Forall_nil_2]|reflexivity|]. intros n. unfold gates_new.
  assert (exists k, Z.to_nat 99999 = S (S k)) as (k & Hk) by (exists (Z.to_nat 99997); lia). rewrite Hk. clear Hk.
  assert (forall g m, exists os, zrun (demo_back 2 l) (GateSt ((0%nat, 9 # 10) :: replicate 5 (S (S k), 0))%Q g) (replicate m pass) =
    Some (GateSt ((0%nat, 9 # 10) :: replicate 5 (S (S k), 0))%Q g, os) /\ track_of 0 os = mjoin (replicate m [(0%Z, 1); (1%Z, 1)])) as A.
  { intros g m. induction m as [|m (os & E & T)]; [by exists []|].
    assert (exists o, tseq_play (fun x => x) (fun a _ _ => a) pop_rng id 0%Z 1%Z (demo_back 2 l) (GateSt ((0%nat, 9 # 10) :: replicate 5 (S (S k), 0))%Q g) pass =
      Some (GateSt ((0%nat, 9 # 10) :: replicate 5 (S (S k), 0))%Q g, o) /\ o !! 0 = Some [(0%Z, 1); (1%Z, 1)]) as (o & Eo & To).
    { eexists. split; vm_compute; reflexivity. }
    change (replicate (S m) pass) with (pass :: replicate m pass). cbn [tseq_run]. rewrite Eo. cbn [mbind option_bind]. rewrite E. cbn [mbind option_bind].
    eexists. split; [done|]. rewrite (track_cons _ _ _ _ To), T. done. }
  destruct n as [|n]; [eexists _, []; split; [reflexivity|]; split; [lia|reflexivity]|].
  assert (exists o, tseq_play (fun x => x) (fun a _ _ => a) pop_rng id 0%Z 1%Z (demo_back 2 l) (GateSt (replicate max_cols (S (S k), 0%Q)) ((9 # 10) :: replicate (S n) (1 # 10))%Q) pass =
      Some (GateSt ((0%nat, 9 # 10) :: replicate 5 (S (S k), 0))%Q (replicate (S n) (1 # 10)%Q), o) /\ o !! 0 = Some [(0%Z, 1); (1%Z, 1)]) as (o & Eo & To).
  { generalize (replicate (S n) (1 # 10)%Q). intros g. eexists. split; vm_compute; reflexivity. }
  destruct (A (replicate (S n) (1 # 10)%Q) n) as (os & E & T).
  eexists _, (o :: os). split_and!.
  - change (replicate (S n) pass) with (pass :: replicate n pass). cbn [tseq_run]. rewrite Eo. cbn [mbind option_bind]. by rewrite E.
  - done.
  - rewrite (track_cons _ _ _ _ To), T. done.
Qed.
Print Assumptions C47_fresh_decision_refuted.

(** C47, refuted for cell values of four digits, which the editor accepts: the cell has a value but gives silence on both
    outputs. *)
Lemma wide_witness (o : option (@tracker Z * list nat)) st x :
  (let* (t, sent) := o in
   let* (st', r) := zframe (tr_back t) 0 st x in
   Some (r, pt_types (tr_pat t) !! 0, column (tr_pat t) 0 0, tr_queue t)) = Some (Some (0%Z, 0), Some CGate, Some 8191%Z, []) ->
  exists t sent st', o = Some (t, sent) /\ tr_queue t = [] /\ pt_types (tr_pat t) !! 0 = Some CGate /\ column (tr_pat t) 0 0 = Some 8191%Z /\
    zframe (tr_back t) 0 st x = Some (st', Some (0%Z, 0)).
Proof.
  intros H. apply bind_Some in H as ([t sent] & -> & H). apply bind_Some in H as ([st' r] & Ef & H). injection H as -> E1 E2 E3.
  exists t, sent, st'. done.
Qed.
Theorem C47_wide_cell_refuted : exists t sent st', history 0%Z id (fun v => v - 69)%Z id zlerp t sent /\ tr_queue t = [] /\
  pt_types (tr_pat t) !! 0 = Some CGate /\ column (tr_pat t) 0 0 = Some 8191%Z /\
  zframe (tr_back t) 0 (gates_new []) 0%Q = Some (st', Some (0%Z, 0)).
Proof.
  destruct (wide_witness (foldm hstep (tracker_new 0%Z, replicate 6 0) ([TEdit (PRows 4); TEdit (PType 0 CGate); TEdit (PPut 0 0 8191%Z)] ++ flush)) (gates_new []) 0%Q) as (t & sent & st' & E & P).
  { vm_compute. reflexivity. }
  exists t, sent, st'. split; [|exact P]. apply (hrun_history _ _ _ _ (h_new _ _ _ _ _) E).
Qed.
Print Assumptions C47_wide_cell_refuted.

(** C47, refuted for stored patterns: their number of rows is taken as it is, and without value columns and with more than 256 rows the audio
    thread panics at the end of the pattern. *)
Lemma long_witness (o : option (@tracker Z * list nat)) st x :
  (let* (t, sent) := o in
   Some (match zframe (tr_back t) 0 st x with None => true | _ => false end, pt_rows (tr_pat t) =? 300, tr_queue t)) = Some (true, true, []) ->
  exists t sent, o = Some (t, sent) /\ tr_queue t = [] /\ pt_rows (tr_pat t) = 300 /\ zframe (tr_back t) 0 st x = None.
Proof.
  intros H. apply bind_Some in H as ([t sent] & -> & H). injection H as E1 E2 E3.
  exists t, sent. split_and!; try done; [by apply Nat.eqb_eq|]. by destruct (zframe (tr_back t) 0 st x).
Qed.
Theorem C47_loaded_rows_refuted : exists t sent, history 0%Z id (fun v => v - 69)%Z id zlerp t sent /\ tr_queue t = [] /\
  pt_rows (tr_pat t) = 300 /\ zframe (tr_back t) 0 (gates_new []) 1%Q = None.
Proof.
  destruct (long_witness (foldm hstep (tracker_new 0%Z, replicate 6 0) ([TEdit (PRepr (PatRepr [3; 3; 3; 3; 3; 3]%Z [] 300 4 (2, 2)))] ++ flush)) (gates_new []) 1%Q) as (t & sent & E & P).
  { vm_compute. reflexivity. }
  exists t, sent. split; [|exact P]. apply (hrun_history _ _ _ _ (h_new _ _ _ _ _) E).
Qed.
Print Assumptions C47_loaded_rows_refuted.
