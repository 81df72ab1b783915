(** Proofs about the Scope node *)
From Coq Require Import QArith Qround Lqa.
From Verif Require Import Base M_Prog L_Conf M_Scope S_Scope L_Scope M_ScopeN S_ScopeN.
Open Scope nat_scope.
Local Opaque Nat.modulo.
Arguments scope_samples : simpl never.

(** ** where the points end *)
Lemma ceil_le x (k : Z) : (Qceiling x <= k)%Z <-> (x <= inject_Z k)%Q.
Proof.
  split; intros H.
  - pose proof (Qle_ceiling x). apply (Qle_trans _ (inject_Z (Qceiling x))); [done|]. by rewrite <- Zle_Qle.
  - rewrite <- (Qceiling_Z k). by apply Qceiling_resp_le.
Qed.
Lemma ends_le spb n k : (0 <= spb)%Q -> ends spb n <= k <-> (inject_Z (Z.of_nat n) * spb <= inject_Z (Z.of_nat k))%Q.
Proof.
  intros H0. rewrite <- ceil_le. unfold ends. split; intros H; lia.
Qed.
Lemma Q_S n : (inject_Z (Z.of_nat (S n)) == inject_Z (Z.of_nat n) + 1)%Q.
Proof. rewrite Nat2Z.inj_succ. unfold Z.succ. rewrite inject_Z_plus. reflexivity. Qed.
Lemma Q_nat0 n : (0 <= inject_Z (Z.of_nat n))%Q.
Proof. change 0%Q with (inject_Z 0). rewrite <- Zle_Qle. lia. Qed.
Lemma ends_S spb n : (1 <= spb)%Q -> S (ends spb n) <= ends spb (S n).
Proof.
  intros H1. destruct (Nat.le_gt_cases (S (ends spb n)) (ends spb (S n))) as [|Hgt]; [done|exfalso].
  assert (ends spb (S n) <= ends spb n) as Hle by lia. assert (0 <= spb)%Q as H0 by lra.
  destruct (ends spb n) as [|e] eqn:E.
  - apply (ends_le _ _ _ H0) in Hle. rewrite Q_S in Hle. pose proof (Q_nat0 n). change (inject_Z (Z.of_nat 0)) with 0%Q in Hle. nra.
  - assert (~ ends spb n <= e) as Hn by lia. apply Hn. apply ends_le; [done|]. apply (ends_le _ _ _ H0) in Hle.
    rewrite Q_S in Hle. rewrite Q_S in Hle. nra.
Qed.
Lemma ends_mono spb n m : (1 <= spb)%Q -> n < m -> ends spb n < ends spb m.
Proof. intros H1 H. induction H as [|m H IH]; pose proof (ends_S spb n H1); [lia|]. pose proof (ends_S spb m H1). lia. Qed.
Lemma ends_mono_le spb n m : (1 <= spb)%Q -> n <= m -> ends spb n <= ends spb m.
Proof. intros H1 H. destruct (decide (n = m)) as [->|Hn]; [done|]. pose proof (ends_mono spb n m H1). lia. Qed.
Lemma ends_0 spb : ends spb 0 = 0.
Proof. unfold ends. change (inject_Z (Z.of_nat 0)) with 0%Q. rewrite Qmult_0_l. reflexivity. Qed.

Definition starts (spb : Q) (n : nat) : nat := match n with 0 => 0 | S _ => S (ends spb n) end.
Lemma point_app spb n fs fs' : S (ends spb (S n)) <= length fs -> point spb n (fs ++ fs') = point spb n fs.
Proof.
  intros H. unfold point. fold (starts spb n). destruct (decide (starts spb n <= length fs)) as [Hs|Hs].
  - rewrite drop_app_le by done. rewrite take_app_le; [done|]. rewrite drop_length. lia.
  - replace (S (ends spb (S n)) - starts spb n) with 0 by lia. by rewrite !take_0.
Qed.
Lemma point_last spb n fs : starts spb n <= length fs -> length fs = S (ends spb (S n)) -> point spb n fs = drop (starts spb n) fs.
Proof. intros H1 H2. unfold point. fold (starts spb n). apply take_ge. rewrite drop_length. lia. Qed.

(** ** the widest pair *)
Section node.
  Context {T : Type} (chk : T -> Z -> bool * T) (sett : T -> Z -> T) (big : Z).

  Definition pk (sig : nat) (fs : list frame) : Z * Z :=
    foldl (fun m v => (Z.max m.1 v, Z.min m.2 v)) (- big, big)%Z (value sig <$> fs).
  Definition mmof (fs : list frame) : list (Z * Z) := [pk 0 fs; pk 1 fs; pk 2 fs].
  Lemma mmof_nil : mmof [] = clean big.
  Proof. reflexivity. Qed.
  Lemma pk_snoc sig fs f : pk sig (fs ++ [f]) = (Z.max (pk sig fs).1 (value sig f), Z.min (pk sig fs).2 (value sig f)).
  Proof. unfold pk. rewrite fmap_app, foldl_app. reflexivity. Qed.
  Lemma mmof_snoc fs f : widen (mmof fs) (sigs f) = mmof (fs ++ [f]).
  Proof. unfold mmof, widen. rewrite !pk_snoc. destruct f as [[[x y] z] t]. reflexivity. Qed.
  Lemma mmof_lookup sig fs : sig < 3 -> mmof fs !! sig = Some (pk sig fs).
  Proof. intros H. destruct sig as [|[|[|sig]]]; try reflexivity. lia. Qed.
  Lemma value_big sig : forall fs, bounded big fs -> fs <> [] -> is_peak sig fs (pk sig fs).
  Proof.
    induction fs as [|f fs IH] using rev_ind; [done|]. intros Hb _. rewrite pk_snoc.
    assert (- big <= value sig f <= big)%Z as Hf by (apply Hb; set_solver).
    destruct (decide (fs = [])) as [->|Hn].
    - unfold pk. cbn [fmap list_fmap foldl fst snd app]. rewrite Z.max_r, Z.min_r by lia. split_and!; cbn [fst snd].
      + exists f. split; [set_solver|done].
      + exists f. split; [set_solver|done].
      + intros g Hg. apply elem_of_list_singleton in Hg as ->. lia.
    - destruct IH as ((f1 & H1 & E1) & (f2 & H2 & E2) & H3); [intros g s Hg; apply Hb; set_solver|done|].
      destruct (pk sig fs) as [mx mn]. cbn [fst snd] in *. split_and!.
      + destruct (Z.max_spec mx (value sig f)) as [[? ->]|[? ->]]; [exists f|exists f1]; split; try done; set_solver.
      + destruct (Z.min_spec mn (value sig f)) as [[? ->]|[? ->]]; [exists f2|exists f]; split; try done; set_solver.
      + intros g Hg. cbn [fst snd]. apply elem_of_app in Hg as [Hg|Hg]; [specialize (H3 g Hg); lia|]. apply elem_of_list_singleton in Hg as ->. lia.
  Qed.

  (** ** the handle *)
  Lemma write3 h i (a b c : Z * Z) : shaped h -> i < scope_samples ->
    exists h', foldm (fun h (im : nat * (Z * Z)) => scope_write h im.1 i im.2) h (imap pair [a; b; c]) = Some h' /\ shaped h' /\
      forall sig p, sig < 3 -> cell h' sig p = if decide (p = i) then [a; b; c] !! sig else cell h sig p.
  Proof.
    intros Hs Hi. cbn [imap foldm fst snd compose]. unfold scope_write. rewrite (Nat.mod_small i) by done.
    change (0 mod 3) with 0. change (1 mod 3) with 1. change (2 mod 3) with 2.
    destruct (put_spec h 0 i a Hs ltac:(lia) Hi) as (h1 & E1 & Hs1 & _ & _ & _ & C1). rewrite E1. cbn [mbind option_bind].
    destruct (put_spec h1 1 i b Hs1 ltac:(lia) Hi) as (h2 & E2 & Hs2 & _ & _ & _ & C2). rewrite E2. cbn [mbind option_bind].
    destruct (put_spec h2 2 i c Hs2 ltac:(lia) Hi) as (h3 & E3 & Hs3 & _ & _ & _ & C3). rewrite E3. cbn [mbind option_bind].
    exists h3. split; [done|]. split; [done|]. intros sig p Hsig. rewrite C3, C2, C1.
    destruct sig as [|[|[|sig]]]; [| | |lia]; repeat case_decide; try done; lia.
  Qed.
  Lemma over3 h i copies (a b c : Z) : shaped h -> i < scope_samples ->
    exists h', foldm (fun h (iv : nat * Z) => scope_write_over h iv.1 i copies iv.2) h (imap pair [a; b; c]) = Some h' /\ shaped h' /\
      forall sig p v, sig < 3 -> p < scope_samples -> [a; b; c] !! sig = Some v ->
        cell h' sig p = if decide (i <= p < i + copies) then Some (v, v) else cell h sig p.
  Proof.
    intros Hs Hi. cbn [imap foldm fst snd compose]. unfold scope_write_over.
    change (0 mod 3) with 0. change (1 mod 3) with 1. change (2 mod 3) with 2.
    set (n := (i + copies) `min` scope_samples - i). assert (i + n <= scope_samples) as Hn by lia.
    destruct (over_spec 0 a ltac:(lia) n i h Hs Hn) as (h1 & E1 & Hs1 & _ & _ & _ & C1). rewrite E1. cbn [mbind option_bind].
    destruct (over_spec 1 b ltac:(lia) n i h1 Hs1 Hn) as (h2 & E2 & Hs2 & _ & _ & _ & C2). rewrite E2. cbn [mbind option_bind].
    destruct (over_spec 2 c ltac:(lia) n i h2 Hs2 Hn) as (h3 & E3 & Hs3 & _ & _ & _ & C3). rewrite E3. cbn [mbind option_bind].
    exists h3. split; [done|]. split; [done|]. intros sig p v Hsig Hp Hv. rewrite C3, C2, C1.
    destruct sig as [|[|[|sig]]]; [| | |lia]; injection Hv as <-; repeat case_decide; try done; lia.
  Qed.

  Definition same_cells (h h' : scope Z) : Prop := forall sig p, sig < 3 -> cell h' sig p = cell h sig p.
  Lemma offs_spec (os : list (Z * Z)) : forall k h, shaped h ->
    exists h', foldm (fun h (io : nat * (Z * Z)) => scope_set_offs h io.1 io.2.1 io.2.2) h (imap (fun i o => (k + i, o)) os) = Some h' /\
      shaped h' /\ same_cells h h'.
  Proof.
    induction os as [|o os IH]; intros k h Hs; cbn [imap foldm].
    - exists h. done.
    - destruct (step_spec h (SOffs (k + 0) o.1 o.2) Hs) as (h1 & E1 & Hs1 & C1 & _). cbn [scope_step fst snd] in *. rewrite E1. cbn [mbind option_bind].
      destruct (IH (S k) h1 Hs1) as (h2 & E2 & Hs2 & C2). exists h2. split.
      + rewrite <- E2. f_equal. unfold compose. apply imap_ext. intros i x _. f_equal. lia.
      + split; [done|]. intros sig p Hsig. rewrite C2 by done.
        unfold scope_set_offs in E1. destruct (_ <? _); [|done]. injection E1 as <-. reflexivity.
  Qed.
  Lemma prepare_spec (s : sn T) b : shaped (sn_h s) -> exists s', sn_prepare sett s b = Some s' /\ shaped (sn_h s') /\ same_cells (sn_h s) (sn_h s') /\
    sn_idx s' = sn_idx s /\ sn_ft s' = sn_ft s /\ sn_sr s' = sn_sr s /\ sn_mm s' = sn_mm s /\ sn_trig s' = sett (sn_trig s) (sb_thr b).
  Proof.
    intros Hs. unfold sn_prepare. set (h0 := scope_set_mask _ _ _ _).
    assert (shaped h0) as Hs0 by (destruct Hs as (H1 & H2 & H3 & H4); by split_and!).
    destruct (offs_spec (sb_offs b) 0 h0 Hs0) as (h1 & E1 & Hs1 & C1). rewrite (imap_ext _ (fun i o => (0 + i, o))) by done.
    rewrite E1. cbn [mbind option_bind]. eexists. split; [done|]. cbn [sn_h sn_idx sn_ft sn_sr sn_mm sn_trig]. split.
    { destruct Hs1 as (H1 & H2 & H3 & H4). by split_and!. }
    split; [|done]. intros sig p Hsig. unfold cell. cbn [scope_set_thr sc_bufs]. apply (C1 sig p Hsig).
  Qed.

  (** ** a long recording *)
  Section long.
    Context (sr t : Q) (Hsr : (0 < sr)%Q).
    Let spb := samples_per_block t sr.
    Let tpb := time_per_block t.
    Let st := sample_time sr.
    Context (Hlong : (1 <= spb)%Q).

    Lemma due (i k : nat) : (inject_Z (Z.of_nat i) * tpb <= inject_Z (Z.of_nat k) * st)%Q <-> ends spb i <= k.
    Proof using Hsr Hlong.
      rewrite ends_le by lra. assert (spb == tpb * sr)%Q as E.
      { unfold spb, tpb, samples_per_block, time_per_block. field. done. }
      assert (st * sr == 1)%Q as Es by (unfold st, sample_time; field; lra).
      rewrite <- (Qmult_le_r _ _ sr Hsr). rewrite <- (Qmult_assoc _ st), Es, Qmult_1_r, E, Qmult_assoc. reflexivity.
    Qed.

    Definition linv (h0 : scope Z) (s : sn T) (fs : list frame) : Prop :=
      shaped (sn_h s) /\ sn_sr s = sr /\ length fs <= S (ends spb scope_samples) /\
      (forall sig n, sig < 3 -> n < scope_samples -> cell (sn_h s) sig n =
         if decide (ends spb (S n) < length fs) then Some (pk sig (point spb n fs)) else cell h0 sig n) /\
      (length fs <= ends spb scope_samples ->
         sn_idx s < scope_samples /\ (sn_idx s = 0 \/ ends spb (sn_idx s) < length fs) /\ length fs <= ends spb (S (sn_idx s)) /\
         (sn_ft s == inject_Z (Z.of_nat (length fs)) * st - inject_Z (Z.of_nat (sn_idx s)) * tpb)%Q /\
         sn_mm s = mmof (drop (starts spb (sn_idx s)) fs)).

    Lemma linv_start h0 s : shaped h0 -> same_cells h0 (sn_h s) -> shaped (sn_h s) -> sn_sr s = sr -> sn_idx s = 0 -> (sn_ft s == 0)%Q ->
      sn_mm s = clean big -> linv h0 s [].
    Proof using Hlong.
      intros H1 H2 H3 H4 H5 H6 H7. split_and!; [done|done|cbn; lia| |].
      - intros sig n Hsig Hn. rewrite decide_False by (cbn; lia). by apply H2.
      - intros _. rewrite H5. cbn [length]. split_and!; [unfold scope_samples; lia|by left|lia| |].
        + change (inject_Z (Z.of_nat 0)) with 0%Q. rewrite H6. ring.
        + by rewrite drop_nil, H7.
    Qed.

    Lemma starts_le i (fs : list frame) : i = 0 \/ ends spb i < length fs -> starts spb i <= length fs.
    Proof using. intros [->|H]; [cbn; lia|]. destruct i; cbn [starts]; lia. Qed.

    Lemma linv_frame h0 s fs src f : linv h0 s fs -> length fs <= ends spb scope_samples ->
      exists s', long_frame chk big tpb st src s f = Some s' /\ linv h0 s' (fs ++ [f]).
    Proof using Hsr Hlong.
      intros (Hs & Er & Hl & HC & HR) Hle. destruct (HR Hle) as (Hi & Hst & Hk & Hft & Hmm). clear HR.
      unfold long_frame. destruct (Nat.ltb_spec (sn_idx s) scope_samples) as [_|]; [|lia].
      set (i := sn_idx s) in *. pose proof (starts_le i fs Hst) as Hsl.
      assert (forall n, S (ends spb (S n)) <= length fs -> point spb n (fs ++ [f]) = point spb n fs) as HP by (intros; by apply point_app).
      rewrite Hmm, mmof_snoc. rewrite <- (drop_app_le fs [f]) by done.
      assert (Qle_bool tpb (sn_ft s) = true <-> ends spb (S i) <= length fs) as Hdue.
      { rewrite Qle_bool_iff, Hft, <- due, Q_S. split; intros H; lra. }
      destruct (Qle_bool tpb (sn_ft s)) eqn:Eq.
      - assert (length fs = ends spb (S i)) as Ek by (destruct Hdue as [Hd _]; specialize (Hd eq_refl); lia).
        destruct (write3 (sn_h s) i (pk 0 (drop (starts spb i) (fs ++ [f]))) (pk 1 (drop (starts spb i) (fs ++ [f]))) (pk 2 (drop (starts spb i) (fs ++ [f]))) Hs Hi)
          as (h' & E & Hs' & C'). unfold mmof. rewrite E. cbn [mbind option_bind sn_idx sn_h sn_ft sn_sr sn_mm sn_trig].
        assert (forall sig n, sig < 3 -> n < scope_samples -> cell h' sig n =
          if decide (ends spb (S n) < length (fs ++ [f])) then Some (pk sig (point spb n (fs ++ [f]))) else cell h0 sig n) as HC'.
        { intros sig n Hsig Hn. rewrite C' by done. rewrite app_length. cbn [length]. destruct (decide (n = i)) as [->|Hni].
          - rewrite decide_True by lia. rewrite point_last by (rewrite app_length; cbn [length]; lia).
            by apply (mmof_lookup sig (drop (starts spb i) (fs ++ [f]))).
          - rewrite HC by done. destruct (decide (n < i)) as [Hlt|Hge].
            + pose proof (ends_mono_le spb (S n) i Hlong ltac:(lia)). destruct Hst as [|Hst]; [lia|].
              rewrite !decide_True by lia. by rewrite HP by lia.
            + pose proof (ends_mono spb (S i) (S n) Hlong ltac:(lia)). rewrite !decide_False by lia. done. }
        destruct (Nat.leb_spec scope_samples (i + 1)) as [Hfull|Hnf].
        + assert (S i = scope_samples) as ESi by lia. rewrite ESi in *.
          destruct (chk (sn_trig s) (trig_in src f)) as [hit tr].
          assert (forall idx ft mm, linv h0 (SN h' idx ft (sn_sr s) mm tr) (fs ++ [f])) as Hlv.
          { intros idx ft mm. split_and!; [done|done|rewrite app_length; cbn [length]; lia|done|]. rewrite app_length. cbn [length]. lia. }
          destruct hit; [eexists; split; [done|apply Hlv]|]. destruct (trig_off src); eexists; (split; [done|apply Hlv]).
        + eexists. split; [done|]. pose proof (ends_mono spb (S i) scope_samples Hlong ltac:(lia)).
          split_and!; [done|done|rewrite app_length; cbn [length]; lia|done|].
          intros _. cbn [sn_idx sn_ft sn_mm sn_h]. rewrite app_length. cbn [length]. rewrite !Nat.add_1_r. split_and!; [lia|right; lia| | |].
          * pose proof (ends_S spb (S i) Hlong). lia.
          * rewrite Hft, !Q_S. ring.
          * rewrite drop_ge; [by rewrite mmof_nil|]. cbn [starts]. rewrite app_length. cbn [length]. lia.
      - assert (length fs < ends spb (S i)) as Hlt.
        { destruct (Nat.le_gt_cases (ends spb (S i)) (length fs)) as [Hc|]; [|lia]. apply Hdue in Hc. done. }
        cbn [mbind option_bind sn_idx sn_h sn_ft sn_sr sn_mm sn_trig]. destruct (Nat.leb_spec scope_samples i) as [|_]; [lia|].
        eexists. split; [done|]. pose proof (ends_mono_le spb (S i) scope_samples Hlong ltac:(lia)).
        split_and!; [done|done|rewrite app_length; cbn [length]; lia| |].
        + intros sig n Hsig Hn. cbn [sn_h]. rewrite HC by done. rewrite app_length. cbn [length]. destruct (decide (n < i)) as [Hni|Hge].
          * pose proof (ends_mono_le spb (S n) i Hlong ltac:(lia)). destruct Hst as [|Hst]; [lia|]. rewrite !decide_True by lia. by rewrite HP by lia.
          * pose proof (ends_mono_le spb (S i) (S n) Hlong ltac:(lia)). rewrite !decide_False by lia. done.
        + intros _. cbn [sn_idx sn_ft sn_mm sn_h]. rewrite app_length. cbn [length]. rewrite Nat.add_1_r. split_and!; [done| |lia| |done].
          * destruct Hst; [by left|right; lia].
          * rewrite Hft, Q_S. ring.
    Qed.

    Lemma linv_frames h0 src fl : forall s fs, linv h0 s fs -> length (fs ++ fl) <= S (ends spb scope_samples) ->
      exists s', foldm (long_frame chk big tpb st src) s fl = Some s' /\ linv h0 s' (fs ++ fl).
    Proof using Hsr Hlong.
      induction fl as [|f fl IH]; intros s fs Hv Hl; cbn [foldm].
      - exists s. by rewrite app_nil_r.
      - rewrite app_length in Hl. cbn [length] in Hl. destruct (linv_frame h0 s fs src f Hv ltac:(lia)) as (s1 & E1 & Hv1). rewrite E1. cbn [mbind option_bind].
        destruct (IH s1 (fs ++ [f]) Hv1) as (s2 & E2 & Hv2); [rewrite !app_length; cbn [length]; lia|]. exists s2. split; [done|]. by rewrite <- app_assoc in Hv2.
    Qed.
    Lemma linv_prepare h0 s fs b : linv h0 s fs -> exists s', sn_prepare sett s b = Some s' /\ linv h0 s' fs.
    Proof using.
      intros (Hs & Er & Hl & HC & HR). destruct (prepare_spec s b Hs) as (s1 & E1 & Hs1 & C1 & E2 & E3 & E4 & E5 & _).
      exists s1. split; [done|]. split_and!; [done|by rewrite E4|done| |].
      - intros sig n Hsig Hn. rewrite (C1 sig n Hsig). by apply HC.
      - intros H. rewrite E2, E3, E5. by apply HR.
    Qed.
    Lemma linv_block h0 s fs b : linv h0 s fs -> clamp_time (sb_time b) = t -> length (fs ++ sb_frames b) <= S (ends spb scope_samples) ->
      exists s', sn_process chk sett big s b = Some s' /\ linv h0 s' (fs ++ sb_frames b).
    Proof using Hsr Hlong.
      intros Hv Ht Hl. unfold sn_process. destruct (linv_prepare h0 s fs b Hv) as (s1 & E1 & Hv1). rewrite E1. cbn [mbind option_bind].
      rewrite Ht. assert (sn_sr s1 = sr) as Er by apply Hv1. rewrite Er. fold spb. fold tpb. fold st.
      assert (Qle_bool 1 spb = true) as -> by by apply Qle_bool_iff. by apply linv_frames.
    Qed.
    Lemma linv_blocks h0 (bs : list scblk) : forall s fs, linv h0 s fs -> (forall b, b ∈ bs -> clamp_time (sb_time b) = t) ->
      length (fs ++ mjoin (sb_frames <$> bs)) <= S (ends spb scope_samples) ->
      exists s', sn_run chk sett big s (OProc <$> bs) = Some s' /\ linv h0 s' (fs ++ mjoin (sb_frames <$> bs)).
    Proof using Hsr Hlong.
      induction bs as [|b bs IH]; intros s fs Hv Ht Hl.
      - exists s. cbn. by rewrite app_nil_r.
      - assert (mjoin (sb_frames <$> b :: bs) = sb_frames b ++ mjoin (sb_frames <$> bs)) as Em by done. rewrite Em in *. rewrite !app_length in Hl.
        unfold sn_run. cbn [fmap list_fmap foldm sn_step].
        destruct (linv_block h0 s fs b Hv) as (s2 & E2 & Hv2); [apply Ht; set_solver|rewrite app_length; lia|]. rewrite E2. cbn [mbind option_bind].
        destruct (IH s2 (fs ++ sb_frames b) Hv2) as (s3 & E3 & Hv3); [set_solver|rewrite !app_length; lia|].
        exists s3. split; [exact E3|]. by rewrite <- app_assoc in Hv3.
    Qed.
  End long.
End node.
