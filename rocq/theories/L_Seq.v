(** Proofs about the row selection of the sequencer *)
From Coq Require Import QArith Qabs Qround Lqa.
From Verif Require Import Base M_Track M_Seq S_Seq.
Open Scope nat_scope.

Lemma qabs_le x y : (Qabs x <= y -> - y <= x <= y)%Q.
Proof. apply Qabs_Qle_condition. Qed.

Section rnd.
  Context (F : Q -> Prop) (rnd : Q -> Q) (R : rounds_to_nearest F rnd).

  Lemma rnd_id x : F x -> (rnd x == x)%Q.
  Proof.
    intros Hx. pose proof (rn_near _ _ R x x Hx) as H. setoid_replace (x - x)%Q with 0%Q in H by ring.
    change (Qabs 0) with 0%Q in H. apply qabs_le in H. lra.
  Qed.
  Lemma rnd_mono x y : (x <= y)%Q -> (rnd x <= rnd y)%Q.
  Proof.
    intros Hxy. destruct (Qlt_le_dec x y) as [Hlt|Hle].
    - destruct (Qlt_le_dec (rnd y) (rnd x)) as [Hc|]; [|done]. exfalso.
      pose proof (rn_near _ _ R x _ (rn_in _ _ R y)) as H1. pose proof (rn_near _ _ R y _ (rn_in _ _ R x)) as H2.
      revert H1 H2. apply Qabs_case; intros ?; apply Qabs_case; intros ?; apply Qabs_case; intros ?; apply Qabs_case; intros ?; intros; lra.
    - rewrite (rn_proper _ _ R x y) by (apply Qle_antisym; done). apply Qle_refl.
  Qed.
  Lemma rnd_idem x : (rnd (rnd x) == rnd x)%Q.
  Proof. apply rnd_id, (rn_in _ _ R). Qed.
End rnd.

Lemma qn_pos n : 0 < n -> (1 <= q_of_nat n)%Q.
Proof. intros H. unfold q_of_nat, Qle. cbn. lia. Qed.
Lemma eps_pos : (0 < row_eps)%Q. Proof. reflexivity. Qed.
Lemma eps_lt1 : (row_eps < 1)%Q. Proof. reflexivity. Qed.
Local Opaque row_eps.

Section row.
  Context (F : Q -> Prop) (rnd : Q -> Q) (R : rounds_to_nearest F rnd) (HF : forall x, f32_grid x -> F x).

  Lemma F_zero : F 0%Q.
  Proof. apply HF. exists 0%Z, 0. split_and!; [done|lia|reflexivity]. Qed.

  Lemma grid_near rows : 0 < rows <= max_pattern_len ->
    exists y, f32_grid y /\ (q_of_nat rows - row_eps - y < row_eps /\ y - (q_of_nat rows - row_eps) < row_eps)%Q /\ (y < q_of_nat rows)%Q.
  Proof.
    intros H. assert (rows <= 128 \/ 128 < rows <= 256) as [Hc|Hc] by (unfold max_pattern_len in H; lia).
    - exists (q_of_nat rows - (1 # 131072))%Q. split_and!.
      + exists (Z.of_nat rows * 131072 - 1)%Z, 17. split_and!; [lia|lia|]. change (Pos.pow 2 (Pos.of_nat 17)) with 131072%positive. unfold q_of_nat, Qeq. cbn -[Z.mul]. lia.
      + assert ((1 # 131072) < row_eps)%Q by reflexivity. lra.
      + assert ((1 # 131072) < row_eps)%Q by reflexivity. lra.
      + lra.
    - exists (q_of_nat rows - (1 # 65536))%Q. split_and!.
      + exists (Z.of_nat rows * 65536 - 1)%Z, 16. split_and!; [lia|lia|]. change (Pos.pow 2 (Pos.of_nat 16)) with 65536%positive. unfold q_of_nat, Qeq. cbn -[Z.mul]. lia.
      + assert (row_eps < (1 # 65536))%Q by reflexivity. assert ((1 # 65536) < row_eps + row_eps)%Q by reflexivity. lra.
      + assert (row_eps < (1 # 65536))%Q by reflexivity. assert ((1 # 65536) < row_eps + row_eps)%Q by reflexivity. lra.
      + lra.
  Qed.

  Lemma last_row_lt rows : 0 < rows <= max_pattern_len -> (0 < last_row_idx rnd rows < q_of_nat rows)%Q.
  Proof.
    intros H. destruct (grid_near rows H) as (y & Gy & [H1 H2] & H3).
    pose proof (rn_near _ _ R (q_of_nat rows - row_eps) y (HF _ Gy)) as N. fold (last_row_idx rnd rows) in N.
    pose proof (qn_pos rows ltac:(lia)). pose proof eps_lt1. pose proof eps_pos.
    assert ((row_eps + row_eps < 1)%Q) by reflexivity.
    revert N. apply Qabs_case; intros ?; apply Qabs_case; intros ? ?; lra.
  Qed.

  Lemma row_phase_mono rows x y : 0 < rows <= max_pattern_len -> (x <= y)%Q -> (row_phase rnd rows x <= row_phase rnd rows y)%Q.
  Proof.
    intros H Hxy. apply (rnd_mono _ _ R). pose proof (last_row_lt rows H) as [? _].
    apply Qmult_le_compat_r; [done|]. lra.
  Qed.
  Lemma row_phase_range rows x : 0 < rows <= max_pattern_len -> (0 <= x <= 1)%Q -> (0 <= row_phase rnd rows x < q_of_nat rows)%Q.
  Proof.
    intros H [H0 H1]. pose proof (last_row_lt rows H) as [? ?].
    assert (row_phase rnd rows 0 == 0)%Q as E0.
    { unfold row_phase. rewrite (rn_proper _ _ R _ 0%Q) by ring. apply (rnd_id _ _ R), F_zero. }
    assert (row_phase rnd rows 1 == last_row_idx rnd rows)%Q as E1.
    { unfold row_phase. rewrite (rn_proper _ _ R _ (last_row_idx rnd rows)) by ring. apply (rnd_idem _ _ R). }
    pose proof (row_phase_mono rows 0 x H H0). pose proof (row_phase_mono rows x 1 H H1). lra.
  Qed.

  Lemma floor_range (x : Q) (n : nat) : (0 <= x < q_of_nat n)%Q -> (0 <= Qfloor x < Z.of_nat n)%Z.
  Proof.
    intros [H0 H1]. split.
    - apply (Qfloor_resp_le 0) in H0. exact H0.
    - pose proof (Qfloor_le x). assert (inject_Z (Qfloor x) < q_of_nat n)%Q as Hx by lra. unfold q_of_nat in Hx. by rewrite <- Zlt_Qlt in Hx.
  Qed.

  Lemma row_at_spec rows x : 0 < rows <= max_pattern_len -> (0 <= x <= 1)%Q ->
    exists r, row_at rnd rows x = Some r /\ r < rows /\ Z.of_nat r = Qfloor (row_phase rnd rows x).
  Proof.
    intros H Hx. pose proof (floor_range _ _ (row_phase_range rows x H Hx)) as HF'.
    unfold row_at. destruct (Nat.eqb_spec rows 0); [lia|]. eexists. split; [done|].
    rewrite Nat.mod_small by lia. lia.
  Qed.
  Lemma row_at_mono rows x y r s : 0 < rows <= max_pattern_len -> (0 <= x)%Q -> (x <= y)%Q -> (y <= 1)%Q ->
    row_at rnd rows x = Some r -> row_at rnd rows y = Some s -> r <= s.
  Proof.
    intros H H0 Hxy H1 E1 E2. destruct (row_at_spec rows x H) as (r' & E1' & _ & F1); [lra|]. destruct (row_at_spec rows y H) as (s' & E2' & _ & F2); [lra|].
    rewrite E1 in E1'. rewrite E2 in E2'. injection E1' as <-. injection E2' as <-.
    pose proof (Qfloor_resp_le _ _ (row_phase_mono rows x y H Hxy)). lia.
  Qed.
End row.

(** exact arithmetic *)
Lemma exact_nearest : rounds_to_nearest (fun _ => True) (fun x => x).
Proof.
  constructor; try done. intros x y _. setoid_replace (x - x)%Q with 0%Q by ring. change (Qabs 0) with 0%Q. apply Qabs_nonneg.
Qed.
Lemma exact_row rows x k : 0 < rows <= max_pattern_len -> (0 <= x <= 1)%Q ->
  row_at (fun x => x) rows x = Some k <->
    (q_of_nat k <= x * (q_of_nat rows - row_eps) < q_of_nat k + 1)%Q.
Proof.
  intros H Hx. destruct (row_at_spec (fun _ => True) (fun x => x) exact_nearest ltac:(done) rows x H Hx) as (r & E & Hr & Hf).
  rewrite E. unfold row_phase, last_row_idx in Hf. set (z := (x * (q_of_nat rows - row_eps))%Q) in *.
  pose proof (Qfloor_le z) as L. pose proof (Qlt_floor z) as U. rewrite <- Hf in L, U. fold (q_of_nat r) in L.
  rewrite inject_Z_plus in U. fold (q_of_nat r) in U. change (inject_Z 1) with 1%Q in U. split.
  - intros [= <-]. lra.
  - intros [H1 H2]. f_equal. unfold q_of_nat in *.
    assert (inject_Z (Z.of_nat r) < inject_Z (Z.of_nat k + 1))%Q as A by (rewrite inject_Z_plus; change (inject_Z 1) with 1%Q; lra).
    assert (inject_Z (Z.of_nat k) < inject_Z (Z.of_nat r + 1))%Q as B by (rewrite inject_Z_plus; change (inject_Z 1) with 1%Q; lra).
    rewrite <- Zlt_Qlt in A, B. lia.
Qed.
