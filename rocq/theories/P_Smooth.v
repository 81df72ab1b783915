(** Parameter smoothing (C17) *)
From Coq Require Import QArith QArith.Qcanon.
From Verif Require Import Base M_Exec S_Smooth.
Open Scope nat_scope.

Section any.
  Context {V : Type} (finc : V -> V -> nat -> V) (fadd : V -> V -> V).

  Lemma sm_run_count (s : smoother V) n : sm_count (sm_run fadd s n).1 = sm_count s - n /\ sm_target (sm_run fadd s n).1 = sm_target s /\
    sm_slope (sm_run fadd s n).1 = sm_slope s /\ sm_done (sm_run fadd s n).1 = sm_done s || (sm_count s <? n) /\
    sm_inc (sm_run fadd s n).1 = sm_inc s /\ length (sm_run fadd s n).2 = n.
  Proof.
    induction n as [|n IH]; cbn [sm_run].
    - cbn. rewrite Nat.sub_0_r, orb_false_r. done.
    - destruct (sm_run fadd s n) as [s1 vs]. cbn [fst snd] in IH. destruct IH as (H1 & H2 & H3 & H4 & H5 & H6).
      unfold sm_next. destruct (sm_count s1) as [|c] eqn:Ec; cbn [fst snd sm_count sm_target sm_slope sm_done sm_inc]; rewrite app_length; cbn [length].
      + split_and!; try done; try lia. destruct (Nat.ltb_spec (sm_count s) (S n)); [by rewrite orb_true_r|lia].
      + split_and!; try done; try lia. rewrite H4. f_equal. destruct (Nat.ltb_spec (sm_count s) n), (Nat.ltb_spec (sm_count s) (S n)); try done; lia.
  Qed.

  Lemma sm_run_prefix (s : smoother V) n m k : k < n -> n <= m -> (sm_run fadd s m).2 !! k = (sm_run fadd s n).2 !! k.
  Proof.
    intros Hk. induction 1 as [|m Hm IH]; [done|]. cbn [sm_run]. destruct (sm_run_count s m) as (_ & _ & _ & _ & _ & Hl).
    destruct (sm_run fadd s m) as [s1 vs]. destruct (sm_next fadd s1) as [s2 v]. cbn [fst snd] in *. rewrite lookup_app_l by lia. done.
  Qed.

  Lemma sm_run_last (s : smoother V) n : (sm_run fadd s (S n)).2 !! n = Some (sm_next fadd (sm_run fadd s n).1).2.
  Proof.
    cbn [sm_run]. destruct (sm_run_count s n) as (_ & _ & _ & _ & _ & Hl). destruct (sm_run fadd s n) as [s1 vs]. cbn [fst snd] in *.
    destruct (sm_next fadd s1) as [s2 v]. cbn. rewrite lookup_app_r by lia. by rewrite Hl, Nat.sub_diag.
  Qed.

  (** With any arithmetic (also rounding floating point numbers): a smoother that was set to a target
      delivers exactly this target from the sample on that follows the configured number of samples, and is
      done exactly then. *)
  Theorem C17_reaches_target (s : smoother V) current target n k :
    let s' := sm_set finc s current target in
    sm_slope s <= k < n -> (sm_run fadd s' n).2 !! k = Some target.
  Proof.
    intros s' [Hk Hn]. rewrite (sm_run_prefix s' (S k) n k) by lia. rewrite sm_run_last.
    destruct (sm_run_count s' k) as (H1 & H2 & _). unfold sm_next. rewrite H1. unfold s' at 1. cbn [sm_set sm_count].
    replace (sm_slope s - k) with 0 by lia. cbn. by rewrite H2.
  Qed.

  Theorem C17_done_after (s : smoother V) current target n :
    sm_done (sm_run fadd (sm_set finc s current target) n).1 = true <-> sm_slope s < n.
  Proof.
    destruct (sm_run_count (sm_set finc s current target) n) as (_ & _ & _ & -> & _). cbn [sm_set sm_done sm_count orb].
    by rewrite Nat.ltb_lt.
  Qed.
End any.
Print Assumptions C17_reaches_target.
Print Assumptions C17_done_after.

Lemma q_of_S n : q_of (S n) = (q_of n + 1)%Qc.
Proof.
  unfold q_of. apply Qc_is_canon. cbn. rewrite !Qred_correct. rewrite Nat2Z.inj_succ. unfold Z.succ. rewrite inject_Z_plus. reflexivity.
Qed.
Lemma q_of_0 : q_of 0 = 0%Qc.
Proof. by apply Qc_is_canon. Qed.
Lemma q_of_le n m : n <= m -> (q_of n <= q_of m)%Qc.
Proof. intros H. unfold q_of, Qcle. cbn. rewrite !Qred_correct. rewrite <- Zle_Qle. lia. Qed.
Lemma q_of_pos n : 0 < n -> (0 < q_of n)%Qc.
Proof. intros H. unfold q_of, Qclt. cbn. rewrite !Qred_correct. change 0%Q with (inject_Z 0). rewrite <- Zlt_Qlt. lia. Qed.

Lemma line_between a b n k : 0 < n -> k <= n -> between a b (line a b n k).
Proof.
  intros Hn Hk. pose proof (q_of_pos n Hn) as Hp. pose proof (q_of_le 0 k ltac:(lia)) as H0. rewrite q_of_0 in H0.
  pose proof (q_of_le k n Hk) as H1. assert (Hne : q_of n <> 0%Qc) by (intros E; rewrite E in Hp; by apply Qclt_not_eq in Hp).
  set (t := (q_of k / q_of n)%Qc). assert (Ht : (0 <= t <= 1)%Qc).
  { split.
    - apply (Qcmult_lt_0_le_reg_r _ _ (q_of n)); [done|]. unfold t. rewrite Qcmult_0_l. by rewrite Qcmult_comm, Qcmult_div_r.
    - apply (Qcmult_lt_0_le_reg_r _ _ (q_of n)); [done|]. unfold t. rewrite Qcmult_1_l. by rewrite Qcmult_comm, Qcmult_div_r. }
  assert (El : line a b n k = (a + (b - a) * t)%Qc) by (unfold line, t, Qcdiv; ring). rewrite El. clear El H0 H1 Hp Hne.
  destruct Ht as [T0 T1]. destruct (Qclt_le_dec a b) as [Hab|Hab].
  - left. assert (Hd : (0 <= b - a)%Qc) by (apply Qclt_le_weak in Hab; by apply Qcle_minus_iff in Hab). split.
    + apply Qcle_minus_iff. replace (a + (b - a) * t + - a)%Qc with ((b - a) * t)%Qc by ring.
      replace 0%Qc with (0 * t)%Qc by ring. by apply Qcmult_le_compat_r.
    + apply Qcle_minus_iff. replace (b + - (a + (b - a) * t))%Qc with ((1 - t) * (b - a))%Qc by ring.
      replace 0%Qc with (0 * (b - a))%Qc by ring. apply Qcmult_le_compat_r; [|done]. by apply Qcle_minus_iff in T1.
  - right. assert (Hd : (0 <= a - b)%Qc) by (by apply Qcle_minus_iff in Hab). split.
    + apply Qcle_minus_iff. replace (a + (b - a) * t + - b)%Qc with ((1 - t) * (a - b))%Qc by ring.
      replace 0%Qc with (0 * (a - b))%Qc by ring. apply Qcmult_le_compat_r; [|done]. by apply Qcle_minus_iff in T1.
    + apply Qcle_minus_iff. replace (a + - (a + (b - a) * t))%Qc with ((a - b) * t)%Qc by ring.
      replace 0%Qc with (0 * t)%Qc by ring. by apply Qcmult_le_compat_r.
Qed.

(** In exact arithmetic the first [sm_slope] samples are the straight line from the current value to the
    target: they lie between both, and the last of them is the target. *)
Theorem C17_straight_line (s : smoother Qc) current target n k :
  let s' := sm_set q_inc s current target in
  k < n -> k < sm_slope s ->
  (sm_run q_add s' n).2 !! k = Some (line current target (sm_slope s) (S k)) /\
  between current target (line current target (sm_slope s) (S k)) /\
  line current target (sm_slope s) (sm_slope s) = target.
Proof.
  intros s' Hk Hs. split; [|split].
  - assert (Hv : forall j, j <= sm_slope s -> sm_value (sm_run q_add s' j).1 = line current target (sm_slope s) j).
    { induction j as [|j IH]; intros Hj.
      - cbn. unfold line. rewrite q_of_0. unfold Qcdiv. ring.
      - cbn [sm_run]. destruct (sm_run_count q_add s' j) as (H1 & _ & _ & _ & H5 & _).
        destruct (sm_run q_add s' j) as [s1 vs]. cbn [fst snd] in *. specialize (IH ltac:(lia)).
        unfold sm_next. unfold s' in H1. cbn [sm_set sm_count] in H1. destruct (sm_count s1) as [|c]; [lia|]. cbn. rewrite IH, H5. cbn.
        unfold line, q_add, q_inc. rewrite q_of_S. unfold Qcdiv. ring. }
    rewrite (sm_run_prefix q_add s' (S k) n k) by lia. rewrite sm_run_last. f_equal. rewrite <- (Hv (S k)) by lia.
    cbn [sm_run]. destruct (sm_run_count q_add s' k) as (H1 & _). destruct (sm_run q_add s' k) as [s1 vs]. cbn [fst snd] in *.
    unfold sm_next. unfold s' in H1. cbn [sm_set sm_count] in H1. destruct (sm_count s1) as [|c]; [lia|]. done.
  - apply line_between; lia.
  - unfold line. assert (Hne : q_of (sm_slope s) <> 0%Qc).
    { intros E. pose proof (q_of_pos (sm_slope s) ltac:(lia)) as Hp. rewrite E in Hp. by apply Qclt_not_eq in Hp. }
    field. done.
Qed.
Print Assumptions C17_straight_line.

(** Smoothing from 1 to 3 over 4 samples *)
Example C17_example :
  (sm_run q_add (sm_set q_inc (sm_set_slope (sm_new 0%Qc) 4) (q_of 1) (q_of 3)) 6).2 =
  [Q2Qc (3 # 2)%Q; q_of 2; Q2Qc (5 # 2)%Q; q_of 3; q_of 3; q_of 3].
Proof. vm_compute. repeat (f_equal; try apply Qc_is_canon; try reflexivity). Qed.
