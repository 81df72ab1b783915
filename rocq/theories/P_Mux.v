(** Properties of the multiplexer: C43 *)
From Coq Require Import QArith Qround Lqa.
From Verif Require Import Base M_Mux S_Mux.
Open Scope Z_scope.

Lemma mod_range a n : 0 < n -> 0 <= a mod n < n.
Proof. intros H. by apply Z.mod_pos_bound. Qed.

Lemma trig_spec n pos f : 1 <= n <= 128 -> mux_trig n (pos mod n) f = Some (moved pos f mod n).
Proof.
  intros Hn. unfold mux_trig, moved. set (q := if mf_rst f then 0 else pos).
  assert ((if mf_rst f then 0 else pos mod n) = q mod n) as ->. { unfold q. destruct (mf_rst f); [by rewrite Z.mod_0_l by lia|done]. }
  pose proof (mod_range q n ltac:(lia)) as Hq.
  assert ((if mf_up f then if q mod n + 1 <=? 255 then Some ((q mod n + 1) mod n) else None else Some (q mod n)) = Some ((q + (if mf_up f then 1 else 0)) mod n)) as ->.
  { destruct (mf_up f); [|by rewrite Z.add_0_r]. destruct (Z.leb_spec (q mod n + 1) 255); [|lia]. by rewrite Zplus_mod_idemp_l. }
  cbn [mbind option_bind]. set (r := q + _). pose proof (mod_range r n ltac:(lia)) as Hr. destruct (mf_down f).
  - destruct (Z.leb_spec (r mod n + n) 255); [|lia]. f_equal. replace (r mod n + n - 1) with (r mod n + -1 + 1 * n) by lia.
    by rewrite Z_mod_plus_full, Zplus_mod_idemp_l.
  - by rewrite Z.sub_0_r.
Qed.

Lemma slct_range n s : 1 <= n -> 0 <= mux_slct n s < n.
Proof. intros H. apply mod_range. lia. Qed.

Lemma max_spec c : 0 <= c <= 8 -> mux_max c = Some (c + 1).
Proof. intros H. unfold mux_max. rewrite Z.mod_small by lia. destruct (Z.leb_spec (c + 1) 255); [done|lia]. Qed.

Lemma route_small idx f : 0 <= idx <= 8 -> mux_route idx f = mf_ins f (Z.to_nat idx).
Proof. intros H. unfold mux_route. destruct (Z.leb_spec idx 7); [done|]. f_equal. lia. Qed.

Fixpoint endpos (pos : Z) (fs : list mframe) : Z := match fs with [] => pos | f :: fs => endpos (moved pos f) fs end.

Lemma frames_trig n pos fs : 1 <= n <= 9 -> mux_frames false n (pos mod n) fs = Some (endpos pos fs mod n, wanted n pos fs).
Proof.
  intros Hn. revert pos. induction fs as [|f fs IH]; intros pos; [done|]. cbn [mux_frames wanted endpos]. rewrite trig_spec by lia.
  cbn [mbind option_bind]. rewrite IH. cbn [mbind option_bind]. rewrite route_small; [done|].
  pose proof (mod_range (moved pos f) n ltac:(lia)). lia.
Qed.

Lemma frames_slct n idx fs : 1 <= n <= 9 -> 0 <= idx < n -> exists idx', 0 <= idx' < n /\
  mux_frames true n idx fs = Some (idx', (fun f => mf_ins f (Z.to_nat (mux_slct n (mf_slct f)))) <$> fs).
Proof.
  intros Hn. revert idx. induction fs as [|f fs IH]; intros idx Hi; [eauto|]. cbn [mux_frames].
  pose proof (slct_range n (mf_slct f) ltac:(lia)) as Hr. cbn [mbind option_bind].
  destruct (IH (mux_slct n (mf_slct f)) ltac:(lia)) as (idx' & Hi' & ->). exists idx'. split; [done|]. cbn [mbind option_bind].
  rewrite route_small by lia. done.
Qed.

(** C43: a block in which the selection input is not connected. From any earlier position, every frame gives the input that the resets
    and the up and down triggers lead to, counting around the configured number of inputs; nothing panics. *)
Theorem C43_triggers c pos fs : 0 <= c <= 8 ->
  exists idx', mux_block c false pos fs = Some (idx', wanted (c + 1) pos fs) /\ 0 <= idx' < c + 1 /\
    forall fs', wanted (c + 1) idx' fs' = drop (length fs) (wanted (c + 1) pos (fs ++ fs')).
Proof.
  intros Hc. unfold mux_block. rewrite (max_spec c Hc). cbn [mbind option_bind]. rewrite frames_trig by lia. eexists. split; [done|].
  split; [by apply mod_range; lia|]. intros fs'.
  assert (forall p q gs, p mod (c + 1) = q mod (c + 1) -> wanted (c + 1) p gs = wanted (c + 1) q gs) as HC.
  { intros p q gs. revert p q. induction gs as [|g gs IH]; intros p q Hpq; [done|]. cbn [wanted].
    assert (moved p g mod (c + 1) = moved q g mod (c + 1)) as E.
    { unfold moved. destruct (mf_rst g); [done|].
      rewrite <- !Z.add_sub_assoc. by rewrite <- (Zplus_mod_idemp_l p), <- (Zplus_mod_idemp_l q), Hpq. }
    rewrite E. f_equal. by apply IH. }
  revert pos. induction fs as [|f fs IH]; intros pos; cbn [endpos].
  - rewrite drop_0. apply HC. by rewrite Z.mod_mod by lia.
  - cbn [length drop app wanted]. apply IH.
Qed.
Print Assumptions C43_triggers.

(** C43: a block in which it is connected gives, in every frame, one of the configured inputs, the one that the selection names. *)
Theorem C43_select c pos fs : 0 <= c <= 8 ->
  exists idx', mux_block c true pos fs = Some (idx', (fun f => mf_ins f (Z.to_nat (mux_slct (c + 1) (mf_slct f)))) <$> fs) /\
    0 <= idx' < c + 1 /\ forall s, 0 <= mux_slct (c + 1) s < c + 1.
Proof.
  intros Hc. unfold mux_block. rewrite (max_spec c Hc). cbn [mbind option_bind].
  destruct (frames_slct (c + 1) (pos mod (c + 1)) fs ltac:(lia) (mod_range pos (c + 1) ltac:(lia))) as (idx' & H1 & ->).
  exists idx'. split; [done|]. split; [done|]. intros s. apply slct_range. lia.
Qed.
Print Assumptions C43_select.

(** The selection divides the range from 0 to 1 (moved by 0.00001) evenly between the inputs, in order *)
Theorem C43_select_even n s i : 1 <= n <= 9 -> 0 <= i < n ->
  (inject_Z i / inject_Z n + (1 # 100000) <= s < inject_Z (i + 1) / inject_Z n + (1 # 100000))%Q -> mux_slct n s = i.
Proof.
  intros Hn Hi [H1 H2]. unfold mux_slct.
  assert (0 < inject_Z n)%Q as Hp by (change 0%Q with (inject_Z 0); rewrite <- Zlt_Qlt; lia).
  assert (Qfloor (inject_Z n * (s - (1 # 100000))) = i) as ->; [|unfold sat_u8; rewrite Z.min_r, Z.max_r by lia; by apply Z.mod_small].
  set (x := (inject_Z n * (s - (1 # 100000)))%Q).
  assert (inject_Z i <= x)%Q as Hlo.
  { unfold x. setoid_replace (inject_Z i) with (inject_Z n * (inject_Z i / inject_Z n))%Q by (field; lra). apply Qmult_le_l; [done|]. lra. }
  assert (x < inject_Z (i + 1))%Q as Hhi.
  { unfold x. setoid_replace (inject_Z (i + 1)) with (inject_Z n * (inject_Z (i + 1) / inject_Z n))%Q by (field; lra). apply Qmult_lt_l; [done|]. lra. }
  pose proof (Qfloor_le x) as F1. pose proof (Qlt_floor x) as F2.
  assert (inject_Z (Qfloor x) < inject_Z (i + 1))%Q as G1 by lra. assert (inject_Z i < inject_Z (Qfloor x + 1))%Q as G2 by lra.
  rewrite <- Zlt_Qlt in G1, G2. lia.
Qed.
Print Assumptions C43_select_even.

(** Any history of blocks with the settings of the node list goes through, and the selected input stays below the configured number. *)
Theorem C43_history bs : Forall (fun b => 0 <= b.1.1 <= 8) bs ->
  exists idx out, mux_blocks 0 bs = Some (idx, out) /\ length out = sum_list (length <$> bs.*2) /\
    forall c k fs, last bs = Some (c, k, fs) -> 0 <= idx < c + 1.
Proof.
  intros H. generalize 0 at 1. induction H as [|[[c k] fs] bs Hc H IH]; intros pos; [by exists pos, []|].
  cbn [fst snd] in Hc. cbn [mux_blocks].
  assert (exists idx out, mux_block c k pos fs = Some (idx, out) /\ length out = length fs /\ 0 <= idx < c + 1) as (idx & out & -> & Hl & Hi).
  { destruct k.
    - destruct (C43_select c pos fs Hc) as (idx & -> & Hi & _). eexists _, _. split; [done|]. by rewrite fmap_length.
    - destruct (C43_triggers c pos fs Hc) as (idx & -> & Hi & _). eexists _, _. split; [done|]. split; [|done].
      clear. generalize pos. induction fs as [|f fs IHf]; intros p; [done|]. cbn. by rewrite IHf. }
  cbn [mbind option_bind]. destruct bs as [|b bs].
  - cbn. eexists _, _. split; [done|]. rewrite app_nil_r. split; [lia|]. intros c1 k1 fs1 E. injection E as <- <- <-. exact Hi.
  - destruct (IH idx) as (idx' & out' & -> & Hl' & Hi'). cbn [mbind option_bind]. eexists _, _. split; [done|]. split.
    + rewrite app_length, Hl, Hl'. done.
    + intros c' k' fs' E. by eapply Hi'.
Qed.
Print Assumptions C43_history.

(** Up and down undo each other, both wrap around, and a reset selects the first input. *)
Theorem C43_inverse c i up down rst : 0 <= c <= 8 -> 0 <= i <= c ->
  mf_rst up = false -> mf_up up = true -> mf_down up = false ->
  mf_rst down = false -> mf_up down = false -> mf_down down = true ->
  mf_rst rst = true -> mf_up rst = false -> mf_down rst = false ->
  fst <$> mux_block c false i [up; down] = Some i /\ fst <$> mux_block c false i [down; up] = Some i /\
  mux_block c false c [up] = Some (0, [mf_ins up 0]) /\ mux_block c false 0 [down] = Some (c, [mf_ins down (Z.to_nat c)]) /\
  mux_block c false i [rst] = Some (0, [mf_ins rst 0]).
Proof.
  intros Hc Hi E1 E2 E3 E4 E5 E6 E7 E8 E9. unfold mux_block. rewrite (max_spec c Hc). cbn [mbind option_bind].
  rewrite !frames_trig by lia. cbn [endpos wanted fst fmap option_fmap option_map]. unfold moved. rewrite E1, E2, E3, E4, E5, E6, E7, E8, E9.
  split_and!.
  - f_equal. rewrite Z.mod_small by lia. lia.
  - f_equal. rewrite Z.mod_small by lia. lia.
  - assert ((c + 1 - 0) mod (c + 1) = 0) as ->; [|done]. rewrite Z.sub_0_r. apply Z.mod_same. lia.
  - assert ((0 + 0 - 1) mod (c + 1) = c) as ->; [|done]. symmetry. apply (Z.mod_unique _ _ (-1)); lia.
  - rewrite Z.mod_0_l by lia. done.
Qed.
Print Assumptions C43_inverse.

(** A setting outside of the node list: 255 makes the block panic. *)
Theorem C43_setting_refuted fs : mux_block 255 false 0 fs = None.
Proof. done. Qed.
Print Assumptions C43_setting_refuted.

Example C43_example :
  let f r u d := MFrame r u d 0 (fun i => inject_Z (Z.of_nat i)) in
  mux_blocks 0 [(2, false, [f false true false; f false true false; f false true false; f false false true]); (1, false, [f false false false])] =
    Some (0, [inject_Z 1; inject_Z 2; inject_Z 0; inject_Z 2; inject_Z 0]).
Proof. vm_compute. done. Qed.
