(** Proofs about the Scope node: waiting for the trigger, the free running scope, short times *)
From Coq Require Import QArith Qround Lqa.
From Verif Require Import Base M_Prog L_Conf M_Scope S_Scope L_Scope M_ScopeN S_ScopeN L_ScopeN.
Open Scope nat_scope.
Local Opaque Nat.modulo.
Arguments scope_samples : simpl never.

Lemma read_cell (h : scope Z) sig p : sig < 3 -> p < scope_samples -> scope_read h sig p = cell h sig p.
Proof. intros H1 H2. unfold scope_read, cell. by rewrite !Nat.mod_small. Qed.

Lemma spb_pos t sr : (0 < sr)%Q -> (0 < samples_per_block (clamp_time t) sr)%Q.
Proof.
  intros H. unfold samples_per_block. change (inject_Z (Z.of_nat scope_samples)) with 512%Q.
  assert (0 < clamp_time t)%Q as Ht.
  { unfold clamp_time. destruct (Qle_bool (1 # 10) t) eqn:E; [|reflexivity]. apply Qle_bool_iff in E.
    destruct (Qle_bool t 300000); [|reflexivity]. apply (Qlt_le_trans _ (1 # 10)); [reflexivity|done]. }
  apply Qlt_shift_div_l; [reflexivity|]. rewrite Qmult_0_l. nra.
Qed.

Section node.
  Context {T : Type} (chk : T -> Z -> bool * T) (sett : T -> Z -> T) (big : Z).

  (** ** no panics *)
  Definition good (s : sn T) : Prop := shaped (sn_h s) /\ length (sn_mm s) = 3 /\ (0 < sn_sr s)%Q.
  Lemma len3 {A} (l : list A) : length l = 3 -> exists a b c, l = [a; b; c].
  Proof. destruct l as [|a [|b [|c [|]]]]; try done. intros _. by exists a, b, c. Qed.
  Lemma sigs_len f : exists a b c, sigs f = [a; b; c].
  Proof. destruct f as [[[x y] z] t]. by exists x, y, z. Qed.
  Lemma widen_len mm f : length mm = 3 -> length (widen mm (sigs f)) = 3.
  Proof. intros H. unfold widen. rewrite zip_with_length, H. destruct (sigs_len f) as (a & b & c & ->). reflexivity. Qed.
  Lemma long_good tpb st src s f : good s -> exists s', long_frame chk big tpb st src s f = Some s' /\ good s' /\ sn_sr s' = sn_sr s.
  Proof.
    intros (Hs & Hm & Hr). unfold long_frame. destruct (Nat.ltb_spec (sn_idx s) scope_samples) as [Hi|Hi].
    - pose proof (widen_len _ f Hm) as Hw. destruct (len3 _ Hw) as (a & b & c & Ew). rewrite Ew.
      destruct (Qle_bool tpb (sn_ft s)).
      + destruct (write3 (sn_h s) (sn_idx s) a b c Hs Hi) as (h' & E & Hs' & _). rewrite E. cbn [mbind option_bind sn_idx sn_h sn_ft sn_sr sn_mm sn_trig].
        destruct (_ <=? _); [|by eexists].
        destruct (chk (sn_trig s) (trig_in src f)) as [[] tr]; [by eexists|]. destruct (trig_off src); by eexists.
      + cbn [mbind option_bind sn_idx sn_h sn_ft sn_sr sn_mm sn_trig].
        destruct (_ <=? _); [|by eexists].
        destruct (chk (sn_trig s) (trig_in src f)) as [[] tr]; [by eexists|]. destruct (trig_off src); by eexists.
    - cbn [mbind option_bind]. destruct (_ <=? _); [|by eexists].
      destruct (chk (sn_trig s) (trig_in src f)) as [[] tr]; [by eexists|]. destruct (trig_off src); by eexists.
  Qed.
  Lemma short_good copies src s f : good s -> exists s', short_frame chk copies src s f = Some s' /\ good s' /\ sn_sr s' = sn_sr s.
  Proof.
    intros (Hs & Hm & Hr). unfold short_frame. destruct (Nat.ltb_spec (sn_idx s) scope_samples) as [Hi|Hi].
    - destruct (sigs_len f) as (a & b & c & ->). destruct (over3 (sn_h s) (sn_idx s) copies a b c Hs Hi) as (h' & E & Hs' & _). rewrite E.
      cbn [mbind option_bind sn_idx sn_h sn_ft sn_sr sn_mm sn_trig].
      destruct (_ <=? _); [|by eexists]. destruct (trig_off src); [by eexists|].
      destruct (chk (sn_trig s) (trig_in src f)) as [[] tr]; by eexists.
    - cbn [mbind option_bind]. destruct (_ <=? _); [|by eexists]. destruct (trig_off src); [by eexists|].
      destruct (chk (sn_trig s) (trig_in src f)) as [[] tr]; by eexists.
  Qed.
  Lemma fold_good (g : sn T -> frame -> option (sn T)) fl : (forall s f, good s -> exists s', g s f = Some s' /\ good s' /\ sn_sr s' = sn_sr s) ->
    forall s, good s -> exists s', foldm g s fl = Some s' /\ good s' /\ sn_sr s' = sn_sr s.
  Proof.
    intros Hg. induction fl as [|f fl IH]; intros s Hs; cbn [foldm]; [by exists s|].
    destruct (Hg s f Hs) as (s1 & E1 & Hs1 & Er). rewrite E1. cbn [mbind option_bind]. destruct (IH s1 Hs1) as (s2 & E2 & Hs2 & Er2).
    exists s2. split_and!; [done|done|by rewrite Er2].
  Qed.
  Lemma prepare_good (s : sn T) b : good s -> exists s', sn_prepare sett s b = Some s' /\ good s' /\ same_cells (sn_h s) (sn_h s') /\
    sn_idx s' = sn_idx s /\ sn_ft s' = sn_ft s /\ sn_sr s' = sn_sr s /\ sn_mm s' = sn_mm s /\ sn_trig s' = sett (sn_trig s) (sb_thr b).
  Proof.
    intros (Hs & Hm & Hr). destruct (prepare_spec sett s b Hs) as (s1 & E1 & Hs1 & C1 & E2 & E3 & E4 & E5 & E6). exists s1.
    split_and!; try done. split_and!; [done|by rewrite E5|by rewrite E4].
  Qed.
  Lemma process_good s b : good s -> exists s', sn_process chk sett big s b = Some s' /\ good s' /\ sn_sr s' = sn_sr s.
  Proof.
    intros Hs. unfold sn_process. destruct (prepare_good s b Hs) as (s1 & E1 & Hs1 & _ & _ & _ & Er & _). rewrite E1. cbn [mbind option_bind]. rewrite <- Er.
    destruct (Qle_bool _ _).
    - apply fold_good; [|done]. intros s' f Hs'. by apply long_good.
    - apply fold_good; [|done]. intros s' f Hs'. by apply short_good.
  Qed.
  Lemma run_good ops : forall s, good s -> Forall op_ok ops -> exists s', sn_run chk sett big s ops = Some s' /\ good s'.
  Proof.
    induction ops as [|o ops IH]; intros s Hs Ho; [by exists s|]. apply Forall_cons in Ho as [Ho Hops]. unfold sn_run. cbn [foldm].
    destruct o as [q|b]; cbn [sn_step].
    - cbn [mbind option_bind]. apply IH; [|done]. destruct Hs as (H1 & H2 & H3). by split_and!.
    - destruct (process_good s b Hs) as (s1 & E1 & Hs1 & _). rewrite E1. cbn [mbind option_bind]. by apply IH.
  Qed.
  Lemma new_good t0 : good (sn_new t0).
  Proof. split_and!; [apply new_shaped|reflexivity|reflexivity]. Qed.

  (** ** waiting *)
  Lemma wait_long tpb st src fl : trig_off src = false -> forall s tr, scope_samples <= sn_idx s ->
    misses chk (sn_trig s) (trig_in src <$> fl) = Some tr ->
    foldm (long_frame chk big tpb st src) s fl = Some (SN (sn_h s) (sn_idx s) (sn_ft s) (sn_sr s) (sn_mm s) tr).
  Proof.
    intros Hsrc. induction fl as [|f fl IH]; intros s tr Hi Hm; cbn [foldm fmap list_fmap misses] in *.
    - injection Hm as <-. by destruct s.
    - destruct (chk (sn_trig s) (trig_in src f)) as [[] t1] eqn:Ec; [done|].
      assert (long_frame chk big tpb st src s f = Some (SN (sn_h s) (sn_idx s) (sn_ft s) (sn_sr s) (sn_mm s) t1)) as ->.
      { unfold long_frame. destruct (Nat.ltb_spec (sn_idx s) scope_samples); [lia|]. cbn [mbind option_bind].
        destruct (Nat.leb_spec scope_samples (sn_idx s)); [|lia]. by rewrite Ec, Hsrc. }
      cbn [mbind option_bind]. by rewrite (IH _ tr).
  Qed.
  Lemma wait_short copies src fl : trig_off src = false -> forall s tr, scope_samples <= sn_idx s ->
    misses chk (sn_trig s) (trig_in src <$> fl) = Some tr ->
    foldm (short_frame chk copies src) s fl = Some (SN (sn_h s) (sn_idx s) (sn_ft s) (sn_sr s) (sn_mm s) tr).
  Proof.
    intros Hsrc. induction fl as [|f fl IH]; intros s tr Hi Hm; cbn [foldm fmap list_fmap misses] in *.
    - injection Hm as <-. by destruct s.
    - destruct (chk (sn_trig s) (trig_in src f)) as [[] t1] eqn:Ec; [done|].
      assert (short_frame chk copies src s f = Some (SN (sn_h s) (sn_idx s) (sn_ft s) (sn_sr s) (sn_mm s) t1)) as ->.
      { unfold short_frame. destruct (Nat.ltb_spec (sn_idx s) scope_samples); [lia|]. cbn [mbind option_bind].
        destruct (Nat.leb_spec scope_samples (sn_idx s)); [|lia]. by rewrite Hsrc, Ec. }
      cbn [mbind option_bind]. by rewrite (IH _ tr).
  Qed.

  Lemma lookup_snoc {A} (l : list A) x i y : (l ++ [x]) !! i = Some y -> (i < length l /\ l !! i = Some y) \/ (i = length l /\ x = y).
  Proof.
    intros H. apply lookup_app_Some in H as [H|[Hle H]].
    - left. split; [by eapply lookup_lt_Some|done].
    - right. destruct (i - length l) as [|k] eqn:E; [|done]. injection H as ->. split; [lia|done].
  Qed.

  (** ** free running, long times *)
  Definition ginv (h0 : scope Z) (sr : Q) (s : sn T) (chunks : list (list frame)) (rest : list frame) : Prop :=
    shaped (sn_h s) /\ sn_sr s = sr /\ sn_mm s = mmof big rest /\ sn_idx s = length chunks mod scope_samples /\ Forall (fun c => c <> []) chunks /\
    (forall sig m c, sig < 3 -> chunks !! m = Some c -> length chunks <= m + scope_samples ->
       cell (sn_h s) sig (m mod scope_samples) = Some (pk big sig c)) /\
    (forall sig p, sig < 3 -> p < scope_samples -> length chunks <= p -> cell (sn_h s) sig p = cell h0 sig p).

  Lemma mod_next' n r : 0 < r -> (S n) mod r = if n mod r + 1 <? r then n mod r + 1 else 0.
  Proof.
    intros Hr. pose proof (Nat.div_mod_eq n r) as E. pose proof (Nat.mod_upper_bound n r ltac:(lia)) as H.
    destruct (Nat.ltb_spec (n mod r + 1) r).
    - symmetry. apply (Nat.mod_unique _ _ (n / r)); lia.
    - symmetry. apply (Nat.mod_unique _ _ (S (n / r))); lia.
  Qed.
  Lemma mod_near' m n r : 0 < r -> m < n -> n <= m + r -> m mod r = n mod r -> n = m + r.
  Proof.
    intros Hr H1 H2 E. pose proof (Nat.div_mod_eq n r) as En. pose proof (Nat.div_mod_eq m r) as Em. rewrite E in Em.
    set (a := n / r) in *. set (b := m / r) in *. set (x := n mod r) in *. clearbody a b x. clear E.
    assert (a = S b) as ->; [|nia]. destruct (Nat.lt_trichotomy a (S b)) as [Ha|[Ha|Ha]]; [|done|].
    - exfalso. assert (r * a <= r * b) by (apply Nat.mul_le_mono_l; lia). lia.
    - exfalso. assert (r * S (S b) <= r * a) by (apply Nat.mul_le_mono_l; lia). lia.
  Qed.
  Lemma ginv_frame h0 sr tpb st src s chunks rest f : trig_off src = true -> ginv h0 sr s chunks rest ->
    exists s' chunks' rest', long_frame chk big tpb st src s f = Some s' /\ ginv h0 sr s' chunks' rest' /\
      mjoin chunks' ++ rest' = mjoin chunks ++ rest ++ [f].
  Proof.
    intros Hsrc (Hs & Er & Hm & Hi & Hne & HC & HU). set (n := length chunks) in *.
    assert (sn_idx s < scope_samples) as Hlt by (rewrite Hi; by apply Nat.mod_upper_bound).
    unfold long_frame. destruct (Nat.ltb_spec (sn_idx s) scope_samples) as [_|]; [|lia]. rewrite Hm, mmof_snoc.
    destruct (Qle_bool tpb (sn_ft s)).
    - destruct (write3 (sn_h s) (sn_idx s) (pk big 0 (rest ++ [f])) (pk big 1 (rest ++ [f])) (pk big 2 (rest ++ [f])) Hs Hlt) as (h' & E & Hs' & C').
      unfold mmof. rewrite E. cbn [mbind option_bind sn_idx sn_h sn_ft sn_sr sn_mm sn_trig].
      assert (forall ft tr, ginv h0 sr (SN h' (if sn_idx s + 1 <? scope_samples then sn_idx s + 1 else 0) ft (sn_sr s) (clean big) tr) (chunks ++ [rest ++ [f]]) []) as Hv.
      { intros ft tr. split_and!; cbn [sn_h sn_sr sn_mm sn_idx]; [done|done|done| | | |].
        - rewrite app_length. cbn [length]. fold n. by rewrite (Nat.add_1_r n), (mod_next' n scope_samples ltac:(unfold scope_samples; lia)), <- Hi.
        - apply Forall_app. split; [done|]. apply Forall_singleton. by destruct rest.
        - intros sig m c Hsig Hc Hle. rewrite app_length in Hle. cbn [length] in Hle. fold n in Hle. rewrite C' by done.
          apply lookup_snoc in Hc as [[Hmn Hc]|[-> <-]].
          + fold n in Hmn. rewrite decide_False; [apply HC; [done|done|lia]|]. intros Em. rewrite Hi in Em. apply mod_near' in Em; unfold scope_samples in *; lia.
          + fold n. rewrite decide_True by done. by apply (mmof_lookup big sig (rest ++ [f])).
        - intros sig p Hsig Hp Hle. rewrite app_length in Hle. cbn [length] in Hle. fold n in Hle. rewrite C' by done.
          rewrite decide_False; [apply HU; [done|done|lia]|]. rewrite Hi, Nat.mod_small by lia. lia. }
      assert (mjoin (chunks ++ [rest ++ [f]]) ++ [] = mjoin chunks ++ rest ++ [f]) as Ej.
      { rewrite app_nil_r. clear. induction chunks as [|c cs IH]; cbn [app].
        - cbn. by rewrite app_nil_r.
        - change (c ++ mjoin (cs ++ [rest ++ [f]]) = (c ++ mjoin cs) ++ rest ++ [f]). by rewrite IH, app_assoc. }
      destruct (Nat.leb_spec scope_samples (sn_idx s + 1)) as [Hf|Hf].
      + destruct (Nat.ltb_spec (sn_idx s + 1) scope_samples) as [|_]; [lia|].
        destruct (chk (sn_trig s) (trig_in src f)) as [[] tr]; [|rewrite Hsrc]; (eexists _, _, _; split; [done|]; split; [apply Hv|done]).
      + destruct (Nat.ltb_spec (sn_idx s + 1) scope_samples) as [_|]; [|lia].
        eexists _, _, _; split; [done|]; split; [apply Hv|done].
    - cbn [mbind option_bind sn_idx sn_h sn_ft sn_sr sn_mm sn_trig]. destruct (Nat.leb_spec scope_samples (sn_idx s)) as [|_]; [lia|].
      eexists _, chunks, (rest ++ [f]). split; [done|]. by split_and!.
  Qed.
  Lemma ginv_frames h0 sr tpb st src fl : trig_off src = true -> forall s chunks rest, ginv h0 sr s chunks rest ->
    exists s' chunks' rest', foldm (long_frame chk big tpb st src) s fl = Some s' /\ ginv h0 sr s' chunks' rest' /\
      mjoin chunks' ++ rest' = mjoin chunks ++ rest ++ fl.
  Proof.
    intros Hsrc. induction fl as [|f fl IH]; intros s chunks rest Hv; cbn [foldm].
    - exists s, chunks, rest. by rewrite app_nil_r.
    - destruct (ginv_frame h0 sr tpb st src s chunks rest f Hsrc Hv) as (s1 & c1 & r1 & E1 & Hv1 & J1). rewrite E1. cbn [mbind option_bind].
      destruct (IH s1 c1 r1 Hv1) as (s2 & c2 & r2 & E2 & Hv2 & J2). exists s2, c2, r2. split_and!; [done|done|].
      rewrite J2, app_assoc, J1, <- !app_assoc. done.
  Qed.
  Lemma ginv_blocks h0 sr bs : (forall b, b ∈ bs -> long_blk sr b /\ sb_src b = 0%Z) -> forall s chunks rest, ginv h0 sr s chunks rest ->
    exists s' chunks' rest', sn_run chk sett big s (OProc <$> bs) = Some s' /\ ginv h0 sr s' chunks' rest' /\
      mjoin chunks' ++ rest' = mjoin chunks ++ rest ++ mjoin (sb_frames <$> bs).
  Proof.
    induction bs as [|b bs IH]; intros Hb s chunks rest Hv.
    - exists s, chunks, rest. by rewrite app_nil_r.
    - assert (mjoin (sb_frames <$> b :: bs) = sb_frames b ++ mjoin (sb_frames <$> bs)) as -> by done.
      unfold sn_run. cbn [fmap list_fmap foldm sn_step]. destruct (Hb b) as [Hl Hsrc]; [set_solver|].
      assert (exists s1 c1 r1, sn_process chk sett big s b = Some s1 /\ ginv h0 sr s1 c1 r1 /\ mjoin c1 ++ r1 = mjoin chunks ++ rest ++ sb_frames b) as
        (s1 & c1 & r1 & E1 & Hv1 & J1).
      { unfold sn_process. pose proof Hv as (Hs & Er & Hm & Hi & Hne & HC & HU).
        destruct (prepare_spec sett s b Hs) as (s0 & E0 & Hs0 & C0 & I0 & F0 & R0 & M0 & _). rewrite E0. cbn [mbind option_bind].
        rewrite R0, Er. unfold long_blk in Hl. apply Qle_bool_iff in Hl. rewrite Hl. apply ginv_frames; [by rewrite Hsrc|].
        split_and!; [done|by rewrite R0|by rewrite M0|by rewrite I0|done| |].
        - intros sig m c Hsig Hc Hle. rewrite (C0 sig _ Hsig). by apply HC.
        - intros sig p Hsig Hp Hle. rewrite (C0 sig _ Hsig). by apply HU. }
      rewrite E1. cbn [mbind option_bind]. destruct (IH ltac:(set_solver) s1 c1 r1 Hv1) as (s2 & c2 & r2 & E2 & Hv2 & J2). exists s2, c2, r2. split_and!; [exact E2|done|].
      rewrite J2, app_assoc, J1, <- !app_assoc. done.
  Qed.

  (** ** short times *)
  Lemma copies_pos spb : (0 < spb)%Q -> (spb < 1)%Q -> 0 < copy_count spb.
  Proof.
    intros H0 H1. unfold copy_count. assert (1 <= Qfloor (1 / spb))%Z as Hf.
    { apply (Z.le_trans _ (Qfloor (inject_Z 1))); [by rewrite Qfloor_Z|]. apply Qfloor_resp_le. change (inject_Z 1) with 1%Q. apply Qle_shift_div_l; [done|]. lra. }
    unfold scope_samples. lia.
  Qed.
  Lemma sweep_spec c : 0 < c -> (sweep c - 1) * c < scope_samples <= sweep c * c /\ 0 < sweep c.
  Proof.
    intros Hc. unfold sweep. pose proof (Nat.div_mod_eq (scope_samples + c - 1) c) as E. pose proof (Nat.mod_upper_bound (scope_samples + c - 1) c ltac:(lia)) as H.
    assert (0 < scope_samples) by (unfold scope_samples; lia). set (d := (scope_samples + c - 1) / c) in *. set (r := (scope_samples + c - 1) mod c) in *.
    assert (0 < d) by nia. nia.
  Qed.

  (** a triggered recording *)
  Definition sinv (h0 : scope Z) (sr : Q) (copies : nat) (s : sn T) (fs : list frame) : Prop :=
    good s /\ sn_sr s = sr /\
    (forall sig p, sig < 3 -> p < scope_samples ->
       cell (sn_h s) sig p = match fs !! (p / copies) with Some f => Some (value sig f, value sig f) | None => cell h0 sig p end) /\
    (length fs < sweep copies -> sn_idx s = length fs * copies).
  Lemma sigs_value f sig : sig < 3 -> sigs f !! sig = Some (value sig f).
  Proof. intros H. destruct f as [[[x y] z] t]. destruct sig as [|[|[|sig]]]; try reflexivity. lia. Qed.
  Lemma sinv_frame h0 sr copies src s fs f : 0 < copies -> sinv h0 sr copies s fs -> length fs < sweep copies ->
    exists s', short_frame chk copies src s f = Some s' /\ sinv h0 sr copies s' (fs ++ [f]).
  Proof.
    intros Hc (Hg & Er & HC & Hi) Hl. specialize (Hi Hl). destruct (sweep_spec copies Hc) as ([Hw1 Hw2] & Hw3).
    assert (sn_idx s < scope_samples) as Hlt by (rewrite Hi; nia).
    destruct (short_good copies src s f Hg) as (s' & E & Hg' & Er'). exists s'. split; [done|].
    unfold short_frame in E. destruct (Nat.ltb_spec (sn_idx s) scope_samples) as [_|]; [|lia].
    destruct (sigs_len f) as (a & b & c & Es). rewrite Es in E. destruct (over3 (sn_h s) (sn_idx s) copies a b c (proj1 Hg) Hlt) as (h' & Eh & Hs' & C').
    rewrite Eh in E. cbn [mbind option_bind sn_idx sn_h sn_ft sn_sr sn_mm sn_trig] in E.
    assert (forall sig p, sig < 3 -> p < scope_samples ->
       cell h' sig p = match (fs ++ [f]) !! (p / copies) with Some f => Some (value sig f, value sig f) | None => cell h0 sig p end) as HC'.
    { intros sig p Hsig Hp. rewrite (C' sig p (value sig f) Hsig Hp) by (rewrite <- Es; by apply sigs_value). rewrite HC by done.
      pose proof (Nat.div_mod_eq p copies) as Ep. pose proof (Nat.mod_upper_bound p copies ltac:(lia)) as Hb. set (d := p / copies) in *.
      destruct (decide (sn_idx s <= p < sn_idx s + copies)) as [Hin|Hin].
      - assert (d = length fs) as -> by nia. by rewrite list_lookup_middle.
      - destruct (decide (d < length fs)) as [Hd|Hd].
        + by rewrite lookup_app_l by done.
        + rewrite (lookup_ge_None_2 fs) by lia. rewrite lookup_ge_None_2; [done|]. rewrite app_length. cbn [length]. assert (d <> length fs) by nia. lia. }
    destruct (Nat.leb_spec scope_samples (sn_idx s + copies)) as [Hf|Hf].
    - assert (sn_h s' = h') as Ehh.
      { destruct (trig_off src); [injection E as <-; done|]. destruct (chk (sn_trig s) (trig_in src f)) as [[] tr]; injection E as <-; done. }
      split_and!; [done|by rewrite Er'|by rewrite Ehh|]. rewrite app_length. cbn [length]. intros Hl2. nia.
    - injection E as <-. split_and!; [done|done|done|]. rewrite app_length. cbn [length sn_idx]. rewrite Hi. lia.
  Qed.
  Lemma sinv_frames h0 sr copies src fl : 0 < copies -> forall s fs, sinv h0 sr copies s fs -> length (fs ++ fl) <= sweep copies ->
    exists s', foldm (short_frame chk copies src) s fl = Some s' /\ sinv h0 sr copies s' (fs ++ fl).
  Proof.
    intros Hc. induction fl as [|f fl IH]; intros s fs Hv Hl; cbn [foldm].
    - exists s. by rewrite app_nil_r.
    - rewrite app_length in Hl. cbn [length] in Hl. destruct (sinv_frame h0 sr copies src s fs f Hc Hv ltac:(lia)) as (s1 & E1 & Hv1). rewrite E1. cbn [mbind option_bind].
      destruct (IH s1 (fs ++ [f]) Hv1) as (s2 & E2 & Hv2); [rewrite !app_length; cbn [length]; lia|]. exists s2. split; [done|]. by rewrite <- app_assoc in Hv2.
  Qed.
  Lemma sinv_blocks h0 sr t bs : (0 < sr)%Q -> (samples_per_block t sr < 1)%Q -> (forall b, b ∈ bs -> clamp_time (sb_time b) = t) ->
    let copies := copy_count (samples_per_block t sr) in 0 < copies ->
    forall s fs, sinv h0 sr copies s fs -> length (fs ++ mjoin (sb_frames <$> bs)) <= sweep copies ->
    exists s', sn_run chk sett big s (OProc <$> bs) = Some s' /\ sinv h0 sr copies s' (fs ++ mjoin (sb_frames <$> bs)).
  Proof.
    intros Hsr Hshort Ht copies Hc. induction bs as [|b bs IH]; intros s fs Hv Hl.
    - exists s. cbn. by rewrite app_nil_r.
    - assert (mjoin (sb_frames <$> b :: bs) = sb_frames b ++ mjoin (sb_frames <$> bs)) as Em by done. rewrite Em in *. rewrite !app_length in Hl.
      unfold sn_run. cbn [fmap list_fmap foldm sn_step].
      assert (exists s1, sn_process chk sett big s b = Some s1 /\ sinv h0 sr copies s1 (fs ++ sb_frames b)) as (s1 & E1 & Hv1).
      { unfold sn_process. pose proof Hv as (Hg & Er & HC & Hi).
        destruct (prepare_good s b Hg) as (s0 & E0 & Hg0 & C0 & I0 & F0 & R0 & M0 & _). rewrite E0. cbn [mbind option_bind].
        rewrite R0, Er, (Ht b) by set_solver. destruct (Qle_bool 1 (samples_per_block t sr)) eqn:Eq.
        { apply Qle_bool_iff in Eq. lra. }
        apply sinv_frames; [done| |rewrite app_length; lia].
        split_and!; [done|by rewrite R0| |by rewrite I0]. intros sig p Hsig Hp. rewrite (C0 sig p Hsig). by apply HC. }
      rewrite E1. cbn [mbind option_bind].
      destruct (IH ltac:(set_solver) s1 _ Hv1) as (s3 & E3 & Hv3); [rewrite !app_length; lia|].
      exists s3. split; [exact E3|]. by rewrite <- app_assoc in Hv3.
  Qed.

  (** free running *)
  Definition rinv (h0 : scope Z) (sr : Q) (copies : nat) (s : sn T) (fs : list frame) : Prop :=
    good s /\ sn_sr s = sr /\ sn_idx s = (length fs mod sweep copies) * copies /\
    (forall sig p k f, sig < 3 -> p < scope_samples -> fs !! k = Some f -> length fs <= k + sweep copies -> p / copies = k mod sweep copies ->
       cell (sn_h s) sig p = Some (value sig f, value sig f)) /\
    (forall sig p, sig < 3 -> p < scope_samples -> length fs <= p / copies -> cell (sn_h s) sig p = cell h0 sig p).
  Lemma rinv_frame h0 sr copies src s fs f : 0 < copies -> trig_off src = true -> rinv h0 sr copies s fs ->
    exists s', short_frame chk copies src s f = Some s' /\ rinv h0 sr copies s' (fs ++ [f]).
  Proof.
    intros Hc Hsrc (Hg & Er & Hi & HC & HU). destruct (sweep_spec copies Hc) as ([Hw1 Hw2] & Hw3). set (r := sweep copies) in *. set (n := length fs) in *.
    pose proof (Nat.mod_upper_bound n r ltac:(lia)) as Hmb.
    assert (sn_idx s < scope_samples) as Hlt by (rewrite Hi; nia).
    destruct (short_good copies src s f Hg) as (s' & E & Hg' & Er'). exists s'. split; [done|].
    unfold short_frame in E. destruct (Nat.ltb_spec (sn_idx s) scope_samples) as [_|]; [|lia].
    destruct (sigs_len f) as (a & b & c & Es). rewrite Es in E. destruct (over3 (sn_h s) (sn_idx s) copies a b c (proj1 Hg) Hlt) as (h' & Eh & Hs' & C').
    rewrite Eh in E. cbn [mbind option_bind sn_idx sn_h sn_ft sn_sr sn_mm sn_trig] in E. rewrite Hsrc in E.
    assert (sn_h s' = h' /\ sn_idx s' = (S n mod r) * copies) as [Ehh Eii].
    { rewrite (mod_next' n r Hw3). destruct (Nat.leb_spec scope_samples (sn_idx s + copies)) as [Hf|Hf]; injection E as <-; cbn [sn_h sn_idx]; (split; [done|]).
      - destruct (Nat.ltb_spec (n mod r + 1) r); [|done]. exfalso. rewrite Hi in Hf. nia.
      - destruct (Nat.ltb_spec (n mod r + 1) r); [lia|]. exfalso. rewrite Hi in Hf. assert (n mod r = r - 1) as En by lia. rewrite En in Hf. nia. }
    assert (forall sig p, sig < 3 -> p < scope_samples -> cell h' sig p = if decide (p / copies = n mod r) then Some (value sig f, value sig f) else cell (sn_h s) sig p) as HC'.
    { intros sig p Hsig Hp. rewrite (C' sig p (value sig f) Hsig Hp) by (rewrite <- Es; by apply sigs_value).
      pose proof (Nat.div_mod_eq p copies) as Ep. pose proof (Nat.mod_upper_bound p copies ltac:(lia)) as Hb. set (d := p / copies) in *.
      rewrite Hi. destruct (decide (d = n mod r)) as [Ed|Ed].
      - rewrite decide_True; [done|]. nia.
      - rewrite decide_False; [done|]. intros Hin. apply Ed. nia. }
    split_and!; [done|by rewrite Er'| | |].
    - rewrite app_length. cbn [length]. fold n. by rewrite Nat.add_1_r.
    - intros sig p k g Hsig Hp Hk Hle Hpk. rewrite app_length in Hle. cbn [length] in Hle. fold n in Hle. fold r in Hle, Hpk. rewrite Ehh, HC' by done.
      apply lookup_snoc in Hk as [[Hkn Hk]|[-> <-]].
      + fold n in Hkn. rewrite decide_False; [apply (HC sig p k g); try done; fold r; lia|]. rewrite Hpk. intros Em. apply mod_near' in Em; lia.
      + rewrite decide_True by done. done.
    - intros sig p Hsig Hp Hle. rewrite app_length in Hle. cbn [length] in Hle. fold n in Hle. rewrite Ehh, HC' by done.
      rewrite decide_False; [apply HU; [done|done|fold n; lia]|]. pose proof (Nat.mod_le n r ltac:(lia)). lia.
  Qed.
  Lemma rinv_frames h0 sr copies src fl : 0 < copies -> trig_off src = true -> forall s fs, rinv h0 sr copies s fs ->
    exists s', foldm (short_frame chk copies src) s fl = Some s' /\ rinv h0 sr copies s' (fs ++ fl).
  Proof.
    intros Hc Hsrc. induction fl as [|f fl IH]; intros s fs Hv; cbn [foldm].
    - exists s. by rewrite app_nil_r.
    - destruct (rinv_frame h0 sr copies src s fs f Hc Hsrc Hv) as (s1 & E1 & Hv1). rewrite E1. cbn [mbind option_bind].
      destruct (IH s1 (fs ++ [f]) Hv1) as (s2 & E2 & Hv2). exists s2. split; [done|]. by rewrite <- app_assoc in Hv2.
  Qed.
  Lemma rinv_blocks h0 sr t bs : (0 < sr)%Q -> (samples_per_block t sr < 1)%Q -> (forall b, b ∈ bs -> clamp_time (sb_time b) = t /\ sb_src b = 0%Z) ->
    let copies := copy_count (samples_per_block t sr) in 0 < copies ->
    forall s fs, rinv h0 sr copies s fs ->
    exists s', sn_run chk sett big s (OProc <$> bs) = Some s' /\ rinv h0 sr copies s' (fs ++ mjoin (sb_frames <$> bs)).
  Proof.
    intros Hsr Hshort Ht copies Hc. induction bs as [|b bs IH]; intros s fs Hv.
    - exists s. cbn. by rewrite app_nil_r.
    - assert (mjoin (sb_frames <$> b :: bs) = sb_frames b ++ mjoin (sb_frames <$> bs)) as Em by done. rewrite Em in *.
      unfold sn_run. cbn [fmap list_fmap foldm sn_step].
      assert (exists s1, sn_process chk sett big s b = Some s1 /\ rinv h0 sr copies s1 (fs ++ sb_frames b)) as (s1 & E1 & Hv1).
      { unfold sn_process. pose proof Hv as (Hg & Er & Hi & HC & HU).
        destruct (prepare_good s b Hg) as (s0 & E0 & Hg0 & C0 & I0 & F0 & R0 & M0 & _). rewrite E0. cbn [mbind option_bind].
        destruct (Ht b) as [Htb Hsb]; [set_solver|]. rewrite R0, Er, Htb. destruct (Qle_bool 1 (samples_per_block t sr)) eqn:Eq.
        { apply Qle_bool_iff in Eq. lra. }
        apply rinv_frames; [done|by rewrite Hsb|].
        split_and!; [done|by rewrite R0|by rewrite I0| |].
        - intros sig p k f Hsig Hp. rewrite (C0 sig p Hsig). by apply HC.
        - intros sig p Hsig Hp. rewrite (C0 sig p Hsig). by apply HU. }
      rewrite E1. cbn [mbind option_bind].
      destruct (IH ltac:(set_solver) s1 _ Hv1) as (s3 & E3 & Hv3).
      exists s3. split; [exact E3|]. by rewrite <- app_assoc in Hv3.
  Qed.

  (** ** the settings the view sees *)
  Definition sets (h : scope Z) := (sc_active h, sc_offs h, sc_thr h).
  Lemma put_sets (h h' : scope Z) b i v : scope_put h b i v = Some h' -> sets h' = sets h.
  Proof. unfold scope_put. intros H. apply bind_Some in H as (row & _ & H). destruct (_ <? _); [|done]. by injection H as <-. Qed.
  Lemma frame_sets (g : scope Z -> option (scope Z)) (s s' : sn T) : forall h', g (sn_h s) = Some h' -> (forall h h', g h = Some h' -> sets h' = sets h) -> sn_h s' = h' ->
    sets (sn_h s') = sets (sn_h s).
  Proof. intros h' E Hg ->. by apply Hg. Qed.
  Lemma long_sets tpb st src (s s' : sn T) f : long_frame chk big tpb st src s f = Some s' -> sets (sn_h s') = sets (sn_h s).
  Proof.
    unfold long_frame. intros H. apply bind_Some in H as (s1 & E1 & H).
    assert (sets (sn_h s1) = sets (sn_h s)) as <-.
    { destruct (_ <? _); [|by injection E1 as <-]. destruct (Qle_bool _ _); [|by injection E1 as <-].
      apply bind_Some in E1 as (h & Eh & E1). injection E1 as <-. cbn [sn_h].
      apply (foldm_inv _ (fun h' => sets h' = sets (sn_h s)) _ _ _) in Eh; [done| |done].
      intros h1 x h2 _ <- Hx. by eapply put_sets. }
    destruct (_ <=? _); [|by injection H as <-]. destruct (chk _ _) as [[] tr]; [by injection H as <-|]. destruct (trig_off _); by injection H as <-.
  Qed.
  Lemma short_sets copies src (s s' : sn T) f : short_frame chk copies src s f = Some s' -> sets (sn_h s') = sets (sn_h s).
  Proof.
    unfold short_frame. intros H. apply bind_Some in H as (s1 & E1 & H).
    assert (sets (sn_h s1) = sets (sn_h s)) as <-.
    { destruct (_ <? _); [|by injection E1 as <-].
      apply bind_Some in E1 as (h & Eh & E1). injection E1 as <-. cbn [sn_h].
      apply (foldm_inv _ (fun h' => sets h' = sets (sn_h s)) _ _ _) in Eh; [done| |done].
      intros h1 x h2 _ <- Hx. unfold scope_write_over in Hx.
      apply (foldm_inv _ (fun h' => sets h' = sets h1) _ _ _) in Hx; [done| |done].
      intros h3 y h4 _ <- Hy. by eapply put_sets. }
    destruct (_ <=? _); [|by injection H as <-]. destruct (trig_off _); [by injection H as <-|]. destruct (chk _ _) as [[] tr]; by injection H as <-.
  Qed.
  Lemma process_sets s s' b : good s -> three b -> sn_process chk sett big s b = Some s' ->
    sets (sn_h s') = ([(sb_mask b).1.1; (sb_mask b).1.2; (sb_mask b).2], sb_offs b,
                      if trig_off (sb_src b) then (false, (sc_thr (sn_h s)).2) else (true, sb_thr b)).
  Proof.
    intros ((_ & _ & _ & Ho) & _) H3 H. unfold sn_process in H. apply bind_Some in H as (s1 & E1 & H).
    assert (sets (sn_h s') = sets (sn_h s1)) as ->.
    { destruct (Qle_bool _ _).
      - apply (foldm_inv _ (fun s' => sets (sn_h s') = sets (sn_h s1)) _ _ _) in H; [done| |done]. intros s2 f s3 _ <- Hf. by eapply long_sets.
      - apply (foldm_inv _ (fun s' => sets (sn_h s') = sets (sn_h s1)) _ _ _) in H; [done| |done]. intros s2 f s3 _ <- Hf. by eapply short_sets. }
    clear H. unfold three in H3. destruct (len3 _ H3) as (a & b' & c & Eo). unfold sn_prepare in E1. rewrite Eo in E1.
    destruct (len3 _ Ho) as (o1 & o2 & o3 & Eoo).
    cbn [imap foldm fst snd compose] in E1. unfold scope_set_offs, scope_set_mask in E1. change (0 mod 3) with 0 in E1. change (1 mod 3) with 1 in E1. change (2 mod 3) with 2 in E1.
    cbn [sc_offs sc_bufs sc_active sc_thr] in E1. rewrite Eoo in E1. cbn in E1. injection E1 as <-.
    rewrite Eo. unfold sets, scope_set_thr. cbn [sn_h sc_active sc_offs sc_thr]. destruct a, b', c. destruct (trig_off (sb_src b)); reflexivity.
  Qed.
End node.
