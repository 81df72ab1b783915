(** Proofs about the filter nodes *)
From Coq Require Import QArith Qabs Lqa.
From Verif Require Import Base M_RndWk M_Filt S_Filt L_RndWk.
Open Scope nat_scope.

Lemma qclamp_range x lo hi : (lo <= hi)%Q -> in_range lo hi (qclamp x lo hi).
Proof. intros H. unfold in_range. destruct (qclamp_cases x lo hi H) as [[E ->]|[[E ->]|[E ->]]]; lra. Qed.
Lemma qclamp_wider x lo lo' hi : (lo' <= lo)%Q -> (lo <= hi)%Q -> in_range lo' hi (qclamp x lo hi).
Proof. intros H1 H2. pose proof (qclamp_range x lo hi H2) as H. unfold in_range in *. lra. Qed.

(** ** SFilter *)
Section sfilter.
  Context {D : Type} (d0 : D) (fadd fsub : Q -> Q -> Q).

  Lemma sf_frame_keeps (F : sfdsp D) t s x : sf_otype (sf_frame F fadd fsub t s x).1 = sf_otype s /\ sf_israte (sf_frame F fadd fsub t s x).1 = sf_israte s.
  Proof.
    destruct x as [[inp freq] res]. unfold sf_frame.
    repeat match goal with
    | |- context [match ?z with Z0 => _ | Zpos _ => _ | Zneg _ => _ end] => is_var z; destruct z
    | |- context [match ?p with xI _ => _ | xO _ => _ | xH => _ end] => is_var p; destruct p
    end; try (by split);
    match goal with |- context [let '_ := ?e in _] => destruct e as [? ?] eqn:?; repeat match goal with p : (_ * _)%type |- _ => destruct p end; by split end.
  Qed.
  Lemma sf_frames_keeps (F : sfdsp D) t xs : forall s, sf_otype (sf_frames F fadd fsub t s xs).1 = sf_otype s /\ sf_israte (sf_frames F fadd fsub t s xs).1 = sf_israte s.
  Proof.
    induction xs as [|x xs IH]; intros s; [done|]. cbn [sf_frames]. pose proof (sf_frame_keeps F t s x) as [E1 E2].
    destruct (sf_frame F fadd fsub t s x) as [s1 o]. cbn [fst] in *. destruct (IH s1) as [I1 I2]. destruct (sf_frames F fadd fsub t s1 xs) as [s2 os]. cbn [fst] in *. by rewrite I1, I2.
  Qed.
  Lemma sf_block_keeps (F : sfdsp D) s t xs : sf_otype (sf_block F d0 fadd fsub s t xs).1 = as_i8 t /\ sf_israte (sf_block F d0 fadd fsub s t xs).1 = sf_israte s.
  Proof.
    unfold sf_block. destruct (sf_frames_keeps F (as_i8 t) xs (if negb (as_i8 t =? sf_otype s)%Z then SFilter (sf_israte s) 0 0 0 0 d0 (as_i8 t) else s)) as [-> ->].
    destruct (Z.eqb_spec (as_i8 t) (sf_otype s)) as [E|E]; done.
  Qed.

  Lemma sf_frame_ext (F G : sfdsp D) t s x : same_in_range F G -> sf_frame F fadd fsub t s x = sf_frame G fadd fsub t s x.
  Proof.
    intros (H1 & H2 & H3 & H4 & H5 & H6 & H7). destruct x as [[inp freq] res]. unfold sf_frame.
    repeat match goal with
    | |- context [match ?z with Z0 => _ | Zpos _ => _ | Zneg _ => _ end] => is_var z; destruct z
    | |- context [match ?p with xI _ => _ | xO _ => _ | xH => _ end] => is_var p; destruct p
    end; try done.
    all: first [rewrite H1|rewrite H2|rewrite H3|rewrite H4|rewrite H5|rewrite H6|rewrite H7]; try done.
    all: try (apply qclamp_range; lra). all: apply qclamp_wider; lra.
  Qed.
  Lemma sf_frames_ext (F G : sfdsp D) t xs : same_in_range F G -> forall s, sf_frames F fadd fsub t s xs = sf_frames G fadd fsub t s xs.
  Proof.
    intros H. induction xs as [|x xs IH]; intros s; [done|]. cbn [sf_frames]. rewrite (sf_frame_ext F G) by done.
    destruct (sf_frame G fadd fsub t s x) as [s1 o]. by rewrite IH.
  Qed.
  Lemma sf_blocks_ext (F G : sfdsp D) bs : same_in_range F G -> forall s, sf_blocks F d0 fadd fsub s bs = sf_blocks G d0 fadd fsub s bs.
  Proof.
    intros H. induction bs as [|[t xs] bs IH]; intros s; [done|]. cbn [sf_blocks]. unfold sf_block. rewrite (sf_frames_ext F G) by done.
    destruct (sf_frames G fadd fsub _ _ xs) as [s1 os]. by rewrite IH.
  Qed.

  Lemma sf_blocks_app (F : sfdsp D) a b : forall s, sf_blocks F d0 fadd fsub s (a ++ b) =
    let '(s1, o1) := sf_blocks F d0 fadd fsub s a in let '(s2, o2) := sf_blocks F d0 fadd fsub s1 b in (s2, o1 ++ o2).
  Proof.
    induction a as [|[t xs] a IH]; intros s; cbn [app sf_blocks].
    - by destruct (sf_blocks F d0 fadd fsub s b).
    - destruct (sf_block F d0 fadd fsub s t xs) as [s1 o1]. rewrite IH. destruct (sf_blocks F d0 fadd fsub s1 a) as [s2 o2]. by destruct (sf_blocks F d0 fadd fsub s2 b).
  Qed.
  Lemma sf_blocks_israte (F : sfdsp D) bs : forall s, sf_israte (sf_blocks F d0 fadd fsub s bs).1 = sf_israte s.
  Proof.
    induction bs as [|[t xs] bs IH]; intros s; [done|]. cbn [sf_blocks]. destruct (sf_block_keeps F s t xs) as [_ E].
    destruct (sf_block F d0 fadd fsub s t xs) as [s1 o]. cbn [fst] in E. rewrite <- E, <- (IH s1). by destruct (sf_blocks F d0 fadd fsub s1 bs).
  Qed.
  Lemma sf_block_fresh (F : sfdsp D) s t xs : as_i8 t <> sf_otype s -> sf_block F d0 fadd fsub s t xs = sf_block F d0 fadd fsub (sf_new d0 (sf_israte s)) t xs.
  Proof.
    intros H. unfold sf_block. destruct (Z.eqb_spec (as_i8 t) (sf_otype s)) as [E|_]; [done|]. cbn [negb sf_israte sf_new sf_otype].
    destruct (Z.eqb_spec (as_i8 t) (-1)) as [->|_]; done.
  Qed.

  (** the memory of the SVF does not depend on which of its outputs is used *)
  Definition simper_type (t : Z) : Prop := (8 <= t <= 12)%Z.
  Lemma simper_frame (F : sfdsp D) t s x : simper_type t ->
    sf_frame F fadd fsub t s x =
      let '(inp, freq, res) := x in
      let '((low, band, high), (k, h)) := fd_simper F inp (qclamp freq 1 22000) (qclamp res 0 1) (sf_israte s) (sf_k s) (sf_h s) in
      (SFilter (sf_israte s) (sf_z s) (sf_y s) k h (sf_delay s) (sf_otype s),
       Some (if (t =? 8)%Z then low else if (t =? 9)%Z then high else if (t =? 10)%Z then band else if (t =? 11)%Z then fadd low high else fsub low high)).
  Proof.
    intros H. destruct x as [[inp freq] res]. assert (t = 8 \/ t = 9 \/ t = 10 \/ t = 11 \/ t = 12)%Z as Ht by (unfold simper_type in H; lia).
    destruct Ht as [->|[->|[->|[->| ->]]]]; reflexivity.
  Qed.
End sfilter.

(** ** BiqFilt *)
Section biqfilt.
  Context {C B : Type} (resonator : Q -> Q -> Q -> C) (lowpass : Q -> Q -> C) (tick : C -> B -> Q -> Q * B) (c0 : C) (b0 : B).
  Notation with_c c := (fmap (M := list) (fun m : B => (c, m))).

  Lemma chain_length (c : C) n : forall ms x, length (chain tick c n ms x).1 = length ms.
  Proof.
    induction n as [|n IH]; intros [|m ms] x; try done. cbn [chain]. destruct (tick c m x) as [y m']. specialize (IH ms y).
    destruct (chain tick c n ms y) as [ms' y']. cbn [fst length] in *. by rewrite IH.
  Qed.
  Lemma through_chain (c : C) n : forall (pre : list (C * B)) ms x, n <= length ms ->
    bq_through tick n (length pre) (pre ++ with_c c ms) x =
      let '(ms', y) := chain tick c n ms x in Some (pre ++ with_c c ms', y).
  Proof.
    induction n as [|n IH]; intros pre ms x Hn; [by destruct ms|]. destruct ms as [|m ms]; [cbn in Hn; lia|]. cbn [bq_through chain].
    rewrite fmap_cons. rewrite list_lookup_middle by done. cbn [mbind option_bind]. destruct (tick c m x) as [y m'].
    rewrite insert_app_r_alt, Nat.sub_diag by lia. cbn [insert list_insert]. rewrite cons_middle, (assoc (++)).
    replace (S (length pre)) with (length (pre ++ [(c, m')])) by (rewrite app_length; cbn; lia).
    rewrite IH by (cbn in Hn; lia). destruct (chain tick c n ms y) as [ms' y']. rewrite <- (assoc (++)). reflexivity.
  Qed.
  Lemma frames_chain (c : C) n xs : forall ms, n <= length ms ->
    bq_frames tick n (with_c c ms) xs =
      let '(ms', ys) := chain_signal tick c ms ((fun x => (n, x)) <$> xs) in Some (with_c c ms', ys).
  Proof.
    induction xs as [|x xs IH]; intros ms Hn; [done|]. rewrite fmap_cons. cbn [bq_frames chain_signal].
    pose proof (through_chain c n [] ms x Hn) as E. cbn [app length] in E. rewrite E. clear E. pose proof (chain_length c n ms x) as HL.
    destruct (chain tick c n ms x) as [ms1 y]. cbn [fst] in HL. cbn [mbind option_bind]. rewrite IH by lia.
    destruct (chain_signal tick c ms1 ((fun x0 : Q => (n, x0)) <$> xs)) as [ms2 ys]. done.
  Qed.
  Lemma chain_signal_length (c : C) xs : forall ms, length (chain_signal tick c ms xs).1 = length ms.
  Proof.
    induction xs as [|[n x] xs IH]; intros ms; [done|]. cbn [chain_signal]. pose proof (chain_length c n ms x) as HL.
    destruct (chain tick c n ms x) as [ms1 y]. cbn [fst] in HL. specialize (IH ms1). destruct (chain_signal tick c ms1 xs) as [ms2 ys]. cbn [fst] in *. lia.
  Qed.
  Lemma chain_signal_app (c : C) a b : forall ms, chain_signal tick c ms (a ++ b) =
    let '(ms1, y1) := chain_signal tick c ms a in let '(ms2, y2) := chain_signal tick c ms1 b in (ms2, y1 ++ y2).
  Proof.
    induction a as [|[n x] a IH]; intros ms; cbn [app chain_signal].
    - by destruct (chain_signal tick c ms b).
    - destruct (chain tick c n ms x) as [ms1 y]. rewrite IH. destruct (chain_signal tick c ms1 a) as [ms2 y2]. by destruct (chain_signal tick c ms2 b).
  Qed.

  Lemma moved_near x y : moved x y = false -> near y x.
  Proof.
    unfold moved, near. intros H. apply negb_false_iff, Qle_bool_iff in H.
    apply Qabs_Qle_condition. destruct (qabs_cases (x - y)) as [[P E]|[P E]]; rewrite E in H; lra.
  Qed.
  Lemma near_refl x : near x x.
  Proof. unfold near. apply Qabs_Qle_condition. lra. Qed.
  Lemma moved_refl x : moved x x = false.
  Proof. unfold moved. apply negb_false_iff, Qle_bool_iff. destruct (qabs_cases (x - x)) as [[P ->]|[P ->]]; lra. Qed.

  (** The state at sample rate [r]: the filters have the coefficients of the last settings, or are to be set *)
  Definition bok (r : Q) (s : @biqfilt C B) : Prop :=
    bq_srate s = r /\ exists c ms, length ms = 4 /\ bq_cascade s = with_c c ms /\
      (bq_otype s = 99%Z \/ ((0 <= bq_otype s <= 1)%Z /\ c = coefs_for resonator lowpass r (bq_otype s) (bq_ofreq s) (bq_oq s))).

  Lemma as_u8_small z : (0 <= z <= 3)%Z -> as_u8 z = z.
  Proof. intros H. unfold as_u8. apply Z.mod_small. lia. Qed.

  Lemma update_ok r s p : bok r s -> valid_set p -> let s' := bq_update resonator lowpass b0 s p in
    bq_srate s' = r /\ bq_otype s' = bs_ftype p /\ near (bq_ofreq s') (qclamp (bs_freq p) 0 22000) /\ near (bq_oq s') (bs_q p) /\
    exists ms, length ms = 4 /\ bq_cascade s' = with_c (coefs_for resonator lowpass r (bs_ftype p) (bq_ofreq s') (bq_oq s')) ms.
  Proof.
    intros (Er & c & ms & HL & Ec & Ht) [V1 V2]. cbv zeta. unfold bq_update. rewrite as_u8_small by lia.
    destruct (_ || _)%bool eqn:E.
    - cbn [bq_srate bq_otype bq_ofreq bq_oq bq_cascade]. split; [done|]. split; [done|]. split; [apply near_refl|]. split; [apply near_refl|].
      exists (replicate 4 b0). split; [done|]. rewrite Ec, Er. destruct ms as [|? [|? [|? [|? [|]]]]]; cbn in HL; try lia. reflexivity.
    - apply orb_false_iff in E as [E E4]. apply orb_false_iff in E as [E E3]. apply orb_false_iff in E as [E1 E2].
      apply negb_false_iff, Z.eqb_eq in E1. destruct Ht as [Ht|[Ht Hc]]; [lia|]. split; [done|]. split; [done|].
      split; [by apply moved_near|]. split; [by apply moved_near|]. exists ms. split; [done|]. rewrite E1. by rewrite <- Hc.
  Qed.
  (** without a change of the settings nothing happens *)
  Lemma update_same s p : bq_otype s = bs_ftype p -> valid_set p -> bq_ofreq s = qclamp (bs_freq p) 0 22000 -> bq_oq s = bs_q p -> bq_ogain s = bs_gain p ->
    bq_update resonator lowpass b0 s p = s.
  Proof.
    intros E1 [V1 V2] E2 E3 E4. unfold bq_update. rewrite as_u8_small by lia. rewrite E1, E2, E3, E4, Z.eqb_refl, !moved_refl. done.
  Qed.
  Lemma update_new s p : bq_otype s = 99%Z -> valid_set p ->
    bq_update resonator lowpass b0 s p =
    BiqFilt ((fun _ => (coefs_for resonator lowpass (bq_srate s) (bs_ftype p) (qclamp (bs_freq p) 0 22000) (bs_q p), b0)) <$> bq_cascade s)
      (bq_srate s) (qclamp (bs_freq p) 0 22000) (bs_q p) (bs_gain p) (bs_ftype p).
  Proof.
    intros E1 [V1 V2]. unfold bq_update. rewrite as_u8_small by lia. rewrite E1. destruct (Z.eqb_spec (bs_ftype p) 99) as [E|_]; [lia|]. done.
  Qed.

  Lemma stages_le p : valid_set p -> stages p <= 4.
  Proof. intros [V1 V2]. unfold stages. destruct (Z.eqb_spec (bs_ftype p) 1); lia. Qed.
  Lemma block_stages s p xs : valid_set p -> bq_block resonator lowpass tick b0 s p xs =
    let s := bq_update resonator lowpass b0 s p in
    let* (cas, ys) := bq_frames tick (stages p) (bq_cascade s) xs in
    Some (BiqFilt cas (bq_srate s) (bq_ofreq s) (bq_oq s) (bq_ogain s) (bq_otype s), ys).
  Proof.
    intros [V1 V2]. unfold bq_block, stages. rewrite !as_u8_small by lia. destruct (Z.eqb_spec (bs_ftype p) 1); reflexivity.
  Qed.

  Lemma block_ok r s p xs : bok r s -> valid_set p -> exists s' ys f q ms,
    bq_block resonator lowpass tick b0 s p xs = Some (s', ys) /\ bok r s' /\
    near f (qclamp (bs_freq p) 0 22000) /\ near q (bs_q p) /\ length ms = 4 /\
    ys = (chain_signal tick (coefs_for resonator lowpass r (bs_ftype p) f q) ms ((fun x => (stages p, x)) <$> xs)).2.
  Proof.
    intros HB V. pose proof (update_ok r s p HB V) as (Er & Et & Nf & Nq & ms & HL & Ec). rewrite block_stages by done. cbv zeta.
    set (s1 := bq_update resonator lowpass b0 s p) in *. rewrite Ec, frames_chain by (pose proof (stages_le p V); lia).
    set (c := coefs_for resonator lowpass r (bs_ftype p) (bq_ofreq s1) (bq_oq s1)) in *.
    pose proof (chain_signal_length c ((fun x => (stages p, x)) <$> xs) ms) as HS.
    destruct (chain_signal tick c ms ((fun x => (stages p, x)) <$> xs)) as [ms' ys] eqn:E. cbn [mbind option_bind fst] in *.
    eexists _, _, (bq_ofreq s1), (bq_oq s1), ms. split; [reflexivity|]. split.
    { split; [done|]. exists c, ms'. cbn [bq_cascade bq_otype bq_ofreq bq_oq]. split; [lia|]. split; [done|]. right. rewrite Et. destruct V as [V _]. split; [lia|]. reflexivity. }
    split; [done|]. split; [done|]. split; [done|]. unfold c in E. by rewrite E.
  Qed.

  Lemma clear_ok r s t : bok r s -> t = bq_otype s \/ t = 99%Z -> forall r', (t = 99%Z \/ r' = r) ->
    bok r' (BiqFilt (bq_clear b0 (bq_cascade s)) r' (bq_ofreq s) (bq_oq s) (bq_ogain s) t).
  Proof.
    intros (Er & c & ms & HL & Ec & Ht) Hs r' Hr. split; [done|]. exists c, ((fun _ => b0) <$> ms). cbn [bq_cascade bq_otype bq_ofreq bq_oq].
    split; [by rewrite fmap_length|]. split.
    { rewrite Ec. unfold bq_clear. rewrite <- !list_fmap_compose. done. }
    destruct Hr as [Hr|Hr]; [by left|]. subst r'. destruct Hs as [-> | ->]; [exact Ht|by left].
  Qed.

  Lemma run_ok ops : forall r s, bok r s -> Forall valid_op ops -> exists s' outs,
    bq_run resonator lowpass tick b0 s ops = Some (s', outs) /\ bok (last_rate r ops) s'.
  Proof.
    induction ops as [|o ops IH]; intros r s HB HV; [by eexists _, _|]. apply Forall_cons in HV as [Vo HV]. destruct o as [r'| |p xs]; cbn [bq_run last_rate].
    - apply IH; [|done]. apply (clear_ok r s 99%Z HB); auto.
    - apply IH; [|done]. destruct HB as (E & HB). unfold bq_reset. rewrite E. apply (clear_ok r s (bq_otype s)); [by split|auto..].
    - destruct (block_ok r s p xs HB Vo) as (s1 & ys & f & q & ms & -> & HB1 & _). cbn [mbind option_bind].
      destruct (IH r s1 HB1 HV) as (s2 & outs & -> & HB2). cbn [mbind option_bind]. by eexists _, _.
  Qed.
  Lemma run_app a b : forall s, bq_run resonator lowpass tick b0 s (a ++ b) =
    let* (s1, o1) := bq_run resonator lowpass tick b0 s a in let* (s2, o2) := bq_run resonator lowpass tick b0 s1 b in Some (s2, o1 ++ o2).
  Proof.
    induction a as [|o a IH]; intros s; cbn [app bq_run].
    - cbn [mbind option_bind]. destruct (bq_run resonator lowpass tick b0 s b) as [[? ?]|]; done.
    - destruct o as [r| |p xs]; [apply IH..|]. destruct (bq_block resonator lowpass tick b0 s p xs) as [[s1 ys]|]; cbn [mbind option_bind]; [|done].
      rewrite IH. destruct (bq_run resonator lowpass tick b0 s1 a) as [[s2 o2]|]; cbn [mbind option_bind]; [|done].
      destruct (bq_run resonator lowpass tick b0 s2 b) as [[s3 o3]|]; done.
  Qed.

  (** blocks with the same settings (the order may change) *)
  Lemma steady bs : forall s c ms, bq_cascade s = with_c c ms -> length ms = 4 ->
    Forall (fun b : bqset * list Q => valid_set b.1 /\ bq_otype s = bs_ftype b.1 /\ bq_ofreq s = qclamp (bs_freq b.1) 0 22000 /\ bq_oq s = bs_q b.1 /\ bq_ogain s = bs_gain b.1) bs ->
    exists s' outs, bq_run resonator lowpass tick b0 s ((fun b => BqBlock b.1 b.2) <$> bs) = Some (s', outs) /\
      mjoin outs = (chain_signal tick c ms (mjoin ((fun b => (fun x => (stages b.1, x)) <$> b.2) <$> bs))).2.
  Proof.
    induction bs as [|[p xs] bs IH]; intros s c ms Ec HL HF; [by eexists _, _|]. apply Forall_cons in HF as [(V & E1 & E2 & E3 & E4) HF].
    cbn [fst snd] in *. rewrite !fmap_cons. cbn [fst snd bq_run]. rewrite block_stages by done. cbv zeta. rewrite update_same by done.
    rewrite Ec, frames_chain by (pose proof (stages_le p V); lia).
    pose proof (chain_signal_length c ((fun x => (stages p, x)) <$> xs) ms) as HS.
    change (mjoin (((fun x : Q => (stages p, x)) <$> xs) :: ?l)) with (((fun x : Q => (stages p, x)) <$> xs) ++ mjoin l). rewrite chain_signal_app.
    destruct (chain_signal tick c ms ((fun x => (stages p, x)) <$> xs)) as [ms1 ys]. cbn [mbind option_bind fst] in *.
    edestruct (IH (BiqFilt (with_c c ms1) (bq_srate s) (bq_ofreq s) (bq_oq s) (bq_ogain s) (bq_otype s)) c ms1) as (s' & outs & -> & EO); [done|lia|done|].
    cbn [mbind option_bind]. eexists _, _. split; [reflexivity|]. change (mjoin (ys :: outs)) with (ys ++ mjoin outs). rewrite EO.
    by destruct (chain_signal tick c ms1 _).
  Qed.
End biqfilt.
