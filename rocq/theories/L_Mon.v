From Verif Require Import Base M_Prog L_Conf M_Mon S_Mon.
Open Scope nat_scope.
Local Opaque Nat.modulo Nat.div mm_window mm_samples mon_bufs hundred.

Lemma W0 : 0 < mm_window. Proof. Local Transparent mm_window. unfold mm_window. lia. Qed.
Local Opaque mm_window.
Lemma N0 : 0 < mm_samples. Proof. Local Transparent mm_samples. unfold mm_samples. lia. Qed.
Local Opaque mm_samples.

Definition wcount (st : list fv) : nat := length st / mm_window.
Definition wof (st : list fv) (k : nat) : list fv := take mm_window (drop (mm_window * k) st).
Definition pair_of (w : list fv) : Z * Z := (foldl fmin hundred w, foldl fmax (- hundred)%Z w).

(** The accumulator of a signal after the samples [st] *)
Record mm_inv (st : list fv) (m : mm) : Prop := {
  mi_len : length (mm_buf m) = mm_samples;
  mi_ptr : mm_ptr m = wcount st mod mm_samples;
  mi_cur : mm_cur m = (pair_of (drop (mm_window * wcount st) st), length st mod mm_window);
  mi_full : forall k, k < wcount st -> wcount st <= k + mm_samples -> mm_buf m !! (k mod mm_samples) = Some (pair_of (wof st k));
  mi_zero : forall i, wcount st <= i < mm_samples -> mm_buf m !! i = Some (0, 0)%Z;
}.

Lemma mm_new_inv : mm_inv [] mm_new.
Proof.
  pose proof W0. pose proof N0. assert (wcount [] = 0) as E by (unfold wcount; cbn [length]; apply Nat.div_0_l; lia).
  split; rewrite ?E; cbn [mm_new mm_buf mm_ptr mm_cur].
  - by rewrite replicate_length.
  - by rewrite Nat.mod_0_l by lia.
  - rewrite Nat.mul_0_r. cbn. rewrite Nat.mod_0_l by lia. done.
  - lia.
  - intros i Hi. apply lookup_replicate_2. lia.
Qed.

Lemma smod_neq a b : a < b -> b < a + mm_samples -> a mod mm_samples <> b mod mm_samples.
Proof.
  pose proof N0 as HN. intros H1 H2 E. pose proof (Nat.div_mod a mm_samples ltac:(lia)). pose proof (Nat.div_mod b mm_samples ltac:(lia)).
  destruct (decide (a / mm_samples = b / mm_samples)) as [e|n]; [rewrite e in *; lia|].
  assert (a / mm_samples <= b / mm_samples) by (apply Nat.div_le_mono; lia). nia.
Qed.

Lemma wof_app st v k : k < wcount st -> wof (st ++ [v]) k = wof st k.
Proof.
  intros Hk. unfold wof. pose proof W0. assert (mm_window * S k <= length st).
  { unfold wcount in Hk. pose proof (Nat.mul_div_le (length st) mm_window ltac:(lia)). nia. }
  rewrite drop_app_le by nia. rewrite take_app_le; [done|]. rewrite drop_length. nia.
Qed.

Lemma sample_inv st m v : mm_inv st m -> exists m' n, mm_sample m v = Some (m', n) /\ mm_inv (st ++ [v]) m' /\
  (n = false -> mm_ptr m' = mm_ptr m /\ mm_buf m' = mm_buf m).
Proof.
  intros [H1 H2 H3 H4 H5]. pose proof W0 as HW. pose proof N0 as HN. unfold mm_sample. rewrite H3. cbn [pair_of].
  set (q := wcount st) in *. set (r := length st mod mm_window) in *.
  assert (length st = mm_window * q + r /\ r < mm_window) as [Hl Hr].
  { split; [apply Nat.div_mod; lia|apply Nat.mod_upper_bound; lia]. }
  set (tail := drop (mm_window * q) st) in *.
  assert (length tail = r) as Ht by (unfold tail; rewrite drop_length; lia).
  assert (drop (mm_window * q) (st ++ [v]) = tail ++ [v]) as Hd by (rewrite drop_app_le by lia; done).
  assert (forall lo, foldl fmin lo (tail ++ [v]) = fmin (foldl fmin lo tail) v) as Fm by (intros; by rewrite foldl_app).
  assert (forall lo, foldl fmax lo (tail ++ [v]) = fmax (foldl fmax lo tail) v) as FM by (intros; by rewrite foldl_app).
  destruct (Nat.leb_spec mm_window (r + 1)) as [Hw|Hw].
  - assert (wcount (st ++ [v]) = S q) as Eq.
    { unfold wcount. rewrite app_length, Hl. cbn [length]. replace (mm_window * q + r + 1) with (0 + S q * mm_window) by nia.
      rewrite Nat.div_add, Nat.div_0_l by lia. lia. }
    destruct (Nat.ltb_spec (mm_ptr m) (length (mm_buf m))) as [Hp|Hp].
    2: { rewrite H2, H1 in Hp. pose proof (Nat.mod_upper_bound q mm_samples ltac:(lia)). lia. }
    eexists _, _. split; [done|]. split; [|done]. split; rewrite ?Eq; cbn [mm_buf mm_ptr mm_cur].
    + by rewrite insert_length.
    + rewrite H1, H2. rewrite Nat.add_mod_idemp_l by lia. f_equal. lia.
    + rewrite drop_ge by (rewrite app_length; cbn [length]; nia). cbn. unfold pair_of. cbn. f_equal.
      rewrite app_length. cbn [length]. replace (length st + 1) with (0 + S q * mm_window) by nia. rewrite Nat.mod_add, Nat.mod_0_l by lia. done.
    + intros k Hk Hk2. rewrite H2. destruct (decide (k = q)) as [->|Hn].
      * rewrite list_lookup_insert by lia. f_equal. unfold wof. rewrite Hd, take_ge by (rewrite app_length; cbn [length]; lia).
        unfold pair_of. by rewrite Fm, FM.
      * rewrite list_lookup_insert_ne by (apply not_eq_sym, smod_neq; lia). rewrite wof_app by (fold q; lia). apply H4; lia.
    + intros i Hi. rewrite H2. rewrite list_lookup_insert_ne; [apply H5; lia|]. rewrite Nat.mod_small by lia. lia.
  - assert (wcount (st ++ [v]) = q) as Eq.
    { unfold wcount. rewrite app_length, Hl. cbn [length]. replace (mm_window * q + r + 1) with (r + 1 + q * mm_window) by nia.
      rewrite Nat.div_add, Nat.div_small by lia. lia. }
    eexists _, _. split; [done|]. split; [|done]. split; rewrite ?Eq; cbn [mm_buf mm_ptr mm_cur]; try done.
    + rewrite Hd. unfold pair_of. rewrite Fm, FM. f_equal. rewrite app_length, Hl. cbn [length].
      replace (mm_window * q + r + 1) with (r + 1 + q * mm_window) by nia. rewrite Nat.mod_add, Nat.mod_small by lia. done.
    + intros k Hk Hk2. rewrite wof_app by (fold q; lia). by apply H4.
Qed.

(** A buffer holds the samples [f sig] of every signal *)
Record carries (b : mbuf) (f : nat -> list fv) : Prop := {
  ca_data : length (mb_data b) = mon_sigs * mon_block;
  ca_len : length (mb_len b) = mon_sigs;
  ca_rdl : length (mb_rd b) = mon_sigs;
  ca_short : forall sig, length (f sig) <= mon_block;
  ca_lens : forall sig, sig < mon_sigs -> mb_len b !! sig = Some (length (f sig));
  ca_vals : forall sig i v, sig < mon_sigs -> f sig !! i = Some v -> mb_data b !! (sig * mon_block + i) = Some v;
}.
Definition unread (b : mbuf) : Prop := forall sig, sig < mon_sigs -> mb_rd b !! sig = Some 0.

Lemma alloc_carries i : carries (mb_alloc i) (fun _ => []) /\ unread (mb_alloc i).
Proof.
  split; [split|]; cbn [mb_alloc mb_data mb_len mb_rd]; try by rewrite replicate_length.
  - cbn. lia.
  - intros sig Hs. by rewrite lookup_replicate_2.
  - done.
  - intros sig Hs. by apply lookup_replicate_2.
Qed.
Lemma reset_carries b f : carries b f -> carries (mb_reset b) (fun _ => []) /\ unread (mb_reset b).
Proof.
  intros [H1 H2 H3 H4 H5 H6]. split; [split|]; cbn [mb_reset mb_data mb_len mb_rd]; try by rewrite replicate_length.
  - done.
  - cbn. lia.
  - intros sig Hs. by rewrite lookup_replicate_2.
  - done.
  - intros sig Hs. by apply lookup_replicate_2.
Qed.

Lemma feed_carries b f sig data : carries b f -> unread b -> sig < mon_sigs -> length data <= mon_block ->
  exists b', mb_feed b (sig, data) = Some b' /\ mb_id b' = mb_id b /\ unread b' /\
    carries b' (fun s => if decide (s = sig) then data else f s).
Proof.
  intros [H1 H2 H3 H4 H5 H6] Hu Hs Hd. unfold mb_feed.
  assert (sig * mon_block + length data <= mon_sigs * mon_block) as Hb by nia.
  destruct (Nat.leb_spec (sig * mon_block + length data) (length (mb_data b))) as [_|]; [|lia].
  destruct (Nat.ltb_spec sig (length (mb_len b))) as [_|]; [|lia]. cbn [andb].
  eexists. split; [done|]. split; [done|]. split; [exact Hu|]. split; cbn [mb_data mb_len mb_rd]; try done.
  - rewrite !app_length, take_length, drop_length. lia.
  - by rewrite insert_length.
  - intros s. case_decide; [done|apply H4].
  - intros s Hs'. case_decide as Hc.
    + subst s. rewrite list_lookup_insert by lia. done.
    + rewrite list_lookup_insert_ne by done. by apply H5.
  - intros s i v Hs' Hi. case_decide as Hc.
    + subst s. rewrite lookup_app_r by (rewrite take_length; lia). rewrite take_length.
      replace (sig * mon_block + i - (sig * mon_block) `min` length (mb_data b)) with i by lia.
      by apply lookup_app_l_Some.
    + pose proof (H6 s i v Hs' Hi) as Hv. pose proof (H4 s) as Hsh. apply lookup_lt_Some in Hi as Hil.
      destruct (decide (s < sig)) as [Hlt|Hge].
      * rewrite lookup_app_l by (rewrite take_length; nia). rewrite lookup_take by nia. done.
      * rewrite lookup_app_r by (rewrite take_length; nia). rewrite lookup_app_r by (rewrite take_length; nia).
        rewrite take_length, lookup_drop. rewrite <- Hv. f_equal. nia.
Qed.

Lemma block_samples_snoc sig feeds f :
  block_samples sig (feeds ++ [f]) = if decide (sig = f.1) then f.2 else block_samples sig feeds.
Proof.
  unfold block_samples. rewrite filter_app. case_decide as E.
  - rewrite (filter_cons_True _ f) by done. rewrite filter_nil, fmap_app. cbn. by rewrite last_snoc.
  - rewrite (filter_cons_False _ f) by congruence. by rewrite filter_nil, app_nil_r.
Qed.

Lemma carries_ext b f g : (forall s, s < mon_sigs -> f s = g s) -> (forall s, length (g s) <= mon_block) -> carries b f -> carries b g.
Proof.
  intros H Hg [H1 H2 H3 H4 H5 H6]. split; try done.
  - intros s Hs. rewrite <- H by done. by apply H5.
  - intros s i v Hs Hi. rewrite <- H in Hi by done. by apply H6.
Qed.

Lemma feeds_carries b feeds : carries b (fun _ => []) -> unread b -> Forall (fun f : nat * list fv => f.1 < 6 /\ length f.2 <= 128) feeds ->
  exists b', foldm mb_feed b feeds = Some b' /\ mb_id b' = mb_id b /\ unread b' /\ carries b' (fun s => block_samples s feeds).
Proof.
  intros Hc Hu. induction feeds as [|[sig data] feeds IH] using rev_ind; intros HF.
  - exists b. done.
  - apply Forall_app in HF as [HF [Hs _]%Forall_cons]. destruct IH as (b1 & E & Ei & Hu1 & Hc1); [done|].
    rewrite foldm_app, E. cbn [mbind option_bind foldm].
    destruct (feed_carries b1 _ sig data Hc1 Hu1) as (b2 & E2 & Ei2 & Hu2 & Hc2); [apply Hs|apply Hs|].
    rewrite E2. cbn [mbind option_bind]. exists b2. split_and!; [done|congruence|done|]. eapply carries_ext; [..|exact Hc2].
    + intros s _. rewrite block_samples_snoc. cbn [fst snd]. done.
    + intros s. rewrite block_samples_snoc. case_decide; [apply Hs|apply (ca_short _ _ Hc1 s)].
Qed.

(** The loop over the rest of a signal in a buffer *)
Lemma process_inv f sig : sig < mon_sigs -> forall fuel rest st m b new,
  carries b f -> mm_inv st m -> (exists pre, f sig = pre ++ rest /\ mb_rd b !! sig = Some (length pre)) -> length rest < fuel ->
  exists m' b' new', mm_process fuel m b sig new = Some (m', b', new') /\ mm_inv (st ++ rest) m' /\ carries b' f /\ mb_id b' = mb_id b /\
    (forall s, s <> sig -> mb_rd b' !! s = mb_rd b !! s) /\ (new' = false -> new = false /\ mm_ptr m' = mm_ptr m /\ mm_buf m' = mm_buf m).
Proof.
  intros Hsig. induction fuel as [|fuel IH]; intros rest st m b new Hc Hm (pre & Ef & Hrd) Hl; [lia|].
  cbn [mm_process]. unfold mb_next. rewrite Hrd, (ca_lens _ _ Hc sig Hsig). cbn [mbind option_bind]. rewrite Ef, app_length.
  destruct rest as [|v rest].
  - destruct (Nat.leb_spec (length pre + length (@nil fv)) (length pre)) as [_|H]; [|cbn [length] in H; lia]. cbn [mbind option_bind].
    exists m, b, new. rewrite app_nil_r. done.
  - cbn [length] in Hl |- *. destruct (Nat.leb_spec (length pre + S (length rest)) (length pre)) as [H|_]; [lia|].
    rewrite (ca_vals _ _ Hc sig (length pre) v Hsig) by (rewrite Ef; by apply list_lookup_middle). cbn [mbind option_bind].
    destruct (sample_inv st m v Hm) as (m1 & n1 & E1 & Hm1 & Hn1). rewrite E1. cbn [mbind option_bind].
    edestruct (IH rest (st ++ [v]) m1 (MBuf (mb_id b) (mb_data b) (mb_len b) (<[sig:=length pre + 1]> (mb_rd b))) (new || n1)) as (m2 & b2 & new2 & E2 & Hm2 & Hc2 & Hi2 & Ho2 & Hn2).
    + destruct Hc as [H1 H2 H3 H4 H5 H6]. split; cbn; try done. by rewrite insert_length.
    + done.
    + exists (pre ++ [v]). rewrite <- app_assoc. split; [done|]. cbn [mb_rd]. rewrite list_lookup_insert by (rewrite (ca_rdl _ _ Hc); done).
      by rewrite app_length.
    + lia.
    + exists m2, b2, new2. rewrite <- app_assoc in Hm2. split_and!; try done.
      * intros s Hs. rewrite (Ho2 s Hs). cbn [mb_rd]. by rewrite list_lookup_insert_ne.
      * intros Hf. destruct (Hn2 Hf) as (Ho & Hp & Hb). apply orb_false_elim in Ho as [-> ->]. destruct (Hn1 eq_refl) as [Ep Eb]. split_and!; congruence.
Qed.

Lemma signals_inv f st : forall ms sig b new, carries b f -> (forall s, sig <= s < mon_sigs -> mb_rd b !! s = Some 0) ->
  sig + length ms = mon_sigs -> (forall k m, ms !! k = Some m -> mm_inv (st (sig + k)) m) ->
  exists ms' b' new', process_signals ms b sig new = Some (ms', b', new') /\ length ms' = length ms /\ mb_id b' = mb_id b /\ carries b' f /\
    (forall k m, ms' !! k = Some m -> mm_inv (st (sig + k) ++ f (sig + k)) m) /\
    (new' = false -> new = false /\ mm_slices ms' = mm_slices ms).
Proof.
  induction ms as [|m ms IH]; intros sig b new Hc Hrd Hlen Hms; cbn [process_signals].
  - exists [], b, new. split_and!; try done.
  - cbn [length] in Hlen. destruct (process_inv f sig ltac:(lia) (S mon_block) (f sig) (st sig) m b new) as (m1 & b1 & new1 & E1 & Hm1 & Hc1 & Hi1 & Ho1 & Hn1).
    + done.
    + specialize (Hms 0 m eq_refl). by rewrite Nat.add_0_r in Hms.
    + exists []. split; [done|]. apply Hrd. lia.
    + pose proof (ca_short _ _ Hc sig). lia.
    + rewrite E1. cbn [mbind option_bind].
      destruct (IH (S sig) b1 new1) as (ms2 & b2 & new2 & E2 & Hl2 & Hi2 & Hc2 & Hm2 & Hn2).
      * done.
      * intros s Hs. rewrite Ho1 by lia. apply Hrd. lia.
      * lia.
      * intros k m' Hk. specialize (Hms (S k) m' Hk). by rewrite <- plus_n_Sm in Hms.
      * rewrite E2. cbn [mbind option_bind]. exists (m1 :: ms2), b2, new2. cbn [length]. split_and!; try done.
        -- by rewrite Hl2.
        -- congruence.
        -- intros [|k] m' Hk.
           ++ injection Hk as <-. by rewrite Nat.add_0_r.
           ++ specialize (Hm2 k m' Hk). by rewrite <- plus_n_Sm.
        -- intros Hf. destruct (Hn2 Hf) as [Hf1 Hs]. destruct (Hn1 Hf1) as (Hf0 & Hp & Hb). split; [done|].
           cbn [mm_slices fmap list_fmap]. rewrite Hp, Hb. f_equal. exact Hs.
Qed.
