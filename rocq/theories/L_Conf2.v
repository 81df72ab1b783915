From Verif Require Import Base M_Atom M_Prog M_Grid M_Conf S_Conf L_Conf.
Open Scope nat_scope.

(** ** Tilings *)
Section tiles.
  Context (f : node_id -> nat).

  Lemma psum_mono ns i j : i <= j -> psum f ns i <= psum f ns j.
  Proof.
    intros H. unfold psum.
    replace (take i ns) with (take i (take j ns)) by (rewrite take_take; f_equal; lia).
    generalize (take j ns); intros l. revert i H; induction l as [|x l IH]; intros i H.
    - by rewrite take_nil.
    - destruct i; cbn; [lia|]. destruct j; [lia|]. specialize (IH i). cbn in IH.
      assert (sum_list (f <$> take i l) <= sum_list (f <$> l)); [|lia].
      clear. revert i; induction l as [|y l IH]; intros i; [by rewrite take_nil|].
      destruct i; cbn; [lia|]. specialize (IH i). lia.
  Qed.

  Lemma psum_cover ns x : x < psum f ns (length ns) ->
    exists i n, ns !! i = Some n /\ psum f ns i <= x < psum f ns i + f n.
  Proof.
    induction ns as [|n ns IH] using rev_ind; [cbn; lia|].
    intros H. rewrite app_length in H. cbn [length] in H.
    assert (Hl : (ns ++ [n]) !! length ns = Some n) by (by rewrite lookup_app_r, Nat.sub_diag by lia).
    replace (length ns + 1) with (S (length ns)) in H by lia. rewrite (psum_S f _ _ n Hl) in H.
    assert (Hp : forall i, i <= length ns -> psum f (ns ++ [n]) i = psum f ns i).
    { intros i Hi. unfold psum. by rewrite take_app_le. }
    destruct (decide (x < psum f ns (length ns))) as [Hx|Hx].
    - destruct (IH Hx) as (i & m & Hi & Hb). exists i, m. pose proof (lookup_lt_Some _ _ _ Hi).
      rewrite lookup_app_l by done. split; [done|]. rewrite Hp by lia. done.
    - exists (length ns), n. split; [done|]. rewrite Hp in * by lia. lia.
  Qed.

  Lemma psum_tiles ns (ranges : list (nat * nat)) :
    length ranges = length ns ->
    (forall i n, ns !! i = Some n -> ranges !! i = Some (psum f ns i, psum f ns i + f n)) ->
    tiles (f <$> ns) ranges (psum f ns (length ns)).
  Proof.
    intros Hlen Hr. assert (Hr' : forall i r, ranges !! i = Some r -> exists n, ns !! i = Some n /\
        r = (psum f ns i, psum f ns i + f n)).
    { intros i r Hi. assert (i < length ns) as Hl by (rewrite <- Hlen; by eapply lookup_lt_Some).
      apply lookup_lt_is_Some in Hl as [n Hn]. exists n. split; [done|]. rewrite (Hr _ _ Hn) in Hi. by injection Hi as <-. }
    assert (Hup : forall i n, ns !! i = Some n -> psum f ns i + f n <= psum f ns (length ns)).
    { intros i n Hn. rewrite <- (psum_S f _ _ _ Hn). apply psum_mono. by apply lookup_lt_Some in Hn. }
    split; [by rewrite fmap_length|]. split; [|split].
    - intros i r n Hi Hn. destruct (Hr' _ _ Hi) as (m & Hm & ->). rewrite list_lookup_fmap, Hm in Hn.
      injection Hn as <-. done.
    - intros i j r r' x Hi Hj Hx Hx'. destruct (Hr' _ _ Hi) as (n & Hn & ->). destruct (Hr' _ _ Hj) as (m & Hm & ->).
      cbn in Hx, Hx'. rewrite <- (psum_S f _ _ _ Hn) in Hx. rewrite <- (psum_S f _ _ _ Hm) in Hx'.
      destruct (decide (i < j)) as [Hl|Hl].
      { pose proof (psum_mono ns (S i) j ltac:(lia)). lia. }
      destruct (decide (j < i)) as [Hl'|Hl']; [|lia].
      pose proof (psum_mono ns (S j) i ltac:(lia)). lia.
    - intros x. split.
      + intros Hx. destruct (psum_cover _ _ Hx) as (i & n & Hi & Hb). exists i, (psum f ns i, psum f ns i + f n).
        split; [by apply Hr|done].
      + intros (i & r & Hi & Hx). destruct (Hr' _ _ Hi) as (n & Hn & ->). cbn in Hx. specialize (Hup _ _ Hn). lia.
  Qed.
End tiles.

Section conf.
  Context (T : ntable).

  Lemma insts_lookup c (ids : list node_id) (P : nat -> node_id -> ninst -> Prop) :
    (cf_nodes c).*1 = ids ->
    (forall j id, ids !! j = Some id -> exists ni, cf_nodes c !! j = Some (id, Some ni) /\ P j id ni) ->
    length (insts c) = length ids /\
    forall j id, ids !! j = Some id -> exists ni, insts c !! j = Some ni /\ P j id ni.
  Proof.
    unfold insts. intros <-. intros H.
    assert (Hg : forall ns : list (node_id * option ninst), (forall j x, ns !! j = Some x -> is_Some x.2) ->
      length (omap snd ns) = length ns /\ forall j x, ns !! j = Some x -> (omap snd ns : list ninst) !! j = x.2).
    { induction ns as [|[a [b|]] ns IH]; intros Hn; [done| |].
      - destruct IH as [IH1 IH2]; [intros j x Hx; by apply (Hn (S j))|].
        cbn. split; [by f_equal|]. intros [|j] x; cbn; [by intros [= <-]|apply IH2].
      - destruct (Hn 0 (a, None) eq_refl) as [? Hy]. done. }
    destruct (Hg (cf_nodes c)) as [Hg1 Hg2].
    { intros j [a b] Hx. destruct (H j a) as (ni & Hni & _); [by rewrite list_lookup_fmap, Hx|].
      rewrite Hx in Hni. injection Hni as ->. by eexists. }
    split; [by rewrite Hg1, fmap_length|]. intros j id Hj. destruct (H j id Hj) as (ni & Hni & HP).
    exists ni. split; [|done]. by rewrite (Hg2 _ _ Hni).
  Qed.

  Lemma bufs_new_length h n : length (bufs_new h n).2 = n.
  Proof.
    revert h; induction n as [|n IH]; intros h; cbn; [done|].
    specialize (IH (Heap (<[h_next h:=replicate block_size f32_zero]> (h_bufs h)) (S (h_next h)))).
    destruct (bufs_new _ n) as [h' ps]. cbn in *. by f_equal.
  Qed.
  Lemma modops_new_length h n : length (modops_new h n).2 = n.
  Proof.
    revert h; induction n as [|n IH]; intros h; cbn; [done|].
    specialize (IH (Heap (<[h_next h:=replicate block_size f32_zero]> (h_bufs h)) (S (h_next h)))).
    destruct (modops_new _ n) as [h' ps]. cbn in *. by f_equal.
  Qed.

  Lemma prog_new_lengths h o i a m h' p : prog_new h o i a m = (h', p) ->
    length (np_out p) = o /\ length (np_inp p) = i /\ length (np_atoms p) = a /\ length (np_mods p) = m /\
    np_ops p = [] /\ np_cur p = replicate i None /\ np_params p = replicate i f32_zero /\ np_locked p = false /\
    np_fb p = replicate o f32_zero /\ np_atoms p = replicate a (ASetting 0).
  Proof.
    unfold prog_new. pose proof (bufs_new_length h o) as H1. destruct (bufs_new h o) as [h1 out].
    pose proof (bufs_new_length h1 i) as H2. destruct (bufs_new h1 i) as [h2 inp].
    pose proof (modops_new_length h2 m) as H3. destruct (modops_new h2 m) as [h3 mods].
    intros [= <- <-]. cbn in *. rewrite replicate_length. done.
  Qed.

  Lemma rebuild_tiles (HT : table_ok T) h c h' c' p :
    conf_inv T c -> conf_rebuild T h c = Some (h', c', p) ->
    let ids := (cf_nodes c).*1 in
    tiles (n_outs T <$> ids) (ni_out <$> insts c') (length (np_out p)) /\
    tiles (n_ins T <$> ids) (ni_in <$> insts c') (length (np_inp p)) /\
    tiles (n_ats T <$> ids) (ni_at <$> insts c') (length (np_atoms p)) /\
    tiles (n_mods T (cf_modamt c) <$> ids) (ni_mod <$> insts c') (length (np_mods p)).
  Proof.
    intros Hc E. destruct (conf_rebuild_spec T HT h c Hc) as (h2 & c2 & p2 & E2 & Hs). rewrite E in E2.
    injection E2 as <- <- <-. cbn zeta in Hs.
    destruct Hs as (Hp & Hids & _ & _ & Hin & _).
    apply prog_new_lengths in Hp as (-> & -> & -> & -> & _).
    destruct (insts_lookup c' _ _ Hids Hin) as [Hl Hi]. cbn zeta.
    rewrite <- (fmap_length fst (cf_nodes c)).
    split; [|split; [|split]]; (apply psum_tiles; [by rewrite fmap_length|]);
      intros j id Hj; destruct (Hi j id Hj) as (ni & Hni & Hok); rewrite list_lookup_fmap, Hni; cbn; f_equal.
    - apply (io_out _ _ _ _ _ _ _ _ _ Hok).
    - apply (io_in _ _ _ _ _ _ _ _ _ Hok).
    - apply (io_at _ _ _ _ _ _ _ _ _ Hok).
    - apply (io_mod _ _ _ _ _ _ _ _ _ Hok).
  Qed.
End conf.
