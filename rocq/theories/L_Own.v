(** Proofs about the ownership of sample buffers *)
From Verif Require Import Base M_Atom M_Graph M_Dir M_Grid S_Grid M_Layout S_Layout M_Prog M_Conf M_Exec M_Sync M_Engine.
From Verif Require Import S_Conf S_Sync S_Prog S_Own L_Graph L_Grid L_Layout L_Conf L_Conf2 L_Sync L_Prog L_Build L_Fill L_Wire.
Open Scope nat_scope.
Local Opaque block_size.

(** [holds] and every buffer number ever used is below the next one *)
Definition hok (h : heap) (l : list nat) : Prop :=
  holds h l /\ (forall b, b ∈ l -> b < h_next h).

Lemma hok_perm h l l' : l ≡ₚ l' -> hok h l -> hok h l'.
Proof.
  intros Hp [(H1 & H2 & H3) H4]. split; [split; [|split]|].
  - by rewrite <- Hp.
  - intros b. rewrite <- Hp. apply H2.
  - done.
  - intros b. rewrite <- Hp. apply H4.
Qed.

Lemma buf_new_hok h l : hok h l -> hok (buf_new h).1 ((buf_new h).2 :: l).
Proof.
  intros [(H1 & H2 & H3) H4]. unfold buf_new. cbn. split; [split; [|split]|].
  - constructor; [|done]. intros Hx. apply H4 in Hx. lia.
  - intros b. cbn. destruct (decide (b = h_next h)) as [->|Hne].
    + rewrite lookup_insert. split; [left|by eexists].
    + rewrite lookup_insert_ne by done. rewrite H2, elem_of_cons. naive_solver.
  - intros b c. cbn. destruct (decide (b = h_next h)) as [->|Hne].
    + rewrite lookup_insert. intros [= <-]. by rewrite replicate_length.
    + rewrite lookup_insert_ne by done. apply H3.
  - intros b. rewrite elem_of_cons. cbn. intros [->|Hb]; [lia|]. apply H4 in Hb. lia.
Qed.

Lemma bufs_new_hok n h l : hok h l -> hok (bufs_new h n).1 ((bufs_new h n).2 ++ l).
Proof.
  revert h l. induction n as [|n IH]; intros h l Hh; [done|]. cbn [bufs_new].
  pose proof (buf_new_hok h l Hh) as H1. destruct (buf_new h) as [h1 p1]. cbn in H1.
  pose proof (IH h1 (p1 :: l) H1) as H2. destruct (bufs_new h1 n) as [h2 ps]. cbn in *.
  eapply hok_perm; [|exact H2]. by rewrite Permutation_middle.
Qed.

Lemma modops_new_hok n h l : hok h l -> hok (modops_new h n).1 ((mo_buf <$> (modops_new h n).2) ++ l).
Proof.
  revert h l. induction n as [|n IH]; intros h l Hh; [done|]. cbn [modops_new].
  pose proof (buf_new_hok h l Hh) as H1. destruct (buf_new h) as [h1 p1]. cbn in H1.
  pose proof (IH h1 (p1 :: l) H1) as H2. destruct (modops_new h1 n) as [h2 ps]. cbn in *.
  eapply hok_perm; [|exact H2]. by rewrite Permutation_middle.
Qed.

Lemma prog_new_hok h l o i a m h' p : hok h l -> prog_new h o i a m = (h', p) -> hok h' (owned p ++ l).
Proof.
  intros Hh. unfold prog_new.
  pose proof (bufs_new_hok o h l Hh) as H1. destruct (bufs_new h o) as [h1 out]. cbn in H1.
  pose proof (bufs_new_hok i h1 _ H1) as H2. destruct (bufs_new h1 i) as [h2 inp]. cbn in H2.
  pose proof (modops_new_hok m h2 _ H2) as H3. destruct (modops_new h2 m) as [h3 mods]. cbn in H3.
  intros [= <- <-]. unfold owned. cbn. eapply hok_perm; [|exact H3]. solve_Permutation.
Qed.

Lemma bufs_free_hok ps h l : hok h (ps ++ l) -> exists h', bufs_free h ps = Some h' /\ hok h' l.
Proof.
  revert h. induction ps as [|b ps IH]; intros h Hh; [by exists h|]. cbn [bufs_free].
  destruct Hh as [(H1 & H2 & H3) H4]. cbn [app] in *.
  destruct (proj2 (H2 b)) as [c Hc]; [left|]. unfold buf_free. rewrite Hc. cbn [mbind option_bind].
  apply IH. apply NoDup_cons in H1 as [Hni Hnd]. split; [split; [|split]|]; cbn.
  - done.
  - intros b'. destruct (decide (b' = b)) as [->|Hne].
    + rewrite lookup_delete. split; [by intros [? ?]|done].
    + rewrite lookup_delete_ne by done. rewrite H2, elem_of_cons. naive_solver.
  - intros b' c'. destruct (decide (b' = b)) as [->|Hne]; [by rewrite lookup_delete|].
    rewrite lookup_delete_ne by done. apply H3.
  - intros b' Hb'. apply H4. by right.
Qed.

Lemma prog_drop_hok p h l : hok h (owned p ++ l) -> exists h', prog_drop h p = Some h' /\ hok h' l.
Proof.
  intros Hh. unfold owned in Hh. rewrite <- !app_assoc in Hh. unfold prog_drop.
  destruct (bufs_free_hok _ _ _ Hh) as (h1 & -> & H1). cbn [mbind option_bind].
  destruct (bufs_free_hok _ _ _ H1) as (h2 & -> & H2). cbn [mbind option_bind].
  by destruct (bufs_free_hok _ _ _ H2) as (h3 & -> & H3); exists h3.
Qed.

(** what overwriting a buffer changes *)
Definition same_next (h h' : heap) : Prop := h_next h' = h_next h.
Lemma put_hok h l b c c' : hok h l -> h_bufs h !! b = Some c -> length c' = block_size ->
  hok (Heap (<[b := c']> (h_bufs h)) (h_next h)) l.
Proof.
  intros [(H1 & H2 & H3) H4] Hb Hc. split; [split; [|split]|]; cbn; [done| | |done].
  - intros b'. destruct (decide (b' = b)) as [->|Hne].
    + rewrite lookup_insert. rewrite <- H2, Hb. split; by eexists.
    + by rewrite lookup_insert_ne.
  - intros b' x. destruct (decide (b' = b)) as [->|Hne]; [rewrite lookup_insert; by intros [= <-]|].
    rewrite lookup_insert_ne by done. apply H3.
Qed.

Lemma buf_fill_hok h l b v : hok h l -> b ∈ l -> exists h', buf_fill h b v = Some h' /\ hok h' l /\
  h_bufs h' = <[b := replicate block_size v]> (h_bufs h).
Proof.
  intros Hh Hb. unfold buf_fill. destruct (proj2 (proj1 (proj2 (proj1 Hh)) b) Hb) as [c Hc]. rewrite Hc.
  cbn [mbind option_bind]. pose proof (proj2 (proj2 (proj1 Hh)) b c Hc) as Hl. rewrite Hl.
  eexists. split; [done|]. split; [|done]. by eapply put_hok; [..|apply replicate_length].
Qed.

Lemma buf_write_hok h l b i v : hok h l -> b ∈ l -> i < block_size ->
  exists h' c, h_bufs h !! b = Some c /\ buf_write h b i v = Some h' /\ hok h' l /\ h_bufs h' = <[b := <[i := v]> c]> (h_bufs h).
Proof.
  intros Hh Hb Hi. unfold buf_write. destruct (proj2 (proj1 (proj2 (proj1 Hh)) b) Hb) as [c Hc]. rewrite Hc.
  cbn [mbind option_bind]. pose proof (proj2 (proj2 (proj1 Hh)) b c Hc) as Hl.
  rewrite (proj2 (Nat.ltb_lt _ _)) by lia.
  eexists _, c. split; [done|]. split; [done|]. split; [|done]. by eapply put_hok; [..|rewrite insert_length].
Qed.

Lemma fill_from_hok vs inp h l : hok h l -> (forall b, b ∈ inp -> b ∈ l) -> length vs <= length inp ->
  exists h', fill_from h inp vs = Some h' /\ hok h' l.
Proof.
  revert inp h. induction vs as [|v vs IH]; intros inp h Hh Hi Hl; [by exists h; destruct inp|].
  destruct inp as [|b inp]; cbn in Hl; [lia|]. cbn [fill_from].
  destruct (buf_fill_hok h l b v Hh) as (h1 & -> & H1 & _); [apply Hi; left|]. cbn [mbind option_bind].
  apply IH; [done| |lia]. intros b' Hb'. apply Hi. by right.
Qed.

(** operations whose indices are inside of the vectors *)
Record op_fits (no ni na nm : nat) (op : nodeop) : Prop := {
  of_out : range_in no (op_out op);
  of_in : range_in ni (op_in op);
  of_at : range_in na (op_at op);
  of_mod : range_in nm (op_mod op);
  of_ent : Forall (entry_wf no ni nm) (op_inputs op);
}.

(** a program as it is sent *)
Record ready (p : nprog) : Prop := {
  rd_unlocked : np_locked p = false;
  rd_cur : np_cur p = replicate (length (np_inp p)) None;
  rd_par : length (np_params p) = length (np_inp p);
  rd_fb : length (np_fb p) = length (np_out p);
  rd_mods : Forall (fun mo => mo_out mo = None /\ mo_in mo = None) (np_mods p);
  rd_ops : Forall (op_fits (length (np_out p)) (length (np_inp p)) (length (np_atoms p)) (length (np_mods p))) (np_ops p);
}.

(** a program as it runs *)
Record running (p : nprog) : Prop := {
  rn_cur : length (np_cur p) = length (np_inp p);
  rn_par : length (np_params p) = length (np_inp p);
  rn_fb : length (np_fb p) = length (np_out p);
  rn_ptrs : forall b, b ∈ pointers p -> b ∈ owned p;
  rn_mods : Forall (fun mo => is_Some (mo_in mo) <-> is_Some (mo_out mo)) (np_mods p);
  rn_reads : forall op i, op ∈ np_ops p -> (op_in op).1 <= i < (op_in op).2 -> is_Some (mjoin (np_cur p !! i));
  rn_ops : Forall (op_fits (length (np_out p)) (length (np_inp p)) (length (np_atoms p)) (length (np_mods p))) (np_ops p);
}.

Lemma ready_empty : ready prog_empty.
Proof. constructor; cbn; try done; constructor. Qed.
Lemma running_empty : running prog_empty.
Proof. constructor; cbn; try done; try constructor. intros op i Ho. by apply elem_of_nil in Ho. Qed.

Section own.
  Context (T : ntable) (HT : table_ok T).

  Lemma inst_fits c c1 n ni : laid T c c1 -> conf_inst c1 n = Some ni ->
    let N := length (created c) in
    op_fits (psum (n_outs T) (created c) N) (psum (n_ins T) (created c) N) (psum (n_ats T) (created c) N)
      (psum (n_mods T (cf_modamt c)) (created c) N) (ni_as_op ni).
  Proof.
    intros Hl Hn. destruct (laid_inst_inv T c c1 n ni Hl Hn) as (j & Hj & Hok). cbn zeta.
    pose proof (psum_bound (n_outs T) _ _ _ Hj). pose proof (psum_bound (n_ins T) _ _ _ Hj).
    pose proof (psum_bound (n_ats T) _ _ _ Hj). pose proof (psum_bound (n_mods T (cf_modamt c)) _ _ _ Hj).
    constructor; unfold range_in; cbn.
    - rewrite (io_out _ _ _ _ _ _ _ _ _ Hok). cbn. lia.
    - rewrite (io_in _ _ _ _ _ _ _ _ _ Hok). cbn. lia.
    - rewrite (io_at _ _ _ _ _ _ _ _ _ Hok). cbn. lia.
    - rewrite (io_mod _ _ _ _ _ _ _ _ _ Hok). cbn. lia.
    - constructor.
  Qed.

  Lemma set_out_fits no ni na nm op g : op_fits no ni na nm op -> op_fits no ni na nm (op_set_out_flag op g).
  Proof. intros []. unfold op_set_out_flag. destruct (in_range _ _); by constructor. Qed.
  Lemma push_in_fits no ni na nm op g io : op_fits no ni na nm op -> entry_wf no ni nm io ->
    op_fits no ni na nm (op_push_input (op_set_in_flag op g) io).
  Proof.
    intros [] Hio. unfold op_set_in_flag, op_push_input. destruct (in_range _ _); constructor; cbn; try done;
      (apply Forall_app; split; [done|by constructor]).
  Qed.
  Lemma add_input_fits no ni na nm ops idx ii oi md : Forall (op_fits no ni na nm) ops -> entry_wf no ni nm (oi, ii, md) ->
    Forall (op_fits no ni na nm) (ops_add_input ops idx ii oi md).
  Proof.
    intros Hops Hio. induction Hops as [|op ops H1 H2 IH]; cbn [ops_add_input]; [constructor|].
    destruct (op_idx op =? idx); constructor; try done. by apply push_in_fits.
  Qed.

  Lemma program_ops_fit c c1 p1 order es : laid T c c1 -> np_ops p1 = [] ->
    let N := length (created c) in
    let fits := Forall (op_fits (psum (n_outs T) (created c) N) (psum (n_ins T) (created c) N) (psum (n_ats T) (created c) N)
      (psum (n_mods T (cf_modamt c)) (created c) N)) in
    forall cp', foldm conf_connect (foldl conf_add_node (c1, p1) order) es = Some cp' ->
    same_values c1 cp'.1 /\ exists ops, cp'.2 = with_ops p1 ops /\ fits ops.
  Proof.
    intros Hl Hp1 N fits cp'.
    destruct (add_nodes_any T c c1 p1 order Hl) as (S1 & I1 & V1 & _). cbn zeta in *.
    assert (F1 : exists ops, (foldl conf_add_node (c1, p1) order).2 = with_ops p1 ops /\ fits ops).
    { clear S1 I1 V1. induction order as [|n order (ops & Ho & Hf)] using rev_ind.
      - exists []. split; [|constructor]. destruct p1; cbn in *. by subst.
      - rewrite foldl_app. cbn [foldl]. destruct (add_nodes_any T c c1 p1 order Hl) as (S1 & _). cbn zeta in *.
        set (cp := foldl conf_add_node (c1, p1) order) in *. unfold conf_add_node.
        destruct (conf_inst cp.1 n) as [ni|] eqn:En; [|by exists ops]. cbn [snd].
        unfold prog_append_op. destruct (existsb _ _); [by exists ops|]. rewrite Ho, with_ops_twice. eexists. split; [done|].
        cbn [np_ops with_ops]. apply Forall_app. split; [done|]. constructor; [|constructor].
        destruct (same_inst_some _ _ _ _ S1 En) as (ni1 & Hn1 & Hop & _). rewrite Hop.
        pose proof (inst_fits c c1 n ni1 Hl Hn1) as []. by constructor. }
    set (cp := foldl conf_add_node (c1, p1) order) in *. intros E.
    eapply (foldm_inv conf_connect (fun s => conf_inv T s.1 /\ same_inst s.1 c1 /\ same_values c1 s.1 /\ exists ops, s.2 = with_ops p1 ops /\ fits ops)); [|by split_and!|exact E].
    clear E cp'. intros s e s' _ (I & S & V & ops & Hs & Hf). unfold conf_connect.
    destruct (conf_inst s.1 (e_from e)) as [sr|] eqn:Es; [|intros [= <-]; eauto 10].
    destruct (conf_inst s.1 (e_to e)) as [d|] eqn:Ed; [|intros [= <-]; eauto 10].
    destruct (ni_mod_global d (e_to_input e)) as [md|] eqn:Emd; cbn [mbind option_bind]; [|done]. intros [= <-]. cbn [fst snd].
    split; [by apply mark_inv|]. split; [by apply same_inst_mark with (T := T)|].
    split; [eapply same_values_trans; [done|apply mark_same]|].
    destruct (local2global (ni_in d) (e_to_input e)) as [ii|] eqn:Ei; [|by exists ops].
    destruct (local2global (ni_out sr) (e_from_out e)) as [oi|] eqn:Eo; [|by exists ops].
    unfold prog_append_edge. rewrite Hs, with_ops_twice. eexists. split; [done|]. cbn [np_ops with_ops].
    destruct (same_inst_some _ _ _ _ S Es) as (sr1 & Hsr & _ & _ & Hso & _).
    destruct (same_inst_some _ _ _ _ S Ed) as (d1 & Hd & _ & Hdi & _ & Hdm & _).
    destruct (laid_inst_inv T c c1 _ _ Hl Hsr) as (js & Hjs & Oks). destruct (laid_inst_inv T c c1 _ _ Hl Hd) as (jd & Hjd & Okd).
    rewrite Hso, (io_out _ _ _ _ _ _ _ _ _ Oks) in Eo. rewrite Hdi, (io_in _ _ _ _ _ _ _ _ _ Okd) in Ei.
    unfold local2global in Ei, Eo. cbn [fst snd rl_in rl_out] in Ei, Eo.
    destruct (Nat.ltb_spec (0 + psum (n_ins T) (created c) jd + e_to_input e) (0 + psum (n_ins T) (created c) jd + n_ins T (e_to e))) as [Hi|]; [|done].
    destruct (Nat.ltb_spec (0 + psum (n_outs T) (created c) js + e_from_out e) (0 + psum (n_outs T) (created c) js + n_outs T (e_from e))) as [Ho|]; [|done].
    injection Ei as <-. injection Eo as <-.
    pose proof (psum_bound (n_outs T) _ _ _ Hjs) as B1. pose proof (psum_bound (n_ins T) _ _ _ Hjd) as B2.
    pose proof (psum_bound (n_mods T (cf_modamt c)) _ _ _ Hjd) as B3.
    apply add_input_fits.
    - apply Forall_fmap. eapply Forall_impl; [exact Hf|]. intros op Hop. by apply set_out_fits.
    - subst N. split; [cbn; lia|]. split; [cbn; lia|]. intros m Hm. cbn in Hm. subst md.
      unfold ni_mod_global in Emd. rewrite Hdm in Emd.
      destruct (_ <? _); [done|]. rewrite (io_map _ _ _ _ _ _ _ _ _ Okd) in Emd by lia. injection Emd as Emd.
      apply (mod_entry_some T) in Emd; lia.
  Qed.

  Lemma program_ready h l c order es h' c' p : conf_good T c -> hok h l ->
    conf_program T h c order es = Some (h', c', p) -> hok h' (owned p ++ l) /\ ready p.
  Proof.
    intros Hg Hh. destruct (rebuild_laid T HT h c (good_fine T c Hg)) as (h1 & c1 & p1 & E & Hl & Hp). cbn zeta in Hp.
    unfold conf_program. rewrite E. cbn [mbind option_bind].
    destruct (foldm conf_connect _ es) as [[c3 p3]|] eqn:E3; cbn [mbind option_bind]; [|done].
    destruct (prog_new_lengths _ _ _ _ _ _ _ Hp) as (L1 & L2 & L3 & L4 & Ho & Hcur & Hpar & Hlk & Hfb & Hats).
    destruct (program_ops_fit c c1 p1 order es Hl Ho _ E3) as (V & ops & Hp3 & Hf). cbn zeta in *. cbn [fst snd] in *. subst p3.
    destruct (fill_spec T c c1 c3 (with_ops p1 ops) Hl V) as (ps & ms & ats & -> & P1 & P2 & P3 & _ & _ & _ & V4); cbn; try done.
    { by rewrite Hpar, replicate_length. }
    cbn [mbind option_bind]. intros [= <- <- <-]. cbn in *.
    assert (Hmb : mo_buf <$> ms = mo_buf <$> np_mods p1).
    { apply list_eq. intros m. rewrite !list_lookup_fmap. specialize (V4 m).
      destruct (ms !! m), (np_mods p1 !! m); cbn in *; try done. by injection V4 as -> _ _. }
    split.
    - unfold owned. cbn. rewrite Hmb. eapply prog_new_hok; [exact Hh|exact Hp].
    - constructor; cbn.
      + done.
      + by rewrite L2.
      + by rewrite P1, Hpar, replicate_length, L2.
      + by rewrite Hfb, replicate_length, L1.
      + pose proof (prog_new_mods _ _ _ _ _ _ _ Hp) as Hmw. apply Forall_lookup_2. intros m mo Hm. specialize (V4 m). rewrite Hm in V4.
        destruct (np_mods p1 !! m) as [mo1|] eqn:E1; [|done]. injection V4 as _ -> ->.
        apply (proj1 (Forall_lookup _ _) Hmw m mo1 E1).
      + by rewrite L1, L2, P2, P3, L3, L4.
  Qed.
End own.
