(** Proofs about the frontend's view of the parameters in the audio thread, and the whole engine *)
From Verif Require Import Base M_Atom M_Graph M_Dir M_Grid S_Grid M_Layout S_Layout M_Prog M_Conf M_Exec M_Sync M_Engine.
From Verif Require Import S_Conf S_Sync S_Prog S_Own L_Graph L_Grid L_Layout L_Conf L_Conf2 L_Conf3 L_Sync L_Prog L_Build L_Fill L_Wire L_Own L_Own2 L_Own3 L_Flow S_Settle L_Settle L_Settle2.
Open Scope nat_scope.
Local Opaque block_size.

Lemma psum_prefix f ids ids' j id : ids `prefix_of` ids' -> ids !! j = Some id -> psum f ids' j = psum f ids j.
Proof.
  intros [k ->] Hj%lookup_lt_Some. unfold psum. by rewrite take_app_le by lia.
Qed.

Lemma prefix_at {A} (l l' : list A) j x : l `prefix_of` l' -> l !! j = Some x -> l' !! j = Some x.
Proof. intros [k ->] H. by apply lookup_app_l_Some. Qed.

(** messages that fit, one after the other *)
Fixpoint coherent (A : list f32 * list satom) (q : list gmsg) : Prop :=
  match q with [] => True | m :: q => fits_msg A m /\ coherent (applied A m) q end.
Lemma coherent_app A q q' : coherent A (q ++ q') <-> coherent A q /\ coherent (foldl applied A q) q'.
Proof.
  revert A. induction q as [|m q IH]; intros A; cbn; [tauto|]. rewrite IH. tauto.
Qed.

Section front.
  Context (T : ntable) (HT : table_ok T).

  (** the frontend's tables say where every value is in the audio thread and agree with it *)
  Record fr (c : nconf) (A : list f32 * list satom) : Prop := {
    fr_pos : forall id q x, cf_params c !! (id, q) = Some x -> exists j, created c !! j = Some id /\ q < n_ins T id /\
      npa_idx x = psum (n_ins T) (created c) j + q /\ cf_pvals c !! (id, q) = Some (npa_value x) /\ A.1 !! npa_idx x = Some (npa_value x);
    fr_cov : forall i, i < length A.1 -> exists k x, cf_params c !! k = Some x /\ npa_idx x = i;
    fr_atom : forall id i x, cf_atoms c !! (id, i) = Some x -> exists j q, created c !! j = Some id /\ q < n_ats T id /\
      i = nt_at_id T (nid_kind id) q /\
      nat_idx x = psum (n_ats T) (created c) j + q /\ cf_avals c !! (id, i) = Some (nat_value x) /\ A.2 !! nat_idx x = Some (nat_value x);
    fr_inst : forall id ni, conf_inst c id = Some ni -> exists j, created c !! j = Some id /\
      ni_in ni = (psum (n_ins T) (created c) j, psum (n_ins T) (created c) j + n_ins T id) /\
      ni_at ni = (psum (n_ats T) (created c) j, psum (n_ats T) (created c) j + n_ats T id) /\
      (forall q, q < n_ins T id -> exists x, cf_params c !! (id, q) = Some x /\ npa_idx x = psum (n_ins T) (created c) j + q) /\
      (forall q, q < n_ats T id -> exists x, cf_atoms c !! (id, nt_at_id T (nid_kind id) q) = Some x /\ nat_idx x = psum (n_ats T) (created c) j + q);
  }.

  Lemma fr_new : fr conf_new ([], []).
  Proof. constructor; cbn; try done. intros; lia. Qed.

  Lemma fr_ext c c' A : fr c A -> created c `prefix_of` created c' ->
    (forall id ni, conf_inst c' id = Some ni -> conf_inst c id = Some ni) ->
    cf_pvals c' = cf_pvals c -> cf_avals c' = cf_avals c -> cf_atoms c' = cf_atoms c ->
    (forall k x', cf_params c' !! k = Some x' -> exists x, cf_params c !! k = Some x /\ npa_idx x' = npa_idx x /\ npa_value x' = npa_value x) ->
    (forall k x, cf_params c !! k = Some x -> exists x', cf_params c' !! k = Some x' /\ npa_idx x' = npa_idx x) -> fr c' A.
  Proof.
    intros [F1 F2 F3 F4] Hpre Hi Hpv Hav Hat H1 H2. constructor.
    - intros id q x' Hx'. destruct (H1 _ _ Hx') as (x & Hx & -> & ->). destruct (F1 id q x Hx) as (j & Hj & ? & E & ? & ?).
      exists j. split; [by eapply prefix_at|]. split; [done|]. rewrite Hpv. split; [|done].
      by rewrite E, (psum_prefix _ _ _ _ _ Hpre Hj).
    - intros i Hlt. destruct (F2 i Hlt) as (k & x & Hx & Hix). destruct (H2 k x Hx) as (x' & ? & E). exists k, x'. split; [done|congruence].
    - rewrite Hat, Hav. intros id i x Hx. destruct (F3 id i x Hx) as (j & q & Hj & ? & ? & E & ?). exists j, q.
      split; [by eapply prefix_at|]. do 2 (split; [done|]). split; [|done]. by rewrite E, (psum_prefix _ _ _ _ _ Hpre Hj).
    - intros id ni Hni. destruct (F4 id ni (Hi _ _ Hni)) as (j & Hj & E1 & E2 & E3 & E4). exists j.
      rewrite !(psum_prefix _ _ _ _ _ Hpre Hj), Hat. split; [by eapply prefix_at|]. split; [done|]. split; [done|]. split; [|done].
      intros q Hq. destruct (E3 q Hq) as (x & Hx & Ex). destruct (H2 _ _ Hx) as (x' & ? & ?). exists x'. split; [done|congruence].
  Qed.

  Lemma fr_create c n c' A : conf_inv T c -> fr c A -> conf_create T c n = Some c' -> conf_inv T c' /\ fr c' A.
  Proof.
    intros Hc Hf E. split; [by eapply create_inv|]. pose proof (create_ids T _ _ _ E) as Hids.
    unfold conf_create in E. destruct (nt_known T (nid_kind n)); [|done]. injection E as <-.
    apply (fr_ext c); try done.
    - rewrite Hids. by eexists.
    - intros id ni. unfold conf_inst, conf_node. cbn [cf_idx cf_nodes]. destruct (decide (id = n)) as [->|Hne].
      + rewrite lookup_insert. cbn [mbind option_bind]. by rewrite lookup_app_r, Nat.sub_diag by lia.
      + rewrite lookup_insert_ne by done. destruct (cf_idx c !! id) as [i|] eqn:Ei; cbn [mbind option_bind]; [|done].
        destruct (ci_idx T c Hc id i Ei) as (oi & Hn & _). by rewrite (lookup_app_l_Some _ _ _ _ Hn), Hn.
    - intros k x Hx. by exists x.
    - intros k x Hx. by exists x.
  Qed.

  Lemma fr_create_cells ns c c' A : conf_inv T c -> fr c A -> conf_create_cells T c ns = Some c' -> conf_inv T c' /\ fr c' A.
  Proof.
    intros Hc Hf E. eapply (foldm_inv _ (fun c => conf_inv T c /\ fr c A)); [|done|exact E].
    intros s n s' _ [Hs1 Hs2]. unfold conf_create_cell. destruct (decide (n = Nop)); [by intros [= <-]|].
    destruct (cf_idx s !! n); [by intros [= <-]|].
    destruct (foldm (conf_ensure T) s _) as [s1|] eqn:E1; cbn [mbind option_bind]; [|done]. intros E2.
    assert (conf_inv T s1 /\ fr s1 A) as [H1 H2]; [|by eapply fr_create].
    eapply (foldm_inv _ (fun c => conf_inv T c /\ fr c A)); [|done|exact E1].
    intros a m a' _ [Ha1 Ha2]. unfold conf_ensure. destruct (cf_idx a !! m); [by intros [= <-]|]. by apply fr_create.
  Qed.

  (** the values of a built program *)
  Lemma program_values h c order es h' c' p : conf_fine T c -> conf_program T h c order es = Some (h', c', p) ->
    exists c1, laid T c c1 /\ same_values c1 c' /\ same_inst c' c1 /\
      length (np_params p) = psum (n_ins T) (created c) (length (created c)) /\
      (forall k x, cf_params c1 !! k = Some x -> np_params p !! npa_idx x = Some (npa_value x)) /\
      (forall k x, cf_atoms c1 !! k = Some x -> np_atoms p !! nat_idx x = Some (nat_value x)) /\
      (forall b, b < h_next h -> h_bufs h' !! b = h_bufs h !! b).
  Proof.
    intros Hg. destruct (rebuild_laid T HT h c Hg) as (h1 & c1 & p1 & E & Hl & Hp). cbn zeta in Hp.
    unfold conf_program. rewrite E. cbn [mbind option_bind].
    destruct (foldm conf_connect _ es) as [[c3 p3]|] eqn:E3; cbn [mbind option_bind]; [|done].
    destruct (prog_new_lengths _ _ _ _ _ _ _ Hp) as (L1 & L2 & L3 & L4 & Ho & Hcur & Hpar & Hlk & Hfb & Hats).
    destruct (program_ops_fit T c c1 p1 order es Hl Ho _ E3) as (V & ops & Hp3 & Hf). cbn zeta in *. cbn [fst snd] in *. subst p3.
    destruct (fill_spec T c c1 c3 (with_ops p1 ops) Hl V) as (ps & ms & ats & -> & P1 & P2 & P3 & V1 & V2 & V3 & V4); cbn; try done.
    { by rewrite Hpar, replicate_length. }
    cbn [mbind option_bind]. intros [= <- <- <-]. exists c1. split; [done|]. split; [done|]. split.
    { destruct (add_nodes_any T c c1 p1 order Hl) as (S1 & I1 & _). cbn zeta in *.
      assert (Hx : conf_inv T (c3, with_ops p1 ops).1 /\ same_inst (c3, with_ops p1 ops).1 c1); [|apply Hx].
      eapply (foldm_inv conf_connect (fun s => conf_inv T s.1 /\ same_inst s.1 c1)); [|done|exact E3].
      intros s e s' _ [Hi Hsi]. unfold conf_connect. destruct (conf_inst s.1 (e_from e)); [|by intros [= <-]].
      destruct (conf_inst s.1 (e_to e)); [|by intros [= <-]]. destruct (ni_mod_global _ _); cbn [mbind option_bind]; [|done].
      intros [= <-]. cbn [fst]. split; [by apply mark_inv|by apply same_inst_mark with (T := T)]. }
    cbn in *. split; [by rewrite P1, Hpar, replicate_length|]. split; [done|]. split; [done|].
    intros b Hb.
    assert (HB : forall n h, b < h_next h -> b < h_next (bufs_new h n).1 /\ h_bufs (bufs_new h n).1 !! b = h_bufs h !! b).
    { clear. induction n as [|n IH]; intros h Hb; cbn [bufs_new]; [done|]. unfold buf_new.
      specialize (IH (Heap (<[h_next h:=replicate block_size f32_zero]> (h_bufs h)) (S (h_next h)))).
      destruct (bufs_new _ n) as [h2 l]. cbn in *. destruct IH as [H1 H2]; [lia|]. split; [done|].
      rewrite H2. apply lookup_insert_ne. lia. }
    assert (HM : forall n h, b < h_next h -> b < h_next (modops_new h n).1 /\ h_bufs (modops_new h n).1 !! b = h_bufs h !! b).
    { clear. induction n as [|n IH]; intros h Hb; cbn [modops_new]; [done|]. unfold buf_new.
      specialize (IH (Heap (<[h_next h:=replicate block_size f32_zero]> (h_bufs h)) (S (h_next h)))).
      destruct (modops_new _ n) as [h2 l]. cbn in *. destruct IH as [H1 H2]; [lia|]. split; [done|].
      rewrite H2. apply lookup_insert_ne. lia. }
    revert Hp. unfold prog_new.
    match goal with |- context [bufs_new h ?n] => destruct (HB n h Hb) as [B1 B2]; destruct (bufs_new h n) as [g1 o1] end. cbn [fst] in *.
    match goal with |- context [bufs_new g1 ?n] => destruct (HB n g1 B1) as [B3 B4]; destruct (bufs_new g1 n) as [g2 o2] end. cbn [fst] in *.
    match goal with |- context [modops_new g2 ?n] => destruct (HM n g2 B3) as [B5 B6]; destruct (modops_new g2 n) as [g3 o3] end. cbn [fst] in *.
    intros [= <- _]. congruence.
  Qed.

  Lemma fr_program h c order es h' c' p A : conf_fine T c -> fr c A -> conf_program T h c order es = Some (h', c', p) ->
    fits_msg A (MNewProg p true) /\ fr c' (np_params p, np_atoms p).
  Proof.
    intros Hg Hf E. destruct (program_values _ _ _ _ _ _ _ Hg E) as (c1 & Hl & (_ & Sp & Sv & _ & Sa & Sw & Sn) & Si & Lp & V1 & V3 & _).
    assert (Hids : created c' = created c) by (unfold created at 1; rewrite Sn; apply Hl).
    split.
    - cbn. intros i v Hi. destruct (fr_cov _ _ Hf i) as ([id q] & x & Hx & Ei); [by eapply lookup_lt_Some|].
      destruct (fr_pos _ _ Hf id q x Hx) as (j & Hj & Hq & Hix & Hpv & HA). rewrite Ei, Hi in HA. injection HA as ->.
      pose proof (ld_param _ _ _ Hl j id q Hj Hq) as Hc1. apply V1 in Hc1. cbn in Hc1. rewrite <- Ei, Hix, Hc1.
      unfold pval_of. by rewrite Hpv.
    - constructor; cbn [fst snd]; rewrite ?Hids, ?Sp, ?Sv, ?Sa, ?Sw.
      + intros id q x Hx. destruct (laid_param_inv T _ _ _ _ _ Hl Hx) as (j & Hj & Hq & Hix & Hv & _).
        exists j. split; [done|]. split; [done|]. split; [done|]. split; [|by eapply V1].
        rewrite Hv. apply (ld_pval _ _ _ Hl); [|done]. by eapply elem_of_list_lookup_2.
      + intros i Hi. rewrite Lp in Hi. destruct (psum_cover (n_ins T) _ _ Hi) as (j & id & Hj & Hb).
        exists (id, i - psum (n_ins T) (created c) j). rewrite (ld_param _ _ _ Hl j id) by (done || lia).
        eexists. split; [done|]. cbn. lia.
      + intros id i x Hx. destruct (laid_atom_inv T _ _ _ _ _ Hl Hx) as (j & q & Hj & Hq & -> & Hix & Hv).
        exists j, q. do 4 (split; [done|]). split; [|by eapply V3]. rewrite Hv. apply (ld_aval _ _ _ Hl); [|done]. by eapply elem_of_list_lookup_2.
      + intros id ni Hni. destruct (same_inst_some _ _ _ _ Si Hni) as (ni1 & Hn1 & Hop & _).
        destruct (laid_inst_inv T _ _ _ _ Hl Hn1) as (j & Hj & Hok). exists j. split; [done|].
        pose proof (f_equal op_in Hop) as E1. pose proof (f_equal op_at Hop) as E2. cbn in E1, E2.
        rewrite E1, E2, (io_in _ _ _ _ _ _ _ _ _ Hok), (io_at _ _ _ _ _ _ _ _ _ Hok). cbn. split; [done|]. split; [done|]. split.
        * intros q Hq. eexists. split; [by apply (ld_param _ _ _ Hl)|done].
        * intros q Hq. eexists. split; [by apply (ld_atom _ _ _ Hl)|done].
  Qed.

  (** what a call does to the audio thread once its messages are handled *)
  Definition fr_call (A : list f32 * list satom) (c' : nconf) (ms : list gmsg) : Prop :=
    coherent A ms /\ fr c' (foldl applied A ms).

  Lemma fr_call_app A c' ms ms' : coherent A ms -> fr_call (foldl applied A ms) c' ms' -> fr_call A c' (ms ++ ms').
  Proof. intros H1 [H2 H3]. split; [apply coherent_app; done|]. by rewrite foldl_app. Qed.

  Lemma monitor_applied ms A : (forall x, x ∈ ms -> exists bs, x = MMonitor bs) -> coherent A ms /\ foldl applied A ms = A.
  Proof.
    induction ms as [|m ms IH]; intros H; [done|]. destruct (H m) as [bs ->]; [left|]. cbn.
    destruct IH as [? ?]; [intros x Hx; apply H; by right|]. done.
  Qed.

  Lemma fr_sync h m h' m' ms r A : mx_inv T m -> fr (mx_conf m) A -> matrix_sync T h m = Some (h', m', ms, r) ->
    fr_call A (mx_conf m') ms /\ (forall b, b < h_next h -> h_bufs h' !! b = h_bufs h !! b).
  Proof.
    intros Hm Hf E. destruct (sync_cases T HT _ _ _ _ _ _ Hm E) as (c1 & Ec & Hg1 & _ & _ & _ & Hr).
    destruct (fr_create_cells _ _ _ A (cg_inv _ _ (proj2 Hm)) Hf Ec) as [_ Hf1]. destruct r as [err|].
    - destruct Hr as (_ & -> & -> & -> & _). by split.
    - destruct Hr as (order & p & mon & _ & Ep & -> & Hmon).
      destruct (fr_program _ _ _ _ _ _ _ A (good_fine T c1 Hg1) Hf1 Ep) as [H1 H2]. split.
      + destruct (monitor_applied mon (np_params p, np_atoms p) Hmon) as [C1 C2]. split; [by split|].
        cbn [foldl applied]. by rewrite C2.
      + by destruct (program_values _ _ _ _ _ _ _ (good_fine T c1 Hg1) Ep) as (? & _ & _ & _ & _ & _ & _ & ?).
  Qed.

  Context (i2f : Z -> f32) (load_sample : satom -> satom).

  Lemma fr_set_param c p a A : fr c A -> let cm := conf_set_param T i2f load_sample c p a in fr_call A cm.1 cm.2.
  Proof.
    intros Hf. cbn zeta. unfold conf_set_param. destruct (is_atom T p) eqn:Ea.
    - destruct p as [id0 i0]. destruct (cf_atoms c !! (id0, i0)) as [y|] eqn:Ey; cbn [fst snd].
      + destruct (fr_atom _ _ Hf id0 i0 y Ey) as (j0 & q0 & Hj0 & Hq0 & Hi0 & Hix0 & _ & HA0).
        split; [split; [by eapply lookup_lt_Some|done]|]. cbn [foldl applied].
        constructor; cbn [fst snd cf_params cf_pvals cf_atoms cf_avals cf_nodes created].
        * apply Hf.
        * apply Hf.
        * intros id i x Hx. change (created _) with (created c). destruct (decide ((id, i) = (id0, i0))) as [[= -> ->]|Hne].
          -- rewrite lookup_insert in Hx. injection Hx as <-. cbn. exists j0, q0. do 4 (split; [done|]).
             split; [by rewrite lookup_insert|]. apply list_lookup_insert. by eapply lookup_lt_Some.
          -- rewrite lookup_insert_ne in Hx by done. destruct (fr_atom _ _ Hf id i x Hx) as (j & q & Hj & Hq & Hi & Hix & Hv & HA).
             exists j, q. do 4 (split; [done|]). rewrite lookup_insert_ne by done. split; [done|].
             rewrite list_lookup_insert_ne; [done|]. intros Heq. apply Hne. rewrite Hix, Hix0 in Heq.
             destruct (psum_inj _ _ _ _ _ _ _ _ Hj Hj0 Hq Hq0) as [-> ->]; [done|]. congruence.
        * intros id ni Hni. change (created _) with (created c). destruct (fr_inst _ _ Hf id ni Hni) as (j & Hj & E1 & E2 & E3 & E4).
          exists j. do 4 (split; [done|]). intros q Hq. destruct (E4 q Hq) as (x & Hx & Hix).
          destruct (decide ((id, nt_at_id T (nid_kind id) q) = (id0, i0))) as [Heq|Hne].
          -- rewrite Heq in *. rewrite lookup_insert. eexists. split; [done|]. cbn. congruence.
          -- rewrite lookup_insert_ne by done. by exists x.
      + split; [done|]. cbn [foldl]. destruct Hf as [F1 F2 F3 F4]. constructor; try done. cbn.
        intros id i x Hx. destruct (F3 id i x Hx) as (j & q & ? & ? & ? & ? & ? & ?). exists j, q. do 4 (split; [done|]).
        rewrite lookup_insert_ne; [done|]. intros [= -> ->]. congruence.
    - destruct p as [id0 i0]. destruct (cf_params c !! (id0, i0)) as [y|] eqn:Ey; cbn [fst snd].
      + destruct (fr_pos _ _ Hf id0 i0 y Ey) as (j0 & Hj0 & Hq0 & Hix0 & _ & HA0).
        split; [by split|]. cbn [foldl applied].
        constructor; cbn [fst snd cf_params cf_pvals cf_atoms cf_avals cf_nodes created].
        * intros id q x Hx. change (created _) with (created c). destruct (decide ((id, q) = (id0, i0))) as [[= -> ->]|Hne].
          -- rewrite lookup_insert in Hx. injection Hx as <-. cbn. exists j0. do 3 (split; [done|]).
             split; [by rewrite lookup_insert|]. apply list_lookup_insert. by eapply lookup_lt_Some.
          -- rewrite lookup_insert_ne in Hx by done. destruct (fr_pos _ _ Hf id q x Hx) as (j & Hj & Hq & Hix & Hv & HA).
             exists j. do 3 (split; [done|]). rewrite lookup_insert_ne by done. split; [done|].
             rewrite list_lookup_insert_ne; [done|]. intros Heq. apply Hne. rewrite Hix, Hix0 in Heq.
             destruct (psum_inj _ _ _ _ _ _ _ _ Hj Hj0 Hq Hq0) as [-> ->]; [done|]. congruence.
        * rewrite insert_length. intros i Hi. destruct (fr_cov _ _ Hf i Hi) as (k & x & Hx & Hix).
          destruct (decide (k = (id0, i0))) as [->|Hne].
          -- exists (id0, i0). rewrite lookup_insert. eexists. split; [done|]. cbn. congruence.
          -- exists k, x. by rewrite lookup_insert_ne.
        * apply Hf.
        * intros id ni Hni. change (created _) with (created c). destruct (fr_inst _ _ Hf id ni Hni) as (j & Hj & E1 & E2 & E3 & E4).
          exists j. do 3 (split; [done|]). split; [|done]. intros q Hq. destruct (E3 q Hq) as (x & Hx & Hix).
          destruct (decide ((id, q) = (id0, i0))) as [Heq|Hne].
          -- rewrite Heq in *. rewrite lookup_insert. eexists. split; [done|]. cbn. congruence.
          -- rewrite lookup_insert_ne by done. by exists x.
      + split; [done|]. cbn [foldl]. destruct Hf as [F1 F2 F3 F4]. constructor; try done. cbn.
        intros id i x Hx. destruct (F1 id i x Hx) as (j & ? & ? & ? & ? & ?). exists j. do 3 (split; [done|]).
        rewrite lookup_insert_ne; [done|]. intros [= -> ->]. congruence.
  Qed.

  Lemma fr_set_modamt c p v A : fr c A -> let cm := conf_set_modamt T c p v in fr_call A cm.1.1 cm.1.2.
  Proof.
    intros Hf. cbn zeta. unfold conf_set_modamt. destruct (is_atom T p) eqn:Ea; [by split|].
    set (params := match cf_params c !! p with
      | Some (NParam i w (Some (mi, _))) => <[p := NParam i w (Some (mi, default f32_zero v))]> (cf_params c)
      | _ => cf_params c
      end).
    set (c' := NConf (cf_nodes c) (cf_idx c) params (cf_pvals c) (<[p := v]> (cf_modamt c)) (cf_atoms c) (cf_avals c)).
    assert (Hp : (forall k x', params !! k = Some x' -> exists x, cf_params c !! k = Some x /\ npa_idx x' = npa_idx x /\ npa_value x' = npa_value x) /\
      (forall k x, cf_params c !! k = Some x -> exists x', params !! k = Some x' /\ npa_idx x' = npa_idx x)).
    { unfold params. destruct (cf_params c !! p) as [[i w [[mi am]|]]|] eqn:Ep; try (by split; intros k x Hx; exists x).
      split; intros k x Hx; (destruct (decide (k = p)) as [->|Hne]; [rewrite lookup_insert in *|rewrite lookup_insert_ne in * by done; by exists x]).
      - injection Hx as <-. by eexists.
      - rewrite Ep in Hx. injection Hx as <-. by eexists. }
    assert (Hf' : fr c' A) by (apply (fr_ext c); try done; apply Hp).
    destruct (conf_get_modamt c p), v; cbn [fst snd]; try (by split).
    match goal with |- context [match ?o with Some i => [MModamt i _] | None => [] end] => destruct o end; (split; [by repeat split|exact Hf']).
  Qed.

  Lemma fr_load c ps ats nrm A : fr c A -> let cm := conf_load T i2f load_sample c ps ats nrm in fr_call A cm.1 cm.2.
  Proof.
    intros Hf. cbn zeta. unfold conf_load.
    assert (H1 : forall ps s, fr_call A s.1 s.2 -> let cm := foldl (conf_load_param T i2f load_sample nrm) s ps in fr_call A cm.1 cm.2).
    { clear. cbn zeta. induction ps as [|[[p v] m] ps IH]; intros s [Hs1 Hs2]; [by split|]. cbn [foldl]. apply IH. unfold conf_load_param.
      set (w := if nrm then _ else _).
      pose proof (fr_set_param s.1 p (AParam w) _ Hs2) as [A1 A2]. destruct (conf_set_param _ _ _ _ _ _) as [c1 ms1]. cbn [fst snd] in *.
      pose proof (fr_set_modamt c1 p m _ A2) as [B1 B2]. destruct (conf_set_modamt _ _ _ _) as [[c2 ms2] b]. cbn [fst snd] in *.
      apply fr_call_app; [done|]. by apply fr_call_app. }
    assert (H2 : forall ats s, fr_call A s.1 s.2 -> let cm := foldl (conf_load_atom T i2f load_sample) s ats in fr_call A cm.1 cm.2).
    { clear. cbn zeta. induction ats as [|[p a] ats IH]; intros s [Hs1 Hs2]; [by split|]. cbn [foldl]. apply IH. unfold conf_load_atom. cbn [fst snd].
      pose proof (fr_set_param s.1 p a _ Hs2) as A1. destruct (conf_set_param _ _ _ _ _ _) as [c1 ms1]. cbn [fst snd] in *.
      by apply fr_call_app. }
    apply H2, H1. by split.
  Qed.

  Lemma fr_step h m o h' m' ms A : mx_inv T m -> fr (mx_conf m) A -> matrix_step T i2f load_sample h m o = Some (h', m', ms) ->
    fr_call A (mx_conf m') ms /\ (forall b, b < h_next h -> h_bufs h' !! b = h_bufs h !! b).
  Proof.
    intros Hm Hf. destruct o as [o| | |p a|p v|ps ats nrm|c]; cbn [matrix_step].
    - destruct (lop_pure o); [|by intros [= <- <- <-]].
      destruct (lay_step _ _ o) as [[l1 r]|]; cbn [mbind option_bind]; [|done]. by intros [= <- <- <-].
    - destruct (matrix_sync T h m) as [[[[h1 m1] ms1] r]|] eqn:E; cbn [mbind option_bind]; [|done].
      intros [= <- <- <-]. by eapply fr_sync.
    - unfold matrix_clear. cbn [conf_delete_nodes]. unfold matrix_monitor. cbn [mx_lay mx_conf].
      match goal with |- context [matrix_sync T h ?mm] => set (m1 := mm) end.
      destruct (matrix_sync T h m1) as [[[[h2 m2] ms2] r]|] eqn:E; cbn [mbind option_bind]; [|done].
      intros [= <- <- <-].
      assert (Hm1 : mx_inv T m1) by (split; [apply cleared_ok, Hm|apply good_new]).
      destruct (fr_sync _ _ _ _ _ _ ([], []) Hm1 fr_new E) as [H1 H2]. split; [|done].
      match goal with |- context [MClear prog_empty :: ?a ++ ms2] => set (mm := a) end.
      destruct (monitor_applied mm ([], [])) as [C1 C2]; [apply monitor_msgs|].
      change (MClear prog_empty :: mm ++ ms2) with ([MClear prog_empty] ++ mm ++ ms2).
      apply fr_call_app; [by split|]. cbn [foldl applied]. apply fr_call_app; [done|]. by rewrite C2.
    - unfold matrix_set_param. pose proof (fr_set_param (mx_conf m) p a A Hf) as H1.
      destruct (conf_set_param _ _ _ _ _ _) as [c1 ms1]. intros [= <- <- <-]. by split.
    - unfold matrix_set_modamt. pose proof (fr_set_modamt (mx_conf m) p v A Hf) as [H1 H2].
      pose proof (set_modamt_good T (mx_conf m) p v (proj2 Hm)) as Hg.
      destruct (conf_set_modamt _ _ _ _) as [[c1 ms1] b]. cbn [fst snd] in *. destruct b; cbn [mbind option_bind].
      + destruct (matrix_sync T h _) as [[[[h1 m1] ms2] r]|] eqn:E; cbn [mbind option_bind]; [|done].
        intros [= <- <- <-]. eapply fr_sync in E as [H3 H4]; [|split; [apply Hm|done]|exact H2].
        split; [by apply fr_call_app|done].
      + intros [= <- <- <-]. by split.
    - unfold matrix_load. pose proof (fr_load (mx_conf m) ps ats nrm A Hf) as H1.
      destruct (conf_load _ _ _ _ _ _ _) as [c1 ms1]. intros [= <- <- <-]. by split.
    - unfold matrix_monitor. intros [= <- <- <-]. split; [|done].
      destruct (monitor_applied (conf_monitor (mx_conf m) (c_node c) [c_in1 c; c_in2 c; c_in3 c] [c_out1 c; c_out2 c; c_out3 c]) A) as [C1 C2].
      + apply monitor_msgs.
      + split; [done|]. by rewrite C2.
  Qed.
End front.
