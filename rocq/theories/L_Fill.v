(** Proofs about the values written into a new program, and the specification of a built program *)
From Verif Require Import Base M_Atom M_Graph M_Dir M_Grid M_Layout M_Prog M_Conf M_Exec M_Sync.
From Verif Require Import S_Conf S_Sync L_Conf L_Conf2 L_Prog L_Sync L_Build.
Open Scope nat_scope.

Definition mo_ptrs (mo : modop) := (mo_buf mo, mo_out mo, mo_in mo).

Lemma put_params_spec l ps ms :
  Forall (fun q => npa_idx q < length ps /\ forall m a, npa_mod q = Some (m, a) -> m < length ms) l ->
  NoDup (npa_idx <$> l) -> NoDup (omap (fun q => fst <$> npa_mod q) l) ->
  exists ps' ms', foldm put_param (ps, ms) l = Some (ps', ms') /\ length ps' = length ps /\ length ms' = length ms /\
    (forall q, q ∈ l -> ps' !! npa_idx q = Some (npa_value q)) /\
    (forall i, (forall q, q ∈ l -> npa_idx q <> i) -> ps' !! i = ps !! i) /\
    (forall q m a, q ∈ l -> npa_mod q = Some (m, a) -> mo_amt <$> ms' !! m = Some a) /\
    (forall m, mo_ptrs <$> ms' !! m = mo_ptrs <$> ms !! m).
Proof.
  induction l as [|q l IH] using rev_ind; intros Hw Hn Hm.
  - exists ps, ms. do 3 (split; [done|]). split; [by intros ? ?%elem_of_nil|]. split; [done|]. split; [by intros ? ? ? ?%elem_of_nil|done].
  - apply Forall_app in Hw as [Hw Hq]. apply (proj1 (Forall_singleton _ _)) in Hq as [Hq1 Hq2].
    rewrite fmap_app in Hn. apply NoDup_app in Hn as (Hn & Hd & _).
    rewrite omap_app in Hm. apply NoDup_app in Hm as (Hm & Hmd & _).
    destruct (IH Hw Hn Hm) as (ps1 & ms1 & E & L1 & L2 & V1 & V2 & A1 & A2).
    rewrite foldm_app, E. cbn [mbind option_bind foldm]. unfold put_param. cbn [fst snd].
    rewrite L1, (proj2 (Nat.ltb_lt _ _) Hq1). cbn [negb].
    assert (HV : forall q0, q0 ∈ l ++ [q] -> <[npa_idx q:=npa_value q]> ps1 !! npa_idx q0 = Some (npa_value q0)).
    { intros q0 [Hin| ->%elem_of_list_singleton]%elem_of_app.
      - rewrite list_lookup_insert_ne; [by apply V1|]. intros Heq. apply (Hd (npa_idx q0)).
        + by apply elem_of_list_fmap_1.
        + cbn. rewrite <- Heq. left.
      - by rewrite list_lookup_insert by lia. }
    assert (HV2 : forall i, (forall q0, q0 ∈ l ++ [q] -> npa_idx q0 <> i) -> <[npa_idx q:=npa_value q]> ps1 !! i = ps !! i).
    { intros i Hi. rewrite list_lookup_insert_ne; [apply V2; intros q0 Hq0; apply Hi, elem_of_app; by left|].
      apply Hi, elem_of_app. right; left. }
    destruct (npa_mod q) as [[m a]|] eqn:Em.
    + specialize (Hq2 m a eq_refl). destruct (lookup_lt_is_Some_2 ms1 m) as [mo Hmo]; [lia|]. rewrite Hmo. cbn [mbind option_bind].
      eexists _, _. split; [done|]. rewrite !insert_length. split; [done|]. split; [done|]. split; [done|]. split; [done|]. split.
      * intros q0 m0 a0 [Hin| ->%elem_of_list_singleton]%elem_of_app Hm0.
        -- rewrite list_lookup_insert_ne; [by eapply A1|]. intros <-. apply (Hmd m).
           ++ apply elem_of_list_omap. exists q0. split; [done|]. by rewrite Hm0.
           ++ cbn. rewrite Em. left.
        -- rewrite Em in Hm0. injection Hm0 as <- <-. rewrite list_lookup_insert by lia. done.
      * intros m0. destruct (decide (m = m0)) as [<-|Hne]; [|by rewrite list_lookup_insert_ne].
        rewrite list_lookup_insert by lia. rewrite <- A2, Hmo. done.
    + eexists _, _. split; [done|]. rewrite !insert_length. do 4 (split; [done|]). split; [|done].
      intros q0 m0 a0 [Hin| ->%elem_of_list_singleton]%elem_of_app Hm0; [by eapply A1|congruence].
Qed.

Lemma put_atoms_spec l ats :
  Forall (fun a => nat_idx a < length ats) l -> NoDup (nat_idx <$> l) ->
  exists ats', foldm put_atom ats l = Some ats' /\ length ats' = length ats /\
    (forall a, a ∈ l -> ats' !! nat_idx a = Some (nat_value a)) /\
    (forall i, (forall a, a ∈ l -> nat_idx a <> i) -> ats' !! i = ats !! i).
Proof.
  induction l as [|q l IH] using rev_ind; intros Hw Hn.
  - exists ats. do 2 (split; [done|]). split; [by intros ? ?%elem_of_nil|done].
  - apply Forall_app in Hw as [Hw Hq]. apply (proj1 (Forall_singleton _ _)) in Hq. cbn in Hq.
    rewrite fmap_app in Hn. apply NoDup_app in Hn as (Hn & Hd & _).
    destruct (IH Hw Hn) as (a1 & E & L1 & V1 & V2).
    rewrite foldm_app, E. cbn [mbind option_bind foldm]. unfold put_atom.
    rewrite L1, (proj2 (Nat.ltb_lt _ _) Hq). cbn [mbind option_bind]. eexists. split; [done|].
    rewrite insert_length. split; [done|]. split.
    + intros q0 [Hin| ->%elem_of_list_singleton]%elem_of_app.
      * rewrite list_lookup_insert_ne; [by apply V1|]. intros Heq. apply (Hd (nat_idx q0)).
        -- by apply elem_of_list_fmap_1.
        -- cbn. rewrite <- Heq. left.
      * by rewrite list_lookup_insert by lia.
    + intros i Hi. rewrite list_lookup_insert_ne; [apply V2; intros q0 Hq0; apply Hi, elem_of_app; by left|].
      apply Hi, elem_of_app. right; left.
Qed.

Lemma psum_inj (f : node_id -> nat) ids j j' a b q q' :
  ids !! j = Some a -> ids !! j' = Some b -> q < f a -> q' < f b ->
  psum f ids j + q = psum f ids j' + q' -> j = j' /\ q = q'.
Proof.
  intros Hj Hj' Hq Hq' Heq. pose proof (psum_S f _ _ _ Hj). pose proof (psum_S f _ _ _ Hj').
  destruct (decide (j < j')) as [Hl|Hl].
  { pose proof (psum_mono f ids (S j) j' ltac:(lia)). lia. }
  destruct (decide (j' < j)) as [Hl'|Hl'].
  { pose proof (psum_mono f ids (S j') j ltac:(lia)). lia. }
  assert (j = j') as -> by lia. split; [done|]. lia.
Qed.

Lemma psum_bound (f : node_id -> nat) ids j a : ids !! j = Some a -> psum f ids j + f a <= psum f ids (length ids).
Proof.
  intros Hj. rewrite <- (psum_S f _ _ _ Hj). apply psum_mono. by apply lookup_lt_Some in Hj.
Qed.

Lemma fmap_snd_NoDup {K} `{Countable K} {A B} (m : gmap K A) (f : A -> B) :
  (forall k1 k2 a1 a2, m !! k1 = Some a1 -> m !! k2 = Some a2 -> f a1 = f a2 -> k1 = k2) ->
  NoDup (f <$> (map_to_list m).*2).
Proof.
  intros Hf. rewrite <- list_fmap_compose. apply NoDup_fmap_2_strong; [|apply NoDup_map_to_list].
  intros [k1 a1] [k2 a2] H1 H2 Heq. apply elem_of_map_to_list in H1, H2. cbn in Heq.
  pose proof (Hf _ _ _ _ H1 H2 Heq) as ->. congruence.
Qed.

Lemma NoDup_omap_strong {A B} (f : A -> option B) (l : list A) :
  (forall x y b, x ∈ l -> y ∈ l -> f x = Some b -> f y = Some b -> x = y) -> NoDup l -> NoDup (omap f l).
Proof.
  intros Hf Hn. induction Hn as [|x l Hx Hn IH]; cbn; [constructor|].
  assert (NoDup (omap f l)). { apply IH. intros y z b Hy Hz. apply Hf; by right. }
  destruct (f x) as [b|] eqn:E; [|done]. constructor; [|done].
  intros (y & Hy & Hb)%elem_of_list_omap. apply Hx.
  rewrite (Hf x y b); [done|left|by right|done|done].
Qed.

Lemma omap_snd_NoDup {K} `{Countable K} {A B} (m : gmap K A) (f : A -> option B) :
  (forall k1 k2 a1 a2 b, m !! k1 = Some a1 -> m !! k2 = Some a2 -> f a1 = Some b -> f a2 = Some b -> k1 = k2) ->
  NoDup (omap f ((map_to_list m).*2)).
Proof.
  intros Hf.
  assert (E : forall l : list (K * A), omap f (l.*2) = omap (fun ka => f ka.2) l).
  { induction l as [|[k a] l IH]; [done|]. cbn. by rewrite IH. }
  rewrite E. apply NoDup_omap_strong; [|apply NoDup_map_to_list].
  intros [k1 a1] [k2 a2] b H1 H2 E1 E2. apply elem_of_map_to_list in H1, H2. cbn in *.
  pose proof (Hf _ _ _ _ _ H1 H2 E1 E2) as ->. congruence.
Qed.

Section fill.
  Context (T : ntable) (HT : table_ok T).

  (** where everything of a rebuilt configuration is: [ids] are the created nodes, [c] the configuration before *)
  Record laid (c c1 : nconf) : Prop := {
    ld_ids : created c1 = created c;
    ld_inv : conf_inv T c1;
    ld_nodup : NoDup (created c);
    ld_modamt : cf_modamt c1 = cf_modamt c;
    ld_inst : forall j id, created c !! j = Some id -> exists ni, conf_inst c1 id = Some ni /\
       inst_ok T (cf_modamt c) (created c) 0 (RLens 0 0 0) 0 j id ni;
    ld_param : forall j id q, created c !! j = Some id -> q < n_ins T id ->
       cf_params c1 !! (id, q) =
         Some (NParam (psum (n_ins T) (created c) j + q) (pval_of T (cf_pvals c) id q)
           (match mjoin (cf_modamt c !! (id, q)) with
            | Some a => Some (psum (n_mods T (cf_modamt c)) (created c) j + rank (cf_modamt c) id q, a)
            | None => None end));
    ld_param_only : forall id q x, cf_params c1 !! (id, q) = Some x -> id ∈ created c /\ q < n_ins T id;
    ld_atom : forall j id q, created c !! j = Some id -> q < n_ats T id ->
       cf_atoms c1 !! (id, nt_at_id T (nid_kind id) q) =
         Some (NAtom (psum (n_ats T) (created c) j + q) (aval_of T (cf_avals c) id q));
    ld_atom_only : forall id i x, cf_atoms c1 !! (id, i) = Some x -> id ∈ created c /\
       exists q, q < n_ats T id /\ i = nt_at_id T (nid_kind id) q;
    ld_pval : forall id q, id ∈ created c -> q < n_ins T id -> cf_pvals c1 !! (id, q) = Some (pval_of T (cf_pvals c) id q);
    ld_aval : forall id q, id ∈ created c -> q < n_ats T id ->
       cf_avals c1 !! (id, nt_at_id T (nid_kind id) q) = Some (aval_of T (cf_avals c) id q);
  }.

  Lemma rebuild_laid h c : conf_fine T c ->
    exists h1 c1 p1, conf_rebuild T h c = Some (h1, c1, p1) /\ laid c c1 /\
      let ids := created c in let N := length ids in
      prog_new h (psum (n_outs T) ids N) (psum (n_ins T) ids N) (psum (n_ats T) ids N) (psum (n_mods T (cf_modamt c)) ids N) = (h1, p1).
  Proof.
    intros [Hc Hnd]. destruct (conf_rebuild_spec T HT h c Hc) as (h1 & c1 & p1 & E & Hs). exists h1, c1, p1.
    split; [done|]. pose proof (rebuild_inv T HT _ _ _ _ _ Hc E) as Hc1. cbn zeta in Hs.
    destruct Hs as (Hp & Hids & Hix & Hma & Hin & P1 & P2 & P3 & V1 & V2 & A1 & A2 & B1 & B2). fold (created c) in *.
    split.
    - constructor; try done.
      + intros j id Hj. destruct (Hin j id Hj) as (ni & Hni & Hok). exists ni. split; [|done].
        unfold conf_inst, conf_node. destruct (ci_dom T c1 Hc1 j id (Some ni) Hni) as [i Hi].
        rewrite Hi. cbn [mbind option_bind]. destruct (ci_idx T c1 Hc1 id i Hi) as (oi & Hoi & _).
        assert (i = j) as ->.
        { apply (NoDup_lookup (created c) i j id); [done| |done]. rewrite <- Hids. by rewrite list_lookup_fmap, Hoi. }
        rewrite Hni. done.
      + by apply P1.
      + intros id q x Hx. split.
        * destruct (decide (id ∈ created c)); [done|]. rewrite P2 in Hx by (by left). done.
        * destruct (decide (q < n_ins T id)); [done|]. rewrite P2 in Hx by (right; cbn; lia). done.
      + by apply A1.
      + intros id i x Hx. split.
        * destruct (decide (id ∈ created c)); [done|]. rewrite A2 in Hx by (by left). done.
        * destruct (decide (Exists (fun j => i = nt_at_id T (nid_kind id) j) (seq 0 (n_ats T id)))) as [Hy|Hy].
          -- apply Exists_exists in Hy as (q & Hq & ->). apply elem_of_seq in Hq. exists q. split; [lia|done].
          -- rewrite A2 in Hx; [done|]. right. intros q Hq Heq. apply Hy, Exists_exists. exists q.
             split; [apply elem_of_seq; cbn in Hq; lia|done].
    - cbn zeta. rewrite <- Hp. unfold created at 2 4 6 8. by rewrite fmap_length.
  Qed.

  Lemma laid_param_inv c c1 id q x : laid c c1 -> cf_params c1 !! (id, q) = Some x ->
    exists j, created c !! j = Some id /\ q < n_ins T id /\ npa_idx x = psum (n_ins T) (created c) j + q /\
      npa_value x = pval_of T (cf_pvals c) id q /\
      npa_mod x = match mjoin (cf_modamt c !! (id, q)) with
            | Some a => Some (psum (n_mods T (cf_modamt c)) (created c) j + rank (cf_modamt c) id q, a)
            | None => None end.
  Proof.
    intros Hl Hx. destruct (ld_param_only _ _ Hl _ _ _ Hx) as [Hid Hq]. apply elem_of_list_lookup in Hid as [j Hj].
    exists j. split; [done|]. split; [done|]. rewrite (ld_param _ _ Hl j id q Hj Hq) in Hx. by injection Hx as <-.
  Qed.
  Lemma laid_atom_inv c c1 id i x : laid c c1 -> cf_atoms c1 !! (id, i) = Some x ->
    exists j q, created c !! j = Some id /\ q < n_ats T id /\ i = nt_at_id T (nid_kind id) q /\
      nat_idx x = psum (n_ats T) (created c) j + q /\ nat_value x = aval_of T (cf_avals c) id q.
  Proof.
    intros Hl Hx. destruct (ld_atom_only _ _ Hl _ _ _ Hx) as [Hid (q & Hq & ->)]. apply elem_of_list_lookup in Hid as [j Hj].
    exists j, q. split; [done|]. split; [done|]. rewrite (ld_atom _ _ Hl j id q Hj Hq) in Hx. by injection Hx as <-.
  Qed.

  Lemma rank_bound modamt id q a : mjoin (modamt !! (id, q)) = Some a -> q < n_ins T id -> rank modamt id q < n_mods T modamt id.
  Proof. intros Ha Hq. by eapply rank_lt. Qed.

  (** the parameters of a laid out configuration have different places *)
  Lemma laid_param_inj c c1 k1 k2 x1 x2 : laid c c1 -> cf_params c1 !! k1 = Some x1 -> cf_params c1 !! k2 = Some x2 ->
    npa_idx x1 = npa_idx x2 -> k1 = k2.
  Proof.
    intros Hl H1 H2 Heq. destruct k1 as [n1 q1], k2 as [n2 q2].
    destruct (laid_param_inv _ _ _ _ _ Hl H1) as (j1 & Hj1 & Hq1 & I1 & _).
    destruct (laid_param_inv _ _ _ _ _ Hl H2) as (j2 & Hj2 & Hq2 & I2 & _).
    rewrite I1, I2 in Heq. destruct (psum_inj _ _ _ _ _ _ _ _ Hj1 Hj2 Hq1 Hq2 Heq) as [-> ->]. congruence.
  Qed.
  Lemma laid_mod_inj c c1 k1 k2 x1 x2 m a1 a2 : laid c c1 -> cf_params c1 !! k1 = Some x1 -> cf_params c1 !! k2 = Some x2 ->
    npa_mod x1 = Some (m, a1) -> npa_mod x2 = Some (m, a2) -> k1 = k2.
  Proof.
    intros Hl H1 H2 E1 E2. destruct k1 as [n1 q1], k2 as [n2 q2].
    destruct (laid_param_inv _ _ _ _ _ Hl H1) as (j1 & Hj1 & Hq1 & _ & _ & I1).
    destruct (laid_param_inv _ _ _ _ _ Hl H2) as (j2 & Hj2 & Hq2 & _ & _ & I2).
    rewrite I1 in E1. rewrite I2 in E2.
    destruct (mjoin (cf_modamt c !! (n1, q1))) as [b1|] eqn:B1; [|done].
    destruct (mjoin (cf_modamt c !! (n2, q2))) as [b2|] eqn:B2; [|done].
    injection E1 as E1 _. injection E2 as E2 _. rewrite <- E2 in E1.
    destruct (psum_inj (n_mods T (cf_modamt c)) _ _ _ _ _ _ _ Hj1 Hj2 (rank_bound _ _ _ _ B1 Hq1) (rank_bound _ _ _ _ B2 Hq2) E1) as [-> Hr].
    rewrite Hj1 in Hj2. injection Hj2 as ->.
    destruct (decide (q1 < q2)) as [Hlt|]; [pose proof (rank_lt (cf_modamt c) n2 q1 q2 _ B1 Hlt); lia|].
    destruct (decide (q2 < q1)) as [Hlt|]; [pose proof (rank_lt (cf_modamt c) n2 q2 q1 _ B2 Hlt); lia|].
    f_equal. lia.
  Qed.
  Lemma laid_atom_inj c c1 k1 k2 x1 x2 : laid c c1 -> cf_atoms c1 !! k1 = Some x1 -> cf_atoms c1 !! k2 = Some x2 ->
    nat_idx x1 = nat_idx x2 -> k1 = k2.
  Proof.
    intros Hl H1 H2 Heq. destruct k1 as [n1 q1], k2 as [n2 q2].
    destruct (laid_atom_inv _ _ _ _ _ Hl H1) as (j1 & r1 & Hj1 & Hq1 & -> & I1 & _).
    destruct (laid_atom_inv _ _ _ _ _ Hl H2) as (j2 & r2 & Hj2 & Hq2 & -> & I2 & _).
    rewrite I1, I2 in Heq. destruct (psum_inj _ _ _ _ _ _ _ _ Hj1 Hj2 Hq1 Hq2 Heq) as [-> ->]. congruence.
  Qed.

  Lemma laid_fresh c c1 : laid c c1 -> length (created c) <= 256 -> fresh T c1.
  Proof.
    intros Hl Hs. constructor.
    - apply Hl.
    - rewrite (ld_ids _ _ Hl). apply Hl.
    - rewrite (ld_ids _ _ Hl). intros n Hn. apply elem_of_list_lookup in Hn as [j Hj].
      destruct (ld_inst _ _ Hl j n Hj) as (ni & Hni & Hok). exists j, ni. split; [done|]. split; [done|].
      split; [apply (io_idx _ _ _ _ _ _ _ _ _ Hok)|apply (io_id _ _ _ _ _ _ _ _ _ Hok)].
    - unfold small. rewrite <- (ld_ids _ _ Hl) in Hs. unfold created in Hs. by rewrite fmap_length in Hs.
  Qed.

  (** the program right after building: vectors, values and unwired modulators *)
  Record built (c c1 : nconf) (order : list node_id) (es : list edge_t) (p : nprog) : Prop := {
    bt_ops : np_ops p = opf c1 es <$> order;
    bt_len_out : length (np_out p) = psum (n_outs T) (created c) (length (created c));
    bt_len_in : length (np_inp p) = psum (n_ins T) (created c) (length (created c));
    bt_len_at : length (np_atoms p) = psum (n_ats T) (created c) (length (created c));
    bt_len_mod : length (np_mods p) = psum (n_mods T (cf_modamt c)) (created c) (length (created c));
    bt_len_par : length (np_params p) = length (np_inp p);
    bt_cur : np_cur p = replicate (length (np_inp p)) None;
    bt_fb : np_fb p = replicate (length (np_out p)) f32_zero;
    bt_unlocked : np_locked p = false;
    bt_param : forall k x, cf_params c1 !! k = Some x -> np_params p !! npa_idx x = Some (npa_value x);
    bt_amt : forall k x m a, cf_params c1 !! k = Some x -> npa_mod x = Some (m, a) -> mo_amt <$> np_mods p !! m = Some a;
    bt_atom : forall k x, cf_atoms c1 !! k = Some x -> np_atoms p !! nat_idx x = Some (nat_value x);
    bt_mods : Forall (fun mo => mo_out mo = None /\ mo_in mo = None) (np_mods p);
  }.

  Lemma modops_unwired h n : Forall (fun mo => mo_out mo = None /\ mo_in mo = None) (modops_new h n).2.
  Proof.
    revert h; induction n as [|n IH]; intros h; cbn; [constructor|].
    match goal with |- context [modops_new ?hh n] => specialize (IH hh); destruct (modops_new hh n) as [h' ms] end.
    cbn in *. by constructor.
  Qed.

  Lemma connects_total c c1 es p : laid c c1 -> inputs_ok es -> forall cp, same_inst cp.1 c1 -> conf_inv T cp.1 ->
    cp.2 = p -> exists cp', foldm conf_connect cp es = Some cp' /\ same_inst cp'.1 c1 /\ conf_inv T cp'.1 /\
      same_values cp.1 cp'.1.
  Proof.
    intros Hl Hok cp Hs Hc _.
    destruct (foldm_total conf_connect (fun s => same_inst s.1 c1 /\ conf_inv T s.1 /\ same_values cp.1 s.1) es cp) as (cp' & E & H); [|done|by exists cp'].
    intros s e He (H1 & H2 & H3). unfold conf_connect.
    destruct (conf_inst s.1 (e_from e)) as [sr|] eqn:Es; [|by exists s].
    destruct (conf_inst s.1 (e_to e)) as [d|] eqn:Ed; [|by exists s].
    destruct (same_inst_some _ _ _ _ H1 Ed) as (d1 & Hd1 & _ & _ & _ & Hdm & _).
    destruct (inst_node T c1 _ _ (ld_inv _ _ Hl) Hd1) as (i & Hi & Hnode & _).
    assert (Hci : created c !! i = Some (e_to e)).
    { rewrite <- (ld_ids _ _ Hl). unfold created. by rewrite list_lookup_fmap, Hnode. }
    destruct (ld_inst _ _ Hl i _ Hci) as (d2 & Hd2 & Hok2). rewrite Hd1 in Hd2. injection Hd2 as <-.
    pose proof (io_len _ _ _ _ _ _ _ _ _ Hok2) as Hlen.
    unfold ni_mod_global. rewrite Hdm, Hlen. specialize (Hok e He).
    destruct (Nat.ltb_spec max_node_inputs (e_to_input e)) as [Hb|Hb]; cbn [mbind option_bind].
    - eexists. split; [done|]. cbn [fst snd]. split; [by apply same_inst_mark with (T := T)|]. split; [by apply mark_inv|].
      eapply same_values_trans; [exact H3|apply mark_same].
    - destruct (lookup_lt_is_Some_2 (ni_map d1) (e_to_input e)) as [x Hx]; [lia|]. rewrite Hx. cbn [mbind option_bind].
      eexists. split; [done|]. cbn [fst snd]. split; [by apply same_inst_mark with (T := T)|]. split; [by apply mark_inv|].
      eapply same_values_trans; [exact H3|apply mark_same].
  Qed.

  Lemma prog_new_mods h o i a m h' p : prog_new h o i a m = (h', p) ->
    Forall (fun mo => mo_out mo = None /\ mo_in mo = None) (np_mods p).
  Proof.
    unfold prog_new. destruct (bufs_new h o) as [h1 out]. destruct (bufs_new h1 i) as [h2 inp].
    pose proof (modops_unwired h2 m) as H3. destruct (modops_new h2 m) as [h3 mods].
    intros [= <- <-]. done.
  Qed.

  (** filling in the values never fails *)
  Lemma fill_spec c c1 c' p : laid c c1 -> same_values c1 c' ->
    length (np_params p) = psum (n_ins T) (created c) (length (created c)) ->
    length (np_mods p) = psum (n_mods T (cf_modamt c)) (created c) (length (created c)) ->
    length (np_atoms p) = psum (n_ats T) (created c) (length (created c)) ->
    exists ps ms ats, conf_fill c' p = Some (NProg (np_inp p) (np_cur p) (np_out p) ps ats (np_ops p) ms (np_locked p) (np_fb p)) /\
      length ps = length (np_params p) /\ length ms = length (np_mods p) /\ length ats = length (np_atoms p) /\
      (forall k x, cf_params c1 !! k = Some x -> ps !! npa_idx x = Some (npa_value x)) /\
      (forall k x m a, cf_params c1 !! k = Some x -> npa_mod x = Some (m, a) -> mo_amt <$> ms !! m = Some a) /\
      (forall k x, cf_atoms c1 !! k = Some x -> ats !! nat_idx x = Some (nat_value x)) /\
      (forall m, mo_ptrs <$> ms !! m = mo_ptrs <$> np_mods p !! m).
  Proof.
    intros Hl (_ & Hpar & _ & _ & Hat & _) Lp Lm La.
    destruct (put_params_spec ((map_to_list (cf_params c1)).*2) (np_params p) (np_mods p)) as (ps & ms & E1 & L1 & L2 & V1 & V2 & A1 & A2).
    - apply Forall_forall. intros x (kx & -> & Hx)%elem_of_list_fmap. destruct kx as [[id q] x]. apply elem_of_map_to_list in Hx.
      destruct (laid_param_inv _ _ _ _ _ Hl Hx) as (j & Hj & Hq & I1 & _ & I2). cbn [snd]. rewrite I1, I2. split.
      + rewrite Lp. pose proof (psum_bound (n_ins T) _ _ _ Hj). lia.
      + intros m a Hma. destruct (mjoin (cf_modamt c !! (id, q))) as [b|] eqn:B; [|done]. injection Hma as <- <-.
        rewrite Lm. pose proof (psum_bound (n_mods T (cf_modamt c)) _ _ _ Hj). pose proof (rank_bound _ _ _ _ B Hq). lia.
    - apply fmap_snd_NoDup. intros. by eapply laid_param_inj.
    - apply omap_snd_NoDup. intros k1 k2 a1 a2 b H1 H2 E1 E2.
      destruct (npa_mod a1) as [[m1 b1]|] eqn:M1; [|done]. destruct (npa_mod a2) as [[m2 b2]|] eqn:M2; [|done].
      cbn in E1, E2. injection E1 as ->. injection E2 as ->. by eapply laid_mod_inj.
    - destruct (put_atoms_spec ((map_to_list (cf_atoms c1)).*2) (np_atoms p)) as (ats & E2 & L3 & V3 & _).
      + apply Forall_forall. intros x (kx & -> & Hx)%elem_of_list_fmap. destruct kx as [[id q] x]. apply elem_of_map_to_list in Hx.
        destruct (laid_atom_inv _ _ _ _ _ Hl Hx) as (j & r & Hj & Hq & _ & I1 & _). cbn [snd]. rewrite I1, La.
        pose proof (psum_bound (n_ats T) _ _ _ Hj). lia.
      + apply fmap_snd_NoDup. intros. by eapply laid_atom_inj.
      + exists ps, ms, ats. unfold conf_fill. rewrite Hpar, Hat, E1. cbn [mbind option_bind]. rewrite E2. cbn [mbind option_bind].
        do 4 (split; [done|]).
        assert (Hel : forall k x, cf_params c1 !! k = Some x -> x ∈ (map_to_list (cf_params c1)).*2).
        { intros k x Hx. apply elem_of_list_fmap. exists (k, x). split; [done|]. by apply elem_of_map_to_list. }
        split; [|split; [|split]].
        * intros k x Hx. by eapply V1, Hel.
        * intros k x m a Hx Hm. eapply A1; [by eapply Hel|done].
        * intros k x Hx. apply V3. apply elem_of_list_fmap. exists (k, x). split; [done|]. by apply elem_of_map_to_list.
        * done.
  Qed.

  (** the program was made from [p1] by filling in; same buffers *)
  Definition same_bufs (p p1 : nprog) : Prop :=
    np_inp p = np_inp p1 /\ np_out p = np_out p1 /\ mo_buf <$> np_mods p = mo_buf <$> np_mods p1.

  Lemma program_fill h c order es : conf_fine T c -> length (created c) <= 256 -> NoDup order ->
    (forall n, n ∈ order -> n ∈ created c) -> (forall e, e ∈ es -> e_to e ∈ order) ->
    exists h1 c1 p1, conf_rebuild T h c = Some (h1, c1, p1) /\ laid c c1 /\
    (forall cp', foldm conf_connect (foldl conf_add_node (c1, p1) order) es = Some cp' ->
       same_inst cp'.1 c1 /\ same_values c1 cp'.1 /\ conf_inv T cp'.1 /\
       exists p, conf_fill cp'.1 cp'.2 = Some p /\ built c c1 order es p /\
         prog_new h (psum (n_outs T) (created c) (length (created c))) (psum (n_ins T) (created c) (length (created c)))
           (psum (n_ats T) (created c) (length (created c))) (psum (n_mods T (cf_modamt c)) (created c) (length (created c))) = (h1, p1) /\
         same_bufs p p1).
  Proof.
    intros Hg Hsm Hnd Hord Hes. destruct (rebuild_laid h c Hg) as (h1 & c1 & p1 & E & Hl & Hp). exists h1, c1, p1.
    split; [done|]. split; [done|]. intros cp' Ec. cbn zeta in Hp.
    pose proof (laid_fresh _ _ Hl Hsm) as Hf.
    pose proof (prog_new_mods _ _ _ _ _ _ _ Hp) as Hmw.
    destruct (prog_new_lengths _ _ _ _ _ _ _ Hp) as (L1 & L2 & L3 & L4 & Ho & Hcur & Hpar & Hlk & Hfb & Hats).
    assert (Hord' : forall n, n ∈ order -> n ∈ created c1) by (intros; rewrite (ld_ids _ _ Hl); by apply Hord).
    destruct (add_nodes_ops T c1 p1 order Hf Ho Hnd Hord') as (S1 & I1 & O1). cbn zeta in *.
    pose proof (add_nodes_same (c1, p1) order) as SV1.
    set (cp := foldl conf_add_node (c1, p1) order) in *.
    destruct (connects_ops T c1 p1 order es cp Hf Hnd Hord' Hes S1 I1 O1 cp' Ec) as (S2 & I2 & O2).
    destruct (connects_same T es cp cp' Ec) as [SV2 _].
    assert (SV : same_values c1 cp'.1) by (by eapply same_values_trans).
    split; [done|]. split; [done|]. split; [done|].
    destruct (fill_spec c c1 cp'.1 cp'.2 Hl SV) as (ps & ms & ats & E3 & P1 & P2 & P3 & V1 & V2 & V3 & V4).
    - rewrite O2. cbn. by rewrite Hpar, replicate_length.
    - rewrite O2. done.
    - rewrite O2. done.
    - eexists. split; [exact E3|]. rewrite O2 in *. cbn in *. split; [constructor; cbn; try done|].
      + congruence.
      + congruence.
      + rewrite P1, Hpar, replicate_length. done.
      + by rewrite L2.
      + by rewrite L1.
      + apply Forall_lookup_2. intros m mo Hm. specialize (V4 m). rewrite Hm in V4.
        destruct (np_mods p1 !! m) as [mo1|] eqn:E1; [|done]. injection V4 as _ -> ->.
        apply (proj1 (Forall_lookup _ _) Hmw m mo1 E1).
      + split; [done|]. split; [done|]. split; [done|]. cbn. apply list_eq. intros m. rewrite !list_lookup_fmap. specialize (V4 m).
        destruct (ms !! m), (np_mods p1 !! m); cbn in *; try done. by injection V4 as -> _ _.
  Qed.

  Lemma program_built h c order es h' c' p : conf_fine T c -> length (created c) <= 256 -> NoDup order ->
    (forall n, n ∈ order -> n ∈ created c) -> (forall e, e ∈ es -> e_to e ∈ order) ->
    conf_program T h c order es = Some (h', c', p) ->
    exists c1 p1, laid c c1 /\ same_inst c' c1 /\ same_values c1 c' /\ built c c1 order es p /\
      prog_new h (psum (n_outs T) (created c) (length (created c))) (psum (n_ins T) (created c) (length (created c)))
           (psum (n_ats T) (created c) (length (created c))) (psum (n_mods T (cf_modamt c)) (created c) (length (created c))) = (h', p1) /\
         same_bufs p p1.
  Proof.
    intros Hg Hsm Hnd Hord Hes. destruct (program_fill h c order es Hg Hsm Hnd Hord Hes) as (h1 & c1 & p1 & E & Hl & H).
    unfold conf_program. rewrite E. cbn [mbind option_bind].
    destruct (foldm conf_connect _ es) as [[c2 p2]|] eqn:E2; cbn [mbind option_bind]; [|done].
    destruct (H (c2, p2) eq_refl) as (H1 & H2 & H3 & p3 & E3 & Hb & Hp & Hsb). cbn [fst snd] in *. rewrite E3. cbn [mbind option_bind].
    intros [= <- <- <-]. by exists c1, p1.
  Qed.

  Lemma add_nodes_any c c1 p1 order : laid c c1 ->
    let cp := foldl conf_add_node (c1, p1) order in
    same_inst cp.1 c1 /\ conf_inv T cp.1 /\ same_values c1 cp.1 /\ exists ops, cp.2 = with_ops p1 ops.
  Proof.
    intros Hl. cbn zeta. induction order as [|n order (H1 & H2 & H3 & ops & H4)] using rev_ind.
    - cbn. split; [done|]. split; [apply Hl|]. split; [done|]. exists (np_ops p1). by destruct p1.
    - rewrite foldl_app. cbn [foldl]. set (cp := foldl conf_add_node (c1, p1) order) in *.
      unfold conf_add_node. destruct (conf_inst cp.1 n) as [ni|]; cbn [fst snd].
      + split; [by apply same_inst_mark with (T := T)|]. split; [by apply mark_inv|].
        split; [eapply same_values_trans; [done|apply mark_same]|].
        unfold prog_append_op. rewrite H4. destruct (existsb _ _); eexists; [done|]. by rewrite with_ops_twice.
      + eauto.
  Qed.

  Lemma connects_ops_any es cp cp' p1 ops : cp.2 = with_ops p1 ops -> foldm conf_connect cp es = Some cp' ->
    exists ops', cp'.2 = with_ops p1 ops'.
  Proof.
    intros Hp E. eapply (foldm_inv conf_connect (fun s => exists ops, s.2 = with_ops p1 ops)); [|by exists ops|exact E].
    clear. intros s e s' _ [ops Hs]. unfold conf_connect.
    destruct (conf_inst s.1 (e_from e)) as [sr|]; [|intros [= <-]; by exists ops].
    destruct (conf_inst s.1 (e_to e)) as [d|]; [|intros [= <-]; by exists ops].
    destruct (ni_mod_global d (e_to_input e)); cbn [mbind option_bind]; [|done]. intros [= <-]. cbn [snd].
    destruct (local2global _ _); [|by exists ops]. destruct (local2global _ _); [|by exists ops].
    unfold prog_append_edge. rewrite Hs. eexists. by rewrite with_ops_twice.
  Qed.

  Lemma program_total h c order es : conf_fine T c -> inputs_ok es -> is_Some (conf_program T h c order es).
  Proof.
    intros Hg Hok. destruct (rebuild_laid h c Hg) as (h1 & c1 & p1 & E & Hl & Hp). cbn zeta in Hp.
    unfold conf_program. rewrite E. cbn [mbind option_bind].
    destruct (prog_new_lengths _ _ _ _ _ _ _ Hp) as (L1 & L2 & L3 & L4 & Ho & Hcur & Hpar & Hlk & Hfb & Hats).
    destruct (add_nodes_any c c1 p1 order Hl) as (S1 & I1 & V1 & ops & O1). cbn zeta in *.
    destruct (connects_total c c1 es _ Hl Hok _ S1 I1 eq_refl) as ([c3 p3] & E3 & S3 & I3 & V3).
    rewrite E3. cbn [mbind option_bind]. destruct (connects_ops_any es _ _ p1 ops O1 E3) as [ops' Hp3]. cbn [fst snd] in *. subst p3.
    destruct (fill_spec c c1 c3 (with_ops p1 ops') Hl) as (ps & ms & ats & E4 & _); cbn; try done.
    - by eapply same_values_trans.
    - by rewrite Hpar, replicate_length.
    - rewrite E4. by eexists.
  Qed.
End fill.
