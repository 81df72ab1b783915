From Verif Require Import Base M_Atom M_Prog M_Grid M_Conf S_Conf L_Conf L_Conf2.
Open Scope nat_scope.

Section conf.
  Context (T : ntable).

  (** ** C14 *)
  Lemma rebuild_keeps (HT : table_ok T) h c h' c' p :
    conf_inv T c -> conf_rebuild T h c = Some (h', c', p) ->
    (forall q v, cf_pvals c !! q = Some v -> cf_pvals c' !! q = Some v) /\
    (forall q v, cf_avals c !! q = Some v -> cf_avals c' !! q = Some v) /\
    cf_modamt c' = cf_modamt c.
  Proof.
    intros Hc E. destruct (conf_rebuild_spec T HT h c Hc) as (h2 & c2 & p2 & E2 & Hs). rewrite E in E2.
    injection E2 as <- <- <-. cbn zeta in Hs.
    destruct Hs as (_ & Hids & _ & Hma & Hin & _ & _ & _ & V1 & V2 & _ & _ & B1 & B2).
    split; [|split; [|done]].
    - intros [id q] v Hv. destruct (decide (id ∈ (cf_nodes c).*1)) as [Hi|Hi].
      + destruct (decide (q < n_ins T id)) as [Hl|Hl].
        * rewrite V1 by done. unfold pval_of. by rewrite Hv.
        * by rewrite V2 by (right; cbn; lia).
      + by rewrite V2 by (left; done).
    - intros [id q] v Hv. destruct (decide (id ∈ (cf_nodes c).*1)) as [Hi|Hi].
      + destruct (decide (Exists (fun j => q = nt_at_id T (nid_kind id) j) (seq 0 (n_ats T id)))) as [Hx|Hx].
        * apply Exists_exists in Hx as (j & Hj & ->). apply elem_of_seq in Hj. rewrite B1 by (done || lia).
          unfold aval_of. by rewrite Hv.
        * rewrite B2; [done|]. right. cbn. intros j Hj ->. apply Hx.
          apply Exists_exists. exists j. split; [apply elem_of_seq; lia|done].
      + by rewrite B2 by (left; done).
  Qed.

  Lemma same_keeps c c' : same_values c c' ->
    (forall q v, cf_pvals c !! q = Some v -> cf_pvals c' !! q = Some v) /\
    (forall q v, cf_avals c !! q = Some v -> cf_avals c' !! q = Some v) /\ cf_modamt c' = cf_modamt c.
  Proof. intros (? & ? & -> & -> & ? & -> & ?). done. Qed.

  Section io.
  Context (i2f : Z -> f32) (load_sample : satom -> satom).
  Set Default Proof Using "Type".

  Lemma set_param_values c p a :
    let c' := (conf_set_param T i2f load_sample c p a).1 in
    cf_nodes c' = cf_nodes c /\ cf_idx c' = cf_idx c /\ cf_modamt c' = cf_modamt c /\
    cf_pvals c' = (if is_atom T p then cf_pvals c else <[p := atom_f i2f a]> (cf_pvals c)) /\
    cf_avals c' = (if is_atom T p then <[p := load_sample a]> (cf_avals c) else cf_avals c) /\
    dom (cf_params c') = dom (cf_params c) /\ dom (cf_atoms c') = dom (cf_atoms c).
  Proof.
    unfold conf_set_param. destruct (is_atom T p).
    - destruct (cf_atoms c !! p) eqn:E; cbn; repeat split; try done.
      rewrite dom_insert_L. apply elem_of_dom_2 in E. set_solver.
    - destruct (cf_params c !! p) eqn:E; cbn; repeat split; try done.
      rewrite dom_insert_L. apply elem_of_dom_2 in E. set_solver.
  Qed.

  Lemma set_param_inv c p a : conf_inv T c -> conf_inv T (conf_set_param T i2f load_sample c p a).1.
  Proof.
    intros Hc. pose proof (set_param_values c p a) as (H1 & H2 & H3 & H4 & H5 & H6 & H7).
    constructor.
    - rewrite H1. apply Hc.
    - rewrite H1, H2. apply Hc.
    - rewrite H1, H2. apply Hc.
    - rewrite H4. intros q. destruct (is_atom T p) eqn:Ea; [apply Hc|].
      destruct (decide (q = p)) as [->|]; [done|]. rewrite lookup_insert_ne by done. apply Hc.
    - rewrite H5. intros q. destruct (is_atom T p) eqn:Ea; [|apply Hc].
      destruct (decide (q = p)) as [->|]; [done|]. rewrite lookup_insert_ne by done. apply Hc.
    - intros q Hq. apply (ci_params T c Hc). apply elem_of_dom. rewrite <- H6. by apply elem_of_dom.
  Qed.

  Lemma set_modamt_values c p v :
    let c' := (conf_set_modamt T c p v).1.1 in
    cf_nodes c' = cf_nodes c /\ cf_idx c' = cf_idx c /\ cf_pvals c' = cf_pvals c /\ cf_avals c' = cf_avals c /\
    cf_atoms c' = cf_atoms c /\ dom (cf_params c') = dom (cf_params c) /\
    cf_modamt c' = (if is_atom T p then cf_modamt c else <[p := v]> (cf_modamt c)).
  Proof. clear i2f load_sample.
    unfold conf_set_modamt. destruct (is_atom T p); [done|].
    destruct (conf_get_modamt c p); [destruct v|]; cbn; repeat split; try done;
      destruct (cf_params c !! p) as [[i w [[mi am]|]]|] eqn:E; try done;
      rewrite dom_insert_L; apply elem_of_dom_2 in E; set_solver.
  Qed.

  Lemma set_modamt_inv c p v : conf_inv T c -> conf_inv T (conf_set_modamt T c p v).1.1.
  Proof. clear i2f load_sample.
    intros Hc. pose proof (set_modamt_values c p v) as (H1 & H2 & H3 & H4 & H5 & H6 & H7).
    constructor.
    - rewrite H1. apply Hc.
    - rewrite H1, H2. apply Hc.
    - rewrite H1, H2. apply Hc.
    - rewrite H3. apply Hc.
    - rewrite H4. apply Hc.
    - intros q Hq. apply (ci_params T c Hc). apply elem_of_dom. rewrite <- H6. by apply elem_of_dom.
  Qed.

  Lemma create_inv (HT : table_ok T) c n c' : conf_inv T c -> conf_create T c n = Some c' -> conf_inv T c'.
  Proof.
    intros Hc. unfold conf_create. destruct (nt_known T (nid_kind n)) eqn:Ek; [|done]. intros [= <-].
    assert (Hn : n <> Nop). { intros ->. cbn in Ek. by rewrite (tok_nop T HT) in Ek. }
    constructor; cbn; try apply Hc.
    - apply Forall_app. split; [apply Hc|]. by repeat constructor.
    - intros m i. destruct (decide (m = n)) as [->|].
      + rewrite lookup_insert. intros [= <-]. exists None. split; [|done].
        by rewrite lookup_app_r, Nat.sub_diag by lia.
      + rewrite lookup_insert_ne by done. intros Hi. destruct (ci_idx T c Hc m i Hi) as (oi & Ho & Hid).
        exists oi. split; [|done]. rewrite lookup_app_l; [done|]. by eapply lookup_lt_Some.
    - intros i m oi Hi. destruct (decide (m = n)) as [->|]; [rewrite lookup_insert; by eexists|].
      rewrite lookup_insert_ne by done. apply lookup_app_Some in Hi as [Hi|[_ Hi]].
      + by eapply (ci_dom T c Hc).
      + destruct (i - _); cbn in Hi; [by injection Hi as <- _|done].
  Qed.

  Lemma load_param_values nrm s p v m :
    let c' := (conf_load_param T i2f load_sample nrm s (p, v, m)).1 in
    let v' := if nrm : bool then nt_norm T (nid_kind p.1) p.2 v else v in
    c' = (conf_set_modamt T (conf_set_param T i2f load_sample s.1 p (AParam v')).1 p m).1.1.
  Proof.
    cbn zeta. unfold conf_load_param. destruct (conf_set_param _ _ _ _ _ _) as [c1 ms]. cbn.
    destruct (conf_set_modamt T c1 p m) as [[c2 ms'] b]. done.
  Qed.
  Lemma load_atom_values s e :
    (conf_load_atom T i2f load_sample s e).1 = (conf_set_param T i2f load_sample s.1 e.1 e.2).1.
  Proof. unfold conf_load_atom. by destruct (conf_set_param _ _ _ _ _ _). Qed.

  (** reading a value after setting *)
  Lemma get_set_same c p a : conf_get_param T (conf_set_param T i2f load_sample c p a).1 p
    = Some (stored T i2f load_sample p a).
  Proof.
    pose proof (set_param_values c p a) as (_ & _ & _ & H4 & H5 & _). unfold conf_get_param, stored.
    rewrite H4, H5. destruct (is_atom T p); by rewrite lookup_insert.
  Qed.
  Lemma get_set_other c p q a : q <> p ->
    conf_get_param T (conf_set_param T i2f load_sample c p a).1 q = conf_get_param T c q.
  Proof.
    intros Hne. pose proof (set_param_values c p a) as (_ & _ & _ & H4 & H5 & _). unfold conf_get_param.
    rewrite H4, H5. destruct (is_atom T p), (is_atom T q); by rewrite ?lookup_insert_ne by done.
  Qed.
  Lemma get_modamt c p v q : conf_get_param T (conf_set_modamt T c p v).1.1 q = conf_get_param T c q.
  Proof.
    pose proof (set_modamt_values c p v) as (_ & _ & H4 & H5 & _). unfold conf_get_param. by rewrite H4, H5.
  Qed.
  Lemma modamt_set c p a q : conf_get_modamt (conf_set_param T i2f load_sample c p a).1 q = conf_get_modamt c q.
  Proof.
    pose proof (set_param_values c p a) as (_ & _ & H4 & _). unfold conf_get_modamt. by rewrite H4.
  Qed.
  Lemma modamt_modamt c p v q : is_atom T p = false ->
    conf_get_modamt (conf_set_modamt T c p v).1.1 q = if decide (q = p) then v else conf_get_modamt c q.
  Proof.
    intros Ha. pose proof (set_modamt_values c p v) as (_ & _ & _ & _ & _ & _ & H). unfold conf_get_modamt.
    rewrite H, Ha. destruct (decide (q = p)) as [->|]; [by rewrite lookup_insert|by rewrite lookup_insert_ne].
  Qed.

  Lemma load_inv c ps ats nrm : conf_inv T c -> conf_inv T (conf_load T i2f load_sample c ps ats nrm).1.
  Proof.
    intros Hc. unfold conf_load.
    assert (H1 : forall ps s, conf_inv T s.1 -> conf_inv T (foldl (conf_load_param T i2f load_sample nrm) s ps).1).
    { clear. induction ps as [|[[p v] m] ps IH]; intros s Hs; [done|]. cbn [foldl]. apply IH.
      rewrite load_param_values. by apply set_modamt_inv, set_param_inv. }
    assert (H2 : forall ats s, conf_inv T s.1 -> conf_inv T (foldl (conf_load_atom T i2f load_sample) s ats).1).
    { clear. induction ats as [|e ats IH]; intros s Hs; [done|]. cbn [foldl]. apply IH.
      rewrite load_atom_values. by apply set_param_inv. }
    by apply H2, H1.
  Qed.

  Lemma load_other c ps ats nrm q :
    (forall v m, (q, v, m) ∉ ps) -> (forall a, (q, a) ∉ ats) ->
    conf_get_param T (conf_load T i2f load_sample c ps ats nrm).1 q = conf_get_param T c q.
  Proof.
    intros Hp Ha. unfold conf_load.
    assert (H1 : forall ps s, (forall v m, (q, v, m) ∉ ps) ->
       conf_get_param T (foldl (conf_load_param T i2f load_sample nrm) s ps).1 q = conf_get_param T s.1 q).
    { clear. induction ps as [|[[p v] m] ps IH]; intros s Hs; [done|]. cbn [foldl]. rewrite IH.
      - rewrite load_param_values, get_modamt. apply get_set_other. intros ->. apply (Hs v m). left.
      - intros v' m' Hi. apply (Hs v' m'). by right. }
    assert (H2 : forall ats s, (forall a, (q, a) ∉ ats) ->
       conf_get_param T (foldl (conf_load_atom T i2f load_sample) s ats).1 q = conf_get_param T s.1 q).
    { clear. induction ats as [|[p a] ats IH]; intros s Hs; [done|]. cbn [foldl]. rewrite IH.
      - rewrite load_atom_values. apply get_set_other. intros ->. apply (Hs a). left.
      - intros a' Hi. apply (Hs a'). by right. }
    rewrite H2 by done. by rewrite H1.
  Qed.

  Lemma cop_inv (HT : table_ok T) s o s' : conf_inv T s.2 -> cop_step T i2f load_sample s o = Some s' -> conf_inv T s'.2.
  Proof.
    destruct s as [h c]. cbn [snd]. intros Hc. destruct o as [p a|p v|n| |order es|ps ats nrm]; cbn [cop_step].
    - intros [= <-]. by apply set_param_inv.
    - intros [= <-]. by apply set_modamt_inv.
    - intros [= <-]. cbn. destruct (conf_create T c n) eqn:E; cbn; [by eapply create_inv|done].
    - destruct (conf_rebuild T h c) as [[[h1 c1] p1]|] eqn:E; cbn [mbind option_bind]; [|done].
      intros [= <-]. by eapply rebuild_inv.
    - destruct (conf_program T h c order es) as [[[h1 c1] p1]|] eqn:E; cbn [mbind option_bind]; [|done].
      intros [= <-]. destruct (program_conf T _ _ _ _ _ _ _ E) as (h2 & c2 & p2 & E2 & _ & Hi). cbn.
      apply Hi. by eapply rebuild_inv.
    - intros [= <-]. by apply load_inv.
  Qed.

  Lemma cop_keeps (HT : table_ok T) s o s' q a : conf_inv T s.2 -> cop_step T i2f load_sample s o = Some s' ->
    ~ sets q o -> conf_get_param T s.2 q = Some a -> conf_get_param T s'.2 q = Some a.
  Proof.
    destruct s as [h c]. cbn [snd]. intros Hc. destruct o as [p b|p v|n| |order es|ps ats nrm]; cbn [cop_step sets].
    - intros [= <-] Hne. cbn [snd]. by rewrite get_set_other.
    - intros [= <-] _. cbn [snd]. by rewrite get_modamt.
    - intros [= <-] _. cbn [snd]. unfold conf_create, conf_get_param. by destruct (nt_known T _).
    - destruct (conf_rebuild T h c) as [[[h1 c1] p1]|] eqn:E; cbn [mbind option_bind]; [|done].
      intros [= <-] _. cbn [snd]. destruct (rebuild_keeps HT _ _ _ _ _ Hc E) as (H1 & H2 & _).
      unfold conf_get_param. destruct (is_atom T q); [apply H2|].
      destruct (cf_pvals c !! q) eqn:E1; [|done]. by rewrite (H1 _ _ E1).
    - destruct (conf_program T h c order es) as [[[h1 c1] p1]|] eqn:E; cbn [mbind option_bind]; [|done].
      intros [= <-] _. cbn [snd]. destruct (program_conf T _ _ _ _ _ _ _ E) as (h2 & c2 & p2 & E2 & Hs & _).
      destruct (rebuild_keeps HT _ _ _ _ _ Hc E2) as (H1 & H2 & _).
      destruct (same_keeps _ _ Hs) as (H3 & H4 & _).
      unfold conf_get_param. destruct (is_atom T q); [intros Hq; by apply H4, H2|].
      destruct (cf_pvals c !! q) eqn:E1; [|done]. by rewrite (H3 _ _ (H1 _ _ E1)).
    - intros [= <-] Hne. cbn [snd]. rewrite load_other; [done|naive_solver..].
  Qed.

  (** ** C15 *)
  Lemma load_restores (c0 : nconf) (ps : list (pid * f32 * option f32)) (ats : list (pid * satom)) (nrm : bool)
      (pv : gmap pid f32) (ma : pid -> option f32) (av : gmap pid satom) :
    (forall p, is_Some (pv !! p) -> is_atom T p = false) -> (forall p, is_Some (av !! p) -> is_atom T p = true) ->
    (forall p v m, (p, v, m) ∈ ps <-> exists w, pv !! p = Some w /\ m = ma p /\ v = (if nrm : bool then nt_denorm T (nid_kind p.1) p.2 w else w)) ->
    (forall p a, (p, a) ∈ ats <-> av !! p = Some a) ->
    (nrm = true -> forall p w, pv !! p = Some w -> nt_norm T (nid_kind p.1) p.2 (nt_denorm T (nid_kind p.1) p.2 w) = w) ->
    let c' := (conf_load T i2f load_sample c0 ps ats nrm).1 in
    (forall p w, pv !! p = Some w -> conf_get_param T c' p = Some (AParam w) /\ conf_get_modamt c' p = ma p) /\
    (forall p a, av !! p = Some a -> conf_get_param T c' p = Some (load_sample a)).
  Proof.
    intros Hpa Haa Hps Hats Hn. cbn zeta. unfold conf_load.
    (* effect of the parameter loop on one parameter *)
    assert (H1 : forall (ps : list (pid * f32 * option f32)) s p w, pv !! p = Some w ->
      (forall q v m, (q, v, m) ∈ ps -> exists w, pv !! q = Some w /\ m = ma q /\ v = (if nrm : bool then nt_denorm T (nid_kind q.1) q.2 w else w)) ->
      ((exists v m, (p, v, m) ∈ ps) \/ (conf_get_param T s.1 p = Some (AParam w) /\ conf_get_modamt s.1 p = ma p)) ->
      let s' := foldl (conf_load_param T i2f load_sample nrm) s ps in
      conf_get_param T s'.1 p = Some (AParam w) /\ conf_get_modamt s'.1 p = ma p).
    { clear ps Hps. induction ps as [|[[q v] m] ps IH]; intros s p w Hp Hq Hor; cbn zeta; cbn [foldl].
      - destruct Hor as [(? & ? & Hx)|?]; [by apply elem_of_nil in Hx|done].
      - destruct (Hq q v m) as (w' & Hw' & -> & ->); [left|].
        apply (IH _ p w Hp); [intros; apply Hq; by right|].
        destruct (decide (q = p)) as [->|Hne].
        + right. rewrite load_param_values. rewrite get_modamt, get_set_same, modamt_modamt by (apply Hpa; by eexists).
          rewrite Hp in Hw'. injection Hw' as <-. rewrite decide_True by done. split; [|done].
          unfold stored. rewrite Hpa by (by eexists). cbn. do 2 f_equal. destruct nrm; [by apply Hn|done].
        + destruct Hor as [(v' & m' & Hx)|Hx].
          * left. exists v', m'. apply elem_of_cons in Hx as [Hx|Hx]; [by injection Hx as <- _ _|done].
          * right. rewrite load_param_values. rewrite get_modamt, get_set_other by done.
            rewrite modamt_modamt by (apply Hpa; by eexists). rewrite decide_False by done. by rewrite modamt_set. }
    assert (H2 : forall (ats : list (pid * satom)) s p w ma', is_atom T p = false ->
      (forall q a, (q, a) ∈ ats -> is_atom T q = true) ->
      conf_get_param T s.1 p = Some (AParam w) -> conf_get_modamt s.1 p = ma' ->
      let s' := foldl (conf_load_atom T i2f load_sample) s ats in
      conf_get_param T s'.1 p = Some (AParam w) /\ conf_get_modamt s'.1 p = ma').
    { clear. induction ats as [|[q a] ats IH]; intros s p w ma' Hp Hq H1 H2; cbn zeta; cbn [foldl]; [done|].
      apply (IH _ p w ma' Hp); [intros; eapply Hq; by right| |]; rewrite load_atom_values.
      - rewrite get_set_other; [done|]. intros ->. cbn in Hp. rewrite (Hq q a) in Hp; [done|left].
      - by rewrite modamt_set. }
    assert (H3 : forall (ats : list (pid * satom)) s p a, av !! p = Some a ->
      (forall q b, (q, b) ∈ ats -> av !! q = Some b) ->
      ((exists b, (p, b) ∈ ats) \/ conf_get_param T s.1 p = Some (load_sample a)) ->
      conf_get_param T (foldl (conf_load_atom T i2f load_sample) s ats).1 p = Some (load_sample a)).
    { clear ats Hats H1 H2. induction ats as [|[q b] ats IH]; intros s p a Hp Hq Hor; cbn [foldl].
      - destruct Hor as [(? & Hx)|?]; [by apply elem_of_nil in Hx|done].
      - apply (IH _ p a Hp); [intros; apply Hq; by right|]. destruct (decide (q = p)) as [->|Hne].
        + right. rewrite load_atom_values, get_set_same. unfold stored. cbn [fst snd]. rewrite (Haa p) by (by eexists).
          assert (Hb : av !! p = Some b) by (apply Hq; left). rewrite Hp in Hb. by injection Hb as <-.
        + destruct Hor as [(b' & Hx)|Hx].
          * left. exists b'. apply elem_of_cons in Hx as [Hx|Hx]; [by injection Hx as <- _|done].
          * right. rewrite load_atom_values. by rewrite get_set_other. }
    split.
    - intros p w Hp. destruct (H1 ps (c0, []) p w Hp) as [G1 G2].
      + intros q v m Hi. by apply Hps.
      + left. eexists _, _. apply Hps. eexists. done.
      + apply H2; [apply Hpa; by eexists| |done|done]. intros q a Hi. apply Haa. eexists. by apply Hats.
    - intros p a Hp. apply H3; [done| |].
      + intros; by apply Hats.
      + left. eexists. by apply Hats.
  Qed.
  End io.
End conf.
