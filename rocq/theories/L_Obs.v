(** Proofs for C53 *)
From stdpp Require Import strings.
From Verif Require Import Base M_Atom M_Graph M_Dir M_Grid S_Grid L_Grid M_Layout S_Layout L_Layout M_Prog M_Conf S_Conf L_Conf L_Conf2 L_Conf3 M_Exec M_Sync S_Sync
  L_Sync M_Nodes M_Repr M_Patch L_Patch P_Patch M_Obs S_Obs.
Open Scope nat_scope.

Global Instance note_eq_dec : EqDecision note.
Proof. solve_decision. Defined.
Global Instance told_dec ns n : Decision (told ns n).
Proof. unfold told. apply _. Defined.

Section obs.
  Context (T : ntable) (HT : table_ok T) (i2f : Z -> f32) (load_sample : satom -> satom).
  Local Notation step := (obs_step T i2f load_sample).

  Lemma obs_sync_spec h o h' o' ms ns r : obs_sync T h o = Some (h', o', ms, ns, r) ->
    matrix_sync T h (ob_mx o) = Some (h', ob_mx o', ms, r) /\ ob_props o' = ob_props o /\ ob_on o' = ob_on o /\
    match r with
    | Some _ => ns = [] /\ ms = [] /\ ob_gen o' = ob_gen o /\ mx_mon (ob_mx o') = mx_mon (ob_mx o)
    | None => ob_gen o' = S (ob_gen o) /\ program_sent ms /\ (ob_on o = false -> ns = []) /\
        (mx_mon (ob_mx o') = mx_mon (ob_mx o) /\ (ob_on o = true -> ns = [NMatrix]) \/
         board (board_of o) (c_x (monitored o), c_y (monitored o)) = Some (monitored o') /\ (ob_on o = true -> ns = [NMon (monitored o'); NMatrix]))
    end.
  Proof.
    unfold obs_sync, matrix_sync. destruct (conf_create_cells _ _ _) as [c1|]; cbn [mbind option_bind]; [|done].
    destruct (layout_scan _ _) as [l1|] eqn:El; cbn [mbind option_bind]; [|done].
    assert (lay_grid l1 = board_of o) as Hg.
    { unfold layout_scan in El. destruct (scan _ _) as [[go es]|]; cbn [mbind option_bind] in El; [|done]. by injection El as <-. }
    destruct (gord_calculate_order _ _) as [[[go' od] ok]|]; cbn [mbind option_bind]; [|done].
    destruct ok; cbn [negb]; [|by intros [= <- <- <- <- <-]].
    destruct (conf_program _ _ _ _ _) as [[[h2 c2] p]|]; cbn [mbind option_bind]; [|done].
    unfold obs_remonitor, matrix_remonitor. cbn [ob_mx mx_lay lay_grid mx_mon]. rewrite Hg.
    destruct (grid_get _ _ _) as [[c|]|] eqn:Eg; cbn [mbind option_bind]; [..|done].
    - unfold obs_monitor, matrix_monitor. cbn [ob_mx fst snd ob_props ob_gen ob_on mx_mon mbind option_bind].
      intros [= <- <- <- <- <-]. cbn [ob_mx ob_props ob_on ob_gen tell mx_mon].
      split; [done|]. split; [done|]. split; [done|]. split; [done|]. split; [eexists _, _; left|]. unfold tell. cbn [ob_on]. split; [by intros ->|].
      right. unfold monitored at 3 4. cbn [ob_mx mx_mon]. split; [|by intros ->]. unfold board, monitored. cbn [fst snd]. by rewrite Eg.
    - intros [= <- <- <- <- <-]. cbn [ob_mx ob_props ob_on ob_gen mx_mon].
      split; [done|]. split; [done|]. split; [done|]. split; [done|]. split; [eexists _, _; left|]. unfold tell. cbn [ob_on]. split; [by intros ->|].
      left. split; [done|by intros ->].
  Qed.

  Lemma obs_clear_spec h o h' o' ms ns : mx_inv T (ob_mx o) -> obs_clear T h o = Some (h', o', ms, ns) ->
    matrix_clear T h (ob_mx o) = Some (h', ob_mx o', ms) /\ ob_props o' = ∅ /\ ob_on o' = ob_on o /\ ob_gen o' = S (ob_gen o) /\ program_sent ms /\
    (ob_on o = true -> NMatrix ∈ ns /\ NAll ∈ ns /\ last_monitor ns = Some (monitored o')) /\ (ob_on o = false -> ns = []).
  Proof.
    intros Hm. unfold obs_clear, matrix_clear, conf_delete_nodes, obs_monitor, matrix_monitor. cbn [ob_mx mx_lay mx_conf ob_props ob_gen ob_on mx_mon].
    destruct (obs_sync T h _) as [[[[[h1 o1] ms1] ns1] r]|] eqn:E; cbn [mbind option_bind]; [|done]. intros [= <- <- <- <-].
    apply obs_sync_spec in E as (E & P & O & Hr). cbn [ob_mx ob_props ob_on ob_gen] in *. rewrite E. cbn [mbind option_bind].
    assert (r = None) as ->.
    { destruct r as [e|]; [|done]. exfalso. clear Hr.
      assert (mx_inv T (Matrix (Layout (Grid (g_w (lay_grid (mx_lay (ob_mx o)))) (g_h (lay_grid (mx_lay (ob_mx o))))
        ((fun _ => cell_empty Nop) <$> g_cells (lay_grid (mx_lay (ob_mx o))))) None (gord_clear (lay_order (mx_lay (ob_mx o)))) [] []) conf_new (cell_empty Nop))) as Hm1.
      { split; cbn [mx_lay mx_conf]; [by apply cleared_ok, Hm|apply good_new]. }
      destruct (sync_cases T HT _ _ _ _ _ _ Hm1 E) as (c1 & _ & _ & _ & _ & _ & _ & _ & _ & _ & Hc). apply Hc.
      cbn [mx_lay lay_grid] in *. intros n Hn.
      assert (exists a b, feeds (Grid (g_w (lay_grid (mx_lay (ob_mx o)))) (g_h (lay_grid (mx_lay (ob_mx o))))
        ((fun _ => cell_empty Nop) <$> g_cells (lay_grid (mx_lay (ob_mx o))))) a b) as (a & b & q & d & e' & He & _).
      { clear -Hn. induction Hn; eauto. }
      destruct He as (c & ? & ? & Hb & Hne & _). eapply (no_board _ (c_node c)); [|apply Hm1|split; [done|by exists q, c]].
      cbn. rewrite <- list_fmap_compose. by apply list_fmap_ext. }
    destruct Hr as (G & (p & b & Hp) & Hoff & Hcase). split; [done|]. split; [done|]. split; [done|]. split; [done|].
    split; [exists p, b; repeat (rewrite elem_of_app || rewrite elem_of_cons); tauto|]. unfold tell. cbn [ob_on]. rewrite O. split.
    - intros Ho. rewrite Ho. destruct Hcase as [[Hmon Hns]|[_ Hns]]; rewrite (Hns Ho); cbn [app last_monitor].
      + split; [set_solver|]. split; [set_solver|]. cbn [mx_mon] in Hmon. unfold monitored. by rewrite Hmon.
      + split; [set_solver|]. split; [set_solver|]. done.
    - intros Ho. rewrite Ho. by rewrite (Hoff Ho).
  Qed.

  Lemma load_clear_keep r m m' ms : matrix_load T i2f load_sample m
        ((fun e : paramid * f32 * option f32 => (repr_pid e.1.1, e.1.2, e.2)) <$> mr_params r)
        ((fun e : paramid * satom => (repr_pid e.1, e.2)) <$> mr_atoms r) (1 <? mr_version r)%Z = (m', ms) ->
    mx_lay m' = mx_lay m /\ mx_mon m' = mx_mon m /\
    exists ps ats nrm, forall h, matrix_step T i2f load_sample h m (MxLoad ps ats nrm) = Some (h, m', ms).
  Proof.
    intros E. assert (mx_lay m' = mx_lay m /\ mx_mon m' = mx_mon m) as [-> ->].
    { unfold matrix_load in E. destruct (conf_load _ _ _ _ _ _ _). by injection E as <- _. }
    split; [done|]. split; [done|]. eexists _, _, _. intros h. cbn [matrix_step]. by rewrite E.
  Qed.

  Lemma last_monitor_app a b : last_monitor (a ++ b) = match last_monitor b with Some c => Some c | None => last_monitor a end.
  Proof. induction a as [|n a IH]; cbn [app last_monitor]; [by destruct (last_monitor b)|]. rewrite IH. by destruct (last_monitor b). Qed.

  Lemma obs_load_spec h o r h' o' ms ns e : (exists sent, matrix_reachable T i2f load_sample h (ob_mx o) sent) ->
    obs_load T i2f load_sample h o r = Some (h', o', ms, ns, e) ->
    (exists sent, matrix_reachable T i2f load_sample h' (ob_mx o') sent) /\ ob_on o' = ob_on o /\ ob_gen o < ob_gen o' /\ program_sent ms /\
    (ob_on o = true -> NMatrix ∈ ns /\ NAll ∈ ns /\ last_monitor ns = Some (monitored o')) /\ (ob_on o = false -> ns = []).
  Proof.
    intros [sent Hr]. pose proof (matrix_reachable_inv T HT i2f load_sample _ _ _ Hr) as Hm. unfold obs_load.
    destruct (obs_clear T h o) as [[[[h1 o1] ms1] ns1]|] eqn:Ec; cbn [mbind option_bind]; [|done].
    destruct (obs_clear_spec _ _ _ _ _ _ Hm Ec) as (C1 & C2 & C3 & C4 & (p & b & C5) & C6 & C7).
    pose proof (reach_step T i2f load_sample _ _ _ MxClear _ _ _ Hr C1) as R1.
    destruct (matrix_load _ _ _ _ _ _ _) as [m2 ms2] eqn:El. apply load_clear_keep in El as (L1 & L2 & ps & ats & nrm & El).
    pose proof (reach_step T i2f load_sample _ _ _ _ _ _ _ R1 (El h1)) as R2.
    destruct (foldm load_cell _ _) as [l|] eqn:Ef; cbn [mbind option_bind]; [|done]. pose proof (reach_cells T i2f load_sample _ _ _ _ _ R2 Ef) as R3.
    destruct (obs_sync T h1 _) as [[[[[h2 o2] ms3] ns3] e2]|] eqn:Es; cbn [mbind option_bind]; [|done]. intros [= <- <- <- <- <-].
    apply obs_sync_spec in Es as (S1 & S2 & S3 & S4). cbn [ob_mx ob_props ob_on ob_gen] in *.
    split. { eexists. eapply (reach_step T i2f load_sample _ _ _ MxSync); [exact R3|]. cbn [matrix_step]. by rewrite S1. }
    split; [congruence|]. split. { destruct e2; [destruct S4 as (_ & _ & -> & _)|destruct S4 as (-> & _)]; lia. }
    split. { exists p, b. rewrite !elem_of_app. by left. } unfold tell. rewrite S3, C3. split; intros Ho; rewrite Ho.
    - destruct (C6 Ho) as (N1 & N2 & N3). split; [rewrite elem_of_app; by left|]. split; [rewrite elem_of_app; by left|].
      rewrite !last_monitor_app, N3. cbn [last_monitor]. unfold monitored in *. cbn [ob_mx mx_mon] in S4. destruct e2 as [e2|].
      + destruct S4 as (-> & _ & _ & Hmon). cbn. by rewrite Hmon, L2.
      + destruct S4 as (_ & _ & _ & [[Hmon Hns]|[_ Hns]]); rewrite Hns by congruence; cbn; [by rewrite Hmon, L2|done].
    - rewrite (C7 Ho). cbn. rewrite app_nil_r. destruct e2; [by destruct S4 as (-> & _)|]. destruct S4 as (_ & _ & Hoff & _). apply Hoff. congruence.
  Qed.

  Lemma made_reach_step h o c h' o' ms ns r : (exists sent, matrix_reachable T i2f load_sample h (ob_mx o) sent) ->
    step h o c = Some (h', o', ms, ns, r) -> exists sent, matrix_reachable T i2f load_sample h' (ob_mx o') sent.
  Proof.
    intros [sent Hr]. pose proof (matrix_reachable_inv T HT i2f load_sample _ _ _ Hr) as Hm.
    destruct c as [l| | |p a|p v|rp|c|k v|]; cbn [obs_step].
    - destruct (lop_pure l) eqn:El; [|intros [= <- <- <- <- <-]; by eexists].
      destruct (lay_step _ _ l) as [[l' r']|] eqn:E; cbn [mbind option_bind]; [|done]. intros [= <- <- <- <- <-]. eexists. cbn [ob_mx].
      eapply (reach_step T i2f load_sample _ _ _ (MxLay l)); [exact Hr|]. cbn [matrix_step]. rewrite El, E. done.
    - intros E. apply obs_sync_spec in E as (E & _). eexists. eapply (reach_step T i2f load_sample _ _ _ MxSync); [exact Hr|]. cbn [matrix_step]. by rewrite E.
    - destruct (obs_clear T h o) as [[[[h1 o1] ms1] ns1]|] eqn:Ec; cbn [mbind option_bind]; [|done]. intros [= <- <- <- <- <-].
      apply obs_clear_spec in Ec as (Ec & _); [|done]. eexists. by eapply (reach_step T i2f load_sample _ _ _ MxClear); [exact Hr|].
    - unfold obs_set_param. destruct (matrix_set_param _ _ _ _ _ _) as [m ms1] eqn:E. intros [= <- <- <- <- <-]. eexists. cbn [ob_mx].
      eapply (reach_step T i2f load_sample _ _ _ (MxSet p a)); [exact Hr|]. cbn [matrix_step]. by rewrite E.
    - unfold obs_set_modamt. destruct (conf_set_modamt _ _ _ _) as [[c ms1] b] eqn:E. destruct b; cbn [mbind option_bind].
      + destruct (obs_sync T h _) as [[[[[h2 o2] ms3] ns3] e2]|] eqn:Es; cbn [mbind option_bind]; [|done]. intros [= <- <- <- <- <-].
        apply obs_sync_spec in Es as (S1 & _). cbn [ob_mx] in *. eexists. eapply (reach_step T i2f load_sample _ _ _ (MxModamt p v)); [exact Hr|].
        cbn [matrix_step]. unfold matrix_set_modamt. rewrite E. cbn [mbind option_bind]. rewrite S1. cbn [mbind option_bind]. done.
      + intros [= <- <- <- <- <-]. cbn [ob_mx] in *. eexists. eapply (reach_step T i2f load_sample _ _ _ (MxModamt p v)); [exact Hr|].
        cbn [matrix_step]. unfold matrix_set_modamt. rewrite E. done.
    - intros E. by eapply obs_load_spec in E as [? _]; [|by eexists].
    - unfold obs_monitor. destruct (matrix_monitor _ _) as [m ms1] eqn:E. intros [= <- <- <- <- <-]. eexists. cbn [ob_mx].
      eapply (reach_step T i2f load_sample _ _ _ (MxMonitor c)); [exact Hr|]. cbn [matrix_step]. by rewrite E.
    - cbn. intros [= <- <- <- <- <-]. by eexists.
    - intros [= <- <- <- <- <-]. by eexists.
  Qed.

  Lemma history_reach s tr s' : history T i2f load_sample s tr s' ->
    (exists sent, matrix_reachable T i2f load_sample s.1 (ob_mx s.2) sent) -> exists sent, matrix_reachable T i2f load_sample s'.1 (ob_mx s'.2) sent.
  Proof. induction 1 as [|s tr h o c h' o' ms ns r H IH E]; [done|]. intros H0. by eapply made_reach_step; [apply IH|]. Qed.

  Lemma made_reach h o : made T i2f load_sample h o -> exists sent, matrix_reachable T i2f load_sample h (ob_mx o) sent.
  Proof.
    intros (w & hh & tr & H). apply (history_reach _ _ _ H). exists []. exists w, hh, []. done.
  Qed.

  Lemma made_snoc h o c h' o' ms ns r : made T i2f load_sample h o -> step h o c = Some (h', o', ms, ns, r) -> made T i2f load_sample h' o'.
  Proof. intros (w & hh & tr & H) E. exists w, hh, (tr ++ [(c, ms, ns, r)]). by econstructor. Qed.

  Lemma made_history s tr s' : history T i2f load_sample s tr s' -> made T i2f load_sample s.1 s.2 -> made T i2f load_sample s'.1 s'.2.
  Proof. induction 1 as [|s tr h o c h' o' ms ns r H IH E]; [done|]. intros H0. by eapply made_snoc; [apply IH|]. Qed.

  Lemma created_cells_same m c1 : mx_inv T m -> (forall n, on_board (lay_grid (mx_lay m)) n -> n ∈ created (mx_conf m)) ->
    conf_create_cells T (mx_conf m) (c_node <$> g_cells (lay_grid (mx_lay m))) = Some c1 -> forall x, x ∈ created c1 -> x ∈ created (mx_conf m).
  Proof.
    intros [Hl Hg] Hall Ec x Hx. destruct (create_cells_good T HT _ _ _ Hg Ec) as (_ & _ & _ & H4).
    destruct (H4 x Hx) as [?|(n & Hn & Hne & Hk & Hi)]; [done|].
    assert (n ∈ created (mx_conf m)) as Hnc by (apply Hall, board_cells; [apply Hl|done]).
    destruct (decide (nid_inst x = nid_inst n)) as [He|He].
    - destruct x, n. cbn in *. congruence.
    - apply elem_of_list_lookup in Hnc as [i Hlook]. destruct (cg_gap T _ Hg _ _ Hlook (nid_inst x)) as (i' & _ & Hi'); [lia|].
      apply elem_of_list_lookup. exists i'. rewrite Hi'. f_equal. destruct x, n. cbn in *. congruence.
  Qed.

  (** values that [sync] adds belong to known parameters *)
  Lemma sync_added h m h' m' ms r k a : mx_inv T m -> matrix_sync T h m = Some (h', m', ms, r) ->
    conf_get_param T (mx_conf m') k = Some a -> conf_get_param T (mx_conf m) k = None ->
    r = None /\ table_param T k.1 k.2 = true /\ k.1 ∈ created (mx_conf m').
  Proof.
    intros Hm E Ha Hn. destruct (sync_values T HT _ _ _ _ _ _ Hm E) as (_ & _ & V3). pose proof (V3 k a Ha Hn) as Hin.
    destruct (sync_cases T HT _ _ _ _ _ _ Hm E) as (c1 & Ec & Hg1 & _ & _ & _ & Hr). apply create_cells_values in Ec as (W1 & W2 & _).
    assert (conf_get_param T c1 k = None) as Hn1 by (unfold conf_get_param in *; by rewrite W1, W2).
    destruct r as [e|]. { destruct Hr as (_ & _ & Hc & _). rewrite Hc in Ha. congruence. }
    split; [done|]. split; [|done]. destruct Hr as (order & p & mon & _ & Ep & _). destruct (program_conf T _ _ _ _ _ _ _ Ep) as (h1 & c2 & p1 & Er & Hsv & _).
    destruct Hsv as (_ & _ & S1 & S2 & _ & S3 & S4). destruct (conf_rebuild_spec T HT h c1 (cg_inv T _ Hg1)) as (h3 & c3 & p3 & E3 & Hs). rewrite Er in E3.
    injection E3 as <- <- <-. cbn zeta in Hs. destruct Hs as (_ & _ & _ & _ & _ & _ & _ & _ & _ & V2 & _).
    unfold table_param. apply orb_true_iff. destruct (is_atom T k) eqn:Eat; [right; by destruct k|left].
    unfold conf_get_param in Ha, Hn1. rewrite Eat in Ha, Hn1. rewrite S1 in Ha. apply Nat.ltb_lt.
    destruct (decide (k.2 < nt_ins T (nid_kind k.1))) as [|Hge]; [done|]. exfalso. rewrite V2 in Ha by (right; unfold n_ins; lia).
    destruct (cf_pvals c1 !! k); done.
  Qed.

  Lemma sync_quiet h m h' m' ms r : mx_inv T m -> matrix_sync T h m = Some (h', m', ms, r) ->
    (forall n, on_board (lay_grid (mx_lay m)) n -> n ∈ created (mx_conf m)) ->
    (forall p, table_param T p.1 p.2 = true -> p.1 ∈ created (mx_conf m) -> is_Some (conf_get_param T (mx_conf m) p)) ->
    forall k, conf_get_param T (mx_conf m') k = conf_get_param T (mx_conf m) k.
  Proof.
    intros Hm E H1 H2 k. destruct (sync_values T HT _ _ _ _ _ _ Hm E) as (V1 & _ & _).
    destruct (conf_get_param T (mx_conf m) k) as [a|] eqn:Ea; [by apply V1|].
    destruct (conf_get_param T (mx_conf m') k) as [a|] eqn:Eb; [|done]. exfalso.
    destruct (sync_added _ _ _ _ _ _ _ _ Hm E Eb Ea) as (-> & Ht & Hc).
    destruct (sync_cases T HT _ _ _ _ _ _ Hm E) as (c1 & Ec & Hg1 & _ & _ & _ & order & p & mon & _ & Ep & _).
    assert (created (mx_conf m') = created c1) as Hcr by (by eapply (program_good T HT)). rewrite Hcr in Hc.
    apply (created_cells_same _ _ Hm H1 Ec) in Hc. destruct (H2 k Ht Hc). congruence.
  Qed.

  (** after a successful [sync] every DSP node has its values *)
  Lemma sync_up_to_date h m h' m' ms : mx_inv T m -> matrix_sync T h m = Some (h', m', ms, None) ->
    (forall n, on_board (lay_grid (mx_lay m')) n -> n ∈ created (mx_conf m')) /\
    (forall p, table_param T p.1 p.2 = true -> p.1 ∈ created (mx_conf m') -> is_Some (conf_get_param T (mx_conf m') p)).
  Proof.
    intros Hm E. destruct (sync_cases T HT _ _ _ _ _ _ Hm E) as (c1 & Ec & Hg1 & Hgr & _ & Hall & order & p & mon & _ & Ep & _).
    assert (created (mx_conf m') = created c1) as Hcr by (by eapply (program_good T HT)). rewrite Hcr, Hgr. split; [done|].
    intros [id q] Ht Hc. cbn [fst snd] in *. destruct (program_conf T _ _ _ _ _ _ _ Ep) as (h1 & c2 & p1 & Er & Hsv & _).
    destruct Hsv as (_ & _ & S1 & S2 & _ & S3 & S4). destruct (conf_rebuild_spec T HT h c1 (cg_inv T _ Hg1)) as (h3 & c3 & p3 & E3 & Hs). rewrite Er in E3.
    injection E3 as <- <- <-. cbn zeta in Hs. destruct Hs as (_ & Hids & _ & _ & _ & _ & _ & _ & V1 & V2 & _ & _ & B1 & B2).
    unfold conf_get_param. destruct (is_atom T (id, q)) eqn:Eat.
    - rewrite S3. unfold is_atom in Eat. cbn [fst snd] in Eat. apply andb_true_iff in Eat as [_ Eat]. apply existsb_exists in Eat as (j & Hj & Ej).
      apply Nat.eqb_eq in Ej as <-. apply in_seq in Hj. rewrite B1; [by eexists|done|unfold n_ats; lia].
    - unfold table_param in Ht. rewrite Eat, orb_false_r in Ht. apply Nat.ltb_lt in Ht. rewrite S1, V1; [by eexists|done|done].
  Qed.

  Lemma set_param_facts c p a q : (conf_get_param T (conf_set_param T i2f load_sample c p a).1 q <> conf_get_param T c q -> q = p) /\
    conf_get_modamt (conf_set_param T i2f load_sample c p a).1 q = conf_get_modamt c q /\ ~ program_sent (conf_set_param T i2f load_sample c p a).2.
  Proof.
    destruct (set_param_values T i2f load_sample c p a) as (_ & _ & M & P & A & _). split; [|split].
    - unfold conf_get_param. rewrite P, A. destruct (decide (q = p)) as [->|Hne]; [done|]. intros H. exfalso. apply H.
      destruct (is_atom T q), (is_atom T p); try done; by rewrite lookup_insert_ne.
    - unfold conf_get_modamt. by rewrite M.
    - intros (pr & b & H). unfold conf_set_param in H. destruct (is_atom T p).
      + destruct (cf_atoms c !! p); cbn in H; [apply elem_of_list_singleton in H|apply elem_of_nil in H]; done.
      + destruct (cf_params c !! p); cbn in H; [apply elem_of_list_singleton in H|apply elem_of_nil in H]; done.
  Qed.

  Lemma set_modamt_facts c p v q :
    conf_get_param T (conf_set_modamt T c p v).1.1 q = conf_get_param T c q /\
    (conf_get_modamt (conf_set_modamt T c p v).1.1 q <> conf_get_modamt c q -> q = p /\ is_atom T p = false) /\
    (is_atom T p = false -> conf_get_modamt (conf_set_modamt T c p v).1.1 p = v) /\
    ~ program_sent (conf_set_modamt T c p v).1.2 /\
    ((conf_set_modamt T c p v).2 = true <-> is_atom T p = false /\ (conf_get_modamt c p = None \/ v = None)).
  Proof.
    destruct (set_modamt_values T c p v) as (_ & _ & P & A & _ & _ & M). split; [|split; [|split; [|split]]].
    - unfold conf_get_param. by rewrite P, A.
    - unfold conf_get_modamt. rewrite M. destruct (is_atom T p); [done|]. destruct (decide (q = p)) as [->|Hne]; [done|].
      rewrite lookup_insert_ne by done. done.
    - intros Ea. unfold conf_get_modamt. rewrite M, Ea, lookup_insert. done.
    - intros (pr & b & H). unfold conf_set_modamt in H. destruct (is_atom T p); [by apply elem_of_nil in H|].
      destruct (conf_get_modamt c p), v; cbn in H; try by apply elem_of_nil in H.
      destruct (cf_params c !! p) as [[? ? [[? ?]|]]|]; cbn in H; [apply elem_of_list_singleton in H; done|by apply elem_of_nil in H..].
    - unfold conf_set_modamt. destruct (is_atom T p); [cbn; naive_solver|]. destruct (conf_get_modamt c p), v; cbn; naive_solver.
  Qed.

  Record facts (o : observed) (c : ocall) (o' : observed) (ms : list gmsg) (ns : list note) (r : option merror) : Prop := {
    fa_prop k : obs_get_prop o' k <> obs_get_prop o k -> ob_gen o < ob_gen o' /\ (ob_on o = true -> told ns (NProp k));
    fa_param p : value_of T o' p <> value_of T o p \/ amount_of o' p <> amount_of o p ->
      (is_modamt c = true -> r = None) -> ob_gen o < ob_gen o';
    fa_param_told p : value_of T o' p <> value_of T o p \/ amount_of o' p <> amount_of o p ->
      ob_on o = true -> tells_all T o c -> told ns (NParam p) \/ NMatrix ∈ ns;
    fa_mon : ob_on o = true -> tells_all T o c -> monitored o' = default (monitored o) (last_monitor ns);
    fa_prog : program_sent ms -> ob_gen o < ob_gen o';
    fa_prog_told : ob_on o = true -> is_modamt c = false -> program_sent ms <-> NMatrix ∈ ns;
    fa_le : ob_gen o <= ob_gen o';
    fa_on : ob_on o = true -> ob_on o' = true;
  }.

  Lemma nil_not_sent : ~ program_sent [].
  Proof. intros (? & ? & H). by apply elem_of_nil in H. Qed.

  Lemma step_facts h o c h' o' ms ns r : (exists sent, matrix_reachable T i2f load_sample h (ob_mx o) sent) ->
    step h o c = Some (h', o', ms, ns, r) -> facts o c o' ms ns r.
  Proof.
    intros [sent Hr]. pose proof (matrix_reachable_inv T HT i2f load_sample _ _ _ Hr) as Hm.
    destruct c as [l| | |p a|p v|rp|c|k v|]; cbn [obs_step].
    - destruct (lop_pure l); [destruct (lay_step _ _ l) as [[l' r']|]; cbn [mbind option_bind]; [|done]|]; intros [= <- <- <- <- <-];
        (constructor; cbn; [done|naive_solver|naive_solver|done|by intros ?%nil_not_sent| |done|done]);
        intros _ _; (split; [by intros ?%nil_not_sent|by intros ?%elem_of_nil]).
    - intros E. apply obs_sync_spec in E as (E & P & O & Hc). destruct (sync_values T HT _ _ _ _ _ _ Hm E) as (V1 & V2 & _).
      destruct r as [e|].
      + destruct Hc as (-> & -> & G & Hmon).
        assert (forall q, value_of T o' q = value_of T o q) as Hv.
        { intros q. unfold value_of. destruct (conf_get_param T (mx_conf (ob_mx o)) q) as [a|] eqn:Ea; [by apply V1|].
          destruct (conf_get_param T (mx_conf (ob_mx o')) q) as [a|] eqn:Eb; [|done]. exfalso.
          destruct (sync_added _ _ _ _ _ _ _ _ Hm E Eb Ea) as (? & _). done. }
        constructor; cbn [is_modamt last_monitor default].
        * intros k. unfold obs_get_prop. by rewrite P.
        * intros q [H|H]; [by rewrite Hv in H|]. unfold amount_of in H. by rewrite V2 in H.
        * intros q [H|H]; [by rewrite Hv in H|]. unfold amount_of in H. by rewrite V2 in H.
        * intros _ _. done.
        * by intros ?%nil_not_sent.
        * intros _ _. split; [by intros ?%nil_not_sent|by intros ?%elem_of_nil].
        * lia.
        * congruence.
      + destruct Hc as (G & Hs & _ & Hc). constructor; cbn [is_modamt].
        * intros k. unfold obs_get_prop. by rewrite P.
        * lia.
        * intros q _ Ho _. right. destruct Hc as [[_ Hn]|[_ Hn]]; rewrite (Hn Ho); set_solver.
        * intros Ho _. destruct Hc as [[Hmon Hn]|[_ Hn]]; rewrite (Hn Ho); [exact Hmon|done].
        * lia.
        * intros Ho _. split; [|done]. intros _. destruct Hc as [[_ Hn]|[_ Hn]]; rewrite (Hn Ho); set_solver.
        * lia.
        * congruence.
    - destruct (obs_clear T h o) as [[[[h1 o1] ms1] ns1]|] eqn:Ec; cbn [mbind option_bind]; [|done]. intros [= <- <- <- <- <-].
      apply obs_clear_spec in Ec as (_ & _ & O & G & S & N & _); [|done].
      constructor; cbn [is_modamt]; [intros k _; split; [lia|]|lia|..|lia| |lia|congruence]; intros; destruct N as (N1 & N2 & N3); try done.
      + by right.
      + by right.
      + by rewrite N3.
    - unfold obs_set_param, matrix_set_param. pose proof (fun q => set_param_facts (mx_conf (ob_mx o)) p a q) as Hf.
      destruct (conf_set_param _ _ _ _ _ _) as [c1 ms1]. cbn [fst snd] in Hf. intros [= <- <- <- <- <-].
      constructor; cbn [is_modamt ob_gen ob_on tell obs_get_prop ob_props]; unfold value_of, amount_of, monitored, tell; cbn [ob_mx mx_conf mx_mon ob_on]; try lia.
      + done.
      + intros q [H|H] Ho _; destruct (Hf q) as (F1 & F2 & _); [|by rewrite F2 in H]. rewrite Ho. apply F1 in H as ->. left. left. by left.
      + intros Ho _. by rewrite Ho.
      + intros Ho _. rewrite Ho. split; [|by intros ?%elem_of_list_singleton]. intros H. by destruct (Hf p) as (_ & _ & ?).
      + done.
    - unfold obs_set_modamt. pose proof (fun q => set_modamt_facts (mx_conf (ob_mx o)) p v q) as Hf.
      pose proof (set_modamt_good T (mx_conf (ob_mx o)) p v (proj2 Hm)) as Hg. destruct (set_modamt_values T (mx_conf (ob_mx o)) p v) as (Vn & _).
      destruct (conf_set_modamt _ _ _ _) as [[c1 ms1] b]. cbn [fst snd] in Hf, Hg, Vn. destruct b; cbn [mbind option_bind].
      + destruct (obs_sync T h _) as [[[[[h2 o2] ms3] ns3] e2]|] eqn:Es; cbn [mbind option_bind]; [|done]. intros [= <- <- <- <- <-].
        apply obs_sync_spec in Es as (S1 & S2 & S3 & S4). cbn [ob_mx ob_props ob_on ob_gen] in *.
        assert (mx_inv T (Matrix (mx_lay (ob_mx o)) c1 (mx_mon (ob_mx o)))) as Hm1 by (split; [apply Hm|done]).
        destruct (sync_values T HT _ _ _ _ _ _ Hm1 S1) as (V1 & V2 & _). cbn [mx_conf] in V1, V2.
        assert (ns3 = []) as -> by (destruct e2; naive_solver).
        assert (forall q, amount_of (Observed (ob_mx o2) (ob_props o2) (ob_gen o2) (ob_on o)) q <> amount_of o q -> q = p) as Ha.
        { intros q. unfold amount_of. cbn [ob_mx]. rewrite V2. intros H. destruct (Hf q) as (_ & F2 & _). by apply F2 in H as [-> _]. }
        constructor; cbn [is_modamt ob_gen ob_on]; unfold tell.
        * intros k. unfold obs_get_prop. cbn [ob_props]. by rewrite S2.
        * intros q _ He. destruct e2; [by specialize (He eq_refl)|]. destruct S4 as (-> & _). lia.
        * intros q H Ho (_ & (U1 & U2) & _). rewrite Ho. left. left. rewrite app_nil_r. apply elem_of_list_singleton. f_equal.
          destruct H as [H|H]; [|by apply Ha]. exfalso. apply H. unfold value_of. cbn [ob_mx].
          rewrite (sync_quiet _ _ _ _ _ _ Hm1 S1); cbn [mx_conf mx_lay].
          -- by destruct (Hf q) as (-> & _).
          -- unfold created. rewrite Vn. exact U1.
          -- intros q'. unfold created. rewrite Vn. destruct (Hf q') as (-> & _). apply U2.
        * intros Ho (_ & _ & U). rewrite Ho. cbn [app last_monitor default]. unfold monitored at 1. cbn [ob_mx].
          destruct e2 as [e2|]; [by destruct S4 as (_ & _ & _ & ->)|]. destruct S4 as (_ & _ & _ & [[-> _]|[Hb _]]); [done|].
          by apply U in Hb.
        * intros (pr & b & H). destruct e2 as [e2|]; [|destruct S4 as (-> & _); lia]. destruct S4 as (_ & -> & _). exfalso.
          rewrite app_nil_r in H. destruct (Hf p) as (_ & _ & _ & F4 & _). apply F4. by exists pr, b.
        * done.
        * destruct e2; [destruct S4 as (_ & _ & -> & _)|destruct S4 as (-> & _)]; lia.
        * done.
      + intros [= <- <- <- <- <-].
        constructor; cbn [is_modamt ob_gen ob_on ob_props]; unfold value_of, amount_of, monitored, tell; cbn [ob_mx mx_conf mx_mon ob_on]; try lia; try done.
        intros q [H|H] _ ([U|[U|U]] & _); exfalso; destruct (Hf q) as (F1 & F2 & F3 & _ & F5); [by rewrite F1 in H..| | |];
          destruct (F2 H) as [-> Hat].
        * assert (false = true) by (apply F5; by auto). done.
        * assert (false = true) by (apply F5; by auto). done.
        * apply H. rewrite F3 by done. exact U.
    - intros E. eapply obs_load_spec in E as (_ & O & G & S & N & _); [|by eexists].
      constructor; cbn [is_modamt]; [intros k _; split; [lia|]|lia|..|lia| |lia|congruence]; intros; destruct N as (N1 & N2 & N3); try done.
      + by right.
      + by right.
      + by rewrite N3.
    - unfold obs_monitor, matrix_monitor. intros [= <- <- <- <- <-].
      constructor; cbn [is_modamt ob_gen ob_on tell ob_props]; unfold value_of, amount_of, monitored, tell; cbn [ob_mx mx_conf mx_mon ob_on]; try done.
      + naive_solver.
      + naive_solver.
      + intros Ho _. by rewrite Ho.
      + intros (pr & b & H). unfold conf_monitor in H. destruct (conf_inst _ _); [|by apply elem_of_nil in H]. by apply elem_of_list_singleton in H.
      + intros Ho _. rewrite Ho. split; [|by intros ?%elem_of_list_singleton].
        intros (pr & b & H). unfold conf_monitor in H. destruct (conf_inst _ _); [|by apply elem_of_nil in H]. by apply elem_of_list_singleton in H.
    - unfold obs_set_prop. intros [= <- <- <- <- <-].
      constructor; cbn [is_modamt ob_gen ob_on tell ob_props]; unfold value_of, amount_of, monitored, tell, obs_get_prop; cbn [ob_mx mx_conf mx_mon ob_on ob_props]; try lia; try done.
      + intros k' H. split; [lia|]. intros Ho. rewrite Ho. destruct (decide (k' = k)) as [->|Hne]; [left; by left|]. by rewrite lookup_insert_ne in H.
      + naive_solver.
      + intros Ho _. by rewrite Ho.
      + intros Ho _. rewrite Ho. split; [by intros ?%nil_not_sent|by intros ?%elem_of_list_singleton].
    - intros [= <- <- <- <- <-]. constructor; cbn; [done|naive_solver|naive_solver|done|by intros ?%nil_not_sent| |done|done].
      intros _ _. split; [by intros ?%nil_not_sent|by intros ?%elem_of_nil].
  Qed.

  Lemma sync_on h o h' o' ms ns r : obs_sync T h o = Some (h', o', ms, ns, r) -> ob_on o' = ob_on o.
  Proof using. intros E. by apply obs_sync_spec in E as (_ & _ & ? & _). Qed.
  Lemma sync_notes h o h' o' ms ns r n : obs_sync T h o = Some (h', o', ms, ns, r) -> n ∈ ns -> ob_on o = true /\ (n = NMatrix \/ exists c, n = NMon c).
  Proof using.
    intros E H. apply obs_sync_spec in E as (_ & _ & _ & Hc). destruct r as [e|].
    - destruct Hc as (-> & _). by apply elem_of_nil in H.
    - destruct Hc as (_ & _ & Hoff & Hc). destruct (ob_on o); [|rewrite Hoff in H by done; by apply elem_of_nil in H].
      split; [done|]. destruct Hc as [[_ Hn]|[_ Hn]]; rewrite Hn in H by done; [apply elem_of_list_singleton in H; by left|].
      apply elem_of_cons in H as [->|H%elem_of_list_singleton]; [right; by eexists|by left].
  Qed.
  Lemma clear_on h o h' o' ms ns : obs_clear T h o = Some (h', o', ms, ns) -> ob_on o' = ob_on o.
  Proof using.
    unfold obs_clear, conf_delete_nodes, obs_monitor, matrix_monitor. cbn [ob_mx mx_lay mx_conf ob_props ob_gen ob_on mx_mon].
    destruct (obs_sync T h _) as [[[[[h1 o1] ms1] ns1] r]|] eqn:E; cbn [mbind option_bind]; [|done]. intros [= <- <- <- <-]. by apply sync_on in E.
  Qed.
  Lemma clear_notes h o h' o' ms ns n : obs_clear T h o = Some (h', o', ms, ns) -> n ∈ ns ->
    ob_on o = true /\ (n = NAll \/ n = NMatrix \/ exists c, n = NMon c).
  Proof using.
    unfold obs_clear, conf_delete_nodes, obs_monitor, matrix_monitor. cbn [ob_mx mx_lay mx_conf ob_props ob_gen ob_on mx_mon].
    destruct (obs_sync T h _) as [[[[[h1 o1] ms1] ns1] r]|] eqn:E; cbn [mbind option_bind]; [|done]. intros [= <- <- <- <-] H.
    pose proof (sync_on _ _ _ _ _ _ _ E) as Ho. cbn [ob_on] in Ho. rewrite !elem_of_app in H. unfold tell in H. cbn [ob_on] in H. rewrite Ho in H.
    destruct H as [H|[H|H]].
    - destruct (ob_on o); [|by apply elem_of_nil in H]. apply elem_of_list_singleton in H as ->. split; [done|]. eauto.
    - eapply sync_notes in E as [Ho' Hn]; [|exact H]. cbn [ob_on] in Ho'. split; [done|]. naive_solver.
    - destruct (ob_on o); [|by apply elem_of_nil in H]. apply elem_of_list_singleton in H as ->. split; [done|]. eauto.
  Qed.

  (** running a list of calls *)
  Definition obs_call (s : heap * observed * list event) (c : ocall) : option (heap * observed * list event) :=
    let* (h, o, ms, ns, r) := step s.1.1 s.1.2 c in Some (h, o, s.2 ++ [(c, ms, ns, r)]).
  Definition obs_run (w hh : nat) (cs : list ocall) : option (heap * observed * list event) :=
    foldm obs_call (Heap ∅ 0, observed_new w hh, []) cs.
  Lemma run_history w hh cs h o tr : obs_run w hh cs = Some (h, o, tr) -> history T i2f load_sample (Heap ∅ 0, observed_new w hh) tr (h, o).
  Proof using.
    intros E. apply (foldm_inv _ (fun s => history T i2f load_sample (Heap ∅ 0, observed_new w hh) s.2 s.1)) in E; [done| |constructor].
    intros [[h1 o1] tr1] c s' _ H E1. unfold obs_call in E1. cbn [fst snd] in *. destruct (obs_step _ _ _ _ _ _) as [[[[[h2 o2] ms] ns] r]|] eqn:E2;
      cbn [mbind option_bind] in E1; [|done]. injection E1 as <-. cbn [fst snd]. by econstructor.
  Qed.
  Lemma run_made w hh cs h o tr : obs_run w hh cs = Some (h, o, tr) -> made T i2f load_sample h o.
  Proof using. intros E. exists w, hh, tr. by apply (run_history w hh cs). Qed.
End obs.
