(** Proofs for C26: the layout and the parameters *)
From stdpp Require Import strings.
From Verif Require Import Base M_Dir S_Dir L_Dir M_Graph S_Graph L_Graph M_Grid S_Grid L_Grid M_Layout S_Layout L_Layout.
From Verif Require Import M_Atom M_Prog M_Conf S_Conf L_Conf L_Conf2 L_Conf3 M_Exec M_Sync S_Sync L_Sync L_Fill M_Nodes M_Repr M_Patch.
Open Scope nat_scope.

(** ** Cells know where they are *)
Definition cells_placed (h : nat) (cs : list cell) : Prop :=
  forall x y c, y < h -> cs !! (x * h + y) = Some c -> c_node c <> Nop -> c_x c = u8 x /\ c_y c = u8 y.
Definition lay_placed (l : layout) : Prop :=
  cells_placed (g_h (lay_grid l)) (g_cells (lay_grid l)) /\ forall cs, lay_saved l = Some cs -> cells_placed (g_h (lay_grid l)) cs.

Section placed.
  Context (is_param : node_id -> nat -> bool).
  Notation step := (lay_step is_param).

  Lemma placed_new w h : lay_placed (layout_new w h).
  Proof. split; [|done]. intros x y c _ H. cbn in H. apply lookup_replicate in H as [-> _]. done. Qed.

  Lemma placed_empty h (cs : list cell) : cells_placed h ((fun _ => cell_empty Nop) <$> cs).
  Proof. intros x y c _ H. rewrite list_lookup_fmap in H. destruct (cs !! _); [|done]. by injection H as <-. Qed.

  Lemma placed_place m x y c m' : lay_placed m -> layout_place m x y c = Some m' -> lay_placed m'.
  Proof.
    intros [H1 H2]. unfold layout_place, grid_place. destruct (decide (g_w (lay_grid m) <= x \/ _)) as [Ho|Ho]; cbn [mbind option_bind].
    { intros [= <-]. done. }
    destruct (decide (_ < length _)) as [Hl|Hl]; cbn [mbind option_bind]; [|done]. intros [= <-]. split; cbn; [|done].
    intros x' y' c' Hy. destruct (decide (x * g_h (lay_grid m) + y = x' * g_h (lay_grid m) + y')) as [E|E].
    - apply index_inj in E as [-> ->]; [|lia|done]. rewrite list_lookup_insert by done. intros [= <-]. done.
    - rewrite list_lookup_insert_ne by done. by apply H1.
  Qed.

  Lemma placed_eq m m' : lay_placed m -> lay_grid m' = lay_grid m -> lay_saved m' = lay_saved m -> lay_placed m'.
  Proof. intros [H1 H2] E1 E2. split; rewrite E1; [done|]. by rewrite E2. Qed.

  Lemma placed_check m m' r : lay_placed m -> layout_check is_param m = Some (m', r) -> lay_placed m'.
  Proof.
    intros H. unfold layout_check. destruct (grid_check _ _) as [[[go es] r']|]; cbn; [|done]. intros [= <- _]. by eapply placed_eq.
  Qed.
  Lemma placed_sync m m' r : lay_placed m -> layout_sync is_param m = Some (m', r) -> lay_placed m'.
  Proof.
    intros H. unfold layout_sync, layout_scan. destruct (scan _ _) as [[go es]|]; cbn; [|done].
    destruct (gord_calculate_order _ _) as [[[go' o] ok]|]; cbn; [|done]. intros [= <- _]. by eapply placed_eq.
  Qed.
  Lemma placed_restore m : lay_placed m -> lay_placed (layout_restore m).
  Proof.
    intros [H1 H2]. unfold layout_restore. destruct (lay_saved m) as [cs|] eqn:E; [|split; [done|by rewrite E]].
    split; cbn; [by apply H2|done].
  Qed.
  Lemma placed_save m : lay_placed m -> lay_placed (layout_save m).
  Proof. intros [H1 H2]. split; cbn; [done|]. by intros cs [= <-]. Qed.
  Lemma placed_finish m m' r : lay_placed m -> finish_change is_param m = Some (m', r) -> lay_placed m'.
  Proof.
    intros H. unfold finish_change. destruct (layout_check is_param m) as [[m1 r1]|] eqn:E; cbn; [|done].
    apply placed_check in E; [|done]. destruct r1; intros [= <- _]; [by apply placed_restore|done].
  Qed.
  Lemma placed_cells cs : forall m m' r, lay_placed m -> layout_place_cells m cs = Some (m', r) -> lay_placed m'.
  Proof.
    induction cs as [|c cs IH]; intros m m' r Hm; cbn [layout_place_cells]; [by intros [= <- _]|].
    destruct (grid_get _ _ _) as [[e|]|]; cbn [mbind option_bind]; [|by intros [= <- _]|done].
    destruct (negb _); [by intros [= <- _]|]. destruct (layout_place m _ _ c) as [m1|] eqn:E; cbn [mbind option_bind]; [|done].
    apply IH. by eapply placed_place.
  Qed.

  Lemma placed_step o : forall m m' r, lay_placed m -> step m o = Some (m', r) -> lay_placed m'.
  Proof.
    induction o as [x y c|cs| | |e| | | |body IH|body IH] using lop_ind'; intros m m' r Hok; cbn [lay_step].
    - destruct (layout_place _ _ _ _) as [m1|] eqn:Hp; [|done]. cbn. intros [= <- _]. by eapply placed_place.
    - unfold layout_place_multiple. destruct (layout_place_cells _ _) as [[m1 r1]|] eqn:Hp; [|done]. cbn.
      apply placed_cells in Hp; [|done]. destruct r1; [by intros [= <- _]|]. by apply placed_check.
    - by apply placed_check.
    - by apply placed_sync.
    - by intros [= <- _].
    - intros [= <- _]. by apply placed_save.
    - intros [= <- _]. by apply placed_restore.
    - unfold layout_clear. destruct (layout_sync _ _) as [[m1 r1]|] eqn:Hs; [|done]. cbn. intros [= <- _].
      eapply placed_sync; [|exact Hs]. split; [|done]. apply placed_empty.
    - unfold change_matrix. set (go := fix go (m : layout) (os : list lop) {struct os} : option layout := _).
      assert (forall os m m', Forall (fun o => forall m m' r, lay_placed m -> step m o = Some (m', r) -> lay_placed m') os ->
        lay_placed m -> go m os = Some m' -> lay_placed m') as Hgo.
      { intros os. induction os as [|o os IHos]; intros m0 m0' Hf Hok0; cbn.
        - by intros [= <-].
        - apply Forall_cons in Hf as [Ho Hos]. destruct (step m0 o) as [[m1 r1]|] eqn:Hst; [|done]. cbn.
          apply Ho in Hst; [|done]. intros Hrr. by apply IHos in Hrr. }
      destruct (go (layout_save m) body) as [m1|] eqn:Hg; [|done]. cbn [mbind option_bind].
      apply Hgo in Hg; [|done|by apply placed_save]. by apply placed_finish.
    - unfold change_matrix_err.
      set (go := fix go (m : layout) (os : list lop) {struct os} : option (layout * option merror) := _).
      assert (forall os m m' r, Forall (fun o => forall m m' r, lay_placed m -> step m o = Some (m', r) -> lay_placed m') os ->
        lay_placed m -> go m os = Some (m', r) -> lay_placed m') as Hgo.
      { intros os. induction os as [|o os IHos]; intros m0 m0' r0 Hf Hok0; cbn.
        - by intros [= <- _].
        - apply Forall_cons in Hf as [Ho Hos]. destruct (step m0 o) as [[m1 r1]|] eqn:Hst; [|done]. cbn.
          apply Ho in Hst; [|done]. destruct r1; [by intros [= <- _]|]. intros Hrr. by apply IHos in Hrr. }
      destruct (go (layout_save m) body) as [[m1 r1]|] eqn:Hg; [|done]. cbn [mbind option_bind].
      apply Hgo in Hg; [|done|by apply placed_save]. destruct r1; [intros [= <- _]; by apply placed_restore|by apply placed_finish].
  Qed.
End placed.

Section matrix.
  Context (T : ntable) (HT : table_ok T) (i2f : Z -> f32) (load_sample : satom -> satom).

  Lemma sync_lay h m h' m' ms r : matrix_sync T h m = Some (h', m', ms, r) ->
    lay_grid (mx_lay m') = lay_grid (mx_lay m) /\ lay_saved (mx_lay m') = lay_saved (mx_lay m).
  Proof.
    unfold matrix_sync. destruct (conf_create_cells _ _ _) as [c1|]; cbn [mbind option_bind]; [|done].
    unfold layout_scan. destruct (scan _ _) as [[go es]|]; cbn [mbind option_bind]; [|done].
    destruct (gord_calculate_order _ _) as [[[go' o] ok]|]; cbn [mbind option_bind]; [|done].
    destruct ok; cbn [negb]; [|by intros [= _ <- _ _]].
    destruct (conf_program _ _ _ _ _) as [[[h2 c2] p2]|]; cbn [mbind option_bind]; [|done].
    unfold matrix_remonitor. cbn [mx_lay mx_mon lay_grid]. destruct (grid_get _ _ _) as [oc|]; cbn [mbind option_bind]; [|done].
    destruct oc; cbn [mbind option_bind]; [unfold matrix_monitor; cbn; by intros [= _ <- _ _]|by intros [= _ <- _ _]].
  Qed.

  Lemma placed_mstep h m o h' m' ms : lay_placed (mx_lay m) -> matrix_step T i2f load_sample h m o = Some (h', m', ms) -> lay_placed (mx_lay m').
  Proof.
    intros Hm. destruct o as [o| | |p a|p v|ps ats nrm|c]; cbn [matrix_step].
    - destruct (lop_pure o); [|by intros [= _ <- _]]. destruct (lay_step _ _ o) as [[l r]|] eqn:E; cbn [mbind option_bind]; [|done].
      intros [= _ <- _]. by eapply placed_step.
    - destruct (matrix_sync T h m) as [[[[h1 m1] ms1] r]|] eqn:E; cbn [mbind option_bind]; [|done]. intros [= _ <- _].
      apply sync_lay in E as [? ?]. by eapply placed_eq.
    - unfold matrix_clear, conf_delete_nodes, matrix_monitor. cbn [mx_conf mx_lay].
      destruct (matrix_sync T h _) as [[[[h1 m1] ms1] r]|] eqn:E; cbn [mbind option_bind]; [|done]. intros [= _ <- _].
      apply sync_lay in E as [E1 E2]. cbn [mx_lay lay_grid lay_saved] in E1, E2. split; rewrite E1; [apply placed_empty|by rewrite E2].
    - unfold matrix_set_param. destruct (conf_set_param _ _ _ _ _ _) as [c ms1]. by intros [= _ <- _].
    - unfold matrix_set_modamt. destruct (conf_set_modamt T (mx_conf m) p v) as [[c ms1] b]. destruct b; [|by intros [= _ <- _]].
      destruct (matrix_sync T h _) as [[[[h1 m1] ms2] r]|] eqn:E; cbn [mbind option_bind]; [|done]. intros [= _ <- _].
      apply sync_lay in E as [? ?]. by eapply placed_eq.
    - unfold matrix_load. destruct (conf_load _ _ _ _ _ _ _) as [c ms1]. by intros [= _ <- _].
    - unfold matrix_monitor. by intros [= _ <- _].
  Qed.

  Lemma reachable_placed h m sent : matrix_reachable T i2f load_sample h m sent -> lay_placed (mx_lay m).
  Proof.
    intros (w & hh & os & Hr). change m with (h, m, sent).1.2.
    eapply (foldm_inv _ (fun s => lay_placed (mx_lay s.1.2))); [| |exact Hr]; [|apply (placed_new w hh)].
    intros s1 o s2 _ H1. unfold matrix_step_log.
    destruct (matrix_step _ _ _ _ _ o) as [[[h0 m0] ms]|] eqn:E; cbn [mbind option_bind]; [|done].
    intros [= <-]. cbn. by eapply placed_mstep.
  Qed.

  Lemma reach_step h m sent o h' m' ms : matrix_reachable T i2f load_sample h m sent -> matrix_step T i2f load_sample h m o = Some (h', m', ms) ->
    matrix_reachable T i2f load_sample h' m' (sent ++ ms).
  Proof.
    intros (w & hh & os & Hr) E. exists w, hh, (os ++ [o]). unfold matrix_run in *. rewrite foldm_app, Hr. cbn [mbind option_bind foldm].
    unfold matrix_step_log. cbn [fst snd]. by rewrite E.
  Qed.

  (** [sync] does not panic *)
  Lemma sync_total h m : mx_inv T m -> let g := lay_grid (mx_lay m) in
    (forall n, on_board g n -> nt_known T (nid_kind n) = true) -> fanout_ok g ->
    (forall q d e, connects g q d e -> e_to_input e <> max_node_inputs) ->
    exists h' m' ms r, matrix_sync T h m = Some (h', m', ms, r) /\ (r = None <-> layout_acyclic g).
  Proof.
    intros [Hl Hg] g Hk Hf Hi. unfold matrix_sync.
    destruct (create_cells_total T (c_node <$> g_cells (lay_grid (mx_lay m))) (mx_conf m)) as [c1 Ec].
    { intros n Hn Hne. apply Hk. apply board_cells; [apply Hl|done]. }
    rewrite Ec. cbn [mbind option_bind].
    destruct (create_cells_good T HT _ _ _ Hg Ec) as (Hg1 & _).
    unfold layout_scan. destruct (scan_some _ _ (ok_wf _ Hl) Hf (ok_order _ Hl)) as (go & Es & HR).
    rewrite Es. cbn [mbind option_bind lay_order lay_grid lay_edges].
    destruct (calculate_order_ok go _ [] HR) as (go' & ok & ord & Eo & _ & Hok & _). rewrite Eo. cbn [mbind option_bind].
    rewrite acyclic_layout in Hok by apply Hl. destruct ok; cbn [negb].
    - destruct (program_total T HT h c1 ord (grid_edges (lay_grid (mx_lay m))) (good_fine T c1 Hg1)) as [[[h2 c2] p2] Ep].
      { intros e He. apply grid_edges_elem in He as (q & d & He). by eapply Hi. }
      rewrite app_nil_l in *. cbn [app lay_edges]. rewrite Ep. cbn [mbind option_bind]. unfold matrix_remonitor. cbn [mx_lay mx_mon lay_grid].
      rewrite grid_get_board by apply Hl. cbn [mbind option_bind].
      destruct (board _ _) as [c|]; [destruct (matrix_monitor _ c) as [m2 ms2]|]; cbn [mbind option_bind];
        eexists _, _, _, _; (split; [done|]); tauto.
    - eexists _, _, _, _. split; [done|]. naive_solver.
  Qed.

  (** What [sync] does to the values *)
  Lemma create_cells_values ns c c' : conf_create_cells T c ns = Some c' ->
    cf_pvals c' = cf_pvals c /\ cf_avals c' = cf_avals c /\ cf_modamt c' = cf_modamt c.
  Proof.
    assert (forall c n c', conf_create T c n = Some c' -> cf_pvals c' = cf_pvals c /\ cf_avals c' = cf_avals c /\ cf_modamt c' = cf_modamt c) as H1.
    { intros c0 n c1. unfold conf_create. destruct (nt_known _ _); [|done]. by intros [= <-]. }
    assert (forall c n c', conf_create_cell T c n = Some c' -> cf_pvals c' = cf_pvals c /\ cf_avals c' = cf_avals c /\ cf_modamt c' = cf_modamt c) as H2.
    { intros c0 n c1. unfold conf_create_cell. destruct (decide _); [by intros [= <-]|]. destruct (cf_idx c0 !! n); [by intros [= <-]|].
      destruct (foldm _ _ _) as [c2|] eqn:E; cbn [mbind option_bind]; [|done]. intros E2.
      assert (cf_pvals c2 = cf_pvals c0 /\ cf_avals c2 = cf_avals c0 /\ cf_modamt c2 = cf_modamt c0) as (I1 & I2 & I3).
      { revert E. apply (foldm_inv _ (fun x => cf_pvals x = cf_pvals c0 /\ cf_avals x = cf_avals c0 /\ cf_modamt x = cf_modamt c0)); [|done].
        intros s x s' _ (J1 & J2 & J3). unfold conf_ensure. case_match; [by intros [= <-]|]. intros E3. apply H1 in E3 as (-> & -> & ->). done. }
      apply H1 in E2 as (-> & -> & ->). done. }
    unfold conf_create_cells. intros E. revert E.
    apply (foldm_inv _ (fun x => cf_pvals x = cf_pvals c /\ cf_avals x = cf_avals c /\ cf_modamt x = cf_modamt c)); [|done].
    intros s x s' _ (J1 & J2 & J3) E. apply H2 in E as (-> & -> & ->). done.
  Qed.

  Lemma rebuild_new h c h' c' p : conf_inv T c -> conf_rebuild T h c = Some (h', c', p) ->
    (forall q v, cf_pvals c' !! q = Some v -> cf_pvals c !! q = None -> q.1 ∈ (cf_nodes c').*1) /\
    (forall q v, cf_avals c' !! q = Some v -> cf_avals c !! q = None -> q.1 ∈ (cf_nodes c').*1).
  Proof.
    intros Hc E. destruct (conf_rebuild_spec T HT h c Hc) as (h2 & c2 & p2 & E2 & Hs). rewrite E in E2.
    injection E2 as <- <- <-. cbn zeta in Hs.
    destruct Hs as (_ & Hids & _ & _ & _ & _ & _ & _ & _ & V2 & _ & _ & _ & B2). rewrite Hids.
    split; intros q v Hv Hn; (destruct (decide (q.1 ∈ (cf_nodes c).*1)) as [?|Hi]; [done|]).
    - rewrite V2 in Hv by (by left). congruence.
    - rewrite B2 in Hv by (by left). congruence.
  Qed.

  Lemma sync_values h m h' m' ms r : mx_inv T m -> matrix_sync T h m = Some (h', m', ms, r) ->
    (forall k a, conf_get_param T (mx_conf m) k = Some a -> conf_get_param T (mx_conf m') k = Some a) /\
    (forall k, conf_get_modamt (mx_conf m') k = conf_get_modamt (mx_conf m) k) /\
    (forall k a, conf_get_param T (mx_conf m') k = Some a -> conf_get_param T (mx_conf m) k = None -> k.1 ∈ created (mx_conf m')).
  Proof.
    intros Hm E. destruct (sync_cases T HT _ _ _ _ _ _ Hm E) as (c1 & Ec & Hg1 & _ & _ & _ & Hr).
    apply create_cells_values in Ec as (V1 & V2 & V3).
    assert (forall k, conf_get_param T c1 k = conf_get_param T (mx_conf m) k) as Hget by (intros k; unfold conf_get_param; by rewrite V1, V2).
    assert (forall k, conf_get_modamt c1 k = conf_get_modamt (mx_conf m) k) as Hmod by (intros k; unfold conf_get_modamt; by rewrite V3).
    destruct r as [e|].
    - destruct Hr as (_ & _ & -> & _). split_and!; [|done|].
      + intros k a. by rewrite Hget.
      + intros k a. rewrite Hget. congruence.
    - destruct Hr as (order & p & mon & _ & Ep & _). destruct (program_conf T _ _ _ _ _ _ _ Ep) as (h1 & c2 & p1 & Er & Hsv & _).
      destruct (rebuild_keeps T HT _ _ _ _ _ (cg_inv T _ Hg1) Er) as (K1 & K2 & K3).
      destruct (rebuild_new _ _ _ _ _ (cg_inv T _ Hg1) Er) as (N1 & N2).
      destruct Hsv as (_ & _ & S1 & S2 & _ & S3 & S4). split_and!.
      + intros k a. rewrite <- Hget. unfold conf_get_param. destruct (is_atom T k).
        * rewrite S3. apply K2.
        * rewrite S1. destruct (cf_pvals c1 !! k) as [v|] eqn:Ev; [|done]. by rewrite (K1 _ _ Ev).
      + intros k. rewrite <- Hmod. unfold conf_get_modamt. by rewrite S2, K3.
      + intros k a. rewrite <- Hget. unfold conf_get_param, created. rewrite S4. destruct (is_atom T k).
        * rewrite S3. intros Ha Hn. by eapply N2.
        * rewrite S1. destruct (cf_pvals c2 !! k) as [v|] eqn:Ev; [|done]. intros _ Hn. destruct (cf_pvals c1 !! k) eqn:En; [done|]. by eapply N1.
  Qed.

  (** Clearing *)
  Lemma no_board g n : g_cells g = (fun _ => cell_empty Nop) <$> g_cells g -> grid_wf g -> ~ on_board g n.
  Proof.
    intros Hc Hwf Hn. apply board_cells in Hn as [Hn Hx]; [|done]. rewrite Hc in Hx. apply elem_of_list_fmap in Hx as (c & -> & Hx).
    apply elem_of_list_fmap in Hx as (? & -> & _). done.
  Qed.

  Lemma clear_spec h m : mx_inv T m -> exists h' m' ms, matrix_clear T h m = Some (h', m', ms) /\ mx_inv T m' /\
    lay_grid (mx_lay m') = Grid (g_w (lay_grid (mx_lay m))) (g_h (lay_grid (mx_lay m))) ((fun _ => cell_empty Nop) <$> g_cells (lay_grid (mx_lay m))) /\
    lay_saved (mx_lay m') = None /\
    (forall k, conf_get_param T (mx_conf m') k = None) /\ (forall k, conf_get_modamt (mx_conf m') k = None).
  Proof.
    intros [Hl Hg]. unfold matrix_clear, conf_delete_nodes, matrix_monitor. cbn [mx_conf mx_lay].
    set (m1 := Matrix _ conf_new _). assert (mx_inv T m1) as Hm1 by (split; cbn [m1 mx_lay mx_conf]; [by apply cleared_ok|apply good_new]).
    assert (forall n, ~ on_board (lay_grid (mx_lay m1)) n) as Hno.
    { intros n. apply no_board; [|apply Hm1]. cbn. rewrite <- list_fmap_compose. by apply list_fmap_ext. }
    assert (forall q d e, ~ connects (lay_grid (mx_lay m1)) q d e) as Hnc.
    { intros q d e He. pose proof (proj2 (grid_edges_elem _ _) (ex_intro _ q (ex_intro _ d He))) as Hin.
      destruct He as (c & ? & ? & Hb & Hne & _). apply (Hno (c_node c)). split; [done|]. by exists q, c. }
    destruct (sync_total h m1 Hm1) as (h' & m' & ms & r & E & _).
    - intros n Hn. by apply Hno in Hn.
    - intros a l _ Hb. destruct l as [|b l]; [cbn; lia|]. destruct (Hb b) as (q & d & e & He & _); [left|]. by apply Hnc in He.
    - intros q d e He. by apply Hnc in He.
    - cbn [mbind option_bind]. rewrite E. cbn [mbind option_bind]. eexists _, _, _. split; [done|]. split; [by eapply (sync_inv T HT)|].
      apply sync_lay in E as HE. destruct HE as [E1 E2]. split; [by rewrite E1|]. split; [by rewrite E2|].
      destruct (sync_values _ _ _ _ _ _ Hm1 E) as (_ & V2 & V3). split; [|intros k; rewrite V2; done].
      intros k. destruct (conf_get_param T (mx_conf m') k) as [a|] eqn:Ek; [|done]. exfalso.
      assert (k.1 ∈ created (mx_conf m')) as Hin.
      { eapply V3; [exact Ek|]. cbn [m1 mx_conf]. unfold conf_get_param. by destruct (is_atom T k). }
      destruct (sync_cases T HT _ _ _ _ _ _ Hm1 E) as (c1 & Ec & Hg1 & _ & _ & _ & Hr).
      destruct (create_cells_good T HT _ _ _ (good_new T) Ec) as (_ & _ & _ & H4).
      assert (created (mx_conf m') = created c1) as Hcr.
      { destruct r; [by destruct Hr as (_ & _ & -> & _)|]. destruct Hr as (order & p & mon & _ & Ep & _). by eapply (program_good T HT). }
      rewrite Hcr in Hin. destruct (H4 _ Hin) as [Hx|(n & Hn & Hne & _)]; [by apply elem_of_nil in Hx|].
      apply elem_of_list_fmap in Hn as (c & -> & Hc). cbn in Hc. apply elem_of_list_fmap in Hc as (? & -> & _). done.
  Qed.
End matrix.

(** ** Loading the cells *)
Lemma u8_small n : n < 256 -> u8 n = n.
Proof. intros. unfold u8. by apply Nat.mod_small. Qed.
Lemma port_round p : (forall i, p = Some i -> i < 256) -> port_from_repr (port_to_repr p) = p.
Proof.
  intros H. destruct p as [i|]; [|done]. unfold port_from_repr, port_to_repr. destruct (Z.ltb_spec (Z.of_nat i) 0); [lia|].
  rewrite Nat2Z.id, u8_small; [done|]. by apply H.
Qed.
Definition cell_8bit (c : cell) : Prop :=
  c_x c < 256 /\ c_y c < 256 /\ forall i, Some i ∈ [c_out1 c; c_out2 c; c_out3 c; c_in1 c; c_in2 c; c_in3 c] -> i < 256.
Lemma cell_round c : cell_8bit c -> cell_from_repr (cell_to_repr c) = c.
Proof.
  intros (Hx & Hy & Hp). unfold cell_from_repr, cell_to_repr. cbn [cr_inp cr_out cr_node cr_x cr_y].
  rewrite !u8_small by done. rewrite !port_round; [by destruct c|..]; intros i Hi; apply Hp; rewrite Hi; set_solver.
Qed.

Lemma load_cells cs : forall l, lay_ok l ->
  Forall (fun c => cell_8bit c /\ in_bounds (lay_grid l) (cell_pos c)) cs ->
  (forall c c' : cell, c ∈ cs -> c' ∈ cs -> cell_pos c = cell_pos c' -> c = c') ->
  exists l', foldm load_cell l (cell_to_repr <$> cs) = Some l' /\ lay_ok l' /\ same_dims l l' /\
    (forall c, c ∈ cs -> board (lay_grid l') (cell_pos c) = Some c) /\
    (forall p, (forall c, c ∈ cs -> cell_pos c <> p) -> board (lay_grid l') p = board (lay_grid l) p).
Proof.
  induction cs as [|c cs IH]; intros l Hl Hf Hu; cbn [fmap list_fmap foldm].
  { exists l. split; [done|]. split; [done|]. split; [done|]. split; [|done]. intros c Hc. by apply elem_of_nil in Hc. }
  apply Forall_cons in Hf as [[Hc Hb] Hf]. assert (load_cell l (cell_to_repr c) = layout_place l (c_x c) (c_y c) c) as -> by (unfold load_cell; by rewrite cell_round).
  destruct (layout_place l (c_x c) (c_y c) c) as [l1|] eqn:E; cbn [mbind option_bind].
  2: { unfold layout_place in E. destruct (place_some (lay_grid l) (c_x c) (c_y c) c (ok_wf _ Hl)) as (g' & Eg & _). by rewrite Eg in E. }
  destruct (place_keep _ _ _ _ _ Hl E) as (Hl1 & Hd & _).
  assert (forall p, board (lay_grid l1) p = if decide (p = cell_pos c) then Some c else board (lay_grid l) p) as Hp.
  { intros p. unfold layout_place in E. destruct (place_some (lay_grid l) (c_x c) (c_y c) c (ok_wf _ Hl)) as (g' & Eg & _ & _ & _ & Hg & _).
    rewrite Eg in E. injection E as <-. cbn [lay_grid with_grid]. rewrite Hg.
    destruct (decide (p = cell_pos c)) as [->|Hne].
    - rewrite decide_True by done. f_equal. destruct Hc as (Hx & Hy & _). rewrite !u8_small by done. by destruct c.
    - rewrite decide_False; [done|]. intros [-> _]. by apply Hne. }
  destruct (IH l1 Hl1) as (l' & El & Hl' & Hd' & H1 & H2).
  - eapply Forall_impl; [exact Hf|]. intros c' [? [? ?]]. split; [done|]. destruct Hd as [D1 D2]. split; [by rewrite D1|by rewrite D2].
  - intros c1 c2 ? ?. apply Hu; by right.
  - exists l'. split; [done|]. split; [done|]. split; [by eapply same_dims_trans|]. split.
    + intros c1 Hc1. destruct (decide (c1 ∈ cs)) as [Hin|Hin]; [by apply H1|].
      apply elem_of_cons in Hc1 as [->|Hc1]; [|done]. rewrite H2; [|].
      * rewrite Hp. by rewrite decide_True.
      * intros c2 Hc2 Heq. apply Hin. rewrite (Hu c c2); [done|left|by right|done].
    + intros p Hn. rewrite H2 by (intros c1 Hc1; apply Hn; by right). rewrite Hp, decide_False; [done|]. intros ->. by apply (Hn c); [left|].
Qed.

(** ** Grids with the same nodes *)
Definition same_nodes (g g' : grid) : Prop :=
  forall q c, c_node c <> Nop -> board g q = Some c <-> board g' q = Some c.
Lemma same_nodes_sym g g' : same_nodes g g' -> same_nodes g' g.
Proof. intros H q c Hc. by rewrite (H q c Hc). Qed.
Lemma same_connects g g' q d e : same_nodes g g' -> connects g q d e -> connects g' q d e.
Proof.
  intros H (c & q' & c' & H1 & H2 & H3 & H4 & H5 & H6). exists c, q', c'.
  split; [by apply H|]. split; [done|]. split; [done|]. split; [by apply H|]. done.
Qed.
Lemma same_feeds g g' a b : same_nodes g g' -> feeds g a b -> feeds g' a b.
Proof. intros H (q & d & e & He & ?). exists q, d, e. split; [by eapply same_connects|done]. Qed.
Lemma same_acyclic g g' : same_nodes g g' -> layout_acyclic g -> layout_acyclic g'.
Proof.
  intros H Ha n Hn. apply (Ha n). assert (forall x y, clos_trans node_id (feeds g') x y -> clos_trans node_id (feeds g) x y) as Hc.
  { induction 1 as [? ? Hf|? ? ? _ IH1 _ IH2]; [apply t_step; eapply same_feeds; [by apply same_nodes_sym|done]|by eapply t_trans]. }
  by apply Hc.
Qed.
Lemma same_on_board g g' n : same_nodes g g' -> on_board g n -> on_board g' n.
Proof. intros H (Hn & q & c & Hb & <-). split; [done|]. exists q, c. split; [by apply H|done]. Qed.

(** ** Saving and loading the layout *)
Lemma saved_cells g c : grid_wf g -> cells_placed (g_h g) (g_cells g) -> g_w g <= 256 -> g_h g <= 256 ->
  c ∈ filter (fun c => cell_is_empty c = false) (g_cells g) <-> c_node c <> Nop /\ board g (cell_pos c) = Some c /\ in_bounds g (cell_pos c).
Proof.
  intros Hwf Hp Hw Hh. rewrite elem_of_list_filter.
  assert (cell_is_empty c = false <-> c_node c <> Nop) as ->.
  { unfold cell_is_empty. case_bool_decide; naive_solver. }
  split; (intros [Hn Hc]; split; [done|]).
  - apply elem_of_list_lookup in Hc as [i Hi]. pose proof (lookup_lt_Some _ _ _ Hi) as Hlt. rewrite Hwf in Hlt.
    assert (g_h g <> 0) as Hh0 by (intros E; rewrite E in Hlt; lia).
    pose proof (Nat.div_mod i (g_h g) Hh0) as Hdm. pose proof (Nat.mod_upper_bound i (g_h g) Hh0) as Hm.
    set (x := i / g_h g) in *. set (y := i mod g_h g) in *. clearbody x y. assert (i = x * g_h g + y) as -> by lia.
    assert (x < g_w g) by nia. destruct (Hp x y c Hm Hi Hn) as [Ex Ey]. rewrite u8_small in Ex, Ey by lia.
    assert (cell_pos c = (x, y)) as E by (unfold cell_pos; by rewrite Ex, Ey).
    assert (in_bounds g (cell_pos c)) by (rewrite E; split; cbn; lia). split; [|done]. apply board_Some. split; [done|]. by rewrite E.
  - destruct Hc as [Hb _]. apply board_Some in Hb as [_ Hb]. by eapply elem_of_list_lookup_2.
Qed.

Lemma load_layout g l : grid_wf g -> cells_placed (g_h g) (g_cells g) -> g_w g <= 256 -> g_h g <= 256 ->
  (forall c, c ∈ g_cells g -> c_node c <> Nop -> forall i, Some i ∈ [c_out1 c; c_out2 c; c_out3 c; c_in1 c; c_in2 c; c_in3 c] -> i < 256) ->
  lay_ok l -> g_w (lay_grid l) = g_w g -> g_h (lay_grid l) = g_h g ->
  (forall q c, board (lay_grid l) q = Some c -> c_node c = Nop) ->
  exists l', foldm load_cell l (cell_to_repr <$> filter (fun c => cell_is_empty c = false) (g_cells g)) = Some l' /\
    lay_ok l' /\ same_dims l l' /\ same_nodes g (lay_grid l').
Proof.
  intros Hwf Hp Hw Hh H8 Hl Ew Eh He. pose proof (fun c => saved_cells g c Hwf Hp Hw Hh) as Hs.
  destruct (load_cells (filter (fun c => cell_is_empty c = false) (g_cells g)) l Hl) as (l' & El & Hl' & Hd & H1 & H2).
  - apply Forall_forall. intros c Hc. pose proof (proj1 (Hs c) Hc) as (Hn & _ & [Hbx Hby]). cbn in Hbx, Hby. split.
    + split; [lia|]. split; [lia|]. apply H8; [|done]. by apply elem_of_list_filter in Hc as [_ ?].
    + split; cbn; lia.
  - intros c c' Hc Hc' E. apply Hs in Hc as (_ & Hc & _), Hc' as (_ & Hc' & _). congruence.
  - exists l'. split; [done|]. split; [done|]. split; [done|]. intros q c Hn.
    assert (forall c', board g q = Some c' -> c_node c' <> Nop -> cell_pos c' = q /\ c' ∈ filter (fun c => cell_is_empty c = false) (g_cells g)) as Hq.
    { intros c' Hb Hn'. apply board_Some in Hb as [[Hx Hy] Hc]. destruct q as [x y]. cbn [fst snd] in *.
      destruct (Hp x y c' Hy Hc Hn') as [Ex Ey]. rewrite u8_small in Ex, Ey by lia. split; [unfold cell_pos; by rewrite Ex, Ey|].
      apply elem_of_list_filter. split; [unfold cell_is_empty; by case_bool_decide|]. by eapply elem_of_list_lookup_2. }
    split.
    + intros Hb. destruct (Hq c Hb Hn) as [<- Hin]. by apply H1.
    + intros Hb. destruct (decide (Exists (fun c' => cell_pos c' = q) (filter (fun c => cell_is_empty c = false) (g_cells g)))) as [Hex|Hno].
      * apply Exists_exists in Hex as (c' & Hin & <-). pose proof (H1 c' Hin) as E. rewrite E in Hb. injection Hb as <-. by apply Hs in Hin as (_ & ? & _).
      * rewrite H2 in Hb; [|intros c' Hin E; apply Hno; apply Exists_exists; by exists c']. by apply He in Hb.
Qed.

(** ** Parameters *)
Lemma pid_round p : repr_pid (pid_repr p) = p.
Proof.
  destruct p as [n i]. unfold repr_pid, pid_repr. cbn [fst snd]. destruct (param_by_idx n i) as [q|] eqn:E; [|done].
  assert (forall {A} (f : A -> bool) l x, first f l = Some x -> f x = true) as Hf.
  { clear. intros A f l x. unfold first. destruct (list_find f l) as [[i y]|] eqn:E; [|done]. cbn. intros [= ->].
    apply list_find_Some in E as (_ & H2 & _). by apply Is_true_true. }
  unfold param_by_idx in E. destruct (row_of n) as [row|]; cbn [mbind option_bind] in E; [|done].
  destruct (first _ (nr_ins row)) as [r|] eqn:E1.
  - injection E as <-. cbn. apply Hf, Nat.eqb_eq in E1. by rewrite E1.
  - destruct (first _ (nr_ats row)) as [r|] eqn:E2; cbn [mbind option_bind] in E; [|done].
    injection E as <-. cbn. apply Hf, Nat.eqb_eq in E2. by rewrite E2.
Qed.

Section params.
  Context (T : ntable) (HT : table_ok T) (i2f : Z -> f32) (load_sample : satom -> satom).

  Lemma dump_restores (un : satom -> satom) (c c0 : nconf) ps ats :
    conf_inv T c ->
    ps ≡ₚ (conf_dump T c).1 -> ats ≡ₚ ((fun e : (node_id * nat) * satom => (e.1, un e.2)) <$> (conf_dump T c).2) ->
    (forall p v, conf_get_param T c p = Some (AParam v) -> is_atom T p = false ->
       nt_norm T (nid_kind p.1) p.2 (nt_denorm T (nid_kind p.1) p.2 v) = v) ->
    (forall p a, conf_get_param T c p = Some a -> is_atom T p = true -> load_sample (un a) = a) ->
    let c' := (conf_load T i2f load_sample c0 ps ats true).1 in
    forall p a, conf_get_param T c p = Some a ->
      conf_get_param T c' p = Some a /\ (is_atom T p = false -> conf_get_modamt c' p = conf_get_modamt c p).
  Proof.
    intros Hr Hps Hats Hn Hl. cbn zeta.
    assert (Hget : forall p v, cf_pvals c !! p = Some v -> conf_get_param T c p = Some (AParam v)).
    { intros p v Hv. unfold conf_get_param. rewrite (ci_pvals T c Hr) by (by eexists). by rewrite Hv. }
    assert (Hget' : forall p a, cf_avals c !! p = Some a -> conf_get_param T c p = Some a).
    { intros p v Hv. unfold conf_get_param. by rewrite (ci_avals T c Hr) by (by eexists). }
    destruct (load_restores T i2f load_sample c0 ps ats true (cf_pvals c) (conf_get_modamt c) (un <$> cf_avals c)) as [H1 H2].
    - apply Hr.
    - intros p [a Ha]. rewrite lookup_fmap in Ha. apply Hr. destruct (cf_avals c !! p); [by eexists|done].
    - intros p v m. rewrite Hps. cbn [conf_dump fst]. rewrite elem_of_list_fmap. split.
      + intros ([q w] & [= -> -> ->] & Hq). apply elem_of_map_to_list in Hq. by exists w.
      + intros (w & Hw & -> & ->); exists (p, w). split; [done|]. by apply elem_of_map_to_list.
    - intros p a. rewrite Hats. cbn [conf_dump snd]. rewrite elem_of_list_fmap, lookup_fmap_Some. split.
      + intros ([q b] & [= -> ->] & Hq). apply elem_of_map_to_list in Hq. by exists b.
      + intros (b & <- & Hb). exists (p, b). split; [done|]. by apply elem_of_map_to_list.
    - intros _ p w Hw. apply Hn; [by apply Hget|]. apply Hr. by eexists.
    - intros p a Hp. pose proof Hp as Hp'. unfold conf_get_param in Hp. destruct (is_atom T p) eqn:Ea.
      + split; [|done]. rewrite (H2 p (un a)) by (by rewrite lookup_fmap, Hp). by rewrite (Hl p).
      + destruct (cf_pvals c !! p) as [w|] eqn:Ew; [|done]. injection Hp as <-.
        destruct (H1 p w Ew). done.
  Qed.

  Lemma load_modamt_other c ps ats nrm q : (forall v m, (q, v, m) ∉ ps) ->
    conf_get_modamt (conf_load T i2f load_sample c ps ats nrm).1 q = conf_get_modamt c q.
  Proof.
    intros Hp. unfold conf_load.
    assert (H1 : forall ps s, (forall v m, (q, v, m) ∉ ps) ->
       conf_get_modamt (foldl (conf_load_param T i2f load_sample nrm) s ps).1 q = conf_get_modamt s.1 q).
    { clear. induction ps as [|[[p v] m] ps IH]; intros s Hs; [done|]. cbn [foldl]. rewrite IH.
      - rewrite load_param_values. destruct (is_atom T p) eqn:Ea.
        + unfold conf_set_modamt. rewrite Ea. cbn. apply modamt_set.
        + rewrite modamt_modamt by done. rewrite modamt_set. rewrite decide_False; [done|]. intros ->. apply (Hs v m). left.
      - intros v' m' Hi. apply (Hs v' m'). by right. }
    assert (H2 : forall ats s, conf_get_modamt (foldl (conf_load_atom T i2f load_sample) s ats).1 q = conf_get_modamt s.1 q).
    { clear. induction ats as [|[p a] ats IH]; intros s; [done|]. cbn [foldl]. rewrite IH, load_atom_values. apply modamt_set. }
    rewrite H2. by apply H1.
  Qed.
End params.
