(** Proofs about the matrix and its node configuration *)
From Verif Require Import Base M_Atom M_Graph M_Dir M_Grid M_Layout M_Prog M_Conf M_Exec M_Sync.
From Verif Require Import S_Dir S_Graph S_Grid S_Layout S_Conf S_Sync L_Graph L_Grid L_Layout L_Conf L_Conf3.
Open Scope nat_scope.

Section sync.
  Context (T : ntable) (HT : table_ok T).

  Notation ids := created.

  Record conf_good (c : nconf) : Prop := {
    cg_inv : conf_inv T c;
    cg_nodup : NoDup (ids c);
    cg_gap : forall i n, ids c !! i = Some n -> forall j, j < nid_inst n ->
               exists i', i' < i /\ ids c !! i' = Some (NId (nid_kind n) j);
    cg_known : forall n, n ∈ ids c -> nt_known T (nid_kind n) = true;
  }.

  (** what building a program needs; the instance numbers may have gaps *)
  Record conf_fine (c : nconf) : Prop := { cn_inv : conf_inv T c; cn_nodup : NoDup (ids c) }.
  Lemma good_fine c : conf_good c -> conf_fine c.
  Proof. intros []. by constructor. Qed.

  Lemma good_new : conf_good conf_new.
  Proof. constructor; [apply conf_new_inv|constructor|done|]. cbn. intros n Hn. by apply elem_of_nil in Hn. Qed.

  Lemma idx_ids c n : conf_inv T c -> (is_Some (cf_idx c !! n) <-> n ∈ ids c).
  Proof.
    intros Hc. unfold created. split.
    - intros [i Hi]. destruct (ci_idx T c Hc n i Hi) as (oi & Hn & _).
      apply elem_of_list_fmap. exists (n, oi). split; [done|]. by eapply elem_of_list_lookup_2.
    - intros (x & -> & Hx)%elem_of_list_fmap. apply elem_of_list_lookup in Hx as [i Hi]. destruct x as [n oi].
      by eapply (ci_dom T c Hc i n oi).
  Qed.

  Lemma create_ids c n c' : conf_create T c n = Some c' -> ids c' = ids c ++ [n].
  Proof. unfold conf_create. destruct (nt_known _ _); [|done]. intros [= <-]. unfold created. cbn. by rewrite fmap_app. Qed.

  Lemma create_good c n c' : conf_good c -> n ∉ ids c ->
    (forall j, j < nid_inst n -> NId (nid_kind n) j ∈ ids c) ->
    conf_create T c n = Some c' -> conf_good c'.
  Proof.
    intros [Hi Hd Hg Hk] Hn Hs E. pose proof (create_ids _ _ _ E) as Hids. constructor.
    - by eapply create_inv.
    - rewrite Hids. apply NoDup_app. split; [done|]. split; [|by apply NoDup_singleton].
      intros x Hx ->%elem_of_list_singleton. done.
    - rewrite Hids. intros i m Hm j Hj. apply lookup_app_Some in Hm as [Hm|[Hlen Hm]].
      + destruct (Hg i m Hm j Hj) as (i' & Hlt & Hi'). exists i'. split; [done|]. by apply lookup_app_l_Some.
      + apply list_lookup_singleton_Some in Hm as [Hi0 <-]. destruct (proj1 (elem_of_list_lookup _ _) (Hs j Hj)) as [i' Hi'].
        pose proof (lookup_lt_Some _ _ _ Hi'). exists i'. split; [lia|]. by apply lookup_app_l_Some.
    - rewrite Hids. intros m [Hm| ->%elem_of_list_singleton]%elem_of_app; [by apply Hk|].
      unfold conf_create in E. by destruct (nt_known T (nid_kind n)).
  Qed.

  Lemma good_idx_none c n : conf_good c -> cf_idx c !! n = None -> n ∉ ids c.
  Proof. intros Hc Hn Hx. apply (idx_ids c n (cg_inv c Hc)) in Hx. rewrite Hn in Hx. by destruct Hx. Qed.
  Lemma good_idx_some c n i : conf_good c -> cf_idx c !! n = Some i -> n ∈ ids c.
  Proof. intros Hc Hn. apply (idx_ids c n (cg_inv c Hc)). by eexists. Qed.

  Lemma fillers_good k m c c' : conf_good c ->
    foldm (conf_ensure T) c ((fun i => NId k i) <$> seq 0 m) = Some c' ->
    conf_good c' /\ ids c `prefix_of` ids c' /\ (forall j, j < m -> NId k j ∈ ids c') /\
    (forall n, n ∈ ids c' -> n ∈ ids c \/ nid_kind n = k /\ nid_inst n < m).
  Proof.
    revert c'. induction m as [|m IH]; intros c' Hc.
    - cbn. intros [= <-]. split; [done|]. split; [done|]. split; [lia|]. by left.
    - rewrite seq_S, fmap_app, foldm_app. cbn [Nat.add].
      destruct (foldm _ _ _) as [c1|] eqn:E1; cbn [mbind option_bind]; [|done].
      destruct (IH c1 Hc eq_refl) as (H1 & H2 & H3 & H4). cbn [fmap list_fmap foldm]. unfold conf_ensure.
      destruct (cf_idx c1 !! NId k m) as [i|] eqn:Ei; cbn [mbind option_bind].
      + intros [= <-]. split; [done|]. split; [done|]. split.
        * intros j Hj. destruct (decide (j = m)) as [->|]; [by eapply good_idx_some|]. apply H3. lia.
        * intros n Hn. destruct (H4 n Hn) as [?|[? ?]]; [by left|right; split; [done|lia]].
      + destruct (conf_create T c1 (NId k m)) as [c2|] eqn:E2; cbn [mbind option_bind]; [|done]. intros [= <-].
        pose proof (create_ids _ _ _ E2) as Hids. split; [|split; [|split]].
        * eapply create_good; [done| | |exact E2]; [by apply good_idx_none|cbn; done].
        * etransitivity; [exact H2|]. rewrite Hids. by eexists.
        * intros j Hj. rewrite Hids. apply elem_of_app. destruct (decide (j = m)) as [->|]; [right; left|]. left. apply H3. lia.
        * rewrite Hids. intros n [Hn| ->%elem_of_list_singleton]%elem_of_app; [|right; cbn; lia].
          destruct (H4 n Hn) as [?|[? ?]]; [by left|right; split; [done|lia]].
  Qed.

  Lemma create_cell_good c n c' : conf_good c -> conf_create_cell T c n = Some c' ->
    conf_good c' /\ ids c `prefix_of` ids c' /\ (n <> Nop -> n ∈ ids c') /\
    (forall x, x ∈ ids c' -> x ∈ ids c \/ nid_kind x = nid_kind n /\ nid_inst x <= nid_inst n).
  Proof.
    intros Hc. unfold conf_create_cell. destruct (decide (n = Nop)) as [->|Hne].
    - intros [= <-]. split; [done|]. split; [done|]. split; [done|]. by left.
    - destruct (cf_idx c !! n) as [i|] eqn:Ei.
      + intros [= <-]. split; [done|]. split; [done|]. split; [|by left]. intros _. by eapply good_idx_some.
      + destruct (foldm _ _ _) as [c1|] eqn:E1; cbn [mbind option_bind]; [|done]. intros E2.
        destruct (fillers_good _ _ _ _ Hc E1) as (H1 & H2 & H3 & H4).
        pose proof (create_ids _ _ _ E2) as Hids. split; [|split; [|split]].
        * eapply create_good; [done| | |exact E2]; [|intros j Hj; by apply H3].
          intros Hx. destruct (H4 n Hx) as [Hx'|[_ ?]]; [|lia]. by eapply (good_idx_none c).
        * etransitivity; [exact H2|]. rewrite Hids. by eexists.
        * intros _. rewrite Hids. apply elem_of_app. right. left.
        * rewrite Hids. intros x [Hx| ->%elem_of_list_singleton]%elem_of_app; [|by right].
          destruct (H4 x Hx) as [?|[? ?]]; [by left|right; split; [done|lia]].
  Qed.

  Lemma create_cells_good ns c c' : conf_good c -> conf_create_cells T c ns = Some c' ->
    conf_good c' /\ ids c `prefix_of` ids c' /\ (forall n, n ∈ ns -> n <> Nop -> n ∈ ids c') /\
    (forall x, x ∈ ids c' -> x ∈ ids c \/ exists n, n ∈ ns /\ n <> Nop /\ nid_kind x = nid_kind n /\ nid_inst x <= nid_inst n).
  Proof.
    unfold conf_create_cells. revert c. induction ns as [|n ns IH]; intros c Hc; cbn [foldm].
    - intros [= <-]. split; [done|]. split; [done|]. split; [|by left]. intros n Hn. by apply elem_of_nil in Hn.
    - destruct (conf_create_cell T c n) as [c1|] eqn:E1; cbn [mbind option_bind]; [|done]. intros E2.
      destruct (create_cell_good _ _ _ Hc E1) as (H1 & H2 & H3 & H3').
      destruct (IH c1 H1 E2) as (H4 & H5 & H6 & H7).
      split; [done|]. split; [by etransitivity|]. split.
      + intros m [->|Hm]%elem_of_cons Hne; [|by apply H6]. apply (elem_of_prefix _ _ _ (H3 Hne) H5).
      + intros x Hx. destruct (H7 x Hx) as [Hx'|(m & ? & ? & ? & ?)]; [|right; exists m; by repeat split; [right|..]].
        destruct (decide (n = Nop)) as [->|Hne].
        { left. unfold conf_create_cell in E1. cbn in E1. by injection E1 as <-. }
        destruct (H3' x Hx') as [?|[? ?]]; [by left|]. right. exists n. by repeat split; [left|..].
  Qed.

  (** creation succeeds if the kinds are known *)
  Lemma create_cells_total ns c : (forall n, n ∈ ns -> n <> Nop -> nt_known T (nid_kind n) = true) ->
    exists c', conf_create_cells T c ns = Some c'.
  Proof.
    intros Hk. destruct (foldm_total (conf_create_cell T) (fun _ => True) ns c) as (c' & E & _); [|done|by exists c'].
    intros s n Hn _. unfold conf_create_cell. destruct (decide (n = Nop)) as [->|Hne]; [by eexists|].
    destruct (cf_idx s !! n); [by eexists|].
    destruct (foldm_total (conf_ensure T) (fun _ => True) ((fun i => NId (nid_kind n) i) <$> seq 0 (nid_inst n)) s) as (c' & E & _); [|done|].
    - intros s' x (j & -> & _)%elem_of_list_fmap _. unfold conf_ensure. destruct (cf_idx s' !! _); [by eexists|].
      unfold conf_create. cbn. rewrite (Hk n) by done. by eexists.
    - rewrite E. cbn [mbind option_bind]. unfold conf_create. rewrite (Hk n) by done. by eexists.
  Qed.

  Lemma same_values_good c c' : same_values c c' -> conf_inv T c' -> conf_good c -> conf_good c'.
  Proof.
    intros Hs Hi [H1 H2 H3 H4]. assert (E : ids c' = ids c) by (unfold created; apply Hs).
    constructor; [done|rewrite E; done..].
  Qed.

  Lemma rebuild_ids h c h' c' p : conf_inv T c -> conf_rebuild T h c = Some (h', c', p) -> ids c' = ids c.
  Proof.
    intros Hc E. destruct (conf_rebuild_spec T HT h c Hc) as (h1 & c1 & p1 & E1 & Hs). rewrite E in E1.
    injection E1 as <- <- <-. cbn zeta in Hs. apply Hs.
  Qed.

  Lemma rebuild_good h c h' c' p : conf_good c -> conf_rebuild T h c = Some (h', c', p) -> conf_good c'.
  Proof.
    intros Hg E. pose proof (rebuild_inv T HT _ _ _ _ _ (cg_inv c Hg) E).
    pose proof (rebuild_ids _ _ _ _ _ (cg_inv c Hg) E) as Hi. destruct Hg as [H1 H2 H3 H4].
    constructor; [done|rewrite Hi; done..].
  Qed.

  Lemma rebuild_fine h c h' c' p : conf_fine c -> conf_rebuild T h c = Some (h', c', p) -> conf_fine c'.
  Proof.
    intros [Hi Hd] E. pose proof (rebuild_inv T HT _ _ _ _ _ Hi E). pose proof (rebuild_ids _ _ _ _ _ Hi E) as Hx.
    constructor; [done|by rewrite Hx].
  Qed.

  Lemma program_good h c order es h' c' p : conf_good c -> conf_program T h c order es = Some (h', c', p) ->
    conf_good c' /\ ids c' = ids c.
  Proof.
    intros Hg E. destruct (program_conf T _ _ _ _ _ _ _ E) as (h1 & c1 & p1 & E1 & Hs & Hi).
    pose proof (rebuild_good _ _ _ _ _ Hg E1) as Hg1. split.
    - eapply same_values_good; [done| |done]. apply Hi, Hg1.
    - etransitivity; [unfold created; apply Hs|]. by eapply rebuild_ids, E1; apply Hg.
  Qed.

  Lemma set_modamt_good c p v : conf_good c -> conf_good (conf_set_modamt T c p v).1.1.
  Proof.
    intros Hg. pose proof (set_modamt_inv T c p v (cg_inv c Hg)) as Hi.
    destruct (set_modamt_values T c p v) as (H1 & _). destruct Hg as [? ? ? ?].
    constructor; [done|unfold created in *; rewrite H1; done..].
  Qed.

  Definition mx_inv (m : matrix) : Prop := lay_ok (mx_lay m) /\ conf_good (mx_conf m).

  Lemma mx_inv_new w hh : mx_inv (matrix_new w hh).
  Proof. split; [apply ok_new|apply good_new]. Qed.

  Lemma board_cells g n : grid_wf g -> (on_board g n <-> n <> Nop /\ n ∈ c_node <$> g_cells g).
  Proof.
    intros Hwf. unfold on_board. split; (intros [Hn Hx]; split; [done|]).
    - destruct Hx as (p & c & Hb & <-). apply elem_of_list_fmap. exists c. split; [done|].
      unfold board, grid_get in Hb. destruct (decide _); [done|].
      destruct (g_cells g !! _) as [c'|] eqn:E; cbn in Hb; [|done]. injection Hb as ->. by eapply elem_of_list_lookup_2.
    - apply elem_of_list_fmap in Hx as (c & -> & Hc). apply elem_of_list_lookup in Hc as [i Hi].
      pose proof (lookup_lt_Some _ _ _ Hi) as Hlt. rewrite Hwf in Hlt.
      assert (Hh : g_h g <> 0) by lia.
      exists (i / g_h g, i mod g_h g), c. split; [|done]. unfold board, grid_get. cbn [fst snd].
      assert (i / g_h g < g_w g) by (apply Nat.div_lt_upper_bound; lia).
      pose proof (Nat.mod_upper_bound i (g_h g) Hh).
      rewrite decide_False by lia. pose proof (Nat.div_mod i (g_h g) Hh) as Hdm.
      replace (i / g_h g * g_h g + i mod g_h g) with i by lia. by rewrite Hi.
  Qed.

  (** What [sync] does *)
  Lemma sync_cases h m h' m' ms r : mx_inv m -> matrix_sync T h m = Some (h', m', ms, r) ->
    exists c1, conf_create_cells T (mx_conf m) (c_node <$> g_cells (lay_grid (mx_lay m))) = Some c1 /\
      conf_good c1 /\ lay_grid (mx_lay m') = lay_grid (mx_lay m) /\ lay_ok (mx_lay m') /\
      (forall n, on_board (lay_grid (mx_lay m)) n -> n ∈ ids c1) /\
      match r with
      | Some e => e = CycleDetected /\ h' = h /\ mx_conf m' = c1 /\ ms = [] /\
                  ~ layout_acyclic (lay_grid (mx_lay m))
      | None => exists order p mon, good_order (lay_grid (mx_lay m)) order /\
                  conf_program T h c1 order (grid_edges (lay_grid (mx_lay m))) = Some (h', mx_conf m', p) /\
                  ms = MNewProg p true :: mon /\ (forall x, x ∈ mon -> exists bs, x = MMonitor bs)
      end.
  Proof.
    intros [Hl Hg]. unfold matrix_sync.
    destruct (conf_create_cells T (mx_conf m) _) as [c1|] eqn:Ec; cbn [mbind option_bind]; [|done].
    destruct (layout_scan (table_param T) (mx_lay m)) as [l1|] eqn:El; cbn [mbind option_bind]; [|done].
    destruct (scan_keep _ _ _ Hl El) as (Hl1 & Hgr & Hsv & Hed & _).
    assert (HR : R (lay_order l1) (sg_run sg_empty (grid_ops (lay_grid (mx_lay m))))).
    { unfold layout_scan in El. destruct (scan _ _) as [[go es]|] eqn:Es; cbn [mbind option_bind] in El; [|done].
      injection El as <-. cbn. eapply scan_R; [apply Hl|apply Hl|exact Es]. }
    destruct (calculate_order_ok _ _ [] HR) as (go & ok & ord & Eo & HR' & Hok & Hord).
    rewrite Eo. cbn [mbind option_bind].
    pose proof (create_cells_good _ _ _ Hg Ec) as (Hg1 & _ & Hall & _).
    destruct (grid_ops_graph (lay_grid (mx_lay m)) (ok_wf _ Hl)) as [Hgn Hge].
    pose proof (order_reachable_order _ _ _ _ (ok_order _ Hl1) Eo) as Hor.
    assert (Hall' : forall n, on_board (lay_grid (mx_lay m)) n -> n ∈ ids c1).
    { intros n Hn. apply board_cells in Hn as [Hn1 Hn2]; [|apply Hl]. by apply Hall. }
    assert (Hlok : lay_ok (Layout (lay_grid l1) (lay_saved l1) go (lay_edges l1) (lay_inputs l1))).
    { split; cbn; [apply Hl1|done|apply Hl1]. }
    destruct ok; cbn [negb].
    - destruct (conf_program T h c1 _ _) as [[[h2 c2] p2]|] eqn:Ep; cbn [mbind option_bind]; [|done].
      unfold matrix_remonitor. cbn [mx_lay mx_mon lay_grid].
      destruct (grid_get _ _ _) as [oc|] eqn:Eg; cbn [mbind option_bind]; [|done].
      intros E. exists c1. split; [done|]. split; [done|].
      assert (Hx : exists mon, h' = h2 /\ mx_lay m' = (Layout (lay_grid l1) (lay_saved l1) go (lay_edges l1) (lay_inputs l1)) /\
         mx_conf m' = c2 /\ ms = MNewProg p2 true :: mon /\ r = None /\ (forall x, x ∈ mon -> exists bs, x = MMonitor bs)).
      { destruct oc as [c|]; cbn [mbind option_bind] in E.
        - unfold matrix_monitor in E. cbn in E. injection E as <- <- <- <-. eexists. repeat (split; [done|]).
          intros x. unfold conf_monitor. destruct (conf_inst _ _); [|intros Hx; by apply elem_of_nil in Hx].
          intros ->%elem_of_list_singleton. by eexists.
        - injection E as <- <- <- <-. eexists. repeat (split; [done|]). intros x Hx. by apply elem_of_nil in Hx. }
      destruct Hx as (mon & -> & -> & -> & -> & -> & Hm). cbn [lay_grid]. split; [done|]. split; [done|].
      split; [done|]. exists ord, p2, mon. rewrite app_nil_l in *. cbn [lay_edges] in Ep. rewrite Hed in Ep.
      split; [|done]. destruct (Hord eq_refl) as [Hperm Hbef]. split; [|split].
      + rewrite Hperm. apply (R_nd _ _ HR).
      + intros n. rewrite Hperm. apply Hgn.
      + intros a b Hab. apply Hbef. by apply Hge.
    - intros [= <- <- <- <-]. exists c1. cbn [mx_lay lay_grid mx_conf]. repeat (split; [done|]).
      rewrite <- acyclic_layout by apply Hl. naive_solver.
  Qed.

  Lemma sync_inv h m h' m' ms r : mx_inv m -> matrix_sync T h m = Some (h', m', ms, r) -> mx_inv m'.
  Proof.
    intros Hm E. destruct (sync_cases _ _ _ _ _ _ Hm E) as (c1 & _ & Hg & _ & Hl & _ & Hr). split; [done|].
    destruct r as [e|].
    - destruct Hr as (_ & _ & -> & _). done.
    - destruct Hr as (order & p & mon & _ & Ep & _). by eapply program_good.
  Qed.

  Lemma cleared_ok l : lay_ok l ->
    lay_ok (Layout (Grid (g_w (lay_grid l)) (g_h (lay_grid l)) ((fun _ => cell_empty Nop) <$> g_cells (lay_grid l))) None
                    (gord_clear (lay_order l)) [] []).
  Proof.
    intros [Hwf Ho _]. split; cbn; [|by apply order_reachable_clear|done].
    unfold grid_wf in *. cbn. by rewrite fmap_length.
  Qed.




  (** ** Which instances are in use *)
  Lemma inst_node c n ni : conf_inv T c -> conf_inst c n = Some ni ->
    exists i, cf_idx c !! n = Some i /\ cf_nodes c !! i = Some (n, Some ni) /\ ni_id ni = n.
  Proof.
    intros Hc. unfold conf_inst, conf_node. destruct (cf_idx c !! n) as [i|] eqn:Ei; cbn [mbind option_bind]; [|done].
    destruct (ci_idx T c Hc n i Ei) as (oi & Hn & Hid). rewrite Hn. cbn [mbind option_bind]. intros ->.
    exists i. split; [done|]. split; [done|]. by apply Hid.
  Qed.

  Lemma mark_inst c n m : conf_inv T c ->
    conf_inst (conf_mark c n) m = if decide (m = n) then ni_mark <$> conf_inst c m else conf_inst c m.
  Proof.
    intros Hc. unfold conf_mark. destruct (cf_idx c !! n) as [i|] eqn:Ei.
    2: { destruct (decide (m = n)) as [->|]; [|done]. unfold conf_inst, conf_node. by rewrite Ei. }
    destruct (ci_idx T c Hc n i Ei) as (oi & Hn & Hid). rewrite Hn. destruct oi as [ni|].
    2: { destruct (decide (m = n)) as [->|]; [|done]. unfold conf_inst, conf_node. by rewrite Ei; cbn [mbind option_bind]; rewrite Hn. }
    unfold conf_inst, conf_node, with_nodes. cbn [cf_idx cf_nodes].
    destruct (decide (m = n)) as [->|Hne].
    - rewrite Ei. cbn [mbind option_bind]. rewrite list_lookup_insert by (by eapply lookup_lt_Some).
      by rewrite Hn.
    - destruct (cf_idx c !! m) as [j|] eqn:Ej; cbn [mbind option_bind]; [|done].
      rewrite list_lookup_insert_ne; [done|]. intros <-.
      destruct (ci_idx T c Hc m i Ej) as (oi & Hm & _). rewrite Hn in Hm. congruence.
  Qed.

  Definition used (c : nconf) (n : node_id) : bool :=
    match conf_inst c n with Some ni => ni_used ni | None => false end.

  Lemma used_mark c n m : conf_inv T c -> used (conf_mark c n) m =
    bool_decide (m = n /\ is_Some (conf_inst c n)) || used c m.
  Proof.
    intros Hc. unfold used. rewrite mark_inst by done. destruct (decide (m = n)) as [->|].
    - destruct (conf_inst c n) as [ni|]; cbn; [|by rewrite bool_decide_false by (intros [_ [? ?]]; done)].
      by rewrite bool_decide_true by (split; [done|by eexists]).
    - by rewrite bool_decide_false by tauto.
  Qed.

  Lemma inst_mark c n m : conf_inv T c -> is_Some (conf_inst (conf_mark c n) m) <-> is_Some (conf_inst c m).
  Proof.
    intros Hc. rewrite mark_inst by done. destruct (decide (m = n)); [|done]. by rewrite fmap_is_Some.
  Qed.

  Lemma add_nodes_used order cp m : conf_inv T cp.1 ->
    let cp' := foldl conf_add_node cp order in
    conf_inv T cp'.1 /\ (is_Some (conf_inst cp'.1 m) <-> is_Some (conf_inst cp.1 m)) /\
    (used cp'.1 m = true <-> used cp.1 m = true \/ m ∈ order /\ is_Some (conf_inst cp.1 m)).
  Proof.
    cbn zeta. revert cp. induction order as [|n order IH]; intros cp Hc; cbn [foldl].
    - split; [done|]. split; [done|]. rewrite elem_of_nil. tauto.
    - unfold conf_add_node at 2 4 6. destruct (conf_inst cp.1 n) as [ni|] eqn:En.
      + destruct (IH (conf_mark cp.1 n, prog_append_op cp.2 (ni_as_op ni))) as (H1 & H2 & H3); [by apply mark_inv|].
        cbn [fst] in *. rewrite inst_mark in H2, H3 by done. split; [done|]. split; [done|]. rewrite H3.
        rewrite used_mark by done. rewrite orb_true_iff, bool_decide_eq_true, elem_of_cons.
        assert (is_Some (conf_inst cp.1 n)) by (by eexists). split; [|naive_solver].
        intros [[[-> ?]|?]|[? ?]]; tauto.
      + destruct (IH cp Hc) as (H1 & H2 & H3). split; [done|]. split; [done|]. rewrite H3, elem_of_cons.
        split; [tauto|]. intros [?|[[->|?] Hx]]; [tauto| |tauto]. rewrite En in Hx. by destruct Hx.
  Qed.

  Lemma connects_used es cp cp' m : conf_inv T cp.1 -> foldm conf_connect cp es = Some cp' ->
    (is_Some (conf_inst cp'.1 m) <-> is_Some (conf_inst cp.1 m)) /\
    (used cp.1 m = true -> used cp'.1 m = true) /\
    (used cp'.1 m = true -> used cp.1 m = true \/ exists e, e ∈ es /\ e_to e = m).
  Proof.
    revert cp. induction es as [|e es IH]; intros cp Hc; cbn [foldm].
    - intros [= <-]. split; [done|]. split; [done|]. tauto.
    - destruct (conf_connect cp e) as [cp1|] eqn:E1; cbn [mbind option_bind]; [|done]. intros E2.
      destruct (connect_same T _ _ _ E1) as [_ Hi1].
      destruct (IH cp1 (Hi1 Hc) E2) as (H1 & H2 & H3).
      assert (Hcp : cp1.1 = cp.1 \/ cp1.1 = conf_mark cp.1 (e_to e)).
      { unfold conf_connect in E1. destruct (conf_inst cp.1 (e_from e)); [|left; congruence].
        destruct (conf_inst cp.1 (e_to e)); [|left; congruence].
        destruct (ni_mod_global _ _); cbn [mbind option_bind] in E1; [|done]. injection E1 as <-. by right. }
      destruct Hcp as [Hcp|Hcp]; rewrite Hcp in H1, H2, H3.
      + split; [done|]. split; [done|]. intros Hu. destruct (H3 Hu) as [?|(e' & ? & ?)]; [by left|].
        right. exists e'. split; [by right|done].
      + rewrite inst_mark in H1 by done. rewrite used_mark in H2, H3 by done. split; [done|]. split.
        * intros Hu. apply H2. rewrite Hu. by rewrite orb_true_r.
        * intros Hu. destruct (H3 Hu) as [[[-> _]%bool_decide_eq_true|?]%orb_true_iff|(e' & ? & ?)].
          -- right. exists e. split; [by left|done].
          -- by left.
          -- right. exists e'. split; [by right|done].
  Qed.

  Lemma rebuild_used h c h' c' p m : conf_inv T c -> conf_rebuild T h c = Some (h', c', p) ->
    used c' m = false /\ (is_Some (conf_inst c' m) <-> m ∈ ids c).
  Proof.
    intros Hc E. pose proof (rebuild_inv T HT _ _ _ _ _ Hc E) as Hc'. pose proof (rebuild_ids _ _ _ _ _ Hc E) as Hids.
    destruct (conf_rebuild_spec T HT h c Hc) as (h1 & c1 & p1 & E1 & Hs). rewrite E in E1.
    injection E1 as <- <- <-. cbn zeta in Hs. destruct Hs as (_ & _ & Hx & _ & Hi & _).
    assert (Hlk : forall m, m ∈ ids c -> exists ni, conf_inst c' m = Some ni /\ ni_used ni = false).
    { intros n Hn. rewrite <- Hids in Hn. destruct (proj2 (idx_ids c' n Hc') Hn) as [i Hi'].
      destruct (ci_idx T c' Hc' n i Hi') as (oi & Hoi & _).
      assert (Hid : ids c !! i = Some n) by (rewrite <- Hids; unfold created; by rewrite list_lookup_fmap, Hoi).
      destruct (Hi i n Hid) as (ni & Hni & Hok). exists ni. split; [|apply Hok].
      unfold conf_inst, conf_node. rewrite Hi'. cbn [mbind option_bind]. by rewrite Hni. }
    unfold used. split.
    - destruct (conf_inst c' m) as [ni|] eqn:Em; [|done].
      destruct (inst_node c' m ni Hc' Em) as (i & Hi' & _). destruct (Hlk m) as (ni' & Hni' & Hu).
      { rewrite <- Hids. apply idx_ids; [done|by eexists]. }
      rewrite Em in Hni'. by injection Hni' as <-.
    - split.
      + intros [ni Em]. destruct (inst_node c' m ni Hc' Em) as (i & Hi' & _).
        rewrite <- Hids. apply idx_ids; [done|by eexists].
      + intros Hm. destruct (Hlk m Hm) as (ni & -> & _). by eexists.
  Qed.

  Lemma program_used h c order es h' c' p m : conf_inv T c -> conf_program T h c order es = Some (h', c', p) ->
    (is_Some (conf_inst c' m) <-> m ∈ ids c) /\
    (m ∈ order -> m ∈ ids c -> used c' m = true) /\
    (used c' m = true -> m ∈ order \/ exists e, e ∈ es /\ e_to e = m).
  Proof.
    intros Hc. unfold conf_program.
    destruct (conf_rebuild T h c) as [[[h1 c1] p1]|] eqn:E1; cbn [mbind option_bind]; [|done].
    destruct (rebuild_used _ _ _ _ _ m Hc E1) as [Hu1 Hi1].
    pose proof (rebuild_inv T HT _ _ _ _ _ Hc E1) as Hc1.
    destruct (add_nodes_used order (c1, p1) m Hc1) as (Ha1 & Ha2 & Ha3).
    destruct (foldm conf_connect _ es) as [[c2 p2]|] eqn:E2; cbn [mbind option_bind]; [|done].
    destruct (conf_fill c2 p2) as [p3|]; cbn [mbind option_bind]; [|done]. intros [= _ <- _].
    destruct (connects_used es _ _ m Ha1 E2) as (Hb1 & Hb2 & Hb3). cbn [fst] in *.
    split; [by rewrite Hb1, Ha2|]. split.
    - intros Ho Hi. apply Hb2, Ha3. right. split; [done|]. by apply Hi1.
    - intros Hu. destruct (Hb3 Hu) as [Hu'|?]; [|by right]. apply Ha3 in Hu' as [Hu'|[? _]]; [congruence|by left].
  Qed.

  (** ** Searching a free instance *)
  Lemma unused_result fuel c n n' : conf_inv T c -> conf_unused fuel c n = Some n' ->
    nid_kind n' = nid_kind n /\ used c n' = false /\ (nid_inst n < 256 -> nid_inst n' < 256).
  Proof.
    intros Hc. revert n. induction fuel as [|fuel IH]; intros n; cbn [conf_unused]; [done|].
    destruct (conf_inst c n) as [ni|] eqn:En.
    - destruct (inst_node c n ni Hc En) as (_ & _ & _ & Hid). destruct (ni_used ni) eqn:Eu.
      + intros E. destruct (IH _ E) as (H1 & H2 & H3). split; [done|]. split; [done|]. intros _. apply H3.
        cbn [nid_inst]. unfold u8. apply Nat.mod_upper_bound. lia.
      + intros [= <-]. rewrite Hid. unfold used. by rewrite En.
    - intros [= <-]. unfold used. by rewrite En.
  Qed.

  Lemma unused_finds d : forall c n, conf_inv T c -> nid_inst n < 256 ->
    used c (NId (nid_kind n) (u8 (nid_inst n + d))) = false -> is_Some (conf_unused (S d) c n).
  Proof.
    induction d as [|d IH]; intros c n Hc Hn Hu.
    - cbn [conf_unused]. rewrite Nat.add_0_r in Hu. unfold u8 in Hu. rewrite Nat.mod_small in Hu by done.
      unfold used in Hu. replace (NId (nid_kind n) (nid_inst n)) with n in Hu by (by destruct n).
      destruct (conf_inst c n) as [ni|]; [rewrite Hu|]; by eexists.
    - cbn [conf_unused] in *. destruct (conf_inst c n) as [ni|]; [|by eexists].
      destruct (ni_used ni); [|by eexists]. apply IH; [done| |].
      + cbn [nid_inst]. unfold u8. apply Nat.mod_upper_bound. lia.
      + cbn [nid_inst nid_kind]. rewrite <- Hu. f_equal. f_equal. unfold u8.
        rewrite Nat.add_mod_idemp_l by lia. f_equal. lia.
  Qed.

  Lemma unused_loops c k : (forall i, i < 256 -> used c (NId k i) = true) ->
    forall fuel i, i < 256 -> conf_unused fuel c (NId k i) = None.
  Proof.
    intros Hall. induction fuel as [|fuel IH]; intros i Hi; cbn [conf_unused]; [done|].
    pose proof (Hall i Hi) as Hu. unfold used in Hu. destruct (conf_inst c (NId k i)); [|done]. rewrite Hu.
    apply IH. unfold u8. apply Nat.mod_upper_bound. lia.
  Qed.
End sync.

Section calls.
  Context (T : ntable) (HT : table_ok T).
  Context (i2f : Z -> f32) (load_sample : satom -> satom).

  Lemma set_param_good c p a : conf_good T c -> conf_good T (conf_set_param T i2f load_sample c p a).1.
  Proof.
    intros Hg. pose proof (set_param_inv T i2f load_sample c p a (cg_inv T c Hg)) as Hi.
    destruct (set_param_values T i2f load_sample c p a) as (H1 & _). destruct Hg as [? ? ? ?].
    constructor; [done|unfold created in *; rewrite H1; done..].
  Qed.

  Lemma load_ids c ps ats nrm : cf_nodes (conf_load T i2f load_sample c ps ats nrm).1 = cf_nodes c.
  Proof.
    unfold conf_load.
    assert (H1 : forall (ps : list (pid * f32 * option f32)) s, cf_nodes (foldl (conf_load_param T i2f load_sample nrm) s ps).1 = cf_nodes s.1).
    { clear. induction ps as [|[[p v] m] ps IH]; intros s; [done|]. cbn [foldl]. rewrite IH, load_param_values.
      destruct (set_modamt_values T (conf_set_param T i2f load_sample s.1 p (AParam (if nrm : bool then nt_norm T (nid_kind p.1) p.2 v else v))).1 p m) as (-> & _).
      apply set_param_values. }
    assert (H2 : forall (ats : list (pid * satom)) s, cf_nodes (foldl (conf_load_atom T i2f load_sample) s ats).1 = cf_nodes s.1).
    { clear. induction ats as [|e ats IH]; intros s; [done|]. cbn [foldl]. rewrite IH, load_atom_values. apply set_param_values. }
    by rewrite H2, H1.
  Qed.

  Lemma load_good c ps ats nrm : conf_good T c -> conf_good T (conf_load T i2f load_sample c ps ats nrm).1.
  Proof.
    intros Hg. pose proof (load_inv T i2f load_sample c ps ats nrm (cg_inv T c Hg)) as Hi.
    pose proof (load_ids c ps ats nrm) as H1. destruct Hg as [? ? ? ?].
    constructor; [done|unfold created in *; rewrite H1; done..].
  Qed.

  Lemma matrix_step_inv h m o h' m' ms : mx_inv T m ->
    matrix_step T i2f load_sample h m o = Some (h', m', ms) -> mx_inv T m'.
  Proof.
    intros Hm. destruct o as [o| | |p a|p v|ps ats nrm|c]; cbn [matrix_step].
    - destruct (lop_pure o); [|by intros [= _ <- _]].
      destruct (lay_step _ _ o) as [[l r]|] eqn:E; cbn [mbind option_bind]; [|done]. intros [= <- <- <-].
      destruct Hm as [Hl Hc]. split; [|done]. by eapply step_keep in E as [? _].
    - destruct (matrix_sync T h m) as [[[[h1 m1] ms1] r]|] eqn:E; cbn [mbind option_bind]; [|done].
      intros [= <- <- <-]. by eapply (sync_inv T HT).
    - unfold matrix_clear, conf_delete_nodes, matrix_monitor. cbn [mx_conf mx_lay].
      destruct (matrix_sync T h _) as [[[[h1 m1] ms1] r]|] eqn:E; cbn [mbind option_bind]; [|done].
      intros [= <- <- <-]. eapply (sync_inv T HT); [|exact E]. split; cbn [mx_lay mx_conf]; [|apply good_new].
      apply cleared_ok, Hm.
    - unfold matrix_set_param. pose proof (set_param_good (mx_conf m) p a (proj2 Hm)) as Hg.
      destruct (conf_set_param _ _ _ _ _ _) as [c ms1]. intros [= <- <- <-]. split; [apply Hm|done].
    - unfold matrix_set_modamt. pose proof (set_modamt_good T (mx_conf m) p v (proj2 Hm)) as Hg.
      destruct (conf_set_modamt T (mx_conf m) p v) as [[c ms1] b].
      destruct b; cbn [mbind option_bind].
      + destruct (matrix_sync T h _) as [[[[h1 m1] ms2] r]|] eqn:E; cbn [mbind option_bind]; [|done].
        intros [= <- <- <-]. eapply (sync_inv T HT); [|exact E]. split; [apply Hm|done].
      + intros [= <- <- <-]. split; [apply Hm|done].
    - unfold matrix_load. pose proof (load_good (mx_conf m) ps ats nrm (proj2 Hm)) as Hg.
      destruct (conf_load _ _ _ _ _ _ _) as [c ms1]. intros [= <- <- <-]. split; [apply Hm|done].
    - unfold matrix_monitor. intros [= <- <- <-]. split; apply Hm.
  Qed.

  Lemma matrix_run_inv os s s' : mx_inv T s.1.2 -> matrix_run T i2f load_sample s os = Some s' -> mx_inv T s'.1.2.
  Proof.
    intros Hs Hr. eapply (foldm_inv _ (fun s => mx_inv T s.1.2)); [|exact Hs|exact Hr].
    intros s1 o s2 _ H1. unfold matrix_step_log.
    destruct (matrix_step _ _ _ _ _ o) as [[[h m] ms]|] eqn:E; cbn [mbind option_bind]; [|done].
    intros [= <-]. cbn. by eapply matrix_step_inv.
  Qed.

  Lemma matrix_reachable_inv h m sent : matrix_reachable T i2f load_sample h m sent -> mx_inv T m.
  Proof. intros (w & hh & os & Hr). exact (matrix_run_inv os (_, _, _) (h, m, sent) (mx_inv_new T w hh) Hr). Qed.
End calls.
