(** Reported values: programs and calls of the matrix *)
From Verif Require Import Base M_Atom M_Graph M_Dir M_Grid S_Grid M_Layout S_Layout M_Prog M_Conf M_Exec M_Sync M_Engine M_Feed S_Feed.
From Verif Require Import S_Conf S_Sync S_Prog S_Own L_Graph L_Grid L_Layout L_Conf L_Conf2 L_Conf3 L_Sync L_Prog L_Build L_Fill L_Wire L_Own L_Own2 L_Own3 L_Flow S_Settle L_Settle L_Settle2 L_Settle3 L_Settle4 L_Settle6.
Open Scope nat_scope.
Local Opaque block_size.

(** what matters of a program *)
Definition opv (op : nodeop) : nat * node_id * (nat * nat) := (op_idx op, op_node op, op_out op).
Definition pview : Type := list (nat * node_id * (nat * nat)) * list nat.
Definition pv (p : nprog) : pview := (opv <$> np_ops p, np_out p).
Definition mview (v : pview) (m : gmsg) : pview := match m with MClear p | MNewProg p _ => pv p | _ => v end.

Lemma opv_add_input (ops : list nodeop) idx ii oi md : opv <$> ops_add_input ops idx ii oi md = opv <$> ops.
Proof.
  induction ops as [|o ops IH]; [done|]. cbn [ops_add_input]. destruct (op_idx o =? idx).
  - cbn. f_equal. unfold opv, op_push_input, op_set_in_flag. by destruct (in_range _ _).
  - cbn. by rewrite IH.
Qed.
Lemma opv_out (ops : list nodeop) g : opv <$> ((fun o => op_set_out_flag o g) <$> ops) = opv <$> ops.
Proof.
  rewrite <- list_fmap_compose. apply list_fmap_ext. intros i o _. cbn. unfold opv, op_set_out_flag. by destruct (in_range _ _).
Qed.

Lemma prog_assign_view p p' : prog_assign p = Some p' -> pv p' = pv p.
Proof. unfold prog_assign. destruct (foldm _ _ _) as [[cur mods]|]; cbn [mbind option_bind]; [|done]. by intros [= <-]. Qed.

Lemma prog_swap_view p prev : pv (prog_swap p prev).1 = pv p.
Proof. unfold prog_swap. destruct (swap_zip _ _) as [a b]. cbn. by destruct (np_locked p). Qed.

Lemma message_view finc h e m h' e' t : exec_message finc h e m = Some (h', e', t) -> pv (ex_prog e') = mview (pv (ex_prog e)) m.
Proof.
  destruct m as [p|p copy|i a|i v|i a|bufs]; cbn [exec_message mview].
  - by intros [= <- <- <-].
  - destruct (prog_init_inputs h p) as [h1|]; cbn [mbind option_bind]; [|done].
    pose proof (prog_swap_view p (ex_prog e)) as Hs.
    destruct copy; [destruct (prog_swap p (ex_prog e)) as [p1 prev]|];
      (destruct (prog_assign _) as [p2|] eqn:E; cbn [mbind option_bind]; [|done]); intros [= <- <- <-]; cbn [ex_prog];
      rewrite (prog_assign_view _ _ E); done.
  - destruct (i <? _); [|done]. by intros [= <- <- <-].
  - intros [= <- <- <-]. unfold exec_set_param. destruct (np_params (ex_prog e) !! i); [|done].
    destruct (find_idx _ _); [done|]. by destruct (find_idx _ _).
  - intros [= <- <- <-]. unfold exec_set_modamt. by destruct (np_mods (ex_prog e) !! i).
  - by intros [= <- <- <-].
Qed.

Lemma drain_view finc q : forall h e h' e' t, exec_drain finc h e q = Some (h', e', t) -> pv (ex_prog e') = foldl mview (pv (ex_prog e)) q.
Proof.
  induction q as [|m q IH]; intros h e h' e' t; cbn [exec_drain]; [by intros [= <- <- <-]|].
  destruct (exec_message finc h e m) as [[[h1 e1] t1]|] eqn:E1; cbn [mbind option_bind]; [|done].
  destruct (exec_drain finc h1 e1 q) as [[[h2 e2] t2]|] eqn:E2; cbn [mbind option_bind]; [|done]. intros [= <- <- <-].
  rewrite (IH _ _ _ _ _ E2). cbn [foldl]. by rewrite (message_view _ _ _ _ _ _ _ E1).
Qed.

Lemma bufs_new_seq n h : (bufs_new h n).2 = seq (h_next h) n.
Proof.
  revert h. induction n as [|n IH]; intros h; [done|]. cbn [bufs_new buf_new].
  match goal with |- context [bufs_new ?x n] => specialize (IH x); destruct (bufs_new x n) as [h2 ps] end. cbn in *. by rewrite IH.
Qed.

Lemma prog_new_out h o i a m h' p : prog_new h o i a m = (h', p) -> NoDup (np_out p).
Proof.
  unfold prog_new. pose proof (bufs_new_seq o h) as H1. destruct (bufs_new h o) as [h1 out].
  destruct (bufs_new h1 i) as [h2 inp]. destruct (modops_new h2 m) as [h3 mods]. intros [= <- <-]. cbn in *. subst. apply NoDup_seq.
Qed.

Section view.
  Context (T : ntable) (HT : table_ok T).
  Local Notation outs_of := (n_outs T).

  (** operation [x] belongs to a node of [ids], with the outputs where they are counted *)
  Definition op_home (ids : list node_id) (x : nat * node_id * (nat * nat)) (j : nat) : Prop :=
    ids !! j = Some x.1.2 /\ x.1.1 = u8 j /\ x.2 = (psum outs_of ids j, psum outs_of ids j + outs_of x.1.2).

  Record vinv (ids : list node_id) (v : pview) : Prop := {
    vi_nodup : NoDup ids;
    vi_ops : Forall (fun x => exists j, op_home ids x j) v.1;
    vi_idx : NoDup ((fun x => x.1.1) <$> v.1);
    vi_len : length v.2 = psum outs_of ids (length ids);
    vi_out : NoDup v.2;
  }.

  Lemma vinv_empty : vinv [] (pv prog_empty).
  Proof. constructor; cbn; try constructor. Qed.

  (** where the outputs of the nodes are in a configuration *)
  Definition outs_at (ids : list node_id) (c : nconf) : Prop :=
    forall n ni, conf_inst c n = Some ni -> exists j, ids !! j = Some n /\ ni_out ni = (psum outs_of ids j, psum outs_of ids j + outs_of n).

  Lemma program_view h c order es h' c' p : conf_good T c -> conf_program T h c order es = Some (h', c', p) ->
    vinv (created c') (pv p) /\ np_fb p = replicate (psum outs_of (created c') (length (created c'))) f32_zero /\ outs_at (created c') c' /\
    (forall n, n ∈ created c' -> is_Some (conf_inst c' n)).
  Proof.
    intros Hgd E. destruct (program_good T HT _ _ _ _ _ _ _ Hgd E) as [_ ->]. pose proof (good_fine T _ Hgd) as Hg. revert E.
    destruct (rebuild_laid T HT h c Hg) as (h1 & c1 & p1 & E & Hl & Hp). cbn zeta in Hp.
    unfold conf_program. rewrite E. cbn [mbind option_bind].
    destruct (foldm conf_connect _ es) as [[c3 p3]|] eqn:E3; cbn [mbind option_bind]; [|done].
    destruct (prog_new_lengths _ _ _ _ _ _ _ Hp) as (Hlo & _ & _ & _ & Ho & _ & _ & _ & Hfb & _).
    pose proof (prog_new_out _ _ _ _ _ _ _ Hp) as Hnd.
    unfold conf_fill. destruct (foldm put_param _ _) as [[ps ms]|]; cbn [mbind option_bind]; [|done].
    destruct (foldm put_atom _ _) as [ats|]; cbn [mbind option_bind]; [|done]. intros [= <- <- <-]. cbn [np_fb].
    set (ids := created c) in *.
    assert (Hw : forall n ni, conf_inst c1 n = Some ni -> exists j, ids !! j = Some n /\ ni_id ni = n /\ ni_idx ni = j /\
      ni_out ni = (psum outs_of ids j, psum outs_of ids j + outs_of n)).
    { intros n ni Hn. destruct (laid_inst_inv T _ _ _ _ Hl Hn) as (j & Hj & Hok). exists j.
      rewrite (io_id _ _ _ _ _ _ _ _ _ Hok), (io_out _ _ _ _ _ _ _ _ _ Hok), (io_idx _ _ _ _ _ _ _ _ _ Hok). done. }
    destruct (add_nodes_any T c c1 p1 order Hl) as (S1 & I1 & _ & ops1 & P1). cbn zeta in *.
    set (cp := foldl conf_add_node (c1, p1) order) in *.
    destruct (connects_ops_any es _ _ p1 ops1 P1 E3) as [ops2 P2]. cbn [snd] in P2. 
    assert (F1 : Forall (fun x => exists j, op_home ids x j) (opv <$> np_ops cp.2) /\ NoDup (op_idx <$> np_ops cp.2)).
    { clear E3 S1 I1 P1. subst cp. induction order as [|n order IH] using rev_ind; [cbn; rewrite Ho; split; constructor|].
      rewrite foldl_app. cbn [foldl]. destruct (add_nodes_any T c c1 p1 order Hl) as (S1 & _). cbn zeta in *.
      set (cp := foldl conf_add_node (c1, p1) order) in *. unfold conf_add_node.
      destruct (conf_inst cp.1 n) as [ni|] eqn:En; [|done]. cbn [snd].
      unfold prog_append_op. destruct (existsb _ _) eqn:Ex; [done|]. cbn [np_ops with_ops]. rewrite !fmap_app. destruct IH as [IH1 IH2]. split.
      - apply Forall_app. split; [done|]. constructor; [|constructor].
        destruct (same_inst_some _ _ _ _ S1 En) as (ni1 & Hn1 & Hop & _ & Hout & _ & Hix).
        destruct (Hw n ni1 Hn1) as (j & Hj & Hid & Hj' & Hr). exists j. rewrite Hop. unfold op_home, opv, ni_as_op. cbn. rewrite Hid, Hj', Hr. done.
      - apply NoDup_app. split; [done|]. split; [|apply NoDup_singleton]. intros i Hi ->%elem_of_list_singleton.
        apply elem_of_list_fmap in Hi as (o & Hoi & Hin). apply elem_of_list_In in Hin.
        assert (existsb (fun o => op_idx o =? op_idx (ni_as_op ni)) (np_ops cp.2) = true) as Hx; [|congruence].
        apply existsb_exists. exists o. split; [done|]. apply Nat.eqb_eq. by symmetry. }
    assert (F2 : opv <$> np_ops (c3, p3).2 = opv <$> np_ops cp.2 /\ same_inst (c3, p3).1 c1).
    { assert (Hx : (opv <$> np_ops (c3, p3).2 = opv <$> np_ops cp.2 /\ same_inst (c3, p3).1 c1) /\ conf_inv T (c3, p3).1); [|apply Hx].
      eapply (foldm_inv conf_connect (fun s => (opv <$> np_ops s.2 = opv <$> np_ops cp.2 /\ same_inst s.1 c1) /\ conf_inv T s.1)); [|done|exact E3].
      intros s e s' _ [[Hs Hi] Hv]. unfold conf_connect. destruct (conf_inst s.1 (e_from e)); [|by intros [= <-]].
      destruct (conf_inst s.1 (e_to e)); [|by intros [= <-]]. destruct (ni_mod_global _ _); cbn [mbind option_bind]; [|done].
      intros [= <-]. cbn [fst snd]. split; [|by apply mark_inv]. split; [|by apply same_inst_mark with (T := T)].
      destruct (local2global _ _); [|done]. destruct (local2global _ _); [|done].
      unfold prog_append_edge. cbn [np_ops with_ops]. by rewrite opv_add_input, opv_out. }
    cbn [fst snd] in F2. destruct F2 as [F2 F3]. subst p3. cbn [np_out with_ops np_fb np_ops] in *.
    assert (Hfb' : np_fb (with_ops p1 ops2) = np_fb p1) by done.
    split; [|split; [exact Hfb|split]].
    - constructor; unfold pv; cbn [fst snd np_ops np_out with_ops]; [apply Hl|rewrite F2; apply F1| |done|done].
      rewrite F2, <- list_fmap_compose. apply F1.
    - intros n ni Hn. destruct (same_inst_some _ _ _ _ F3 Hn) as (ni1 & Hn1 & _ & _ & -> & _).
      destruct (Hw n ni1 Hn1) as (j & Hj & _ & _ & Hr). by exists j.
    - intros n [j Hj]%elem_of_list_lookup. destruct (ld_inst _ _ _ Hl j n Hj) as (ni & Hni & _).
      destruct (conf_inst c3 n) eqn:E4; [by eexists|]. by rewrite (same_inst_none _ _ _ F3 E4) in Hni.
  Qed.

  (** the configuration has got more nodes at most *)
  Definition kept (c c' : nconf) : Prop :=
    created c `prefix_of` created c' /\ (forall n, conf_inst c' n = conf_inst c n).
  Lemma kept_refl c : kept c c.
  Proof. done. Qed.
  Lemma kept_trans a b c : kept a b -> kept b c -> kept a c.
  Proof. intros [A1 A2] [B1 B2]. split; [by etransitivity|]. intros n. by rewrite B2. Qed.
  Lemma kept_same c c' : cf_nodes c' = cf_nodes c -> cf_idx c' = cf_idx c -> kept c c'.
  Proof. intros H1 H2. split; [unfold created; by rewrite H1|]. intros n. unfold conf_inst, conf_node. by rewrite H1, H2. Qed.
  Lemma kept_create c n c' : conf_inv T c -> cf_idx c !! n = None -> conf_create T c n = Some c' -> kept c c'.
  Proof.
    intros Hg Hnew E. pose proof (create_ids T _ _ _ E) as Hids. split; [rewrite Hids; by eexists|].
    unfold conf_create in E. destruct (nt_known T (nid_kind n)); [|done]. injection E as <-.
    intros m. unfold conf_inst, conf_node. cbn [cf_idx cf_nodes]. destruct (decide (m = n)) as [->|Hne].
    - rewrite lookup_insert, Hnew. cbn [mbind option_bind]. rewrite list_lookup_middle by done. done.
    - rewrite lookup_insert_ne by done. destruct (cf_idx c !! m) as [i|] eqn:Ei; cbn [mbind option_bind]; [|done].
      destruct (ci_idx T c Hg m i Ei) as (oi & Hoi & _). rewrite lookup_app_l by (by eapply lookup_lt_Some). done.
  Qed.
  Lemma kept_create_cells ns c c' : conf_good T c -> conf_create_cells T c ns = Some c' -> kept c c'.
  Proof.
    intros Hg E.
    assert (Hx : kept c c' /\ conf_good T c'); [|apply Hx].
    eapply (foldm_inv _ (fun s => kept c s /\ conf_good T s)); [|split; [apply kept_refl|done]|exact E].
    intros s n s' _ [Hs Hgs] Es. split; [|by eapply create_cell_good in Es as (? & _)]. revert Es. unfold conf_create_cell. destruct (decide (n = Nop)); [by intros [= <-]|].
    destruct (cf_idx s !! n) eqn:Esn; [by intros [= <-]|].
    destruct (foldm (conf_ensure T) s _) as [s1|] eqn:E1; cbn [mbind option_bind]; [|done]. intros E2.
    assert (Hx : (kept s s1 /\ conf_inv T s1) /\ cf_idx s1 !! n = None).
    { eapply (foldm_inv _ (fun a => (kept s a /\ conf_inv T a) /\ cf_idx a !! n = None)); [|split; [split; [apply kept_refl|apply Hgs]|done]|exact E1].
      intros a m a' Hm [[Ha Hia] Hn]. unfold conf_ensure. destruct (cf_idx a !! m) eqn:Ema; [by intros [= <-]|]. intros E3. split; [split; [|by eapply create_inv]|].
      - eapply kept_trans; [exact Ha|by eapply kept_create].
      - unfold conf_create in E3. destruct (nt_known T (nid_kind m)); [|done]. injection E3 as <-. cbn [cf_idx].
        rewrite lookup_insert_ne; [done|]. intros ->. apply elem_of_list_fmap in Hm as (i & Hm & Hi%elem_of_seq).
        apply (f_equal nid_inst) in Hm. cbn in Hm. lia. }
    eapply kept_trans; [exact Hs|]. eapply kept_trans; [apply Hx|]. eapply kept_create; [apply Hx|apply Hx|exact E2].
  Qed.

  Context (i2f : Z -> f32) (load_sample : satom -> satom).

  Definition plain (m : gmsg) : Prop := msg_progs m = [].

  (** a call uploads one program, its last one, or none *)
  Inductive call_res (c c' : nconf) (ms : list gmsg) : Prop :=
  | CRnone : kept c c' -> Forall plain ms -> call_res c c' ms
  | CRprog pre p copy post : ms = pre ++ MNewProg p copy :: post ->
      Forall (fun m => plain m \/ m = MClear prog_empty) pre -> Forall plain post ->
      vinv (created c') (pv p) -> np_fb p = replicate (psum outs_of (created c') (length (created c'))) f32_zero ->
      outs_at (created c') c' -> (forall n, n ∈ created c' -> is_Some (conf_inst c' n)) -> call_res c c' ms.

  Lemma sync_res h m h' m' ms r : mx_inv T m -> matrix_sync T h m = Some (h', m', ms, r) ->
    call_res (mx_conf m) (mx_conf m') ms /\ (layout_acyclic (lay_grid (mx_lay m)) -> ~ Forall plain ms).
  Proof.
    intros Hm E. destruct (sync_cases T HT _ _ _ _ _ _ Hm E) as (c1 & Ec & Hg1 & _ & _ & _ & Hr). destruct r as [err|].
    - destruct Hr as (_ & -> & -> & -> & Hna). split; [|done]. apply CRnone; [|constructor]. eapply kept_create_cells; [apply Hm|done].
    - destruct Hr as (order & p & mon & _ & Ep & -> & Hmon).
      destruct (program_view _ _ _ _ _ _ _ Hg1 Ep) as (V1 & V2 & V3 & V4). split.
      + eapply (CRprog _ _ _ [] p true mon); try done. apply Forall_forall. intros x Hx. by destruct (Hmon x Hx) as [bs ->].
      + intros _ Hp. inversion Hp as [|? ? Hp1 _]. done.
  Qed.

  Lemma call_res_pre c c' pre ms : Forall (fun m => plain m \/ m = MClear prog_empty) pre -> ~ Forall plain ms ->
    call_res c c' ms -> forall c0, call_res c0 c' (pre ++ ms).
  Proof.
    intros Hpre Hnp [Hk Hp|pre' p copy post -> H1 H2 H3 H4 H5 H6] c0; [done|].
    eapply (CRprog _ _ _ (pre ++ pre')); try done; [by rewrite app_assoc|]. by apply Forall_app.
  Qed.

  Lemma empty_acyclic g : Forall (fun c => c_node c = Nop) (g_cells g) -> layout_acyclic g.
  Proof.
    intros Hf n Hc. assert (Hno : forall a b, ~ feeds g a b).
    { intros a b (q & d & e & (c & q' & c' & Hb & Hn & _) & _). apply Hn. unfold board in Hb.
      destruct (grid_get g q.1 q.2) as [[x|]|] eqn:Eg; try done. injection Hb as ->. unfold grid_get in Eg.
      destruct (decide _); [done|]. destruct (g_cells g !! _) as [y|] eqn:Ey; [|done]. cbn in Eg. injection Eg as <-.
      by eapply (Forall_lookup_1 _ _ _ _ Hf). }
    induction Hc as [a b Hab|]; [by eapply Hno|done].
  Qed.

  Lemma load_idx c ps ats nrm : cf_idx (conf_load T i2f load_sample c ps ats nrm).1 = cf_idx c.
  Proof.
    unfold conf_load.
    assert (H1 : forall (ps : list (pid * f32 * option f32)) s, cf_idx (foldl (conf_load_param T i2f load_sample nrm) s ps).1 = cf_idx s.1).
    { clear. induction ps as [|[[p v] m] ps IH]; intros s; [done|]. cbn [foldl]. rewrite IH, load_param_values.
      destruct (set_modamt_values T (conf_set_param T i2f load_sample s.1 p (AParam (if nrm : bool then nt_norm T (nid_kind p.1) p.2 v else v))).1 p m) as (_ & -> & _).
      apply set_param_values. }
    assert (H2 : forall (ats : list (pid * satom)) s, cf_idx (foldl (conf_load_atom T i2f load_sample) s ats).1 = cf_idx s.1).
    { clear. induction ats as [|e ats IH]; intros s; [done|]. cbn [foldl]. rewrite IH, load_atom_values. apply set_param_values. }
    by rewrite H2, H1.
  Qed.

  Lemma step_res h m o h' m' ms : mx_inv T m -> matrix_step T i2f load_sample h m o = Some (h', m', ms) ->
    call_res (mx_conf m) (mx_conf m') ms.
  Proof.
    intros Hm. destruct o as [o| | |p a|p v|ps ats nrm|c]; cbn [matrix_step].
    - destruct (lop_pure o); [|intros [= <- <- <-]; by apply CRnone; [apply kept_refl|constructor]].
      destruct (lay_step _ _ o) as [[l1 r]|]; cbn [mbind option_bind]; [|done].
      intros [= <- <- <-]. by apply CRnone; [apply kept_refl|constructor].
    - destruct (matrix_sync T h m) as [[[[h1 m1] ms1] r]|] eqn:E; cbn [mbind option_bind]; [|done].
      intros [= <- <- <-]. by eapply sync_res.
    - unfold matrix_clear. cbn [conf_delete_nodes]. unfold matrix_monitor. cbn [mx_lay mx_conf].
      match goal with |- context [matrix_sync T h ?mm] => set (m1 := mm) end.
      destruct (matrix_sync T h m1) as [[[[h2 m2] ms2] r]|] eqn:E; cbn [mbind option_bind]; [|done].
      intros [= <- <- <-].
      assert (Hm1 : mx_inv T m1) by (split; [apply cleared_ok, Hm|apply good_new]).
      destruct (sync_res _ _ _ _ _ _ Hm1 E) as [Hr Ha].
      match goal with |- context [MClear prog_empty :: ?a ++ ms2] => set (mm := a) end.
      change (MClear prog_empty :: mm ++ ms2) with ((MClear prog_empty :: mm) ++ ms2).
      eapply call_res_pre; [| |exact Hr].
      + constructor; [by right|]. apply Forall_forall. intros x Hx. left. by destruct (monitor_msgs _ _ _ _ x Hx) as [bs ->].
      + apply Ha. subst m1. cbn [mx_lay lay_grid]. apply empty_acyclic. cbn [g_cells]. apply Forall_fmap, Forall_forall. done.
    - unfold matrix_set_param. pose proof (grows_set_param T i2f load_sample (mx_conf m) p a) as [_ H2].
      destruct (set_param_values T i2f load_sample (mx_conf m) p a) as (V1 & V2 & _).
      destruct (conf_set_param _ _ _ _ _ _) as [c1 ms1]. intros [= <- <- <-]. apply CRnone; [by apply kept_same|done].
    - unfold matrix_set_modamt. pose proof (grows_set_modamt T (mx_conf m) p v) as [_ H2].
      destruct (set_modamt_values T (mx_conf m) p v) as (V1 & V2 & _).
      pose proof (set_modamt_good T (mx_conf m) p v (proj2 Hm)) as Hg.
      destruct (conf_set_modamt _ _ _ _) as [[c1 ms1] b]. cbn [fst snd] in *.
      assert (Hk : kept (mx_conf m) c1) by (by apply kept_same).
      destruct b; cbn [mbind option_bind].
      + destruct (matrix_sync T h _) as [[[[h1 m1] ms2] r]|] eqn:E; cbn [mbind option_bind]; [|done].
        intros [= <- <- <-]. eapply sync_res in E; [|by split; [apply Hm|]]. destruct E as [[Hk' Hp|pre q copy post -> R1 R2 R3 R4 R5 R6] _]; cbn [mx_conf] in *.
        * apply CRnone; [by eapply kept_trans|by apply Forall_app].
        * eapply (CRprog _ _ _ (ms1 ++ pre)); try done; [by rewrite app_assoc|]. apply Forall_app. split; [|done].
          eapply Forall_impl; [exact H2|]. intros; by left.
      + intros [= <- <- <-]. by apply CRnone.
    - unfold matrix_load. pose proof (grows_load T i2f load_sample (mx_conf m) ps ats nrm) as [_ H2].
      pose proof (load_ids T i2f load_sample (mx_conf m) ps ats nrm) as V1.
      destruct (conf_load _ _ _ _ _ _ _) as [c1 ms1] eqn:El. intros [= <- <- <-]. apply CRnone; [|done]. apply kept_same; [done|].
      by rewrite <- (load_idx (mx_conf m) ps ats nrm), El.
    - unfold matrix_monitor. intros [= <- <- <-]. apply CRnone; [apply kept_refl|].
      apply Forall_forall. intros x Hx. by destruct (monitor_msgs _ _ _ _ x Hx) as [bs ->].
  Qed.
End view.
