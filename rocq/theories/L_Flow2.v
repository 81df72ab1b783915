(** The running program is always the program of some layout *)
From Verif Require Import Base M_Atom M_Graph M_Dir M_Grid S_Grid M_Layout S_Layout M_Prog M_Conf M_Exec M_Sync M_Engine.
From Verif Require Import S_Conf S_Sync S_Prog S_Own S_Flow L_Graph L_Grid L_Layout L_Conf L_Conf2 L_Sync L_Prog L_Build L_Fill L_Wire L_Own L_Own2 L_Own3 L_Flow.
Open Scope nat_scope.
Local Opaque block_size.

Lemma mo_ptrs_lookup (ms ms' : list modop) m mo' : mo_ptrs <$> ms' = mo_ptrs <$> ms -> ms' !! m = Some mo' ->
  exists mo, ms !! m = Some mo /\ mo_ptrs mo' = mo_ptrs mo.
Proof.
  intros E Hm. assert (H : (mo_ptrs <$> ms') !! m = Some (mo_ptrs mo')) by (by rewrite list_lookup_fmap, Hm).
  rewrite E, list_lookup_fmap in H. destruct (ms !! m) as [mo|]; [|done]. exists mo. split; [done|]. cbn in H. congruence.
Qed.

Section wired.
  Context (T : ntable) (HT : table_ok T).

  Lemma modulates_shape modamt p p' k mo op j src o : same_shape p p' -> modulates T modamt p k mo op j src o ->
    exists mo', mo_ptrs mo' = mo_ptrs mo /\ modulates T modamt p' k mo' op j src o.
  Proof.
    intros (E1 & E2 & E3 & E4 & E5 & E6 & E7 & E8) (H1 & H2 & H3 & H4 & H5 & H6).
    symmetry in E8. destruct (mo_ptrs_lookup _ _ _ _ E8 H2) as (mo' & Hm' & Ep). exists mo'. split; [done|].
    unfold mo_ptrs in Ep. injection Ep as P1 P2 P3. unfold modulates, own_buf, out_buf in *. rewrite E1, E3, <- P2, <- P3. done.
  Qed.

  Lemma wired_shape g modamt p p' : same_shape p p' -> wired T g modamt p -> wired T g modamt p'.
  Proof.
    intros Hs [W1 W2 W3 W4 W5 W6 W7]. pose proof Hs as (E1 & E2 & E3 & E4 & E5 & E6 & E7 & E8).
    constructor.
    - by rewrite E4.
    - rewrite E1, E3, E4, E6. apply (f_equal length) in E8. rewrite !fmap_length in E8. by rewrite E8.
    - by rewrite E4.
    - intros op j Ho Hj. rewrite E4 in Ho. destruct (W4 op j Ho Hj) as [H1 H2]. unfold read_buf, own_buf, out_buf in *. rewrite E1, E2, E3, E4. split; [done|].
      destruct H2 as [H2|(q & d & e & src & He & Ee & Hs' & Es & Hm)]; [by left|]. right. exists q, d, e, src. split_and!; try done.
      destruct (mjoin (modamt !! (op_node op, j))); [|done]. destruct Hm as (k & mo & Hm & Hb).
      destruct (modulates_shape _ _ _ _ _ _ _ _ _ Hs Hm) as (mo' & Ep & Hm'). exists k, mo'. split; [done|].
      unfold mo_ptrs in Ep. injection Ep as P1 P2 P3. by rewrite P1.
    - intros m mo' Hm'. destruct (mo_ptrs_lookup _ _ _ _ E8 Hm') as (mo & Hm & Ep). unfold mo_ptrs in Ep. injection Ep as P1 P2 P3.
      destruct (W5 m mo Hm) as [H|(q & d & e & src & dst & k & He & Hs' & Es & Hd & Ed & -> & Hmod)]; [left; congruence|].
      right. exists q, d, e, src, dst, k. rewrite E4. split_and!; try done.
      destruct (modulates_shape _ _ _ _ _ _ _ _ _ Hs Hmod) as (mo2 & Ep2 & Hmod2).
      assert (mo2 = mo') as -> by (destruct Hmod2 as (_ & Hx & _); congruence). done.
    - by rewrite E4.
    - by rewrite E4.
  Qed.

  (** the program belongs to the layout and to the configuration *)
  Definition prog_for (g : grid) (c : nconf) (p : nprog) : Prop :=
    exists c1 order, laid T c c1 /\ built T c c1 order (grid_edges g) p /\ good_order g order /\ (forall n, n ∈ order -> n ∈ created c).

  Definition msg_for (m : gmsg) : Prop :=
    match m with MNewProg p _ => exists g c, prog_for g c p | _ => True end.

  Lemma monitor_for (ms : list gmsg) : (forall x, x ∈ ms -> exists bs, x = MMonitor bs) -> Forall msg_for ms.
  Proof. intros H. apply Forall_forall. intros x Hx. by destruct (H x Hx) as [bs ->]. Qed.

  Lemma sync_for h m h' m' ms r : mx_inv T m -> matrix_sync T h m = Some (h', m', ms, r) ->
    length (created (mx_conf m')) <= 256 ->
    match r with
    | Some _ => ms = []
    | None => exists p mon c1 c2 order, ms = MNewProg p true :: mon /\ (forall x, x ∈ mon -> exists bs, x = MMonitor bs) /\
        conf_create_cells T (mx_conf m) (c_node <$> g_cells (lay_grid (mx_lay m))) = Some c1 /\ conf_good T c1 /\
        laid T c1 c2 /\ same_values c2 (mx_conf m') /\
        built T c1 c2 order (grid_edges (lay_grid (mx_lay m))) p /\
        good_order (lay_grid (mx_lay m)) order /\ (forall n, n ∈ order -> n ∈ created c1)
    end.
  Proof.
    intros Hm E Hlen. destruct (sync_cases T HT _ _ _ _ _ _ Hm E) as (c1 & Ec & Hg1 & Hgr & _ & Hall & Hcase).
    destruct r as [err|]; [by destruct Hcase as (_ & _ & _ & -> & _)|].
    destruct Hcase as (order & p & mon & Hgo & Ep & -> & Hmon).
    assert (Hord : forall n, n ∈ order -> n ∈ created c1) by (intros n Hn; apply Hall; by apply Hgo).
    assert (Hids : created (mx_conf m') = created c1) by (by eapply program_good). rewrite Hids in Hlen.
    destruct (program_built T HT h c1 order (grid_edges (lay_grid (mx_lay m))) h' (mx_conf m') p (good_fine T c1 Hg1) Hlen) as (c2 & p1 & Hl & _ & Hsv & Hb & _ & _); [apply Hgo|done| |done|].
    - intros e0 He. apply grid_edges_elem in He as (q & d & He). by eapply good_wire.
    - exists p, mon, c1, c2, order. done.
  Qed.

  Context (i2f : Z -> f32) (load_sample : satom -> satom).

  Definition quiet (m : gmsg) : Prop := match m with MClear _ | MNewProg _ _ => False | _ => True end.
  Lemma quiet_for (ms : list gmsg) : Forall quiet ms -> Forall msg_for ms.
  Proof. intros H. eapply Forall_impl; [exact H|]. by intros []. Qed.

  Lemma set_param_quiet c p a : Forall quiet (conf_set_param T i2f load_sample c p a).2.
  Proof.
    unfold conf_set_param. destruct (is_atom T p).
    - destruct (cf_atoms c !! p); cbn; by repeat constructor.
    - destruct (cf_params c !! p); cbn; by repeat constructor.
  Qed.
  Lemma set_modamt_quiet c p v : Forall quiet (conf_set_modamt T c p v).1.2.
  Proof.
    unfold conf_set_modamt. destruct (is_atom T p); [constructor|].
    destruct (conf_get_modamt c p) as [a|]; [|constructor]. destruct v as [b|]; [|constructor]. cbn [fst snd].
    match goal with |- context [match ?o with Some i => [MModamt i b] | None => [] end] => destruct o end; cbn; by repeat constructor.
  Qed.
  Lemma load_quiet c ps ats nrm : Forall quiet (conf_load T i2f load_sample c ps ats nrm).2.
  Proof.
    unfold conf_load. set (Q := fun s : nconf * list gmsg => Forall quiet s.2).
    assert (H1 : forall ps s, Q s -> Q (foldl (conf_load_param T i2f load_sample nrm) s ps)).
    { clear ps ats c. induction ps as [|[[p v] m] ps IH]; intros s Hs; [done|]. cbn [foldl]. apply IH. unfold conf_load_param.
      pose proof (set_param_quiet s.1 p (AParam (if nrm then nt_norm T (nid_kind p.1) p.2 v else v))) as A2.
      destruct (conf_set_param _ _ _ _ _ _) as [c1 ms1].
      pose proof (set_modamt_quiet c1 p m) as B2. destruct (conf_set_modamt _ _ _ _) as [[c2 ms2] b]. cbn [fst snd] in *.
      unfold Q in *. cbn [fst snd]. by rewrite !Forall_app. }
    assert (H2 : forall ats s, Q s -> Q (foldl (conf_load_atom T i2f load_sample) s ats)).
    { clear ps ats c H1. induction ats as [|[p a] ats IH]; intros s Hs; [done|]. cbn [foldl]. apply IH. unfold conf_load_atom. cbn [fst snd].
      pose proof (set_param_quiet s.1 p a) as A2. destruct (conf_set_param _ _ _ _ _ _) as [c1 ms1]. cbn [fst snd] in *.
      unfold Q in *. cbn [fst snd]. by rewrite !Forall_app. }
    apply H2, H1. constructor.
  Qed.

  Lemma sync_for_msgs h m h' m' ms r : mx_inv T m -> matrix_sync T h m = Some (h', m', ms, r) ->
    length (created (mx_conf m')) <= 256 -> Forall msg_for ms.
  Proof.
    intros Hm E Hl. pose proof (sync_for _ _ _ _ _ _ Hm E Hl) as H. destruct r; [subst; constructor|].
    destruct H as (p & mon & c1 & c2 & order & -> & Hmon & _ & _ & H1 & H2 & H3 & H4 & H5). constructor; [|by apply monitor_for].
    exists (lay_grid (mx_lay m)), c1, c2, order. done.
  Qed.

  Lemma matrix_step_for h m o h' m' ms : mx_inv T m -> matrix_step T i2f load_sample h m o = Some (h', m', ms) ->
    length (created (mx_conf m')) <= 256 -> Forall msg_for ms.
  Proof.
    intros Hm. destruct o as [o| | |p a|p v|ps ats nrm|c]; cbn [matrix_step].
    - destruct (lop_pure o); [|by intros [= <- _ <-]].
      destruct (lay_step _ _ o) as [[l1 r]|]; cbn [mbind option_bind]; [|done]. by intros [= <- _ <-].
    - destruct (matrix_sync T h m) as [[[[h1 m1] ms1] r]|] eqn:E; cbn [mbind option_bind]; [|done].
      intros [= <- <- <-]. by eapply sync_for_msgs.
    - unfold matrix_clear. cbn [conf_delete_nodes]. unfold matrix_monitor. cbn [mx_lay mx_conf].
      match goal with |- context [matrix_sync T h ?mm] => set (m1 := mm) end.
      destruct (matrix_sync T h m1) as [[[[h2 m2] ms2] r]|] eqn:E; cbn [mbind option_bind]; [|done].
      intros [= <- <- <-] Hl.
      assert (Hm1 : mx_inv T m1) by (split; [apply cleared_ok, Hm|apply good_new]).
      constructor; [done|]. apply Forall_app. split; [apply monitor_for, monitor_msgs|by eapply sync_for_msgs].
    - unfold matrix_set_param. pose proof (set_param_quiet (mx_conf m) p a) as A2.
      destruct (conf_set_param _ _ _ _ _ _) as [c1 ms1]. intros [= <- _ <-] _. by apply quiet_for.
    - unfold matrix_set_modamt. pose proof (set_modamt_quiet (mx_conf m) p v) as A2.
      pose proof (set_modamt_good T (mx_conf m) p v (proj2 Hm)) as Hg.
      destruct (conf_set_modamt _ _ _ _) as [[c1 ms1] b]. cbn [fst snd] in *. destruct b; cbn [mbind option_bind].
      + destruct (matrix_sync T h _) as [[[[h1 m1] ms2] r]|] eqn:E; cbn [mbind option_bind]; [|done].
        intros [= <- <- <-] Hl. apply Forall_app. split; [by apply quiet_for|]. eapply sync_for_msgs; [|exact E|done]. split; [apply Hm|done].
      + intros [= <- _ <-] _. by apply quiet_for.
    - unfold matrix_load. pose proof (load_quiet (mx_conf m) ps ats nrm) as A2.
      destruct (conf_load _ _ _ _ _ _ _) as [c1 ms1]. intros [= <- _ <-] _. by apply quiet_for.
    - unfold matrix_monitor. intros [= <- _ <-] _. apply monitor_for, monitor_msgs.
  Qed.
End wired.

Section engine.
  Context (T : ntable) (HT : table_ok T) (i2f : Z -> f32) (load_sample : satom -> satom).
  Context (finc : f32 -> f32 -> nat -> f32) (fadd : f32 -> f32 -> f32) (mix : f32 -> f32 -> f32 -> f32).
  Context {St : Type}.
  Context (node_sem : node_id -> St -> nat -> N -> N -> list satom ->
                      list (list f32) -> list (list f32) -> list (list f32) -> St * list (list f32)).
  Context (Hfit : node_fits node_sem).

  Definition runs_layout (p : nprog) : Prop := exists g modamt, wired T g modamt p.

  Lemma empty_layout : runs_layout prog_empty.
  Proof.
    exists (Grid 0 0 []), ∅.
    assert (Hb0 : forall q c, board (Grid 0 0 []) q <> Some c).
    { intros q c. unfold board, grid_get. rewrite decide_True by (cbn; lia). done. }
    assert (Hc : forall q d e, ~ connects (Grid 0 0 []) q d e) by (intros q d e (c & q' & c' & Hb & _); by apply Hb0 in Hb).
    constructor; cbn; try by intros ? ? ?%elem_of_nil.
    all: try by intros ? ?%elem_of_nil.
    - split; [constructor|]. split.
      + intros n. split; [by intros ?%elem_of_nil|]. intros (_ & q & c & Hb & _). by apply Hb0 in Hb.
      + intros a b (q & d & e & H & _). by apply Hc in H.
    - by intros m mo Hm.
  Qed.

  Lemma set_param_shape e i v : ex_prog (exec_set_param finc e i v) = ex_prog e.
  Proof. unfold exec_set_param. repeat (case_match; try done). Qed.

  Lemma drain_for q : forall h e h' e' t, Forall (msg_for T) q -> Forall msg_ready q -> runs_layout (ex_prog e) ->
    exec_drain finc h e q = Some (h', e', t) -> runs_layout (ex_prog e').
  Proof.
    induction q as [|m q IH]; intros h e h' e' t Hf Hrd Hr; cbn [exec_drain]; [by intros [= <- <- <-]|].
    apply Forall_cons in Hf as [Hm Hf]. apply Forall_cons in Hrd as [Hmr Hrd].
    destruct (exec_message finc h e m) as [[[h1 e1] t1]|] eqn:Em; cbn [mbind option_bind]; [|done].
    destruct (exec_drain finc h1 e1 q) as [[[h2 e2] t2]|] eqn:Ed; cbn [mbind option_bind]; [|done]. intros [= <- <- <-].
    eapply IH; [done|done| |exact Ed]. clear IH Ed Hf Hrd.
    destruct m as [p|p copy|i a|i v|i a|bufs].
    - cbn in Hmr, Em. injection Em as _ <- _. cbn. rewrite Hmr. apply empty_layout.
    - destruct Hm as (g & c & c1 & order & Hl & Hb & Hgo & Hord).
      exists g, (cf_modamt c). eapply install_wired; eauto.
    - cbn [exec_message] in Em. destruct (i <? _); [|done]. injection Em as _ <- _. destruct Hr as (g & ma & Hw). exists g, ma.
      eapply wired_shape; [|exact Hw]. unfold same_shape. cbn. rewrite insert_length. done.
    - cbn [exec_message] in Em. injection Em as _ <- _. by rewrite set_param_shape.
    - cbn [exec_message] in Em. injection Em as _ <- _. unfold exec_set_modamt. destruct (np_mods (ex_prog e) !! i) as [mo|] eqn:Emo; [|done].
      destruct Hr as (g & ma & Hw). exists g, ma. eapply wired_shape; [|exact Hw]. unfold same_shape. cbn. split_and!; try done.
      rewrite list_fmap_insert. rewrite list_insert_id; [done|]. rewrite list_lookup_fmap, Emo. done.
    - cbn [exec_message] in Em. by injection Em as _ <- _.
  Qed.

  Lemma queue_push_for ms : forall h q h' q', queue_push h q ms = Some (h', q') -> Forall (msg_for T) q -> Forall (msg_for T) ms -> Forall (msg_for T) q'.
  Proof.
    induction ms as [|m ms IH]; intros h q h' q'; cbn [queue_push]; [by intros [= <- <-]|].
    intros E Hq Hms. apply Forall_cons in Hms as [Hm Hms].
    destruct (_ <? _); [eapply IH; [exact E| |done]; apply Forall_app; split; [done|by constructor]|].
    destruct (msg_drop h m) as [h1|]; cbn [mbind option_bind] in E; [|done]. by eapply IH.
  Qed.

  Record flow_inv (n : engine St) : Prop := {
    fi_own : own_inv T n;
    fi_queue : Forall (msg_for T) (en_queue n);
    fi_run : runs_layout (ex_prog (en_exec n));
  }.

  Lemma flow_step n o n' : flow_inv n -> engine_step T i2f load_sample finc fadd mix node_sem n o = Some n' ->
    length (created (mx_conf (en_mx n'))) <= 256 -> flow_inv n'.
  Proof.
    intros [Ho Hq Hr] E Hl. pose proof (own_step T HT i2f load_sample finc fadd mix node_sem Hfit n o n' Ho E) as Ho'.
    constructor; [done| |]; destruct o as [o|k|nf|]; cbn [engine_step] in E.
    - destruct (matrix_step _ _ _ _ _ o) as [[[h1 m1] ms]|] eqn:Em; cbn [mbind option_bind] in E; [|done]. unfold push in E.
      destruct (queue_push _ _ _) as [[h2 q2]|] eqn:Eq; cbn [mbind option_bind] in E; [|done]. injection E as <-. cbn in *.
      eapply queue_push_for; [exact Eq|done|]. eapply matrix_step_for; [done|apply Ho|exact Em|done].
    - destruct (exec_drain _ _ _ _) as [[[h1 e1] t]|] eqn:Ed; cbn [mbind option_bind] in E; [|done]. injection E as <-. cbn. by apply Forall_drop.
    - destruct (exec_process _ _ _ _ _ _ _) as [[[[h1 e1] st1] fed]|] eqn:Ed; cbn [mbind option_bind] in E; [|done]. by injection E as <-.
    - destruct (en_trash n); [by injection E as <-|]. destruct (prog_drop _ _); cbn [mbind option_bind] in E; [|done]. by injection E as <-.
    - destruct (matrix_step _ _ _ _ _ o) as [[[h1 m1] ms]|] eqn:Em; cbn [mbind option_bind] in E; [|done]. unfold push in E.
      destruct (queue_push _ _ _) as [[h2 q2]|] eqn:Eq; cbn [mbind option_bind] in E; [|done]. by injection E as <-.
    - destruct (exec_drain _ _ _ _) as [[[h1 e1] t]|] eqn:Ed; cbn [mbind option_bind] in E; [|done]. injection E as <-. cbn.
      eapply drain_for; [|..|exact Ed]; [by apply Forall_take|apply Forall_take, Ho|done].
    - destruct (exec_process _ _ _ _ _ _ _) as [[[[h1 e1] st1] fed]|] eqn:Ed; cbn [mbind option_bind] in E; [|done]. injection E as <-. cbn.
      destruct Hr as (g & ma & Hw). exists g, ma. eapply wired_shape; [|exact Hw].
      eapply process_own; [exact Hfit|apply Ho|exact Ed].
    - destruct (en_trash n); [by injection E as <-|]. destruct (prog_drop _ _); cbn [mbind option_bind] in E; [|done]. by injection E as <-.
  Qed.

  Lemma small_flow n : small_reachable T i2f load_sample finc fadd mix node_sem n -> flow_inv n.
  Proof.
    induction 1 as [w h slope st|n o n' Hn IH E Hl]; [|by eapply flow_step].
    constructor; [apply own_new|constructor|apply empty_layout].
  Qed.

  (** a block of a wired program *)
  Lemma process_flow g modamt h e st nf l h' e' st' fed : wired T g modamt (ex_prog e) -> running (ex_prog e) ->
    hok h (owned (ex_prog e) ++ l) -> 0 < nf -> exec_process fadd mix node_sem h e st nf = Some (h', e', st', fed) ->
    dataflow T mix node_sem (ex_prog e') nf h h' st st' /\ wired T g modamt (ex_prog e').
  Proof.
    intros Hw Hr Hh Hnf E. pose proof (process_own fadd mix node_sem Hfit _ _ _ _ _ _ _ _ _ Hh E) as [_ Hs].
    pose proof (wired_shape T _ _ _ _ Hs Hw) as Hw'. split; [|done]. revert E. unfold exec_process.
    destruct (exec_smoothers fadd h e nf) as [[h1 e1]|] eqn:E1; cbn [mbind option_bind]; [|done].
    destruct (exec_smoothers_hok _ _ _ _ _ _ _ Hh E1) as [H1 S1].
    destruct (foldm _ _ _) as [[[h2 st2] fb]|] eqn:E2; cbn [mbind option_bind]; [|done].
    destruct (foldm (monitor_slot _ _ _) _ _) as [fd|]; cbn [mbind option_bind]; [|done]. intros [= <- <- <- <-].
    assert (Hnd : NoDup (owned (ex_prog e1))).
    { rewrite (proj1 (same_shape_owned _ _ S1)). destruct Hh as [[Hh _] _]. by apply NoDup_app in Hh as [? _]. }
    destruct (ops_flow T mix node_sem Hfit g modamt (ex_prog e1) (wired_shape T _ _ _ _ S1 Hw) Hnd (same_shape_running _ _ S1 Hr) _ _ _ _ _ _ _ _ Hnf H1 E2)
      as [[(sts & A0 & A1 & A2) B] _].
    split; [|exact B]. exists sts. split; [done|]. split; [done|]. intros i op Hop. destruct (A2 i op Hop) as (s & s' & Hs1 & Hs2 & Hran).
    exists s, s'. split; [done|]. split; [done|].
    destruct Hran as (ats & own & ins & old & outs & L1 & L2 & L3 & L4 & L5 & I1 & I2 & I3 & I4 & I5 & En).
    exists ats, own, ins, old, outs. split_and!; try done. intros j Hj. rewrite I4 by done. unfold samples.
    change (out_buf (ex_prog (with_prog e1 (prog_with_fb (ex_prog e1) fb))) op j) with (out_buf (ex_prog e1) op j).
    destruct (out_buf (ex_prog e1) op j) as [b|] eqn:Eb; [|done]. cbn [mbind option_bind]. eapply exec_smoothers_frame; [exact E1|].
    destruct S1 as (Si & _ & So & _). intros Hx. rewrite <- Si in Hx.
    destruct (owned_parts _ Hnd) as (_ & _ & _ & N4 & _). apply (proj1 (N4 _ Hx)). by eapply elem_of_list_lookup_2.
  Qed.
End engine.
