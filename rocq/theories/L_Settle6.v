(** Where the values of the nodes that run are, and how this survives the steps of the engine *)
From Verif Require Import Base M_Atom M_Graph M_Dir M_Grid S_Grid M_Layout S_Layout M_Prog M_Conf M_Exec M_Sync M_Engine.
From Verif Require Import S_Conf S_Sync S_Prog S_Own L_Graph L_Grid L_Layout L_Conf L_Conf2 L_Conf3 L_Sync L_Prog L_Build L_Fill L_Wire L_Own L_Own2 L_Own3 L_Flow S_Settle L_Settle L_Settle2 L_Settle3 L_Settle4.
Open Scope nat_scope.
Local Opaque block_size.

(** what an operation says about the place of its values *)
Definition otri (op : nodeop) : node_id * (nat * nat) * (nat * nat) := (op_node op, op_in op, op_at op).
Definition oapplied (O : list (node_id * (nat * nat) * (nat * nat))) (m : gmsg) :=
  match m with MClear p | MNewProg p _ => otri <$> np_ops p | _ => O end.
Lemma oapplied_none ms O : Forall (fun m => msg_progs m = []) ms -> foldl oapplied O ms = O.
Proof. induction 1 as [|m ms Hm _ IH]; [done|]. cbn. by destruct m. Qed.

Lemma otri_add_input (ops : list nodeop) idx ii oi md : otri <$> ops_add_input ops idx ii oi md = otri <$> ops.
Proof.
  induction ops as [|o ops IH]; [done|]. cbn [ops_add_input]. destruct (op_idx o =? idx).
  - cbn. f_equal. unfold otri, op_push_input, op_set_in_flag. by destruct (in_range _ _).
  - cbn. by rewrite IH.
Qed.
Lemma otri_out (ops : list nodeop) g : otri <$> ((fun o => op_set_out_flag o g) <$> ops) = otri <$> ops.
Proof.
  rewrite <- list_fmap_compose. apply list_fmap_ext. intros i o _. cbn. unfold otri, op_set_out_flag. by destruct (in_range _ _).
Qed.

Section where_.
  Context (T : ntable) (HT : table_ok T).

  Definition where_ok (c : nconf) (x : node_id * (nat * nat) * (nat * nat)) : Prop :=
    let id := x.1.1 in
    exists j, created c !! j = Some id /\
      x.1.2 = (psum (n_ins T) (created c) j, psum (n_ins T) (created c) j + n_ins T id) /\
      x.2 = (psum (n_ats T) (created c) j, psum (n_ats T) (created c) j + n_ats T id) /\
      (forall q, q < n_ins T id -> exists x, cf_params c !! (id, q) = Some x /\ npa_idx x = psum (n_ins T) (created c) j + q) /\
      (forall q, q < n_ats T id -> exists x, cf_atoms c !! (id, nt_at_id T (nid_kind id) q) = Some x /\ nat_idx x = psum (n_ats T) (created c) j + q).

  Definition grows (c c' : nconf) : Prop :=
    created c `prefix_of` created c' /\
    (forall k x, cf_params c !! k = Some x -> exists x', cf_params c' !! k = Some x' /\ npa_idx x' = npa_idx x) /\
    (forall k x, cf_atoms c !! k = Some x -> exists x', cf_atoms c' !! k = Some x' /\ nat_idx x' = nat_idx x).
  Lemma grows_refl c : grows c c.
  Proof. split; [done|]. split; intros k x Hx; by exists x. Qed.
  Lemma grows_trans a b c : grows a b -> grows b c -> grows a c.
  Proof.
    intros (A1 & A2 & A3) (B1 & B2 & B3). split; [by etransitivity|]. split; intros k x Hx.
    - destruct (A2 k x Hx) as (y & Hy & E). destruct (B2 k y Hy) as (z & Hz & E'). exists z. split; [done|congruence].
    - destruct (A3 k x Hx) as (y & Hy & E). destruct (B3 k y Hy) as (z & Hz & E'). exists z. split; [done|congruence].
  Qed.
  Lemma where_grows c c' x : grows c c' -> where_ok c x -> where_ok c' x.
  Proof.
    intros (A1 & A2 & A3) (j & Hj & E1 & E2 & E3 & E4). exists j. rewrite !(psum_prefix _ _ _ _ _ A1 Hj).
    split; [by eapply prefix_at|]. do 2 (split; [done|]). split; intros q Hq.
    - destruct (E3 q Hq) as (y & Hy & Ey). destruct (A2 _ _ Hy) as (z & Hz & Ez). exists z. split; [done|congruence].
    - destruct (E4 q Hq) as (y & Hy & Ey). destruct (A3 _ _ Hy) as (z & Hz & Ez). exists z. split; [done|congruence].
  Qed.

  Lemma grows_create c n c' : conf_create T c n = Some c' -> grows c c'.
  Proof.
    intros E. pose proof (create_ids T _ _ _ E) as Hids. unfold conf_create in E. destruct (nt_known T (nid_kind n)); [|done]. injection E as <-.
    split; [rewrite Hids; by eexists|]. split; intros k x Hx; by exists x.
  Qed.
  Lemma grows_create_cells ns c c' : conf_create_cells T c ns = Some c' -> grows c c'.
  Proof.
    intros E. eapply (foldm_inv _ (fun s => grows c s)); [|apply grows_refl|exact E].
    intros s n s' _ Hs. unfold conf_create_cell. destruct (decide (n = Nop)); [by intros [= <-]|].
    destruct (cf_idx s !! n); [by intros [= <-]|].
    destruct (foldm (conf_ensure T) s _) as [s1|] eqn:E1; cbn [mbind option_bind]; [|done]. intros E2%grows_create.
    eapply grows_trans; [exact Hs|]. eapply grows_trans; [|exact E2].
    eapply (foldm_inv _ (fun a => grows s a)); [|apply grows_refl|exact E1].
    intros a m a' _ Ha. unfold conf_ensure. destruct (cf_idx a !! m); [by intros [= <-]|]. intros E3%grows_create. by eapply grows_trans.
  Qed.

  Context (i2f : Z -> f32) (load_sample : satom -> satom).

  Lemma grows_set_param c p a : let cm := conf_set_param T i2f load_sample c p a in grows c cm.1 /\ Forall (fun m => msg_progs m = []) cm.2.
  Proof.
    cbn zeta. unfold conf_set_param. destruct (is_atom T p).
    - destruct (cf_atoms c !! p) as [y|] eqn:Ey; cbn [fst snd].
      + split; [|by repeat constructor]. split; [done|]. split; intros k x Hx; [by exists x|]. cbn. destruct (decide (k = p)) as [->|Hne].
        * rewrite lookup_insert. eexists. split; [done|]. cbn. congruence.
        * rewrite lookup_insert_ne by done. by exists x.
      + split; [|constructor]. split; [done|]. split; intros k x Hx; by exists x.
    - destruct (cf_params c !! p) as [y|] eqn:Ey; cbn [fst snd].
      + split; [|by repeat constructor]. split; [done|]. split; intros k x Hx; [|by exists x]. cbn. destruct (decide (k = p)) as [->|Hne].
        * rewrite lookup_insert. eexists. split; [done|]. cbn. congruence.
        * rewrite lookup_insert_ne by done. by exists x.
      + split; [|constructor]. split; [done|]. split; intros k x Hx; by exists x.
  Qed.

  Lemma grows_set_modamt c p v : let cm := conf_set_modamt T c p v in grows c cm.1.1 /\ Forall (fun m => msg_progs m = []) cm.1.2.
  Proof.
    cbn zeta. unfold conf_set_modamt. destruct (is_atom T p); [split; [apply grows_refl|constructor]|].
    set (params := match cf_params c !! p with
      | Some (NParam i w (Some (mi, _))) => <[p := NParam i w (Some (mi, default f32_zero v))]> (cf_params c)
      | _ => cf_params c
      end).
    set (c' := NConf (cf_nodes c) (cf_idx c) params (cf_pvals c) (<[p := v]> (cf_modamt c)) (cf_atoms c) (cf_avals c)).
    assert (Hp : grows c c').
    { split; [done|]. split; [|intros k x Hx; by exists x]. cbn. unfold params. intros k x Hx.
      destruct (cf_params c !! p) as [[i w [[mi am]|]]|] eqn:Ep; try (by exists x).
      destruct (decide (k = p)) as [->|Hne]; [rewrite lookup_insert|rewrite lookup_insert_ne by done; by exists x].
      rewrite Ep in Hx. injection Hx as <-. by eexists. }
    destruct (conf_get_modamt c p), v; cbn [fst snd]; (split; [exact Hp|]); try constructor.
    match goal with |- context [match ?o with Some i => [MModamt i _] | None => [] end] => destruct o end; by repeat constructor.
  Qed.

  Lemma grows_load c ps ats nrm : let cm := conf_load T i2f load_sample c ps ats nrm in grows c cm.1 /\ Forall (fun m => msg_progs m = []) cm.2.
  Proof.
    cbn zeta. unfold conf_load.
    assert (H1 : forall ps s, grows c s.1 /\ Forall (fun m => msg_progs m = []) s.2 -> let cm := foldl (conf_load_param T i2f load_sample nrm) s ps in grows c cm.1 /\ Forall (fun m => msg_progs m = []) cm.2).
    { clear ps ats. cbn zeta. induction ps as [|[[p v] m] ps IH]; intros s [Hs1 Hs2]; [done|]. cbn [foldl]. apply IH. unfold conf_load_param.
      set (w := if nrm then _ else _).
      pose proof (grows_set_param s.1 p (AParam w)) as [A1 A2]. destruct (conf_set_param _ _ _ _ _ _) as [c1 ms1]. cbn [fst snd] in *.
      pose proof (grows_set_modamt c1 p m) as [B1 B2]. destruct (conf_set_modamt _ _ _ _) as [[c2 ms2] b]. cbn [fst snd] in *.
      split; [eapply grows_trans; [exact Hs1|]; by eapply grows_trans|]. by rewrite !Forall_app. }
    assert (H2 : forall ats s, grows c s.1 /\ Forall (fun m => msg_progs m = []) s.2 -> let cm := foldl (conf_load_atom T i2f load_sample) s ats in grows c cm.1 /\ Forall (fun m => msg_progs m = []) cm.2).
    { clear ps ats H1. cbn zeta. induction ats as [|[p a] ats IH]; intros s [Hs1 Hs2]; [done|]. cbn [foldl]. apply IH. unfold conf_load_atom. cbn [fst snd].
      pose proof (grows_set_param s.1 p a) as [A1 A2]. destruct (conf_set_param _ _ _ _ _ _) as [c1 ms1]. cbn [fst snd] in *.
      split; [by eapply grows_trans|]. by rewrite !Forall_app. }
    apply H2, H1. split; [apply grows_refl|constructor].
  Qed.

  (** the operations of a built program *)
  Lemma program_where h c order es h' c' p : conf_fine T c -> conf_program T h c order es = Some (h', c', p) ->
    Forall (where_ok c') (otri <$> np_ops p).
  Proof.
    intros Hg E. destruct (program_values T HT _ _ _ _ _ _ _ Hg E) as (c1 & Hl & (_ & Sp & Sv & _ & Sa & Sw & Sn) & _).
    revert E. destruct (rebuild_laid T HT h c Hg) as (h1 & c1' & p1 & E & Hl' & Hp). cbn zeta in Hp.
    unfold conf_program. rewrite E. cbn [mbind option_bind]. clear c1 Hl Sp Sv Sa Sw Sn. rename c1' into c1, Hl' into Hl.
    destruct (foldm conf_connect _ es) as [[c3 p3]|] eqn:E3; cbn [mbind option_bind]; [|done].
    destruct (prog_new_lengths _ _ _ _ _ _ _ Hp) as (_ & _ & _ & _ & Ho & _).
    destruct (program_ops_fit T c c1 p1 order es Hl Ho _ E3) as ((_ & Sp & Sv & _ & Sa & Sw & Sn) & _). cbn [fst snd] in *.
    unfold conf_fill. destruct (foldm put_param _ _) as [[ps ms]|]; cbn [mbind option_bind]; [|done].
    destruct (foldm put_atom _ _) as [ats|]; cbn [mbind option_bind]; [|done]. intros [= <- <- <-]. cbn [np_ops].
    assert (Hids : created c3 = created c) by (unfold created at 1; rewrite Sn; apply Hl).
    assert (Hw : forall n ni, conf_inst c1 n = Some ni -> where_ok c3 (ni_id ni, ni_in ni, ni_at ni)).
    { intros n ni Hn. destruct (laid_inst_inv T _ _ _ _ Hl Hn) as (j & Hj & Hok). exists j. cbn. rewrite Hids, Sp, Sa.
      rewrite (io_id _ _ _ _ _ _ _ _ _ Hok), (io_in _ _ _ _ _ _ _ _ _ Hok), (io_at _ _ _ _ _ _ _ _ _ Hok). cbn. do 3 (split; [done|]). split.
      * intros q Hq. eexists. split; [by apply (ld_param _ _ _ Hl)|done].
      * intros q Hq. eexists. split; [by apply (ld_atom _ _ _ Hl)|done]. }
    assert (F1 : Forall (where_ok c3) (otri <$> np_ops (foldl conf_add_node (c1, p1) order).2)).
    { clear E3. induction order as [|n order IH] using rev_ind; [cbn; rewrite Ho; constructor|].
      rewrite foldl_app. cbn [foldl]. destruct (add_nodes_any T c c1 p1 order Hl) as (S1 & _). cbn zeta in *.
      set (cp := foldl conf_add_node (c1, p1) order) in *. unfold conf_add_node.
      destruct (conf_inst cp.1 n) as [ni|] eqn:En; [|done]. cbn [snd].
      unfold prog_append_op. destruct (existsb _ _); [done|]. cbn [np_ops with_ops]. rewrite fmap_app. apply Forall_app. split; [done|].
      constructor; [|constructor]. destruct (same_inst_some _ _ _ _ S1 En) as (ni1 & Hn1 & Hop & _). rewrite Hop. by eapply Hw. }
    assert (F2 : otri <$> np_ops (c3, p3).2 = otri <$> np_ops (foldl conf_add_node (c1, p1) order).2); [|cbn in F2; by rewrite F2].
    eapply (foldm_inv conf_connect (fun s => otri <$> np_ops s.2 = otri <$> np_ops (foldl conf_add_node (c1, p1) order).2)); [|reflexivity|exact E3].
    intros s e s' _ Hs. unfold conf_connect. destruct (conf_inst s.1 (e_from e)); [|by intros [= <-]].
    destruct (conf_inst s.1 (e_to e)); [|by intros [= <-]]. destruct (ni_mod_global _ _); cbn [mbind option_bind]; [|done].
    intros [= <-]. cbn [snd]. destruct (local2global _ _); [|done]. destruct (local2global _ _); [|done].
    unfold prog_append_edge. cbn [np_ops with_ops]. by rewrite otri_add_input, otri_out.
  Qed.

  Lemma where_sync h m h' m' ms r O : mx_inv T m -> Forall (where_ok (mx_conf m)) O -> matrix_sync T h m = Some (h', m', ms, r) ->
    Forall (where_ok (mx_conf m')) (foldl oapplied O ms).
  Proof.
    intros Hm HO E. destruct (sync_cases T HT _ _ _ _ _ _ Hm E) as (c1 & Ec & Hg1 & _ & _ & _ & Hr). destruct r as [err|].
    - destruct Hr as (_ & -> & -> & -> & _). cbn. eapply Forall_impl; [exact HO|]. intros x Hx. eapply where_grows; [|exact Hx]. by eapply grows_create_cells.
    - destruct Hr as (order & p & mon & _ & Ep & -> & Hmon). cbn [foldl oapplied]. rewrite oapplied_none; [by eapply program_where, Ep; apply good_fine|].
      apply Forall_forall. intros x Hx. by destruct (Hmon x Hx) as [bs ->].
  Qed.

  Lemma where_step h m o h' m' ms O : mx_inv T m -> Forall (where_ok (mx_conf m)) O -> matrix_step T i2f load_sample h m o = Some (h', m', ms) ->
    Forall (where_ok (mx_conf m')) (foldl oapplied O ms).
  Proof.
    intros Hm Hf. destruct o as [o| | |p a|p v|ps ats nrm|c]; cbn [matrix_step].
    - destruct (lop_pure o); [|by intros [= <- <- <-]].
      destruct (lay_step _ _ o) as [[l1 r]|]; cbn [mbind option_bind]; [|done]. by intros [= <- <- <-].
    - destruct (matrix_sync T h m) as [[[[h1 m1] ms1] r]|] eqn:E; cbn [mbind option_bind]; [|done].
      intros [= <- <- <-]. by eapply where_sync.
    - unfold matrix_clear. cbn [conf_delete_nodes]. unfold matrix_monitor. cbn [mx_lay mx_conf].
      match goal with |- context [matrix_sync T h ?mm] => set (m1 := mm) end.
      destruct (matrix_sync T h m1) as [[[[h2 m2] ms2] r]|] eqn:E; cbn [mbind option_bind]; [|done].
      intros [= <- <- <-].
      assert (Hm1 : mx_inv T m1) by (split; [apply cleared_ok, Hm|apply good_new]).
      match goal with |- context [MClear prog_empty :: ?a ++ ms2] => set (mm := a) end.
      cbn [foldl oapplied]. rewrite foldl_app, (oapplied_none mm).
      + exact (where_sync h m1 h2 m2 ms2 r [] Hm1 (Forall_nil_2 _) E).
      + apply Forall_forall. intros x Hx. by destruct (monitor_msgs _ _ _ _ x Hx) as [bs ->].
    - unfold matrix_set_param. pose proof (grows_set_param (mx_conf m) p a) as [H1 H2].
      destruct (conf_set_param _ _ _ _ _ _) as [c1 ms1]. intros [= <- <- <-]. cbn in *. rewrite oapplied_none by done.
      eapply Forall_impl; [exact Hf|]. intros x. by apply where_grows.
    - unfold matrix_set_modamt. pose proof (grows_set_modamt (mx_conf m) p v) as [H1 H2].
      pose proof (set_modamt_good T (mx_conf m) p v (proj2 Hm)) as Hg.
      destruct (conf_set_modamt _ _ _ _) as [[c1 ms1] b]. cbn [fst snd] in *.
      assert (Hf1 : Forall (where_ok c1) O) by (eapply Forall_impl; [exact Hf|]; intros x; by apply where_grows).
      destruct b; cbn [mbind option_bind].
      + destruct (matrix_sync T h _) as [[[[h1 m1] ms2] r]|] eqn:E; cbn [mbind option_bind]; [|done].
        intros [= <- <- <-]. rewrite foldl_app, (oapplied_none ms1) by done. eapply where_sync in E; [exact E| |exact Hf1]. split; [apply Hm|done].
      + intros [= <- <- <-]. cbn. by rewrite oapplied_none by done.
    - unfold matrix_load. pose proof (grows_load (mx_conf m) ps ats nrm) as [H1 H2].
      destruct (conf_load _ _ _ _ _ _ _) as [c1 ms1]. intros [= <- <- <-]. cbn in *. rewrite oapplied_none by done.
      eapply Forall_impl; [exact Hf|]. intros x. by apply where_grows.
    - unfold matrix_monitor. intros [= <- <- <-]. cbn [mx_conf]. rewrite oapplied_none; [done|].
      apply Forall_forall. intros x Hx. by destruct (monitor_msgs _ _ _ _ x Hx) as [bs ->].
  Qed.
End where_.

Section engine.
  Context (T : ntable) (HT : table_ok T) (i2f : Z -> f32) (load_sample : satom -> satom).
  Context (finc : f32 -> f32 -> nat -> f32) (fadd : f32 -> f32 -> f32) (mix : f32 -> f32 -> f32 -> f32).
  Context {St : Type}.
  Context (node_sem : node_id -> St -> nat -> N -> N -> list satom ->
                      list (list f32) -> list (list f32) -> list (list f32) -> St * list (list f32)).
  Context (Hnode : node_fits node_sem).

  Lemma message_ops h e m h' e' t : exec_message finc h e m = Some (h', e', t) ->
    otri <$> np_ops (ex_prog e') = oapplied (otri <$> np_ops (ex_prog e)) m.
  Proof.
    destruct m as [p|p copy|i a|i v|i a|bufs]; cbn [exec_message oapplied].
    - by intros [= <- <- <-].
    - destruct (prog_init_inputs h p); cbn [mbind option_bind]; [|done].
      assert (Hsw : np_ops (if copy then prog_swap p (ex_prog e) else (p, ex_prog e)).1 = np_ops p).
      { destruct copy; [|done]. unfold prog_swap. destruct (swap_zip _ _) as [a b]. cbn. by destruct (np_locked p). }
      destruct (if copy then _ else _) as [p1 p2]. cbn in Hsw. unfold prog_assign.
      destruct (foldm _ _ _) as [[cur mods]|]; cbn [mbind option_bind]; [|done]. intros [= <- <- <-]. cbn. by rewrite Hsw.
    - destruct (_ <? _); [|done]. by intros [= <- <- <-].
    - intros E. apply (inj Some) in E. injection E as <- <- <-. unfold exec_set_param. destruct (np_params _ !! i); [|done].
      destruct (find_idx _ _); [|destruct (find_idx _ _)]; done.
    - intros E. apply (inj Some) in E. injection E as <- <- <-. unfold exec_set_modamt. by destruct (np_mods _ !! i).
    - by intros [= <- <- <-].
  Qed.
  Lemma drain_ops q : forall h e h' e' t, exec_drain finc h e q = Some (h', e', t) ->
    otri <$> np_ops (ex_prog e') = foldl oapplied (otri <$> np_ops (ex_prog e)) q.
  Proof.
    induction q as [|m q IH]; intros h e h' e' t; cbn [exec_drain]; [by intros [= <- <- <-]|].
    destruct (exec_message finc h e m) as [[[h1 e1] t1]|] eqn:Em; cbn [mbind option_bind]; [|done].
    destruct (exec_drain finc h1 e1 q) as [[[h2 e2] t2]|] eqn:Ed; cbn [mbind option_bind]; [|done]. intros [= <- <- <-].
    cbn [foldl]. rewrite <- (message_ops _ _ _ _ _ _ Em). by eapply IH.
  Qed.

  Definition ops_inv (n : engine St) : Prop :=
    Forall (where_ok T (mx_conf (en_mx n))) (foldl oapplied (otri <$> np_ops (ex_prog (en_exec n))) (en_queue n)).

  Lemma ops_step n o n' : own_inv T n -> ops_inv n -> calm_step T i2f load_sample finc n o ->
    engine_step T i2f load_sample finc fadd mix node_sem n o = Some n' -> ops_inv n'.
  Proof.
    intros [Hm Hh _ _] Hi Hca E. destruct o as [o|k|nf|]; cbn [engine_step] in E.
    - destruct (matrix_step _ _ _ _ _ o) as [[[h1 m1] ms]|] eqn:E1; cbn [mbind option_bind] in E; [|done].
      cbn [calm_step] in Hca. specialize (Hca _ _ _ E1). unfold push in E.
      rewrite queue_push_fits in E by exact Hca. cbn [mbind option_bind] in E. injection E as <-.
      unfold ops_inv. cbn. rewrite foldl_app. by eapply where_step.
    - destruct (exec_drain _ _ _ _) as [[[h1 e1] t]|] eqn:E1; cbn [mbind option_bind] in E; [|done]. injection E as <-.
      unfold ops_inv in *. cbn. rewrite (drain_ops _ _ _ _ _ _ E1), <- foldl_app. by rewrite take_drop.
    - destruct (exec_process _ _ _ _ _ _ _) as [[[[h1 e1] st1] fed]|] eqn:E1; cbn [mbind option_bind] in E; [|done]. injection E as <-.
      destruct (process_own fadd mix node_sem Hnode _ _ _ _ _ _ _ _ _ Hh E1) as [_ (_ & _ & _ & Hs & _)].
      unfold ops_inv in *. cbn. by rewrite Hs.
    - destruct (en_trash n) as [|p t] eqn:Et; [by injection E as <-|].
      destruct (prog_drop (en_heap n) p) as [h1|] eqn:E1; cbn [mbind option_bind] in E; [|done]. by injection E as <-.
  Qed.

  Lemma ops_reach slope n : calm_reachable T i2f load_sample finc fadd mix node_sem slope n -> ops_inv n.
  Proof.
    induction 1 as [|n o n' Hn IH Hc E]; [constructor|]. eapply ops_step; [|exact IH|exact Hc|exact E].
    by eapply st_own, set_reach.
  Qed.
End engine.
