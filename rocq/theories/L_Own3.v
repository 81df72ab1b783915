(** Ownership of buffers: processing blocks and the whole engine *)
From Verif Require Import Base M_Atom M_Graph M_Dir M_Grid S_Grid M_Layout S_Layout M_Prog M_Conf M_Exec M_Sync M_Engine.
From Verif Require Import S_Conf S_Sync S_Prog S_Own L_Graph L_Grid L_Layout L_Conf L_Conf2 L_Sync L_Prog L_Build L_Fill L_Wire L_Own L_Own2.
Open Scope nat_scope.
Local Opaque block_size.

Lemma buf_fill_some h l b v h' : hok h l -> buf_fill h b v = Some h' -> hok h' l.
Proof.
  intros Hh. unfold buf_fill. destruct (h_bufs h !! b) as [c|] eqn:E; cbn [mbind option_bind]; [|done]. intros [= <-].
  eapply put_hok; [done|done|]. rewrite replicate_length. by eapply (proj2 (proj2 (proj1 Hh))).
Qed.
Lemma buf_write_some h l b i v h' : hok h l -> buf_write h b i v = Some h' -> hok h' l.
Proof.
  intros Hh. unfold buf_write. destruct (h_bufs h !! b) as [c|] eqn:E; cbn [mbind option_bind]; [|done].
  destruct (i <? length c); [|done]. intros [= <-].
  eapply put_hok; [done|done|]. rewrite insert_length. by eapply (proj2 (proj2 (proj1 Hh))).
Qed.
Lemma buf_put_some h l b c h' : hok h l -> length c = block_size -> buf_put h b c = Some h' -> hok h' l.
Proof.
  intros Hh Hc. unfold buf_put. destruct (h_bufs h !! b) as [c0|] eqn:E; cbn [mbind option_bind]; [|done]. intros [= <-].
  by eapply put_hok.
Qed.

Section process.
  Context (finc : f32 -> f32 -> nat -> f32) (fadd : f32 -> f32 -> f32) (mix : f32 -> f32 -> f32 -> f32).
  Context {St : Type}.
  Context (node_sem : node_id -> St -> nat -> N -> N -> list satom ->
                      list (list f32) -> list (list f32) -> list (list f32) -> St * list (list f32)).
  Context (Hfit : node_fits node_sem).

  Lemma refresh_hok inp rl h l h' : hok h l -> refresh_targets h inp rl = Some h' -> hok h' l.
  Proof.
    revert h. induction rl as [|[i v] rl IH]; intros h Hh; cbn [refresh_targets]; [by intros [= <-]|].
    destruct (inp !! i) as [b|]; cbn [mbind option_bind]; [|done].
    destruct (buf_fill h b v) as [h1|] eqn:E; cbn [mbind option_bind]; [|done]. apply IH. by eapply buf_fill_some.
  Qed.
  Lemma run_smoother_hok b n f s v h l h' s' v' : hok h l -> run_smoother fadd h b f n s v = Some (h', s', v') -> hok h' l.
  Proof.
    revert f s v h. induction n as [|n IH]; intros f s v h Hh; cbn [run_smoother]; [by intros [= <- _ _]|].
    destruct (sm_next fadd s) as [s1 v1]. destruct (buf_write h b f v1) as [h1|] eqn:E; cbn [mbind option_bind]; [|done].
    apply IH. by eapply buf_write_some.
  Qed.
  Lemma run_smoothers_hok inp nf sms ps rf h l h' ps' rf' sms' : hok h l ->
    run_smoothers fadd h inp nf ps rf sms = Some (h', ps', rf', sms') -> hok h' l /\ length ps' = length ps.
  Proof.
    revert ps rf h ps' rf' sms'. induction sms as [|[i s] sms IH]; intros ps rf h ps' rf' sms' Hh; cbn [run_smoothers]; [by intros [= <- <- _ _]|].
    destruct (sm_done s).
    - destruct (run_smoothers _ h _ _ _ _ sms) as [[[[h1 ps1] rf1] sms1]|] eqn:E; cbn [mbind option_bind]; [|done].
      intros [= <- <- <- <-]. by eapply IH.
    - destruct (inp !! i) as [b|]; cbn [mbind option_bind]; [|done].
      destruct (run_smoother _ h b 0 nf s f32_zero) as [[[h1 s1] v1]|] eqn:E1; cbn [mbind option_bind]; [|done].
      destruct (i <? length ps); [|done].
      destruct (run_smoothers _ h1 _ _ _ _ sms) as [[[[h2 ps2] rf2] sms2]|] eqn:E; cbn [mbind option_bind]; [|done].
      intros [= <- <- <- <-]. apply IH in E; [|by eapply run_smoother_hok]. by rewrite insert_length in E.
  Qed.
  Lemma exec_smoothers_hok h e nf l h' e' : hok h l -> exec_smoothers fadd h e nf = Some (h', e') ->
    hok h' l /\ same_shape (ex_prog e) (ex_prog e').
  Proof.
    intros Hh. unfold exec_smoothers. destruct (refresh_targets _ _ _) as [h1|] eqn:E1; cbn [mbind option_bind]; [|done].
    destruct (run_smoothers _ _ _ _ _ _ _) as [[[[h2 ps] rf] sms]|] eqn:E2; cbn [mbind option_bind]; [|done].
    intros [= <- <-]. apply run_smoothers_hok with (l := l) in E2; [|by eapply refresh_hok]. split; [apply E2|].
    unfold same_shape. cbn. destruct E2. done.
  Qed.

  Lemma modop_hok nf h m l h' : hok h l -> modop_process mix nf h m = Some h' -> hok h' l.
  Proof.
    intros Hh. unfold modop_process. destruct (mo_in m) as [ib|]; [|by intros [= <-]].
    destruct (mo_out m) as [ob|]; [|destruct (nf =? 0); [by intros [= <-]|done]].
    intros E. eapply (foldm_inv _ (fun h => hok h l)); [|exact Hh|exact E]. intros h1 f h2 _ H1. unfold modop_frame.
    destruct (buf_read h1 ib f); cbn [mbind option_bind]; [|done].
    destruct (buf_read h1 ob f); cbn [mbind option_bind]; [|done]. by apply buf_write_some.
  Qed.

  Lemma mapM_lookup_all h ps bs l : hok h l -> load_bufs h ps = Some bs -> Forall (fun b => length b = block_size) bs /\ length bs = length ps.
  Proof.
    intros Hh. unfold load_bufs. intros E. apply mapM_Some in E. split; [|symmetry; by eapply Forall2_length].
    induction E as [|p b ps bs Hp E IH]; constructor; [|done]. by eapply (proj2 (proj2 (proj1 Hh))).
  Qed.

  Lemma store_hok h ps bs l h' : hok h l -> Forall (fun b => length b = block_size) bs -> store_bufs h ps bs = Some h' -> hok h' l.
  Proof.
    intros Hh Hbs E. eapply (foldm_inv _ (fun h => hok h l)); [|exact Hh|exact E].
    intros h1 [p b] h2 Hin H1. cbn [fst snd]. apply buf_put_some; [done|]. apply elem_of_zip_r in Hin.
    by apply (proj1 (Forall_forall _ _) Hbs).
  Qed.

  Lemma publish_length nf h fb ips fb' : foldm (publish h nf) fb ips = Some fb' -> length fb' = length fb.
  Proof.
    intros E. eapply (foldm_inv _ (fun f => length f = length fb)); [|done|exact E].
    intros f1 ip f2 _ Hl. unfold publish. destruct (buf_read _ _ _); cbn [mbind option_bind]; [|done].
    destruct (_ <? _); [|done]. intros [= <-]. by rewrite insert_length.
  Qed.

  Lemma exec_op_hok p nf h st fb op h' st' fb' l : hok h l -> exec_op mix node_sem p nf (h, st, fb) op = Some (h', st', fb') ->
    hok h' l /\ length fb' = length fb.
  Proof.
    intros Hh. unfold exec_op.
    destruct (slice (op_mod op) _) as [mods|]; cbn [mbind option_bind]; [|done].
    destruct (foldm _ h mods) as [h1|] eqn:E1; cbn [mbind option_bind]; [|done].
    assert (H1 : hok h1 l). { eapply (foldm_inv _ (fun h => hok h l)); [|exact Hh|exact E1]. intros a x b _. intros. by eapply modop_hok. }
    destruct (slice (op_in op) (np_inp p)) as [ps|]; cbn [mbind option_bind]; [|done].
    destruct (load_bufs h1 ps) as [pb|]; cbn [mbind option_bind]; [|done].
    destruct (slice (op_at op) _) as [ats|]; cbn [mbind option_bind]; [|done].
    destruct (slice (op_in op) (np_cur p)) as [is|]; cbn [mbind option_bind]; [|done].
    destruct (load_curs h1 is) as [ib|]; cbn [mbind option_bind]; [|done].
    destruct (slice (op_out op) _) as [os|]; cbn [mbind option_bind]; [|done].
    destruct (load_bufs h1 os) as [ob|] eqn:Eo; cbn [mbind option_bind]; [|done].
    destruct (mapM_lookup_all _ _ _ _ H1 Eo) as [Hob _].
    pose proof (Hfit (op_node op) st nf (op_outc op) (op_inc op) ats pb ib ob Hob) as [_ Hfits].
    destruct (node_sem _ _ _ _ _ _ _ _ _) as [st1 outs]. cbn in Hfits.
    destruct (store_bufs h1 os outs) as [h2|] eqn:E2; cbn [mbind option_bind]; [|done].
    destruct (nf =? 0); [done|].
    destruct (foldm _ fb _) as [fb1|] eqn:E3; cbn [mbind option_bind]; [|done]. intros [= <- <- <-].
    split; [by eapply store_hok|by eapply publish_length].
  Qed.

  Lemma exec_ops_hok p nf ops w w' l : hok w.1.1 l -> foldm (exec_op mix node_sem p nf) w ops = Some w' ->
    hok w'.1.1 l /\ length w'.2 = length w.2.
  Proof.
    intros Hh E. eapply (foldm_inv _ (fun v => hok v.1.1 l /\ length v.2 = length w.2)); [|done|exact E].
    intros [[h1 st1] fb1] op [[h2 st2] fb2] _ [H1 H2] E1. cbn in *. apply exec_op_hok with (l := l) in E1 as [? ?]; [|done]. split; [done|lia].
  Qed.

  Lemma process_own h e st nf l h' e' st' fed : hok h l -> exec_process fadd mix node_sem h e st nf = Some (h', e', st', fed) ->
    hok h' l /\ same_shape (ex_prog e) (ex_prog e').
  Proof.
    intros Hh. unfold exec_process. destruct (exec_smoothers fadd h e nf) as [[h1 e1]|] eqn:E1; cbn [mbind option_bind]; [|done].
    destruct (exec_smoothers_hok _ _ _ _ _ _ Hh E1) as [H1 S1].
    destruct (foldm _ _ _) as [[[h2 st2] fb]|] eqn:E2; cbn [mbind option_bind]; [|done].
    destruct (foldm (monitor_slot _ _ _) _ _) as [fd|]; cbn [mbind option_bind]; [|done]. intros [= <- <- <- <-].
    destruct (exec_ops_hok _ _ _ (_, _, _) _ l H1 E2) as [H2 L2]. cbn in H2, L2. split; [done|].
    eapply same_shape_trans; [exact S1|]. unfold same_shape. cbn. done.
  Qed.
End process.

Lemma join_app {A} (l k : list (list A)) : mjoin (l ++ k) = mjoin l ++ mjoin k.
Proof. induction l as [|x l IH]; [done|]. cbn. unfold mjoin in *. by rewrite IH, app_assoc. Qed.

(** messages as the frontend sends them *)
Definition msg_ready (m : gmsg) : Prop :=
  match m with MClear p => p = prog_empty | MNewProg p _ => ready p | _ => True end.

Definition sent_bufs (ms : list gmsg) : list nat := mjoin (owned <$> mjoin (msg_progs <$> ms)).
Lemma sent_app a b : sent_bufs (a ++ b) = sent_bufs a ++ sent_bufs b.
Proof. unfold sent_bufs. by rewrite fmap_app, join_app, fmap_app, join_app. Qed.
Lemma sent_monitor (ms : list gmsg) : (forall x, x ∈ ms -> exists bs, x = MMonitor bs) -> sent_bufs ms = [] /\ Forall msg_ready ms.
Proof.
  induction ms as [|m ms IH]; intros H; [done|].
  destruct (H m) as [bs ->]; [left|]. destruct IH as [E F]; [intros x Hx; apply H; by right|].
  split; [|by constructor]. unfold sent_bufs in *. cbn. done.
Qed.

Lemma msg_ready_progs m p : msg_ready m -> p ∈ msg_progs m -> ready p.
Proof.
  destruct m; cbn; intros Hm Hp; try (by apply elem_of_nil in Hp); apply elem_of_list_singleton in Hp as ->; [rewrite Hm; apply ready_empty|done].
Qed.

Section front.
  Context (T : ntable) (HT : table_ok T).

  Lemma monitor_msgs c n is os : forall x, x ∈ conf_monitor c n is os -> exists bs, x = MMonitor bs.
  Proof.
    intros x. unfold conf_monitor. destruct (conf_inst c n); [|by intros ?%elem_of_nil].
    intros ->%elem_of_list_singleton. by eexists.
  Qed.

  Lemma sync_own h m h' m' ms r l : mx_inv T m -> hok h l -> matrix_sync T h m = Some (h', m', ms, r) ->
    hok h' (sent_bufs ms ++ l) /\ Forall msg_ready ms.
  Proof.
    intros Hm Hh E. destruct (sync_cases T HT _ _ _ _ _ _ Hm E) as (c1 & _ & Hg1 & _ & _ & _ & Hr). destruct r as [err|].
    - destruct Hr as (_ & -> & _ & -> & _). by split.
    - destruct Hr as (order & p & mon & _ & Ep & -> & Hmon).
      destruct (program_ready T HT _ _ _ _ _ _ _ _ Hg1 Hh Ep) as [H1 H2].
      destruct (sent_monitor mon Hmon) as [E1 F1].
      change (MNewProg p true :: mon) with ([MNewProg p true] ++ mon). rewrite sent_app, E1, app_nil_r.
      split; [|by constructor]. unfold sent_bufs. cbn. by rewrite app_nil_r.
  Qed.

  Context (i2f : Z -> f32) (load_sample : satom -> satom).

  Lemma set_param_msgs c p a : sent_bufs (conf_set_param T i2f load_sample c p a).2 = [] /\
    Forall msg_ready (conf_set_param T i2f load_sample c p a).2.
  Proof.
    unfold conf_set_param. destruct (is_atom T p).
    - destruct (cf_atoms c !! p); cbn; split; try done; by repeat constructor.
    - destruct (cf_params c !! p); cbn; split; try done; by repeat constructor.
  Qed.
  Lemma set_modamt_msgs c p v : sent_bufs (conf_set_modamt T c p v).1.2 = [] /\ Forall msg_ready (conf_set_modamt T c p v).1.2.
  Proof.
    unfold conf_set_modamt. destruct (is_atom T p); [split; [done|constructor]|].
    destruct (conf_get_modamt c p) as [a|]; [|split; [done|constructor]].
    destruct v as [b|]; [|split; [done|constructor]]. cbn [fst snd].
    match goal with |- context [match ?o with Some i => [MModamt i b] | None => [] end] => destruct o end; cbn; split; try done; by repeat constructor.
  Qed.
  Lemma load_msgs c ps ats nrm : sent_bufs (conf_load T i2f load_sample c ps ats nrm).2 = [] /\
    Forall msg_ready (conf_load T i2f load_sample c ps ats nrm).2.
  Proof.
    unfold conf_load. set (Q := fun s : nconf * list gmsg => sent_bufs s.2 = [] /\ Forall msg_ready s.2).
    assert (H1 : forall ps s, Q s -> Q (foldl (conf_load_param T i2f load_sample nrm) s ps)).
    { clear ps ats c. induction ps as [|[[p v] m] ps IH]; intros s Hs; [done|]. cbn [foldl]. apply IH. unfold conf_load_param.
      pose proof (set_param_msgs s.1 p (AParam (if nrm then nt_norm T (nid_kind p.1) p.2 v else v))) as [A1 A2].
      destruct (conf_set_param _ _ _ _ _ _) as [c1 ms1].
      pose proof (set_modamt_msgs c1 p m) as [B1 B2]. destruct (conf_set_modamt _ _ _ _) as [[c2 ms2] b]. cbn [fst snd] in *.
      destruct Hs as [C1 C2]. unfold Q. cbn [fst snd]. rewrite !sent_app, C1, A1, B1. split; [done|]. by rewrite !Forall_app. }
    assert (H2 : forall ats s, Q s -> Q (foldl (conf_load_atom T i2f load_sample) s ats)).
    { clear ps ats c H1. induction ats as [|[p a] ats IH]; intros s Hs; [done|]. cbn [foldl]. apply IH. unfold conf_load_atom. cbn [fst snd].
      pose proof (set_param_msgs s.1 p a) as [A1 A2]. destruct (conf_set_param _ _ _ _ _ _) as [c1 ms1]. cbn [fst snd] in *.
      destruct Hs as [C1 C2]. unfold Q. cbn [fst snd]. rewrite !sent_app, C1, A1. split; [done|]. by rewrite !Forall_app. }
    apply H2, H1. split; [done|constructor].
  Qed.

  Lemma matrix_step_own h m o h' m' ms l : mx_inv T m -> hok h l ->
    matrix_step T i2f load_sample h m o = Some (h', m', ms) -> hok h' (sent_bufs ms ++ l) /\ Forall msg_ready ms.
  Proof.
    intros Hm Hh. destruct o as [o| | |p a|p v|ps ats nrm|c]; cbn [matrix_step].
    - destruct (lop_pure o); [|by intros [= <- _ <-]].
      destruct (lay_step _ _ o) as [[l1 r]|]; cbn [mbind option_bind]; [|done]. by intros [= <- _ <-].
    - destruct (matrix_sync T h m) as [[[[h1 m1] ms1] r]|] eqn:E; cbn [mbind option_bind]; [|done].
      intros [= <- _ <-]. by eapply sync_own.
    - unfold matrix_clear. cbn [conf_delete_nodes]. unfold matrix_monitor. cbn [mx_lay mx_conf].
      match goal with |- context [matrix_sync T h ?mm] => set (m1 := mm) end.
      destruct (matrix_sync T h m1) as [[[[h2 m2] ms2] r]|] eqn:E; cbn [mbind option_bind]; [|done].
      intros [= <- _ <-].
      assert (Hm1 : mx_inv T m1) by (split; [apply cleared_ok, Hm|apply good_new]).
      destruct (sync_own _ _ _ _ _ _ _ Hm1 Hh E) as [H1 H2].
      match goal with |- context [MClear prog_empty :: ?a ++ ms2] => set (mm := a) end.
      destruct (sent_monitor mm) as [E1 F1]; [apply monitor_msgs|].
      change (MClear prog_empty :: mm ++ ms2) with ([MClear prog_empty] ++ mm ++ ms2). rewrite !sent_app, E1. cbn [app]. split; [exact H1|].
      constructor; [done|]. by apply Forall_app.
    - unfold matrix_set_param. pose proof (set_param_msgs (mx_conf m) p a) as [A1 A2].
      destruct (conf_set_param _ _ _ _ _ _) as [c1 ms1]. intros [= <- _ <-]. cbn [fst snd] in *. by rewrite A1.
    - unfold matrix_set_modamt. pose proof (set_modamt_msgs (mx_conf m) p v) as [A1 A2].
      pose proof (set_modamt_good T (mx_conf m) p v (proj2 Hm)) as Hg.
      destruct (conf_set_modamt _ _ _ _) as [[c1 ms1] b]. cbn [fst snd] in *. destruct b; cbn [mbind option_bind].
      + destruct (matrix_sync T h _) as [[[[h1 m1] ms2] r]|] eqn:E; cbn [mbind option_bind]; [|done].
        intros [= <- _ <-]. rewrite sent_app, A1. apply sync_own with (l := l) in E as [H1 H2]; [|split; [apply Hm|done]|done].
        split; [exact H1|]. by apply Forall_app.
      + intros [= <- _ <-]. by rewrite A1.
    - unfold matrix_load. pose proof (load_msgs (mx_conf m) ps ats nrm) as [A1 A2].
      destruct (conf_load _ _ _ _ _ _ _) as [c1 ms1]. intros [= <- _ <-]. cbn [fst snd] in *. by rewrite A1.
    - unfold matrix_monitor. intros [= <- _ <-]. destruct (sent_monitor (conf_monitor (mx_conf m) (c_node c) [c_in1 c; c_in2 c; c_in3 c] [c_out1 c; c_out2 c; c_out3 c])) as [E1 F1].
      + apply monitor_msgs.
      + by rewrite E1.
  Qed.
End front.

Section engine.
  Context (T : ntable) (HT : table_ok T) (i2f : Z -> f32) (load_sample : satom -> satom).
  Context (finc : f32 -> f32 -> nat -> f32) (fadd : f32 -> f32 -> f32) (mix : f32 -> f32 -> f32 -> f32).
  Context {St : Type}.
  Context (node_sem : node_id -> St -> nat -> N -> N -> list satom ->
                      list (list f32) -> list (list f32) -> list (list f32) -> St * list (list f32)).
  Context (Hfit : node_fits node_sem).

  Record own_inv (n : engine St) : Prop := {
    oi_mx : mx_inv T (en_mx n);
    oi_heap : hok (en_heap n) (sent_bufs (en_queue n) ++ owned (ex_prog (en_exec n)) ++ mjoin (owned <$> en_trash n));
    oi_queue : Forall msg_ready (en_queue n);
    oi_run : running (ex_prog (en_exec n));
  }.

  Lemma live_bufs (n : engine St) : mjoin (owned <$> live_progs n) =
    sent_bufs (en_queue n) ++ owned (ex_prog (en_exec n)) ++ mjoin (owned <$> en_trash n).
  Proof. unfold live_progs, sent_bufs. by rewrite fmap_app, join_app. Qed.

  Lemma own_new w hh slope st : own_inv (engine_new w hh slope st).
  Proof.
    constructor; cbn.
    - apply mx_inv_new.
    - split; [split; [|split]|]; cbn.
      + constructor.
      + intros b. rewrite lookup_empty. split; [by intros [? ?]|by intros ?%elem_of_nil].
      + intros b c. by rewrite lookup_empty.
      + by intros b ?%elem_of_nil.
    - constructor.
    - apply running_empty.
  Qed.

  Lemma queue_push_own ms h q l : hok h (sent_bufs q ++ sent_bufs ms ++ l) -> Forall msg_ready q -> Forall msg_ready ms ->
    exists h' q', queue_push h q ms = Some (h', q') /\ hok h' (sent_bufs q' ++ l) /\ Forall msg_ready q'.
  Proof.
    revert h q. induction ms as [|m ms IH]; intros h q Hh Hq Hms; cbn [queue_push].
    - exists h, q. split; [done|]. by split.
    - inversion Hms as [|? ? Hm Hms']; subst. change (m :: ms) with ([m] ++ ms) in Hh. rewrite sent_app in Hh.
      destruct (length q <? queue_size).
      + apply IH; [|by apply Forall_app; split; [|constructor]|done]. rewrite sent_app. eapply hok_perm; [|exact Hh]. solve_Permutation.
      + assert (Hd : exists h1, msg_drop h m = Some h1 /\ hok h1 (sent_bufs q ++ sent_bufs ms ++ l)).
        { destruct m as [p|p copy| | | |]; cbn [msg_drop]; try (by exists h).
          - apply prog_drop_hok. eapply hok_perm; [|exact Hh]. unfold sent_bufs at 2. cbn. rewrite app_nil_r. solve_Permutation.
          - apply prog_drop_hok. eapply hok_perm; [|exact Hh]. unfold sent_bufs at 2. cbn. rewrite app_nil_r. solve_Permutation. }
        destruct Hd as (h1 & -> & H1). cbn [mbind option_bind]. by apply IH.
  Qed.

  Lemma drain_own q h e l h' e' t : hok h (sent_bufs q ++ owned (ex_prog e) ++ l) -> Forall msg_ready q -> running (ex_prog e) ->
    exec_drain finc h e q = Some (h', e', t) ->
    running (ex_prog e') /\ hok h' (owned (ex_prog e') ++ mjoin (owned <$> t) ++ l).
  Proof.
    revert h e l t. induction q as [|m q IH]; intros h e l t Hh Hq Hr; cbn [exec_drain].
    - intros [= <- <- <-]. done.
    - inversion Hq as [|? ? Hm Hq']; subst. change (m :: q) with ([m] ++ q) in Hh. rewrite sent_app in Hh.
      destruct (exec_message finc h e m) as [[[h1 e1] t1]|] eqn:Em; cbn [mbind option_bind]; [|done].
      destruct (exec_drain finc h1 e1 q) as [[[h2 e2] t2]|] eqn:Ed; cbn [mbind option_bind]; [|done]. intros [= <- <- <-].
      destruct (message_own finc h e m (sent_bufs q ++ l)) as (hx & ex & tx & Ex & R1 & H1).
      + eapply hok_perm; [|exact Hh]. unfold sent_bufs at 1. cbn [fmap list_fmap mjoin list_join]. rewrite app_nil_r. solve_Permutation.
      + done.
      + intros p Hp. by eapply msg_ready_progs.
      + intros p ->. exact Hm.
      + intros i a ->. cbn [exec_message] in Em. destruct (Nat.ltb_spec i (length (np_atoms (ex_prog e)))); [done|discriminate].
      + rewrite Em in Ex. injection Ex as <- <- <-.
        destruct (IH h1 e1 (mjoin (owned <$> t1) ++ l) t2) as [R2 H2]; [|done..|].
        * eapply hok_perm; [|exact H1]. solve_Permutation.
        * split; [done|]. rewrite fmap_app, join_app. eapply hok_perm; [|exact H2]. solve_Permutation.
  Qed.

  Lemma sent_take k q : sent_bufs q = sent_bufs (take k q) ++ sent_bufs (drop k q).
  Proof. by rewrite <- sent_app, take_drop. Qed.

  Lemma own_step n o n' : own_inv n -> engine_step T i2f load_sample finc fadd mix node_sem n o = Some n' -> own_inv n'.
  Proof.
    intros [Hm Hh Hq Hr]. destruct o as [o|k|nf|]; cbn [engine_step].
    - destruct (matrix_step _ _ _ _ _ o) as [[[h1 m1] ms]|] eqn:E; cbn [mbind option_bind]; [|done].
      pose proof (matrix_step_inv T HT i2f load_sample _ _ _ _ _ _ Hm E) as Hm1.
      destruct (matrix_step_own T HT i2f load_sample _ _ _ _ _ _ _ Hm Hh E) as [H1 F1].
      unfold push. destruct (queue_push_own ms h1 (en_queue n) (owned (ex_prog (en_exec n)) ++ mjoin (owned <$> en_trash n))) as (h2 & q2 & -> & H2 & F2); [|done..|].
      + eapply hok_perm; [|exact H1]. solve_Permutation.
      + cbn [mbind option_bind]. intros [= <-]. by constructor.
    - destruct (exec_drain _ _ _ _) as [[[h1 e1] t]|] eqn:E; cbn [mbind option_bind]; [|done]. intros [= <-].
      destruct (drain_own (take k (en_queue n)) (en_heap n) (en_exec n) (sent_bufs (drop k (en_queue n)) ++ mjoin (owned <$> en_trash n)) h1 e1 t) as [R1 H1]; [|by apply Forall_take|done|done|].
      + eapply hok_perm; [|exact Hh]. rewrite (sent_take k (en_queue n)). solve_Permutation.
      + constructor; cbn; [done| |by apply Forall_drop|done]. rewrite fmap_app, join_app. eapply hok_perm; [|exact H1]. solve_Permutation.
    - destruct (exec_process _ _ _ _ _ _ _) as [[[[h1 e1] st1] fed]|] eqn:E; cbn [mbind option_bind]; [|done]. intros [= <-].
      destruct (process_own fadd mix node_sem Hfit _ _ _ _ _ _ _ _ _ Hh E) as [H1 S1].
      destruct (same_shape_owned _ _ S1) as [Ho _]. constructor; cbn; try done.
      + by rewrite Ho.
      + by eapply same_shape_running.
    - destruct (en_trash n) as [|p t] eqn:Et; [intros [= <-]; constructor; try done; by rewrite Et|].
      destruct (prog_drop (en_heap n) p) as [h1|] eqn:E; cbn [mbind option_bind]; [|done]. intros [= <-].
      destruct (prog_drop_hok p (en_heap n) (sent_bufs (en_queue n) ++ owned (ex_prog (en_exec n)) ++ mjoin (owned <$> t))) as (h2 & E2 & H2).
      + eapply hok_perm; [|exact Hh]. cbn [fmap list_fmap mjoin list_join]. solve_Permutation.
      + rewrite E in E2. injection E2 as <-. by constructor.
  Qed.

  Lemma own_run n os n' : own_inv n -> engine_run T i2f load_sample finc fadd mix node_sem n os = Some n' -> own_inv n'.
  Proof. intros Hn E. eapply (foldm_inv _ own_inv); [|exact Hn|exact E]. intros a o b _ Ha. by apply own_step. Qed.
End engine.
