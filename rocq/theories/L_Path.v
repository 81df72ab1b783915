(** The running program is the one of the published board (C51) *)
From Verif Require Import Base M_Atom M_Graph M_Dir M_Grid S_Grid M_Layout S_Layout M_Prog M_Conf M_Exec M_Sync M_Engine M_Path.
From Verif Require Import S_Conf S_Sync S_Prog S_Own S_Flow S_Path L_Graph L_Grid L_Layout L_Conf L_Conf2 L_Sync L_Prog L_Build L_Fill L_Wire L_Own L_Own2 L_Own3 L_Flow L_Flow2 L_Settle4.
Open Scope nat_scope.
Local Opaque block_size.

Section path.
  Context (T : ntable) (HT : table_ok T) (i2f : Z -> f32) (load_sample : satom -> satom).
  Context (finc : f32 -> f32 -> nat -> f32) (fadd : f32 -> f32 -> f32) (mix : f32 -> f32 -> f32 -> f32).
  Context {St : Type}.
  Context (node_sem : node_id -> St -> nat -> N -> N -> list satom ->
                      list (list f32) -> list (list f32) -> list (list f32) -> St * list (list f32)).
  Context (Hfit : node_fits node_sem).
  Local Notation serves := (serves T i2f load_sample finc fadd mix node_sem).

  Lemma serves_small g ma n : serves g ma n -> small_reachable T i2f load_sample finc fadd mix node_sem n.
  Proof. induction 1 as [w h slope st|g ma n o n' Hn IH _ E Hl]; [constructor|by econstructor]. Qed.

  (** what will run after a message, if what runs before satisfies [W] *)
  Definition after (g : grid) (ma : gmap (node_id * nat) (option f32)) (W : Prop) (m : gmsg) : Prop :=
    match m with
    | MNewProg p _ => exists c, prog_for T g c p /\ cf_modamt c = ma
    | MClear _ => wired T g ma prog_empty
    | _ => W
    end.
  Lemma after_mono g ma q : forall W W' : Prop, (W -> W') -> foldl (after g ma) W q -> foldl (after g ma) W' q.
  Proof. induction q as [|m q IH]; intros W W' H; [exact H|]. cbn [foldl]. apply IH. by destruct m. Qed.
  Lemma after_quiet g ma q W : Forall quiet q -> foldl (after g ma) W q = W.
  Proof. revert W. induction q as [|m q IH]; intros W H; [done|]. apply Forall_cons in H as [H1 H2]. cbn [foldl]. rewrite IH by done. by destruct m. Qed.

  Lemma monitor_quiet c n is os : Forall quiet (conf_monitor c n is os).
  Proof. apply Forall_forall. intros x Hx. unfold conf_monitor in Hx. destruct (conf_inst c n); [|by apply elem_of_nil in Hx]. apply elem_of_list_singleton in Hx. by subst. Qed.

  Lemma no_nodes_wired g ma : (forall n, ~ on_board g n) -> (forall q d e, ~ connects g q d e) -> wired T g ma prog_empty.
  Proof.
    intros Hb Hc. constructor; cbn; try by intros ? ? ?%elem_of_nil.
    all: try by intros ? ?%elem_of_nil.
    - split; [constructor|]. split.
      + intros n. split; [by intros ?%elem_of_nil|]. intros H. by apply Hb in H.
      + intros a b (q & d & e & H & _). by apply Hc in H.
    - by intros m mo Hm.
  Qed.
  Lemma nops_board (g : grid) : (forall c, c ∈ g_cells g -> c_node c = Nop) -> (forall n, ~ on_board g n) /\ (forall q d e, ~ connects g q d e).
  Proof.
    intros H. assert (Hb : forall q c, board g q = Some c -> c_node c = Nop).
    { intros q c Hq. unfold board, grid_get in Hq. destruct (decide _); [done|]. destruct (g_cells g !! _) as [c'|] eqn:E; cbn in Hq; [|done].
      injection Hq as ->. apply H. by eapply elem_of_list_lookup_2. }
    split.
    - intros n (H1 & q & c & Hq & Hn). apply Hb in Hq. congruence.
    - intros q d e (c & q' & c' & Hq & Hrest). pose proof (Hb _ _ Hq). naive_solver.
  Qed.

  Lemma message_after g ma h e m h1 e1 t1 : msg_ready m -> exec_message finc h e m = Some (h1, e1, t1) ->
    after g ma (wired T g ma (ex_prog e)) m -> wired T g ma (ex_prog e1).
  Proof.
    intros Hmr Em Hm. destruct m as [p|p copy|i a|i v|i a|bufs]; cbn [after] in Hm.
    - cbn in Hmr, Em. injection Em as _ <- _. cbn. by rewrite Hmr.
    - destruct Hm as (c & (c1 & order & Hl & Hb & Hgo & Hord) & <-). eapply install_wired; eauto.
    - cbn [exec_message] in Em. destruct (i <? _); [|done]. injection Em as _ <- _.
      eapply wired_shape; [|exact Hm]. unfold same_shape. cbn. rewrite insert_length. done.
    - cbn [exec_message] in Em. injection Em as _ <- _. by rewrite set_param_shape.
    - cbn [exec_message] in Em. injection Em as _ <- _. unfold exec_set_modamt. destruct (np_mods (ex_prog e) !! i) as [mo|] eqn:Emo; [|done].
      eapply wired_shape; [|exact Hm]. unfold same_shape. cbn. split_and!; try done.
      rewrite list_fmap_insert. rewrite list_insert_id; [done|]. rewrite list_lookup_fmap, Emo. done.
    - cbn [exec_message] in Em. by injection Em as _ <- _.
  Qed.
  Lemma drain_after g ma q2 q : forall h e h' e' t, Forall msg_ready q -> exec_drain finc h e q = Some (h', e', t) ->
    foldl (after g ma) (wired T g ma (ex_prog e)) (q ++ q2) -> foldl (after g ma) (wired T g ma (ex_prog e')) q2.
  Proof.
    induction q as [|m q IH]; intros h e h' e' t Hrd; cbn [exec_drain]; [by intros [= <- <- <-]|].
    apply Forall_cons in Hrd as [Hmr Hrd].
    destruct (exec_message finc h e m) as [[[h1 e1] t1]|] eqn:Em; cbn [mbind option_bind]; [|done].
    destruct (exec_drain finc h1 e1 q) as [[[h2 e2] t2]|] eqn:Ed; cbn [mbind option_bind]; [|done]. intros [= <- <- <-]. cbn [foldl app]. intros Hf.
    eapply IH; [done|exact Ed|]. eapply after_mono; [|exact Hf]. by eapply message_after.
  Qed.

  Lemma sync_after g ma W h m h' m' ms : mx_inv T m -> matrix_sync T h m = Some (h', m', ms, None) -> length (created (mx_conf m')) <= 256 ->
    g = lay_grid (mx_lay m') -> ma = cf_modamt (mx_conf m') -> foldl (after g ma) W ms.
  Proof.
    intros Hm E Hl -> ->. destruct (sync_cases T HT _ _ _ _ _ _ Hm E) as (_ & _ & _ & Hg & _).
    destruct (sync_for T HT _ _ _ _ _ _ Hm E Hl) as (p & mon & c1 & c2 & order & -> & Hmon & _ & _ & H1 & H2 & H3 & H4 & H5). cbn [foldl].
    rewrite after_quiet; [|apply Forall_forall; intros x Hx; by destruct (Hmon x Hx) as [bs ->]]. cbn [after]. rewrite Hg. exists c1. split; [by exists c2, order|].
    destruct H2 as (_ & _ & _ & Hma & _). by rewrite Hma, (ld_modamt _ _ _ H1).
  Qed.
  Lemma sync_error_after g ma W h m h' m' ms r : mx_inv T m -> matrix_sync T h m = Some (h', m', ms, Some r) -> foldl (after g ma) W ms = W.
  Proof. intros Hm E. destruct (sync_cases T HT _ _ _ _ _ _ Hm E) as (_ & _ & _ & _ & _ & _ & _ & _ & _ & -> & _). done. Qed.

  Lemma serves_inv g ma n : serves g ma n -> foldl (after g ma) (wired T g ma (ex_prog (en_exec n))) (en_queue n).
  Proof.
    induction 1 as [w h slope st|g ma n o n' Hn IH Hfull E Hl].
    - cbn. apply no_nodes_wired; apply nops_board; cbn; intros c Hc; by apply elem_of_replicate in Hc as [-> _].
    - pose proof (serves_small _ _ _ Hn) as Hsm. pose proof (small_flow T HT i2f load_sample finc fadd mix node_sem Hfit n Hsm) as [Ho _ _].
      destruct o as [o|k|nf|]; cbn [publishes engine_step] in E |- *.
      + destruct (matrix_step _ _ _ _ _ o) as [[[h1 m1] ms]|] eqn:Em; cbn [mbind option_bind] in E; [|done].
        specialize (Hfull _ _ _ _ eq_refl Em). unfold push in E. rewrite queue_push_fits in E by exact Hfull. cbn [mbind option_bind] in E. injection E as <-.
        cbn [en_exec en_mx en_queue en_heap] in *. rewrite foldl_app. destruct Ho as [Hm _ _ _].
        destruct o as [o| | |p a|p v|ps ats nrm|c]; cbn [matrix_step] in Em.
        * destruct (lop_pure o); [|by injection Em as _ _ <-].
          destruct (lay_step _ _ o) as [[l1 r]|]; cbn [mbind option_bind] in Em; [|done]. by injection Em as _ _ <-.
        * destruct (matrix_sync T (en_heap n) (en_mx n)) as [[[[h2 m2] ms2] r]|] eqn:Es; cbn [mbind option_bind] in Em; [|done]. injection Em as -> -> ->.
          destruct r as [r|]; [by erewrite sync_error_after|by eapply sync_after].
        * unfold matrix_clear in Em. cbn [conf_delete_nodes] in Em. unfold matrix_monitor in Em. cbn [mx_lay mx_conf] in Em.
          match type of Em with context [matrix_sync T (en_heap n) ?mm] => set (m2 := mm) in * end.
          destruct (matrix_sync T (en_heap n) m2) as [[[[h3 m3] ms3] r]|] eqn:Es; cbn [mbind option_bind] in Em; [|done]. injection Em as -> -> <-.
          assert (Hm2 : mx_inv T m2) by (split; [apply cleared_ok, Hm|apply good_new]). cbn [app foldl]. rewrite !foldl_app.
          destruct r as [r|]; [|by eapply sync_after]. destruct (sync_cases T HT _ _ _ _ _ _ Hm2 Es) as (_ & _ & _ & Hg & _ & _ & _ & _ & _ & -> & _).
          rewrite after_quiet by (constructor || apply monitor_quiet). rewrite after_quiet by apply monitor_quiet. cbn [foldl after app].
          apply no_nodes_wired; apply nops_board; rewrite Hg; cbn; intros c Hc; by apply elem_of_list_fmap in Hc as (x & -> & _).
        * unfold matrix_set_param in Em. pose proof (set_param_quiet T i2f load_sample (mx_conf (en_mx n)) p a) as A2.
          destruct (conf_set_param _ _ _ _ _ _) as [c1 ms1]. injection Em as _ _ <-. by rewrite after_quiet.
        * pose proof (set_modamt_quiet T (mx_conf (en_mx n)) p v) as A2. pose proof (set_modamt_good T (mx_conf (en_mx n)) p v (proj2 Hm)) as Hg.
          destruct (matrix_set_modamt T (en_heap n) (en_mx n) p v) as [[[[h2 m2] ms2] r]|] eqn:Es; cbn [mbind option_bind] in Em; [|done]. injection Em as -> -> ->.
          unfold matrix_set_modamt in Es. destruct (conf_set_modamt T (mx_conf (en_mx n)) p v) as [[c1 ms1] b] eqn:Ec. cbn [fst snd] in *.
          assert (Hb : b = match conf_get_modamt (mx_conf (en_mx n)) p, v with Some _, Some _ => false | _, _ => negb (is_atom T p) end).
          { unfold conf_set_modamt in Ec. destruct (is_atom T p); [injection Ec as _ _ <-; by destruct (conf_get_modamt _ _), v|].
            destruct (conf_get_modamt _ _), v; by injection Ec as _ _ <-. }
          assert (Hpub : match conf_get_modamt (mx_conf (en_mx n)) p, v with
                         | Some _, Some _ => false
                         | _, _ => negb (is_atom T p) && match r with None => true | _ => false end
                         end = b && match r with None => true | _ => false end).
          { rewrite Hb. by destruct (conf_get_modamt _ _), v. }
          destruct b.
          -- destruct (matrix_sync T (en_heap n) _) as [[[[h3 m3] ms3] r3]|] eqn:Ey; cbn [mbind option_bind] in Es; [|done]. injection Es as -> -> <- ->.
             assert (Hm1 : mx_inv T (Matrix (mx_lay (en_mx n)) c1 (mx_mon (en_mx n)))) by (split; [apply Hm|done]).
             destruct r as [r|]; rewrite Hpub; cbn [andb]; rewrite foldl_app.
             ++ erewrite sync_error_after by done. by rewrite after_quiet.
             ++ by eapply sync_after.
          -- injection Es as _ _ <- <-. rewrite Hpub. cbn [andb]. by rewrite after_quiet.
        * unfold matrix_load in Em. pose proof (load_quiet T i2f load_sample (mx_conf (en_mx n)) ps ats nrm) as A2.
          destruct (conf_load _ _ _ _ _ _ _) as [c1 ms1]. injection Em as _ _ <-. by rewrite after_quiet.
        * unfold matrix_monitor in Em. injection Em as _ _ <-.
          rewrite after_quiet; [done|apply monitor_quiet].
      + destruct (exec_drain _ _ _ _) as [[[h1 e1] t]|] eqn:Ed; cbn [mbind option_bind] in E; [|done]. injection E as <-. cbn [en_exec en_queue].
        eapply drain_after; [|exact Ed|by rewrite take_drop]. apply Forall_take, Ho.
      + destruct (exec_process _ _ _ _ _ _ _) as [[[[h1 e1] st1] fed]|] eqn:Ed; cbn [mbind option_bind] in E; [|done]. injection E as <-. cbn [en_exec en_queue].
        eapply after_mono; [|exact IH]. intros Hw. eapply wired_shape; [|exact Hw]. eapply process_own; [exact Hfit|apply Ho|exact Ed].
      + destruct (en_trash n); [by injection E as <-|]. destruct (prog_drop _ _); cbn [mbind option_bind] in E; [|done]. by injection E as <-.
  Qed.
End path.
