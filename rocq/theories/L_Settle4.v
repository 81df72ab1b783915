(** Proofs about the whole engine under the limits of C18 *)
From Verif Require Import Base M_Atom M_Graph M_Dir M_Grid S_Grid M_Layout S_Layout M_Prog M_Conf M_Exec M_Sync M_Engine.
From Verif Require Import S_Conf S_Sync S_Prog S_Own L_Graph L_Grid L_Layout L_Conf L_Conf2 L_Conf3 L_Sync L_Prog L_Build L_Fill L_Wire L_Own L_Own2 L_Own3 L_Flow S_Settle L_Settle L_Settle2 L_Settle3.
Open Scope nat_scope.
Local Opaque block_size.

Lemma bufs_free_frame ps : forall h h' b, b ∉ ps -> bufs_free h ps = Some h' -> h_bufs h' !! b = h_bufs h !! b.
Proof.
  induction ps as [|p ps IH]; intros h h' b Hb; cbn [bufs_free]; [by intros [= <-]|].
  unfold buf_free. destruct (h_bufs h !! p); cbn [mbind option_bind]; [|done]. intros E.
  apply not_elem_of_cons in Hb as [Hne Hb]. rewrite (IH _ _ _ Hb E). cbn. by apply lookup_delete_ne.
Qed.

Lemma prog_drop_frame h p h' b : b ∉ owned p -> prog_drop h p = Some h' -> h_bufs h' !! b = h_bufs h !! b.
Proof.
  unfold owned. rewrite !elem_of_app. intros Hb. unfold prog_drop.
  destruct (bufs_free h (np_inp p)) as [h1|] eqn:E1; cbn [mbind option_bind]; [|done].
  destruct (bufs_free h1 (np_out p)) as [h2|] eqn:E2; cbn [mbind option_bind]; [|done]. intros E3.
  etransitivity; [eapply bufs_free_frame; [|exact E3]; tauto|]. etransitivity; [eapply bufs_free_frame; [|exact E2]; tauto|].
  eapply bufs_free_frame; [|exact E1]; tauto.
Qed.

Lemma inp_owned p b : b ∈ np_inp p -> b ∈ owned p.
Proof. unfold owned. rewrite !elem_of_app. tauto. Qed.

Local Opaque queue_size.
Lemma queue_push_fits ms : forall h q, length q + length ms <= queue_size -> queue_push h q ms = Some (h, q ++ ms).
Proof.
  induction ms as [|m ms IH]; intros h q Hl; cbn [queue_push]; [by rewrite app_nil_r|]. cbn [length] in Hl.
  rewrite (proj2 (Nat.ltb_lt _ _)) by lia. rewrite IH by (rewrite app_length; cbn; lia). by rewrite <- app_assoc.
Qed.

(** smoothers keep their length and never count above it *)
Definition sm_bounded (slope : nat) (s : nat * smoother f32) : Prop := sm_slope s.2 = slope /\ sm_count s.2 <= slope.

Section engine.
  Context (T : ntable) (HT : table_ok T) (i2f : Z -> f32) (load_sample : satom -> satom).
  Context (finc : f32 -> f32 -> nat -> f32) (fadd : f32 -> f32 -> f32) (mix : f32 -> f32 -> f32 -> f32).
  Context {St : Type}.
  Context (node_sem : node_id -> St -> nat -> N -> N -> list satom ->
                      list (list f32) -> list (list f32) -> list (list f32) -> St * list (list f32)).
  Context (Hnode : node_fits node_sem).

  Lemma message_bounded slope h e m h' e' t : Forall (sm_bounded slope) (ex_sm e) ->
    exec_message finc h e m = Some (h', e', t) -> Forall (sm_bounded slope) (ex_sm e').
  Proof.
    intros Hb. assert (Ha : forall j i cur v, Forall (sm_bounded slope) (alter (fun s : nat * smoother f32 => (i s, sm_set finc s.2 cur v)) j (ex_sm e))).
    { intros. apply Forall_lookup. intros k s. rewrite Forall_lookup in Hb. destruct (decide (k = j)) as [->|Hne].
      - rewrite list_lookup_alter. destruct (ex_sm e !! j) as [s0|] eqn:E; [|done]. intros [= <-]. destruct (Hb _ _ E) as [H1 H2].
        split; cbn; lia.
      - rewrite list_lookup_alter_ne by done. apply Hb. }
    destruct m as [p|p copy|i a|i v|i a|bufs]; cbn [exec_message].
    - by intros [= <- <- <-].
    - destruct (prog_init_inputs h p); cbn [mbind option_bind]; [|done]. destruct (if copy then _ else _) as [p1 p2].
      destruct (prog_assign p1); cbn [mbind option_bind]; [|done]. by intros [= <- <- <-].
    - destruct (_ <? _); [|done]. by intros [= <- <- <-].
    - intros E. apply (inj Some) in E. injection E as <- <- <-. unfold exec_set_param. destruct (np_params _ !! i); [|done].
      destruct (find_idx _ _); [|destruct (find_idx _ _); [|done]]; unfold with_sm; cbn [ex_sm].
      + apply (Ha _ (fun s => s.1)).
      + apply (Ha _ (fun _ => i)).
    - intros E. apply (inj Some) in E. injection E as <- <- <-. unfold exec_set_modamt. by destruct (np_mods _ !! i).
    - by intros [= <- <- <-].
  Qed.

  (** the invariant of calm histories *)
  Record set_inv (slope : nat) (n : engine St) : Prop := {
    st_own : own_inv T n;
    st_sinv : sinv (en_heap n) (en_exec n);
    st_coh : coherent (ev (en_exec n)) (en_queue n);
    st_fr : fr T (mx_conf (en_mx n)) (foldl applied (ev (en_exec n)) (en_queue n));
    st_sm : Forall (sm_bounded slope) (ex_sm (en_exec n));
  }.

  Lemma set_new slope w h st : set_inv slope (engine_new w h slope st).
  Proof.
    constructor.
    - apply own_new.
    - constructor; cbn -[replicate max_smoothers].
      + intros j j' i s s' [[= _ ->] _]%lookup_replicate _. done.
      + intros i v Ht. destruct (target_some _ _ _ Ht) as (j & s & Hj & Hd & _). apply lookup_replicate in Hj as [[= -> ->] _]. done.
      + by intros i v ?%elem_of_nil.
      + done.
    - done.
    - cbn. unfold ev, ev_params. cbn. apply fr_new.
    - cbn -[replicate max_smoothers]. apply Forall_lookup. intros i s [-> _]%lookup_replicate. split; cbn; lia.
  Qed.

  Lemma drain_set slope q h e l q' : hok h (sent_bufs q ++ owned (ex_prog e) ++ l) -> Forall msg_ready q -> running (ex_prog e) ->
    sinv h e -> coherent (ev e) (q ++ q') -> Forall (sm_bounded slope) (ex_sm e) -> calm_drain finc h e q ->
    exists h' e' t, exec_drain finc h e q = Some (h', e', t) /\
      sinv h' e' /\ ev e' = foldl applied (ev e) q /\ Forall (sm_bounded slope) (ex_sm e').
  Proof.
    revert h e l. induction q as [|m q IH]; intros h e l Hh Hq Hr Hs Hco Hb Hca; cbn [exec_drain].
    - exists h, e, []. done.
    - inversion Hq as [|? ? Hm Hq']; subst. change (m :: q) with ([m] ++ q) in Hh. rewrite sent_app in Hh.
      destruct Hco as [Hfit Hco]. destruct Hca as [Hcm Hca].
      assert (Hh1 : hok h (mjoin (owned <$> msg_progs m) ++ owned (ex_prog e) ++ (sent_bufs q ++ l))).
      { eapply hok_perm; [|exact Hh]. unfold sent_bufs at 1. cbn [fmap list_fmap mjoin list_join]. rewrite app_nil_r. solve_Permutation. }
      destruct (message_own finc h e m (sent_bufs q ++ l)) as (h1 & e1 & t1 & E1 & R1 & H1); [done|done| | | |].
      + intros p Hp. by eapply msg_ready_progs.
      + intros p ->. exact Hm.
      + intros i a ->. exact Hfit.
      + destruct (message_sinv finc h e m h1 e1 t1 _ Hs Hh1 Hm Hr Hcm Hfit E1) as [Hs1 Hev1].
        rewrite E1. cbn [mbind option_bind].
        destruct (IH h1 e1 (mjoin (owned <$> t1) ++ l)) as (h2 & e2 & t2 & E2 & Hs2 & Hev2 & Hb2).
        * eapply hok_perm; [|exact H1]. solve_Permutation.
        * done.
        * done.
        * done.
        * by rewrite Hev1.
        * by eapply message_bounded.
        * by eapply Hca.
        * rewrite E2. cbn [mbind option_bind]. eexists _, _, _. split; [done|]. split; [done|]. split; [|done].
          rewrite Hev2, Hev1. done.
  Qed.

  Lemma set_step slope n o n' : set_inv slope n -> calm_step T i2f load_sample finc n o ->
    engine_step T i2f load_sample finc fadd mix node_sem n o = Some n' -> set_inv slope n'.
  Proof.
    intros [Ho Hs Hco Hf Hb] Hca E. pose proof (own_step T HT i2f load_sample finc fadd mix node_sem Hnode _ _ _ Ho E) as Ho'.
    destruct Ho as [Hm Hh Hq Hr]. destruct o as [o|k|nf|]; cbn [engine_step] in E.
    - destruct (matrix_step _ _ _ _ _ o) as [[[h1 m1] ms]|] eqn:E1; cbn [mbind option_bind] in E; [|done].
      cbn [calm_step] in Hca. specialize (Hca _ _ _ E1). unfold push in E.
      rewrite queue_push_fits in E by exact Hca. cbn [mbind option_bind] in E. injection E as <-.
      destruct (fr_step T HT i2f load_sample _ _ _ _ _ _ _ Hm Hf E1) as [[C1 C2] Hk]. constructor; cbn; try done.
      + eapply sinv_heap; [exact Hs|]. intros b Hb'. apply Hk. apply (proj2 Hh). rewrite !elem_of_app. right. left. by apply inp_owned.
      + apply coherent_app. done.
      + by rewrite foldl_app.
    - cbn [calm_step] in Hca.
      destruct (drain_set slope (take k (en_queue n)) (en_heap n) (en_exec n) (sent_bufs (drop k (en_queue n)) ++ mjoin (owned <$> en_trash n)) (drop k (en_queue n)))
        as (h1 & e1 & t & E1 & Hs1 & Hev & Hb1); try done.
      + eapply hok_perm; [|exact Hh]. rewrite (sent_take k (en_queue n)). solve_Permutation.
      + by apply Forall_take.
      + by rewrite take_drop.
      + rewrite E1 in E. cbn [mbind option_bind] in E. injection E as <-. constructor; cbn; try done.
        * rewrite Hev. rewrite <- (take_drop k (en_queue n)) in Hco. by apply coherent_app in Hco as [_ Hco].
        * by rewrite Hev, <- foldl_app, take_drop.
    - destruct (exec_process _ _ _ _ _ _ _) as [[[[h1 e1] st1] fed]|] eqn:E1; cbn [mbind option_bind] in E; [|done]. injection E as <-.
      destruct (process_sinv fadd mix node_sem _ _ _ _ (sent_bufs (en_queue n) ++ mjoin (owned <$> en_trash n)) _ _ _ _ Hs ltac:(eapply hok_perm; [|exact Hh]; solve_Permutation) Hr E1) as (Hs1 & Hev & Hag & _).
      constructor; cbn; try done.
      + by rewrite Hev.
      + by rewrite Hev.
      + apply Forall_lookup. intros i y Hy. destruct (Forall2_lookup_r _ _ _ _ _ Hag Hy) as (x & Hx & A1 & A2 & A3 & A4 & A5).
        rewrite Forall_lookup in Hb. destruct (Hb _ _ Hx) as [B1 B2]. split; [congruence|].
        destruct (sm_done x.2) eqn:Ed; [rewrite A4 by done; done|]. destruct A5 as [-> _]; [done|]. lia.
    - destruct (en_trash n) as [|p t] eqn:Et; [by injection E as <-|].
      destruct (prog_drop (en_heap n) p) as [h1|] eqn:E1; cbn [mbind option_bind] in E; [|done]. injection E as <-.
      constructor; cbn; try done. eapply sinv_heap; [exact Hs|]. intros b Hb'. eapply prog_drop_frame; [|exact E1].
      intros Hbp. assert (HN : NoDup (sent_bufs (en_queue n) ++ owned (ex_prog (en_exec n)) ++ owned p ++ mjoin (owned <$> t))) by apply Hh.
      apply NoDup_app in HN as (_ & _ & HN). apply NoDup_app in HN as (_ & HN & _).
      apply (HN b); [by apply inp_owned|]. rewrite elem_of_app. by left.
  Qed.

  Lemma set_reach slope n : calm_reachable T i2f load_sample finc fadd mix node_sem slope n -> set_inv slope n.
  Proof. induction 1 as [|n o n' _ IH Hc E]; [apply set_new|]. by eapply set_step. Qed.
End engine.
