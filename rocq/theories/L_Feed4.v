(** Reported values: every step keeps the invariant *)
From Verif Require Import Base M_Atom M_Graph M_Dir M_Grid S_Grid M_Layout S_Layout M_Prog M_Conf M_Exec M_Sync M_Engine M_Feed S_Feed.
From Verif Require Import S_Conf S_Sync S_Prog S_Own L_Conf L_Prog L_Sync L_Fill L_Wire L_Own L_Own2 L_Own3 L_Flow L_Settle3 L_Feed L_Feed2 L_Feed3.
Open Scope nat_scope.
Local Opaque block_size ctx_size.

(** ** LED and phase values of a list of blocks *)
Definition led_of (n : node_id) (b : blk) : list f32 := b_ran b ≫= fun r => if decide (r.1.1 = n) then option_list r.2.1 else [].
Definition phase_of (n : node_id) (b : blk) : list f32 := b_ran b ≫= fun r => if decide (r.1.1 = n) then option_list r.2.2 else [].
Lemma leds_snoc n bs b : leds n (bs ++ [b]) = leds n bs ++ led_of n b.
Proof. unfold leds. rewrite bind_app. cbn. by rewrite app_nil_r. Qed.
Lemma phases_snoc n bs b : phases n (bs ++ [b]) = phases n bs ++ phase_of n b.
Proof. unfold phases. rewrite bind_app. cbn. by rewrite app_nil_r. Qed.

Lemma fmap_fst_zip {A B C} (f : A -> C) (l : list A) (k : list B) : length l <= length k -> (f <$> l) = (fun x : A * B => f x.1) <$> zip l k.
Proof. intros H. rewrite <- (fst_zip l k) at 1 by done. by rewrite <- list_fmap_compose. Qed.

Section one.
  Context (f : ran -> option f32).
  Lemma of_none n (rs : list ran) : n ∉ (fun r : ran => r.1.1) <$> rs -> (rs ≫= fun r => if decide (r.1.1 = n) then option_list (f r) else []) = [].
  Proof.
    induction rs as [|r rs IH]; [done|]. cbn. rewrite not_elem_of_cons. intros [H1 H2]. rewrite decide_False by done. by apply IH.
  Qed.
  Lemma of_one (rs : list ran) r : NoDup ((fun r : ran => r.1.1) <$> rs) -> r ∈ rs ->
    (rs ≫= fun x => if decide (x.1.1 = r.1.1) then option_list (f x) else []) = option_list (f r).
  Proof.
    induction rs as [|x rs IH]; intros Hnd Hr; [by apply elem_of_nil in Hr|]. cbn in Hnd. apply NoDup_cons in Hnd as [Hx Hnd].
    cbn. apply elem_of_cons in Hr as [->|Hr].
    - rewrite decide_True by done. rewrite of_none by done. apply app_nil_r.
    - rewrite decide_False; [by apply IH|]. intros E. apply Hx. rewrite E. by apply (elem_of_list_fmap_1 (fun r : ran => r.1.1)).
  Qed.
End one.

Lemma last_app_some {A} (l l' : list A) v : last (l ++ l') = Some v -> (l' = [] /\ last l = Some v) \/ last l' = Some v.
Proof.
  destruct l' as [|x l' _] using rev_ind; [rewrite app_nil_r; by left|]. rewrite app_assoc, !last_snoc. by right.
Qed.

Section step.
  Context (T : ntable) (HT : table_ok T) (i2f : Z -> f32) (load_sample : satom -> satom).
  Context (finc : f32 -> f32 -> nat -> f32) (fadd : f32 -> f32 -> f32) (mix : f32 -> f32 -> f32 -> f32).
  Context {St : Type}.
  Context (node_sem : node_id -> St -> nat -> N -> N -> list satom ->
                      list (list f32) -> list (list f32) -> list (list f32) ->
                      St * list (list f32) * (option f32 * option f32)).
  Context (Hk : keeps_outs node_sem).
  Local Notation outs_of := (n_outs T).
  Local Notation vinv := (vinv T).
  Local Notation is_rep := (is_rep T).
  Local Notation blk_ok := (blk_ok T).
  Local Notation finv := (finv T).
  Local Notation total ids := (psum outs_of ids (length ids)).
  Local Notation fstep := (feed_step T i2f load_sample finc fadd mix node_sem).
  Implicit Types s : feed St.

  (** *** Calls *)
  Definition info_sent (info : infos) (next top : nat) (i : list node_id * pview) : infos :=
    fun k => if k <? next then info k else if k =? top then i else ([], pv prog_empty).

  Lemma sent_ok_app info a : forall next b, sent_ok T info next a -> sent_ok T info (next + nprogs a) b -> sent_ok T info next (a ++ b).
  Proof.
    induction a as [|m a IH]; intros next b Ha Hb; cbn [sent_ok app] in *; [by rewrite Nat.add_0_r in Hb|].
    rewrite nprogs_cons in Hb. destruct (msg_progs m) as [|p ps] eqn:Em; [by apply IH|].
    assert (ps = []) as -> by (destruct m; cbn in Em; congruence). destruct Ha as (A1 & A2 & A3). split; [done|]. split; [done|].
    apply IH; [done|]. cbn [length] in Hb. by replace (S next + nprogs a) with (next + (1 + nprogs a)) by lia.
  Qed.
  Lemma sent_ok_pre info next top i pre : Forall (fun m => plain m \/ m = MClear prog_empty) pre ->
    forall a, next <= a -> a + nprogs pre <= top -> sent_ok T (info_sent info next top i) a pre.
  Proof.
    induction 1 as [|m pre Hm _ IH]; intros a Ha Ht; [done|]. rewrite nprogs_cons in Ht. cbn [sent_ok].
    destruct Hm as [Hm| ->].
    - unfold plain in Hm. rewrite Hm in *. by apply IH.
    - cbn [msg_progs] in *. cbn [length] in Ht. 
      assert (info_sent info next top i a = ([], pv prog_empty)) as ->.
      { unfold info_sent. destruct (Nat.ltb_spec a next); [lia|]. by destruct (Nat.eqb_spec a top); [lia|]. }
      split; [done|]. split; [done|].
      apply IH; lia.
  Qed.

  Lemma sent_keeps ms : forall next ids tb held x ids', (foldl feed_sent (next, ids, tb, held) ms).1.1.2 = ids' -> x ∈ ids -> x ∈ ids'.
  Proof.
    induction ms as [|m ms IH]; intros next ids tb held x ids'; cbn [foldl]; [by intros <-|]. rewrite feed_sent_eq.
    destruct (msg_progs m); intros E Hx; (eapply IH; [exact E|]); (destruct (length ids <? queue_size); [apply elem_of_app; by left|done]).
  Qed.

  Lemma step_mx info s o s' : finv info s -> fstep s (FMx o) = Some s' ->
    exists info', finv info' s' /\
      forall h1 m1 p copy post, matrix_step T i2f load_sample (en_heap (fd_en s)) (en_mx (fd_en s)) o = Some (h1, m1, MNewProg p copy :: post) ->
        fd_held s' = Some (fd_next s) /\ (info' (fd_next s)).2 = pv p /\
        (length (en_queue (fd_en s)) < queue_size -> Some (fd_next s) ∈ fd_ids s').
  Proof.
    intros I. pose proof (fi_cur _ _ _ I) as I4. pose proof I as [I1 I2 I3 I10 I13 I5 I6 I7 I8 I9 I11 I12]. cbn [feed_step].
    destruct (matrix_step T i2f load_sample (en_heap (fd_en s)) (en_mx (fd_en s)) o) as [[[h1 m1] ms]|] eqn:E; cbn [mbind option_bind]; [|done].
    cbn [engine_step]. rewrite E. cbn [mbind option_bind]. unfold push.
    destruct (queue_push h1 (en_queue (fd_en s)) ms) as [[h2 q2]|] eqn:Eq; cbn [mbind option_bind]; [|done].
    pose proof (sent_grows _ ms _ _ (fd_tb s) (fd_held s) I10) as Hg.
    pose proof (step_res T HT i2f load_sample _ _ _ _ _ _ I1 E) as Hres. pose proof (matrix_step_inv T HT i2f load_sample _ _ _ _ _ _ I1 E) as Hm1.
    destruct Hres as [Hkept Hp|pre p copy post -> Hpre Hpost Hv Hfb Hat Hins].
    - destruct (sent_fold T info ms _ _ (fd_tb s) (fd_held s) _ _ _ _ Eq I3 (sent_ok_plain T info _ _ Hp)) as (ids' & tb' & held' & Efold & A1 & _ & _ & A4).
      rewrite Efold in Hg |- *. rewrite (nprogs_plain ms Hp), Nat.add_0_r in *. destruct (A4 Hp) as (-> & ->). intros [= <-]. exists info. split.
      2: { intros h0 m0 p copy post [= _ _ ->]. inversion Hp as [|? ? Hx _]. done. }
      constructor; cbn [fd_en fd_next fd_ids fd_cur fd_tb fd_held fd_vals fd_ctx fd_pend fd_log en_mx en_queue en_exec]; try done.
      + unfold feed_conf in *. cbn [fd_en en_mx]. destruct (fd_held s) as [k|].
        * destruct I9 as (B1 & B2 & B3 & B4). split; [done|]. destruct Hkept as [K1 K2]. split; [by etransitivity|].
          split; [intros n ni Hn; rewrite K2 in Hn; by apply B3|]. intros n Hn. rewrite K2. by apply B4.
        * intros n. rewrite (proj2 Hkept). apply I9.
    - set (top := fd_next s + nprogs pre).
      set (info' := info_sent info (fd_next s) top (created (mx_conf m1), pv p)).
      assert (Hold : forall k, k < fd_next s -> info' k = info k).
      { intros k Hk'. unfold info', info_sent. by destruct (Nat.ltb_spec k (fd_next s)); [|lia]. }
      assert (Htop : info' top = (created (mx_conf m1), pv p)).
      { unfold info', info_sent. destruct (Nat.ltb_spec top (fd_next s)); [lia|]. by rewrite Nat.eqb_refl. }
      assert (I3' : Forall2 (qrel info' (fd_next s)) (en_queue (fd_en s)) (fd_ids s)).
      { eapply Forall2_impl; [exact I3|]. intros m x. unfold qrel. destruct (msg_progs m); [done|].
        intros (k & -> & B1 & B2). exists k. split; [done|]. split; [done|]. by rewrite Hold. }
      apply push_app in Eq as (h3 & q3 & Eq1 & Eq2). apply push_cons in Eq2 as Eq3. destruct Eq3 as [h4 Eq3].
      rewrite foldl_app in Hg |- *.
      destruct (sent_fold T info' pre _ _ (fd_tb s) (fd_held s) _ _ _ _ Eq1 I3') as (ids1 & tb1 & held1 & Efold & A1 & A2 & A3 & _).
      { apply sent_ok_pre; [done|lia|lia]. }
      rewrite Efold in Hg |- *. fold top in A1, A3, Hg |- *. cbn [foldl] in Hg |- *.
      destruct (feed_sent (top, ids1, tb1, held1) (MNewProg p copy)) as [[[n2 ids2] tb2] held2] eqn:Es2.
      cbn [feed_sent] in Es2. injection Es2 as <- <- <- <-.
      pose proof (Forall2_length _ _ _ A1) as Hlen. rewrite <- Hlen in Hg |- *.
      destruct (sent_fold T info' post (S top) (if length q3 <? queue_size then ids1 ++ [Some top] else ids1)
        (<[top:=tb_create (np_fb p)]> tb1) (Some top) _ _ _ _ Eq3) as (ids' & tb' & held' & Efold2 & C1 & _ & _ & C4).
      { assert (A1' : Forall2 (qrel info' (S top)) q3 ids1) by (eapply Forall2_impl; [exact A1|]; intros; eapply qrel_le; [|done]; lia).
        destruct (length q3 <? queue_size); [|done]. apply Forall2_app; [done|]. constructor; [|done].
        unfold qrel. cbn. exists top. split; [done|]. split; [lia|]. by rewrite Htop. }
      { by apply sent_ok_plain. }
      rewrite Efold2 in Hg |- *. rewrite (nprogs_plain post Hpost), Nat.add_0_r in *. destruct (C4 Hpost) as (-> & ->). intros [= <-]. exists info'. split.
      2: { intros h0 m0 p0 copy0 post0 [= _ _ Hms]. destruct pre as [|m pre].
           - cbn in Hms. injection Hms as -> _ _. cbn [fd_held fd_ids].
             replace (fd_next s) with top by (unfold top, nprogs; cbn; lia). split; [done|]. rewrite Htop. split; [done|].
             intros Hroom. cbn in Eq1. injection Eq1 as <- <-.
             destruct (Nat.ltb_spec (length (en_queue (fd_en s))) queue_size); [|lia].
             eapply (sent_keeps post (S top) (ids1 ++ [Some top])); [rewrite Efold2; cbn; reflexivity|].
             apply elem_of_app. right. by apply elem_of_list_singleton.
           - cbn in Hms. injection Hms as -> _. inversion Hpre as [|? ? [Hx|Hx] _]; done. }
      assert (Hno : forall b, b ∈ all_blks s -> b_prog b <> top). { intros b Hb. destruct (I6 b Hb). lia. }
      constructor; cbn [fd_en fd_next fd_ids fd_cur fd_tb fd_held fd_vals fd_ctx fd_pend fd_log en_mx en_queue en_exec]; try done.
      + intros k. unfold info', info_sent. destruct (k <? fd_next s); [apply I2|]. destruct (k =? top); [done|apply vinv_empty].
      + by rewrite Hold.
      + intros b Hb. destruct (I6 b Hb) as [B1 B2]. rewrite Hold by done. split; [lia|done].
      + intros k Hk'. destruct (decide (k = top)) as [->|Hne].
        * exists (tb_create (np_fb p)). split; [by rewrite lookup_insert|]. rewrite Htop.
          assert (last (filter (fun b : blk => b_prog b = top) (fd_log s)) = None) as ->.
          { destruct (last _) as [b|] eqn:El; [|done]. exfalso. apply last_Some_elem_of, elem_of_list_filter in El as [Hb1 Hb2].
            eapply (Hno b); [|done]. apply elem_of_app. by left. }
          rewrite Hfb. apply (create_ok T (created (mx_conf m1), pv p)).
        * rewrite lookup_insert_ne by done. destruct (decide (k < fd_next s)) as [Hlt|Hge].
          -- rewrite A2 by done. rewrite Hold by done. by apply I7.
          -- rewrite A3 by lia. eexists. split; [done|].
             assert (last (filter (fun b : blk => b_prog b = k) (fd_log s)) = None) as ->.
             { destruct (last _) as [b|] eqn:El; [|done]. exfalso. apply last_Some_elem_of, elem_of_list_filter in El as [Hb1 Hb2].
               destruct (I6 b); [apply elem_of_app; by left|]. lia. }
             apply create_ok.
      + intros b t Hb Ht. rewrite Hold by done. apply I8; [done|]. rewrite lookup_insert_ne in Ht by lia. by rewrite A2 in Ht.
      + rewrite Htop. done.
      + intros k j n [= <-] _ _. assert (Hc : forall x, leds n x = [] -> True) by done. clear Hc.
        match goal with |- context [leds n (computed ?x)] => assert (computed x = []) as -> end.
        { unfold computed. cbn [fd_held fd_log fd_pend]. apply elem_of_nil_inv. intros b [Hb1 Hb2]%elem_of_list_filter.
          injection Hb1 as Hb1. by apply (Hno b). }
        done.
  Qed.

  (** *** [update_output_feedback] *)
  Lemma step_update info s s' : finv info s -> fstep s FUpdate = Some s' -> finv info s'.
  Proof.
    intros I. pose proof (fi_cur _ _ _ I) as I4. pose proof I as [I1 I2 I3 I10 I13 I5 I6 I7 I8 I9 I11 I12]. cbn [feed_step].
    destruct (fd_held s) as [k|] eqn:Eh; [|intros [= <-]; constructor; try done; by rewrite Eh].
    destruct I9 as (B1 & B2 & B3). destruct (I7 k ltac:(lia)) as (t & Et & Ht). rewrite Et. cbn [mbind option_bind]. intros [= <-].
    destruct (update_ok T _ _ _ Ht) as (U1 & U2 & U3 & U4).
    constructor; cbn [fd_en fd_next fd_ids fd_cur fd_tb fd_held fd_vals fd_ctx fd_pend fd_log]; try done.
    - intros k' Hk'. destruct (decide (k' = k)) as [->|Hne].
      + eexists. split; [by rewrite lookup_insert|done].
      + rewrite lookup_insert_ne by done. by apply I7.
    - intros b t' Hb Ht'. destruct (decide (fd_cur s = k)) as [Heq|Hne].
      + rewrite Heq, lookup_insert in Ht'. injection Ht' as <-. rewrite U3, U4. rewrite Heq. rewrite Heq in I8. by apply I8.
      + rewrite lookup_insert_ne in Ht' by done. by apply I8.
    - intros k' j n [= <-]. unfold computed in *. cbn [fd_held fd_log fd_pend]. rewrite Eh in I12. by apply I12.
  Qed.

  (** *** Taking messages *)
  Lemma step_drain info s k s' : finv info s -> fstep s (FDrain k) = Some s' -> finv info s'.
  Proof.
    intros I. pose proof (fi_cur _ _ _ I) as I4. pose proof I as [I1 I2 I3 I10 I13 I5 I6 I7 I8 I9 I11 I12]. cbn [feed_step].
    destruct (fd_pend s) as [b|] eqn:Ep; [by intros [= <-]|]. cbn [engine_step].
    destruct (exec_drain finc (en_heap (fd_en s)) (en_exec (fd_en s)) (take k (en_queue (fd_en s)))) as [[[h1 e1] t1]|] eqn:Ed; cbn [mbind option_bind]; [|done].
    intros [= <-]. destruct (taken_view info (fd_next s) _ _ (Forall2_take _ _ _ k I3) (fd_cur s) _ I4 I5) as [V1 V2].
    pose proof (drain_view _ _ _ _ _ _ _ Ed) as Hd. destruct (taken_grows _ _ _ k I10) as [G1 G2].
    constructor; cbn [fd_en fd_next fd_ids fd_cur fd_tb fd_held fd_vals fd_ctx fd_pend fd_log en_mx en_queue en_exec]; try done.
    - by apply Forall2_drop.
    - intros b Hb. unfold all_blks in *. rewrite Ep in I13. etransitivity; [by apply I13|done].
    - by rewrite Hd.
    - unfold all_blks in *. rewrite Ep in I6. exact I6.
    - intros k' j n Hh Hl Hj. unfold computed in *. rewrite Ep in I12. by apply (I12 k').
  Qed.

  Lemma step_drop info s s' : finv info s -> fstep s FDrop = Some s' -> finv info s'.
  Proof.
    intros I. pose proof (fi_cur _ _ _ I) as I4. pose proof I as [I1 I2 I3 I10 I13 I5 I6 I7 I8 I9 I11 I12]. cbn [feed_step engine_step].
    destruct (en_trash (fd_en s)) as [|p t]; cbn [mbind option_bind].
    - intros [= <-]. by constructor.
    - destruct (prog_drop _ p) as [h|]; cbn [mbind option_bind]; [|done]. intros [= <-]. by constructor.
  Qed.

  (** *** Publishing *)
  Lemma step_publish info s s' : finv info s -> fstep s FPublish = Some s' -> finv info s'.
  Proof.
    intros I. pose proof (fi_cur _ _ _ I) as I4. pose proof I as [I1 I2 I3 I10 I13 I5 I6 I7 I8 I9 I11 I12]. cbn [feed_step].
    destruct (fd_pend s) as [b|] eqn:Ep; [|by intros [= <-]].
    destruct (I7 _ I4) as (t & Et & Ht). rewrite Et. cbn [mbind option_bind]. intros [= <-].
    destruct (I8 b t eq_refl Et) as [Hb Hr].
    assert (Hall : forall x, x ∈ all_blks s <-> x ∈ fd_log s ++ [b]) by (intros x; unfold all_blks; by rewrite Ep).
    constructor; cbn [fd_en fd_next fd_ids fd_cur fd_tb fd_held fd_vals fd_ctx fd_pend fd_log]; try done.
    - intros x Hx. apply I13, Hall. unfold all_blks in Hx. cbn in Hx. by rewrite app_nil_r in Hx.
    - intros x Hx. apply I6, Hall. unfold all_blks in Hx. cbn in Hx. by rewrite app_nil_r in Hx.
    - intros k Hk'. rewrite filter_app, filter_cons, filter_nil. destruct (decide (k = fd_cur s)) as [->|Hne].
      + rewrite decide_True by done. rewrite last_snoc. eexists. split; [by rewrite lookup_insert|]. by eapply publish_ok.
      + rewrite decide_False by congruence. rewrite app_nil_r, lookup_insert_ne by done. by apply I7.
    - intros k j n Hh Hl Hj. unfold computed in *. cbn [fd_held fd_log fd_pend option_list]. rewrite app_nil_r.
      rewrite Ep in I12. by apply (I12 k).
  Qed.

  (** *** Computing a block *)
  Lemma u8_small j : j < 256 -> u8 j = j.
  Proof. intros H. unfold u8. by apply Nat.mod_small. Qed.

  Lemma step_block info s nf s' : finv info s -> fstep s (FBlock nf) = Some s' -> finv info s'.
  Proof.
    intros I. pose proof (fi_cur _ _ _ I) as I4. pose proof I as [I1 I2 I3 I10 I13 I5 I6 I7 I8 I9 I11 I12]. cbn [feed_step].
    destruct (fd_pend s) as [b|] eqn:Ep; [by intros [= <-]|].
    destruct (I7 _ I4) as (t & Et & Ht). rewrite Et. cbn [mbind option_bind engine_step en_heap en_exec en_st]. unfold exec_process.
    destruct (exec_smoothers fadd _ _ nf) as [[h1 e1]|] eqn:Es; cbn [mbind option_bind]; [|done].
    apply exec_smoothers_prog in Es as [ps Eprog]. cbn [with_prog ex_prog] in Eprog.
    set (p := ex_prog e1) in *.
    assert (Epv : pv p = (info (fd_cur s)).2) by (rewrite Eprog; exact I5).
    assert (Efb : np_fb p = tb_slot t (tb_in t)) by (rewrite Eprog; done).
    assert (Eops : np_ops p = np_ops (ex_prog (en_exec (fd_en s)))) by (rewrite Eprog; done).
    destruct (foldm (exec_op mix (tap node_sem) p nf) (h1, ((en_st (fd_en s)).1, []), np_fb p) (np_ops p)) as [[[h2 [st2 rs]] fb2]|] eqn:Ef;
      cbn [mbind option_bind]; [|done].
    destruct (foldm (monitor_slot p h2 nf) [] _) as [fed|]; cbn [mbind option_bind en_st snd en_exec with_prog ex_prog]; [|done].
    destruct (foldm ctx_ran _ _) as [ctx|] eqn:Ec; cbn [mbind option_bind]; [|done]. intros [= <-].
    pose proof (to_in _ _ _ _ Ht) as [Hl Hz].
    pose proof (I2 (fd_cur s)) as Hv. rewrite <- Epv in Hv.
    destruct (block_rep T mix node_sem Hk _ p nf h1 (en_st (fd_en s)).1 (np_fb p) h2 st2 rs fb2 (fd_cur s) Hv) as [Hbo Hrep]; [by rewrite Efb| |exact Ef|].
    { intros j n o Hj Hn Ho. rewrite Efb. apply (Hz j n o Hj); [|done]. by rewrite <- Epv. }
    rewrite Epv in Hbo. set (b := Blk (fd_cur s) nf rs) in *.
    assert (Hslot : slot_ok T (info (fd_cur s)) fb2).
    { eapply (rep_slot T _ (Some b)); [|exact Hrep]. by intros x [= <-]. }
    destruct (write_ok T _ _ _ _ Ht Hslot) as [W1 W2].
    assert (Hctx : length ctx = length (fd_ctx s) /\
      (forall op r, (op, r) ∈ zip (np_ops (ex_prog (en_exec (fd_en s)))) rs ->
         ctx !! (op_idx op * 2) = match r.2.1 with Some v => Some v | None => fd_ctx s !! (op_idx op * 2) end /\
         ctx !! (op_idx op * 2 + 1) = match r.2.2 with Some v => Some v | None => fd_ctx s !! (op_idx op * 2 + 1) end) /\
      (forall i, (forall x, x ∈ zip (np_ops (ex_prog (en_exec (fd_en s)))) rs -> op_idx x.1 <> i) ->
         ctx !! (i * 2) = fd_ctx s !! (i * 2) /\ ctx !! (i * 2 + 1) = fd_ctx s !! (i * 2 + 1))).
    { apply (ctx_fold _ _ _ Ec). cbn [with_prog ex_prog prog_with_fb np_ops].
      assert (Hl2 : length (np_ops (ex_prog (en_exec (fd_en s)))) = length rs).
      { pose proof (f_equal length (bo_nodes _ _ _ Hbo)) as Hx. cbn [b_ran b] in Hx. rewrite fmap_length in Hx. rewrite Hx.
        rewrite <- Epv. unfold vnodes, pv. cbn [fst]. by rewrite !fmap_length, Eops. }
      rewrite <- (fmap_fst_zip op_idx) by lia. pose proof (vi_idx _ _ _ Hv) as Hi. unfold pv in Hi. cbn [fst] in Hi.
      rewrite <- list_fmap_compose, Eops in Hi. exact Hi. }
    assert (Hall : forall x, x ∈ fd_log s ++ [b] -> x ∈ all_blks s \/ x = b).
    { intros x [Hx|Hx%elem_of_list_singleton]%elem_of_app; [left|by right]. unfold all_blks. apply elem_of_app. by left. }
    constructor; cbn [fd_en fd_next fd_ids fd_cur fd_tb fd_held fd_vals fd_ctx fd_pend fd_log en_mx en_queue en_exec]; try done.
    - intros x Hx. apply Hall in Hx as [Hx| ->]; [by apply I13|done].
    - intros x Hx. apply Hall in Hx as [Hx| ->]; [by apply I6|]. done.
    - intros k Hk'. destruct (decide (k = fd_cur s)) as [->|Hne].
      + eexists. split; [by rewrite lookup_insert|done].
      + rewrite lookup_insert_ne by done. by apply I7.
    - intros x t' [= <-] Ht'. rewrite lookup_insert in Ht'. injection Ht' as <-. split; [done|]. cbn [prog_with_fb np_fb] in *. by rewrite W2.
    - rewrite <- I11. apply Hctx.
    - intros k j n Hh Hlen Hj. rewrite Hh in I9. destruct I9 as (Hnext & _ & _). destruct Hctx as (_ & C1 & C2).
      unfold computed. cbn [fd_held fd_log fd_pend option_list]. change (option_list (Some b)) with [b]. rewrite filter_app, filter_cons, filter_nil. cbn [b_prog].
      assert (Hold : computed s = filter (fun b0 : blk => Some (b_prog b0) = fd_held s) (fd_log s)).
      { unfold computed. rewrite Ep. cbn [option_list]. by rewrite app_nil_r. }
      rewrite <- Hold.
      destruct (decide (fd_cur s = k)) as [Heq|Hne].
      + rewrite decide_True by (rewrite Hh; cbn; by f_equal). rewrite leds_snoc, phases_snoc.
        destruct (I12 k j n Hh Hlen Hj) as [J1 J2].
        rewrite Heq in Hbo, Epv. pose proof (I2 k) as Hvk. rewrite <- Epv in Hbo, Hvk.
        pose proof (vinv_nodes T _ _ Hvk) as Hnd. pose proof (bo_nodes _ _ _ Hbo) as Hn. change (b_ran b) with rs in Hn.
        assert (Hvn : vnodes (pv p) = op_node <$> np_ops p) by (unfold vnodes, pv; cbn; by rewrite <- list_fmap_compose).
        pose proof (vi_ops _ _ _ Hvk) as Hops. unfold pv in Hops. cbn [fst] in Hops. rewrite Forall_fmap, Forall_forall in Hops.
        pose proof (lookup_lt_Some _ _ _ Hj) as Hjl.
        destruct (decide (n ∈ (fun r : ran => r.1.1) <$> rs)) as [Hin|Hnin].
        * apply elem_of_list_fmap in Hin as (r & -> & Hr). apply elem_of_list_lookup_1 in Hr as Hr'. destruct Hr' as [i Hi].
          assert (exists op, np_ops p !! i = Some op /\ op_node op = r.1.1) as (op & Hop & Hon).
          { assert (Hx : (op_node <$> np_ops p) !! i = Some r.1.1).
            { rewrite <- Hvn, <- Hn. by rewrite list_lookup_fmap, Hi. }
            apply list_lookup_fmap_Some in Hx as (op & E1 & E2). by exists op. }
          destruct (Hops op (elem_of_list_lookup_2 _ _ _ Hop)) as (j' & O1 & O2 & _). cbn [opv fst snd] in O1, O2.
          rewrite Hon in O1. pose proof (NoDup_lookup _ _ _ _ (vi_nodup _ _ _ Hvk) O1 Hj) as ->.
          rewrite u8_small in O2 by lia.
          destruct (C1 op r) as [D1 D2].
          { apply elem_of_list_lookup_2 with i. rewrite lookup_zip_with. rewrite <- Eops, Hop, Hi. done. }
          rewrite O2 in D1, D2.
          assert (El : led_of r.1.1 b = option_list r.2.1) by (unfold led_of; cbn; apply (of_one (fun x => x.2.1)); [by rewrite Hn|done]).
          assert (Eph : phase_of r.1.1 b = option_list r.2.2) by (unfold phase_of; cbn; apply (of_one (fun x => x.2.2)); [by rewrite Hn|done]).
          rewrite El, Eph. split; intros v Hlast.
          -- rewrite D1. destruct r.2.1 as [w|].
             { change (option_list (Some w)) with [w] in Hlast. by rewrite last_snoc in Hlast. }
             change (option_list (@None f32)) with (@nil f32) in Hlast. rewrite app_nil_r in Hlast. by apply J1.
          -- rewrite D2. destruct r.2.2 as [w|].
             { change (option_list (Some w)) with [w] in Hlast. by rewrite last_snoc in Hlast. }
             change (option_list (@None f32)) with (@nil f32) in Hlast. rewrite app_nil_r in Hlast. by apply J2.
        * assert (El : led_of n b = []) by (unfold led_of; cbn; by apply (of_none (fun x => x.2.1))).
          assert (Eph : phase_of n b = []) by (unfold phase_of; cbn; by apply (of_none (fun x => x.2.2))).
          rewrite El, Eph, !app_nil_r. destruct (C2 j) as [D1 D2]; [|rewrite D1, D2; done].
          intros [op r] Hx Hidx. cbn in Hidx. apply elem_of_zip_l in Hx. rewrite <- Eops in Hx.
          destruct (Hops op Hx) as (j' & O1 & O2 & _). cbn [opv fst snd] in O1, O2. apply lookup_lt_Some in O1 as Hlt.
          rewrite u8_small in O2 by lia. assert (j' = j) as -> by lia. apply Hnin. rewrite Hn, Hvn.
          apply elem_of_list_fmap. exists op. split; [congruence|done].
      + rewrite decide_False by (rewrite Hh; cbn; congruence). rewrite app_nil_r.
        assert (computed s = []) as ->; [|done].
        apply elem_of_nil_inv. intros x [Hx1 Hx2]%elem_of_list_filter. rewrite Hh in Hx1. injection Hx1 as Hx1.
        pose proof (I13 x Hx2). lia.
  Qed.

  Lemma step_inv info s o s' : finv info s -> fstep s o = Some s' -> exists info', finv info' s'.
  Proof.
    intros I. destruct o; intros E.
    - destruct (step_mx _ _ _ _ I E) as (info' & I' & _). by exists info'.
    - exists info. by eapply step_update.
    - exists info. by eapply step_drain.
    - exists info. by eapply step_block.
    - exists info. by eapply step_publish.
    - exists info. by eapply step_drop.
  Qed.
  Lemma reach_inv s : feed_reachable T i2f load_sample finc fadd mix node_sem s -> exists info, finv info s.
  Proof.
    intros (w & h & slope & st & os & E).
    eapply (foldm_inv fstep (fun s => exists info, finv info s)); [| |exact E]; [|apply finv_new].
    intros a o b _ [info Ha] Hs. by eapply step_inv.
  Qed.
End step.
