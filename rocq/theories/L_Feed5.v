(** Reported values: what the frontend reads *)
From Coq Require Import Sorted.
From Verif Require Import Base M_Atom M_Graph M_Dir M_Grid S_Grid M_Layout S_Layout M_Prog M_Conf M_Exec M_Sync M_Engine M_Feed S_Feed.
From Verif Require Import S_Conf S_Sync S_Prog S_Own L_Grid L_Conf L_Prog L_Sync L_Build L_Fill L_Wire L_Own L_Own2 L_Own3 L_Flow L_Flow2 L_Settle3 L_Feed L_Feed2 L_Feed3 L_Feed4.
Open Scope nat_scope.
Local Opaque block_size ctx_size queue_size.

Section read.
  Context (T : ntable) (HT : table_ok T) (i2f : Z -> f32) (load_sample : satom -> satom).
  Context (finc : f32 -> f32 -> nat -> f32) (fadd : f32 -> f32 -> f32) (mix : f32 -> f32 -> f32 -> f32).
  Context {St : Type}.
  Context (node_sem : node_id -> St -> nat -> N -> N -> list satom ->
                      list (list f32) -> list (list f32) -> list (list f32) ->
                      St * list (list f32) * (option f32 * option f32)).
  Context (Hk : keeps_outs node_sem).
  Local Notation outs_of := (n_outs T).
  Local Notation finv := (finv T).
  Local Notation fstep := (feed_step T i2f load_sample finc fadd mix node_sem).
  Implicit Types s : feed St.

  Lemma reported_held s k : fd_held s = Some k -> reported s = filter (fun b => b_prog b = k) (fd_log s).
  Proof. intros E. unfold reported. rewrite E. apply list_filter_iff. intros b. split; [by intros [= ->]|by intros ->]. Qed.

  Lemma update_value info s s' n o : finv info s -> fstep s FUpdate = Some s' ->
    out_fb_for s' n o = match conf_inst (feed_conf s) n with
      | Some _ => if o <? outs_of n then Some (valof (last (reported s)) n o) else None
      | None => None
      end.
  Proof.
    intros I. pose proof (fi_held _ _ _ I) as Hh. pose proof (fi_tb _ _ _ I) as Htb. cbn [feed_step]. destruct (fd_held s) as [k|] eqn:Eh.
    - destruct Hh as (H1 & H2 & H3 & _). destruct (Htb k ltac:(lia)) as (t & Et & Ht). rewrite Et. cbn [mbind option_bind]. intros [= <-].
      unfold out_fb_for, feed_conf. cbn [fd_en fd_vals]. fold (feed_conf s).
      destruct (conf_inst (feed_conf s) n) as [ni|] eqn:En; [|done]. destruct (H3 n ni En) as (j & Hj & ->). unfold local2global. cbn [fst snd].
      destruct (Nat.ltb_spec o (outs_of n)) as [Ho|Ho].
      + destruct (Nat.ltb_spec (psum outs_of (info k).1 j + o) (psum outs_of (info k).1 j + outs_of n)); [|lia]. cbn [mbind option_bind].
        destruct (update_ok T _ _ _ Ht) as (_ & [_ U] & _). rewrite (U j n o Hj Ho). by rewrite (reported_held s k Eh).
      + by destruct (Nat.ltb_spec (psum outs_of (info k).1 j + o) (psum outs_of (info k).1 j + outs_of n)); [lia|].
    - intros [= <-]. unfold out_fb_for. by rewrite Hh.
  Qed.

  Lemma valof_shows info s b n o : finv info s -> b ∈ fd_log s -> o < outs_of n -> shows (Some b) n o (valof (Some b) n o).
  Proof.
    intros I Hb Ho. destruct (fi_log _ _ _ I b) as [_ Hbo]; [apply elem_of_app; by left|].
    pose proof (vinv_nodes T _ _ (fi_info _ _ _ I (b_prog b))) as Hnd. rewrite <- (bo_nodes _ _ _ Hbo) in Hnd.
    split.
    - intros outs cx Hg. destruct (bo_outs _ _ _ Hbo n outs cx Hg) as [Hl Hs].
      destruct (lookup_lt_is_Some_2 outs o) as [l Hlo]; [lia|]. exists l. split; [done|].
      unfold valof. pose proof (head_filter_unique (b_ran b) (n, outs, cx) Hnd Hg) as Hf. cbn [fst] in Hf. rewrite Hf. cbn [fst snd].
      rewrite Hlo. cbn [mbind option_bind]. destruct (Hs o l Hlo) as [v ->]. done.
    - intros Hno. unfold valof. rewrite head_filter_none; [done|]. intros ([[n' outs] cx] & -> & Hin)%elem_of_list_fmap. by eapply Hno.
  Qed.

  Lemma gave_inst info s b n outs cx : finv info s -> b ∈ reported s -> gave b n outs cx -> is_Some (conf_inst (feed_conf s) n) /\ length outs = outs_of n.
  Proof.
    intros I [Hb1 Hb2]%elem_of_list_filter Hg. pose proof (fi_held _ _ _ I) as Hh. rewrite <- Hb1 in Hh. destruct Hh as (_ & _ & _ & H4).
    destruct (fi_log _ _ _ I b) as [_ Hbo]; [apply elem_of_app; by left|]. split; [|by eapply bo_outs]. apply H4.
    assert (Hn : n ∈ vnodes (info (b_prog b)).2).
    { rewrite <- (bo_nodes _ _ _ Hbo). by apply (elem_of_list_fmap_1 (fun r : ran => r.1.1) _ (n, outs, cx)). }
    apply elem_of_list_fmap in Hn as (x & -> & Hx). pose proof (vi_ops _ _ _ (fi_info _ _ _ I (b_prog b))) as Ho.
    rewrite Forall_forall in Ho. destruct (Ho x Hx) as (j & Hj & _). by eapply elem_of_list_lookup_2.
  Qed.

  (** *** LED and phase *)
  Lemma created_idx info s n i : finv info s -> cf_idx (feed_conf s) !! n = Some i <-> created (feed_conf s) !! i = Some n.
  Proof.
    intros I. destruct (fi_mx _ _ _ I) as [_ Hg]. change (mx_conf (en_mx (fd_en s))) with (feed_conf s) in Hg.
    pose proof (cg_inv _ _ Hg) as Hv.
    assert (Hfw : forall n i, cf_idx (feed_conf s) !! n = Some i -> created (feed_conf s) !! i = Some n).
    { intros n' i' Hi. destruct (ci_idx T _ Hv n' i' Hi) as (oi & Hoi & _). unfold created. by rewrite list_lookup_fmap, Hoi. }
    split; [apply Hfw|]. intros Hi. pose proof Hi as Hi'. unfold created in Hi'. apply list_lookup_fmap_Some in Hi' as ([n' oi] & E2 & E1).
    cbn in E1. subst n'. destruct (ci_dom T _ Hv i n oi E2) as [i' Hi2]. rewrite Hi2. f_equal.
    apply Hfw in Hi2. exact (NoDup_lookup _ _ _ _ (cg_nodup _ _ Hg) Hi2 Hi).
  Qed.

  Lemma set_ran (f : ran -> option f32) n bs (v : f32) :
    last (bs ≫= fun b : blk => b_ran b ≫= fun r => if decide (r.1.1 = n) then option_list (f r) else []) = Some v ->
    exists b, b ∈ bs /\ n ∈ (fun r : ran => r.1.1) <$> b_ran b.
  Proof.
    intros Hv. apply last_Some_elem_of, elem_of_list_bind in Hv as (b & Hb & Hin). exists b. split; [done|].
    apply elem_of_list_bind in Hb as (r & Hr1 & Hr2). destruct (decide (r.1.1 = n)) as [<-|]; [|by apply elem_of_nil in Hr1].
    by apply (elem_of_list_fmap_1 (fun r : ran => r.1.1)).
  Qed.

  Lemma ran_home info s b n : finv info s -> b ∈ computed s -> n ∈ (fun r : ran => r.1.1) <$> b_ran b ->
    exists k j, fd_held s = Some k /\ (info k).1 !! j = Some n /\ cf_idx (feed_conf s) !! n = Some j /\
      (length (created (feed_conf s)) <= 256 -> length (info k).1 <= 256).
  Proof.
    intros I [Hb1 Hb2]%elem_of_list_filter Hn. pose proof (fi_held _ _ _ I) as Hh. rewrite <- Hb1 in Hh. destruct Hh as (_ & H2 & _ & _).
    destruct (fi_log _ _ _ I b Hb2) as [_ Hbo]. rewrite (bo_nodes _ _ _ Hbo) in Hn.
    apply elem_of_list_fmap in Hn as (x & -> & Hx). pose proof (vi_ops _ _ _ (fi_info _ _ _ I (b_prog b))) as Ho.
    rewrite Forall_forall in Ho. destruct (Ho x Hx) as (j & Hj & _). exists (b_prog b), j. split; [by symmetry|]. split; [done|]. split.
    - apply (created_idx info s _ _ I). by eapply prefix_lookup.
    - intros Hl. apply prefix_length in H2. lia.
  Qed.

  Lemma led_value info s n v : finv info s -> length (created (feed_conf s)) <= 256 ->
    last (leds n (computed s)) = Some v -> led_value_for s n = Some v.
  Proof.
    intros I Hl Hv. destruct (set_ran (fun r => r.2.1) _ _ _ Hv) as (b & Hb & Hn).
    destruct (ran_home _ _ _ _ I Hb Hn) as (k & j & Hh & Hj & Hi & Hl'). unfold led_value_for. rewrite Hi.
    by apply (fi_ctx _ _ _ I k j n Hh (Hl' Hl) Hj).
  Qed.
  Lemma phase_value info s n v : finv info s -> length (created (feed_conf s)) <= 256 ->
    last (phases n (computed s)) = Some v -> phase_value_for s n = Some v.
  Proof.
    intros I Hl Hv. destruct (set_ran (fun r => r.2.2) _ _ _ Hv) as (b & Hb & Hn).
    destruct (ran_home _ _ _ _ I Hb Hn) as (k & j & Hh & Hj & Hi & Hl'). unfold phase_value_for. rewrite Hi.
    by apply (fi_ctx _ _ _ I k j n Hh (Hl' Hl) Hj).
  Qed.
  Lemma values_total info s n : finv info s -> length (created (feed_conf s)) <= 256 ->
    is_Some (led_value_for s n) /\ is_Some (phase_value_for s n).
  Proof.
    intros I Hl. unfold led_value_for, phase_value_for. destruct (cf_idx (feed_conf s) !! n) as [i|] eqn:Ei; [|split; by eexists].
    apply (created_idx info s _ _ I) in Ei. apply lookup_lt_Some in Ei. pose proof (fi_len _ _ _ I) as Hlen.
    split; apply lookup_lt_is_Some_2; rewrite Hlen; change ctx_size with 512; lia.
  Qed.

  (** *** A synchronisation reaches the reports *)
  Lemma taken_le next ids : forall cur k, grows cur next ids -> Some k ∈ ids -> k <= feed_taken cur ids.
  Proof.
    induction ids as [|x ids IH]; intros cur k Hg Hin; [by apply elem_of_nil in Hin|]. unfold feed_taken. cbn [foldl].
    apply elem_of_cons in Hin as [<-|Hin].
    - cbn. destruct (taken_grows next ids k (length ids)) as [H1 _]; [|by rewrite take_ge in H1 by lia].
      destruct Hg as [G1 G2]. cbn [omap list_omap id] in *. inversion G1; subst. by inversion G2; subst.
    - apply (IH _ k); [|done]. destruct x as [y|]; cbn [default id]; [|done].
      destruct Hg as [G1 G2]. cbn [omap list_omap id] in *. inversion G1; subst. by inversion G2; subst.
  Qed.

  Lemma sync_live info s k nf s1 s2 s3 s4 n : finv info s -> fd_pend s = None ->
    layout_acyclic (lay_grid (mx_lay (en_mx (fd_en s)))) ->
    fstep s (FMx MxSync) = Some s1 -> length (en_queue (fd_en s)) < queue_size -> length (created (feed_conf s1)) <= 256 ->
    fstep s1 (FDrain k) = Some s2 -> length (en_queue (fd_en s1)) <= k ->
    fstep s2 (FBlock nf) = Some s3 -> fstep s3 FPublish = Some s4 ->
    on_board (lay_grid (mx_lay (en_mx (fd_en s)))) n ->
    exists b outs cx, last (reported s4) = Some b /\ b_frames b = nf /\ gave b n outs cx.
  Proof.
    intros I Hp Hac E1 Hroom Hlen E2 Hk2 E3 E4 Hn.
    destruct (step_mx T HT i2f load_sample finc fadd mix node_sem _ _ _ _ I E1) as (info1 & I1 & Hnew).
    (* the upload *)
    assert (Hup : exists h1 m1 p post, matrix_step T i2f load_sample (en_heap (fd_en s)) (en_mx (fd_en s)) MxSync = Some (h1, m1, MNewProg p true :: post) /\
      n ∈ vnodes (pv p) /\ fd_pend s1 = None).
    { revert E1. cbn [feed_step engine_step].
      destruct (matrix_step T i2f load_sample _ _ MxSync) as [[[h1 m1] ms]|] eqn:E; cbn [mbind option_bind]; [|done]. unfold push.
      destruct (queue_push _ _ ms) as [[h2 q2]|]; cbn [mbind option_bind]; [|done].
      destruct (foldl feed_sent _ ms) as [[[nx ids] tb] held]. intros [= <-].
      cbn [matrix_step] in E. destruct (matrix_sync T _ _) as [[[[h3 m3] ms3] r]|] eqn:Es; cbn [mbind option_bind] in E; [|done].
      injection E as -> -> ->. unfold feed_conf in Hlen. cbn [fd_en en_mx] in Hlen.
      pose proof (sync_for T HT _ _ _ _ _ _ (fi_mx _ _ _ I) Es Hlen) as Hr. destruct r as [err|].
      - destruct (sync_res T HT _ _ _ _ _ _ (fi_mx _ _ _ I) Es) as [_ Hx]. destruct (Hx Hac). rewrite Hr. constructor.
      - destruct Hr as (p & mon & c1 & c2 & order & -> & _ & _ & _ & Hl & _ & Hb & Hgo & Hord). exists h1, m1, p, mon. split; [done|]. split; [|done].
        unfold vnodes, pv. cbn [fst]. rewrite <- list_fmap_compose, (bt_ops _ _ _ _ _ _ Hb), <- list_fmap_compose.
        assert (Hno : n ∈ order) by (by apply Hgo). apply elem_of_list_fmap. exists n. split; [|done]. cbn.
        destruct (proj1 (elem_of_list_lookup _ _) (Hord n Hno)) as [j Hj]. by destruct (op_laid T c1 c2 (L_Grid.grid_edges (lay_grid (mx_lay (en_mx (fd_en s))))) j n Hl Hj) as [-> _]. }
    destruct Hup as (h1 & m1 & p & post & Es & Hin & Hp1).
    destruct (Hnew _ _ _ _ _ Es) as (Hheld & Hpv & Hids). specialize (Hids Hroom).
    pose proof (fi_held _ _ _ I1) as Hh1. rewrite Hheld in Hh1. destruct Hh1 as (Hnext & _).
    (* taking the messages *)
    pose proof (step_drain T i2f load_sample finc fadd mix node_sem _ _ _ _ I1 E2) as I2. pose proof (fi_cur _ _ _ I2) as Hcur.
    revert E2. cbn [feed_step]. rewrite Hp1. destruct (engine_step _ _ _ _ _ _ _ (fd_en s1) (EDrain k)) as [n2|] eqn:Ee; cbn [mbind option_bind]; [|done].
    intros [= <-]. cbn [fd_cur fd_next fd_ids] in Hcur.
    rewrite take_ge in Hcur by (rewrite <- (Forall2_length _ _ _ (fi_queue _ _ _ I1)); done).
    pose proof (taken_le _ _ _ _ (fi_ord _ _ _ I1) Hids) as Hle.
    match type of I2 with L_Feed3.finv _ _ ?x => set (s2' := x) in * end.
    assert (Hc2 : fd_cur s2' = fd_next s).
    { subst s2'. cbn [fd_cur]. rewrite take_ge by (rewrite <- (Forall2_length _ _ _ (fi_queue _ _ _ I1)); done). lia. }
    assert (Hh2 : fd_held s2' = Some (fd_next s)) by exact Hheld.
    assert (Hp2 : fd_pend s2' = None) by done. clearbody s2'. clear Ee.
    (* the block *)
    pose proof (step_block T i2f load_sample finc fadd mix node_sem Hk _ _ _ _ I2 E3) as I3.
    assert (Hb : exists b, fd_pend s3 = Some b /\ b_frames b = nf /\ b_prog b = fd_next s /\ fd_held s3 = Some (fd_next s)).
    { revert E3. cbn [feed_step]. rewrite Hp2. destruct (fd_tb s2' !! _); cbn [mbind option_bind]; [|done].
      destruct (engine_step _ _ _ _ _ _ _ _ _) as [n3|]; cbn [mbind option_bind]; [|done].
      destruct (foldm ctx_ran _ _); cbn [mbind option_bind]; [|done]. intros [= <-]. cbn [fd_pend fd_held]. by eexists. }
    destruct Hb as (b & Hpb & Hfr & Hpr & Hh3).
    destruct (fi_log _ _ _ I3 b) as [_ Hbo].
    { unfold all_blks. rewrite Hpb. apply elem_of_app. right. by apply elem_of_list_singleton. }
    rewrite Hpr, Hpv in Hbo. rewrite <- (bo_nodes _ _ _ Hbo) in Hin. apply elem_of_list_fmap in Hin as ([[n' outs] cx] & En & Hr). cbn in En. subst n'.
    exists b, outs, cx. split; [|done]. revert E4. cbn [feed_step]. rewrite Hpb. destruct (fd_tb s3 !! _); cbn [mbind option_bind]; [|done].
    intros [= <-]. unfold reported. cbn [fd_held fd_log]. rewrite filter_app, filter_cons, filter_nil.
    rewrite decide_True by (by rewrite Hh3, Hpr). apply last_snoc.
  Qed.
End read.
