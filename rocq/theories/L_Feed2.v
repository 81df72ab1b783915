(** Reported values: one block *)
From Verif Require Import Base M_Atom M_Graph M_Dir M_Grid S_Grid M_Layout S_Layout M_Prog M_Conf M_Exec M_Sync M_Engine M_Feed S_Feed.
From Verif Require Import S_Conf S_Sync S_Prog S_Own L_Conf L_Prog L_Fill L_Wire L_Own L_Own2 L_Own3 L_Flow L_Settle3 L_Feed.
Open Scope nat_scope.
Local Opaque block_size.

(** the loop over the outputs of one operation *)
Lemma publish_spec h nf os : forall a fb fb', foldm (publish h nf) fb (zip (seq a (length os)) os) = Some fb' ->
  length fb' = length fb /\
  (forall j b, os !! j = Some b -> exists l v, h_bufs h !! b = Some l /\ l !! (nf - 1) = Some v /\ fb' !! (a + j) = Some v) /\
  (forall i, i < a \/ a + length os <= i -> fb' !! i = fb !! i).
Proof.
  induction os as [|b os IH]; intros a fb fb'; cbn [length seq zip zip_with foldm].
  - intros [= <-]. done.
  - destruct (publish h nf fb (a, b)) as [fb1|] eqn:E1; cbn [mbind option_bind]; [|done]. intros (L & H1 & H2)%IH.
    unfold publish in E1. cbn [fst snd] in E1. unfold buf_read in E1.
    destruct (h_bufs h !! b) as [l|] eqn:El; cbn [mbind option_bind] in E1; [|done].
    destruct (l !! (nf - 1)) as [v|] eqn:Ev; cbn [mbind option_bind] in E1; [|done].
    destruct (Nat.ltb_spec a (length fb)); [|done]. injection E1 as <-. rewrite insert_length in L. split; [done|]. split.
    + intros [|j] c Hc; cbn in Hc.
      * injection Hc as <-. exists l, v. split; [done|]. split; [done|]. rewrite Nat.add_0_r, H2 by lia. by apply list_lookup_insert.
      * destruct (H1 j c Hc) as (l' & v' & ? & ? & ?). exists l', v'. by rewrite Nat.add_succ_r.
    + intros i Hi. rewrite H2 by lia. apply list_lookup_insert_ne. lia.
Qed.

Section block.
  Context (T : ntable) (mix : f32 -> f32 -> f32 -> f32) {St : Type}.
  Context (node_sem : node_id -> St -> nat -> N -> N -> list satom ->
                      list (list f32) -> list (list f32) -> list (list f32) ->
                      St * list (list f32) * (option f32 * option f32)).
  Context (Hk : keeps_outs node_sem).
  Local Notation outs_of := (n_outs T).
  Local Notation op_home := (op_home T).

  Lemma exec_op_tap p nf h st lg fb op h' st' lg' fb' : NoDup (np_out p) ->
    exec_op mix (tap node_sem) p nf (h, (st, lg), fb) op = Some (h', (st', lg'), fb') ->
    exists outs cx, lg' = lg ++ [(op_node op, outs, cx)] /\ length fb' = length fb /\
      (op_out op).1 + length outs = (op_out op).2 /\
      (forall o l, outs !! o = Some l -> exists v, l !! (nf - 1) = Some v /\ fb' !! ((op_out op).1 + o) = Some v) /\
      (forall i, i < (op_out op).1 \/ (op_out op).2 <= i -> fb' !! i = fb !! i).
  Proof.
    intros Hnd. unfold exec_op.
    destruct (slice (op_mod op) _) as [mods|]; cbn [mbind option_bind]; [|done].
    destruct (foldm _ h mods) as [h1|] eqn:E1; cbn [mbind option_bind]; [|done].
    destruct (slice (op_in op) (np_inp p)) as [ps|]; cbn [mbind option_bind]; [|done].
    destruct (load_bufs h1 ps) as [pb|] eqn:?; cbn [mbind option_bind]; [|done].
    destruct (slice (op_at op) _) as [ats|]; cbn [mbind option_bind]; [|done].
    destruct (slice (op_in op) (np_cur p)) as [is|]; cbn [mbind option_bind]; [|done].
    destruct (load_curs h1 is) as [ib|] eqn:?; cbn [mbind option_bind]; [|done].
    destruct (slice (op_out op) _) as [os|] eqn:Es; cbn [mbind option_bind]; [|done].
    destruct (load_bufs h1 os) as [ob|] eqn:Eo; cbn [mbind option_bind]; [|done].
    unfold tap at 1. cbn [fst snd].
    pose proof (Hk (op_node op) st nf (op_outc op) (op_inc op) ats pb ib ob) as Hlen.
    destruct (node_sem _ _ _ _ _ _ _ _ _) as [[st1 outs] cx]. cbn [fst snd] in Hlen.
    destruct (store_bufs h1 os outs) as [h2|] eqn:E2; cbn [mbind option_bind]; [|done].
    destruct (nf =? 0); [done|].
    destruct (foldm _ fb _) as [fb1|] eqn:E3; cbn [mbind option_bind]; [|done]. intros [= <- <- <- <-].
    exists outs, cx. split; [done|].
    destruct (slice_spec _ _ _ Es) as (S1 & S2 & S3 & S4). destruct (mapM_all _ _ _ Eo) as [L1 _].
    assert (Hos : NoDup os).
    { apply NoDup_alt. intros i j x Hi Hj. pose proof (lookup_lt_Some _ _ _ Hi). pose proof (lookup_lt_Some _ _ _ Hj).
      rewrite S4 in Hi, Hj by done. pose proof (NoDup_lookup _ _ _ _ Hnd Hi Hj). lia. }
    destruct (store_spec os outs h1 h2 Hos ltac:(lia) E2) as [_ St2].
    destruct (publish_spec h2 nf os _ _ _ E3) as (P1 & P2 & P3).
    split; [done|]. split; [lia|]. split.
    - intros o l Hl. pose proof (lookup_lt_Some _ _ _ Hl). destruct (lookup_lt_is_Some_2 os o) as [b Hb]; [lia|].
      destruct (P2 o b Hb) as (l' & v & Hl' & Hv & Hf). rewrite (St2 o b Hb), Hl in Hl'. injection Hl' as <-. by exists v.
    - intros i Hi. apply P3. lia.
  Qed.

  Lemma ops_tap p nf ids ops : NoDup (np_out p) -> NoDup ids ->
    Forall (fun op => exists j, op_home ids (opv op) j) ops -> NoDup (op_node <$> ops) ->
    forall h st lg fb h' st' lg' fb',
    foldm (exec_op mix (tap node_sem) p nf) (h, (st, lg), fb) ops = Some (h', (st', lg'), fb') ->
    exists rs, lg' = lg ++ rs /\ (fun r : ran => r.1.1) <$> rs = op_node <$> ops /\ length fb' = length fb /\
      (forall n outs cx, (n, outs, cx) ∈ rs -> length outs = outs_of n /\
         forall o l, outs !! o = Some l -> exists v, l !! (nf - 1) = Some v /\ forall j, ids !! j = Some n -> fb' !! (psum outs_of ids j + o) = Some v) /\
      (forall j n o, ids !! j = Some n -> n ∉ op_node <$> ops -> o < outs_of n ->
         fb' !! (psum outs_of ids j + o) = fb !! (psum outs_of ids j + o)).
  Proof.
    intros Hout Hids. induction ops as [|op ops IH] using rev_ind; intros Hh Hnd h st lg fb h' st' lg' fb'.
    - cbn. intros [= <- <- <- <-]. exists []. rewrite app_nil_r. repeat split; try done. all: by apply elem_of_nil in H.
    - rewrite foldm_app. apply Forall_app in Hh as [Hh Hop]. inversion Hop as [|? ? [jo Hjo] _]; subst. rewrite fmap_app in Hnd.
      apply NoDup_app in Hnd as (Hnd & Hnew & _).
      destruct (foldm _ _ ops) as [[[h1 [st1 lg1]] fb1]|] eqn:E1; cbn [mbind option_bind foldm]; [|done].
      destruct (exec_op _ _ _ _ _ op) as [[[h2 [st2 lg2]] fb2]|] eqn:E2; cbn [mbind option_bind]; [|done].
      intros [= <- <- <- <-].
      destruct (IH Hh Hnd _ _ _ _ _ _ _ _ E1) as (rs & -> & R1 & R2 & R3 & R4).
      destruct (exec_op_tap _ _ _ _ _ _ _ _ _ _ _ Hout E2) as (outs & cx & -> & O1 & O2 & O3 & O4).
      destruct Hjo as (J1 & _ & J3). cbn in J1, J3. rewrite J3 in O2, O3, O4. cbn [fst snd] in O2, O3, O4.
      assert (Hnot : op_node op ∉ op_node <$> ops).
      { intros Hx. apply (Hnew _ Hx). by left. }
      exists (rs ++ [(op_node op, outs, cx)]). rewrite app_assoc. split; [done|]. rewrite !fmap_app, R1. split; [done|]. split; [lia|]. split.
      + intros n outs' cx' [Hin| [= -> -> ->]%elem_of_list_singleton]%elem_of_app.
        * destruct (R3 n outs' cx' Hin) as [Hl Hv]. split; [done|]. intros o l Ho. destruct (Hv o l Ho) as (v & Hv1 & Hv2).
          exists v. split; [done|]. intros j Hj. rewrite O4; [by apply Hv2|].
          assert (Hne : n <> op_node op).
          { intros ->. apply Hnot. rewrite <- R1. by apply (elem_of_list_fmap_1 (fun r : ran => r.1.1) _ _ Hin). }
          assert (j <> jo) by congruence. pose proof (lookup_lt_Some _ _ _ Ho) as Hlt.
          pose proof (psum_disj outs_of ids j jo n (op_node op) Hj J1 ltac:(done) (psum outs_of ids j + o)) as Hd. cbn in Hd. lia.
        * split; [lia|]. intros o l Ho. destruct (O3 o l Ho) as (v & Hv1 & Hv2). exists v. split; [done|].
          intros j Hj. by rewrite (NoDup_lookup _ _ _ _ Hids Hj J1).
      + intros j n o Hj [Hn1 Hn2]%not_elem_of_app Ho. rewrite O4; [by apply (R4 j n o)|].
        assert (n <> op_node op) by (intros ->; apply Hn2; by left). assert (j <> jo) by congruence.
        pose proof (psum_disj outs_of ids j jo n (op_node op) Hj J1 ltac:(done) (psum outs_of ids j + o)) as Hd. cbn in Hd. lia.
  Qed.

  (** the vector [s] holds the values [f] of the outputs of the nodes [ids] *)
  Definition is_rep (ids : list node_id) (f : node_id -> nat -> f32) (s : list f32) : Prop :=
    length s = psum outs_of ids (length ids) /\
    forall j n o, ids !! j = Some n -> o < outs_of n -> s !! (psum outs_of ids j + o) = Some (f n o).

  (** last sample of output [o] of node [n] in a block *)
  Definition valof (ob : option blk) (n : node_id) (o : nat) : f32 :=
    match ob with
    | None => f32_zero
    | Some b =>
        match head (filter (fun r : ran => r.1.1 = n) (b_ran b)) with
        | Some r => default f32_zero (l ← r.1.2 !! o; l !! (b_frames b - 1))
        | None => f32_zero
        end
    end.

  Definition vnodes (v : pview) : list node_id := (fun x => x.1.2) <$> v.1.

  Record blk_ok (v : pview) (b : blk) : Prop := {
    bo_nodes : (fun r : ran => r.1.1) <$> b_ran b = vnodes v;
    bo_outs : forall n outs cx, (n, outs, cx) ∈ b_ran b -> length outs = outs_of n /\
       forall o l, outs !! o = Some l -> is_Some (l !! (b_frames b - 1));
  }.

  Lemma vinv_nodes ids v : vinv T ids v -> NoDup (vnodes v).
  Proof.
    intros [H1 H2 H3 _ _]. unfold vnodes. revert H2 H3. induction v.1 as [|x l IH]; intros H2 H3; [constructor|]. cbn in *.
    inversion H2 as [|? ? [j Hj] H2']; subst. apply NoDup_cons in H3 as [Hx H3]. constructor; [|by apply IH].
    intros (y & Hy & Hin)%elem_of_list_fmap. apply Hx. rewrite Forall_forall in H2'. destruct (H2' y Hin) as [j' Hj'].
    apply elem_of_list_fmap. exists y. split; [|done]. destruct Hj as (A1 & -> & _), Hj' as (B1 & -> & _).
    rewrite Hy in A1. by rewrite (NoDup_lookup _ _ _ _ H1 A1 B1).
  Qed.

  Lemma head_filter_unique (rs : list ran) r : NoDup ((fun r : ran => r.1.1) <$> rs) -> r ∈ rs ->
    head (filter (fun x : ran => x.1.1 = r.1.1) rs) = Some r.
  Proof.
    induction rs as [|x rs IH]; intros Hnd Hr; [by apply elem_of_nil in Hr|]. cbn in Hnd. apply NoDup_cons in Hnd as [Hx Hnd].
    rewrite filter_cons. apply elem_of_cons in Hr as [->|Hr].
    - by rewrite decide_True.
    - rewrite decide_False; [by apply IH|]. intros E. apply Hx. rewrite E. by apply (elem_of_list_fmap_1 (fun r : ran => r.1.1)).
  Qed.
  Lemma head_filter_none (rs : list ran) n : n ∉ (fun r : ran => r.1.1) <$> rs -> head (filter (fun x : ran => x.1.1 = n) rs) = None.
  Proof.
    intros Hn. destruct (head _) as [r|] eqn:E; [|done]. exfalso. apply head_Some_elem_of, elem_of_list_filter in E as [<- Hr].
    apply Hn. by apply (elem_of_list_fmap_1 (fun r : ran => r.1.1)).
  Qed.

  (** a block replaces the values of all nodes that run *)
  Lemma block_rep ids p nf h st fb h' st' rs fb' k : vinv T ids (pv p) -> length fb = psum outs_of ids (length ids) ->
    (forall j n o, ids !! j = Some n -> n ∉ vnodes (pv p) -> o < outs_of n -> fb !! (psum outs_of ids j + o) = Some f32_zero) ->
    foldm (exec_op mix (tap node_sem) p nf) (h, (st, []), fb) (np_ops p) = Some (h', (st', rs), fb') ->
    blk_ok (pv p) (Blk k nf rs) /\ is_rep ids (valof (Some (Blk k nf rs))) fb'.
  Proof.
    intros Hv Hl Hz E. pose proof (vinv_nodes _ _ Hv) as Hnd. destruct Hv as [H1 H2 H3 _ H5].
    assert (Hvn : vnodes (pv p) = op_node <$> np_ops p) by (unfold vnodes, pv; cbn; by rewrite <- list_fmap_compose).
    rewrite Hvn in *.
    assert (H2' : Forall (fun op => exists j, op_home ids (opv op) j) (np_ops p)).
    { unfold pv in H2. cbn in H2. by rewrite Forall_fmap in H2. }
    destruct (ops_tap p nf ids (np_ops p) H5 H1 H2' Hnd _ _ _ _ _ _ _ _ E) as (rs' & Ers & R1 & R2 & R3 & R4).
    cbn in Ers. subst rs'. split.
    - constructor; cbn [b_ran b_frames]; [by rewrite Hvn|]. intros n outs cx Hin. destruct (R3 n outs cx Hin) as [A1 A2]. split; [done|].
      intros o l Ho. destruct (A2 o l Ho) as (v & Hv1 & _). by exists v.
    - split; [lia|]. intros j n o Hj Ho. destruct (decide (n ∈ op_node <$> np_ops p)) as [Hin|Hin].
      + rewrite <- R1 in Hin. apply elem_of_list_fmap in Hin as ([[n' outs] cx] & Hn & Hin). cbn in Hn. subst n'.
        destruct (R3 n outs cx Hin) as [A1 A2]. destruct (lookup_lt_is_Some_2 outs o) as [l Hlo]; [lia|].
        destruct (A2 o l Hlo) as (v & Hv1 & Hv2). rewrite (Hv2 j Hj). unfold valof. cbn [b_ran b_frames].
        assert (Hu : head (filter (fun x : ran => x.1.1 = n) rs) = Some (n, outs, cx)).
        { apply (head_filter_unique rs (n, outs, cx)); [by rewrite R1|done]. }
        rewrite Hu. cbn. rewrite Hlo. cbn. by rewrite Hv1.
      + rewrite (R4 j n o), (Hz j n o) by done. unfold valof. cbn [b_ran]. by rewrite head_filter_none by (by rewrite R1).
  Qed.
End block.
