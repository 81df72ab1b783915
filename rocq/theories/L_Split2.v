(** Proofs for C60: a block is a sequence of frames, and frames are deterministic *)
From Verif Require Import Base M_Atom M_Graph M_Dir M_Grid S_Grid M_Layout S_Layout M_Prog M_Conf M_Exec M_Sync M_Engine.
From Verif Require Import S_Conf S_Sync S_Prog S_Own S_Flow L_Conf L_Sync L_Own L_Own2 L_Own3 L_Flow L_Flow2 S_Settle L_Settle L_Settle2 S_Split L_Split.
Open Scope nat_scope.
Local Opaque block_size.

Section split.
  Context (T : ntable) (fadd : f32 -> f32 -> f32) (mix : f32 -> f32 -> f32 -> f32).
  Context {S : Type} (step : node_id -> N -> N -> list satom -> S -> list f32 -> list f32 -> S * list f32).
  Local Notation St := (node_id -> S).
  Local Notation sem := (frame_sem step).

  (** the values behind pointers in one frame *)
  Definition col (h : heap) (f b : nat) : f32 := default f32_zero (default [] (h_bufs h !! b) !! f).
  Definition val (m : nat -> f32) (b : option nat) : f32 := match b with Some b => m b | None => default f32_zero (@nil f32 !! 0) end.
  Definition op_ats (p : nprog) (op : nodeop) : list satom :=
    (fun j => default (ASetting 0%Z) (np_atoms p !! ((op_at op).1 + j))) <$> seq 0 (kind_ats T (op_node op)).
  Definition vals (m : nat -> f32) (bs : nat -> option nat) (n : nat) : list f32 := (fun j => val m (bs j)) <$> seq 0 n.

  Definition op_frame (p : nprog) (st : St) (m : nat -> f32) (op : nodeop) : S * list f32 :=
    let id := op_node op in
    step id (op_outc op) (op_inc op) (op_ats p op) (st id) (vals m (own_buf p op) (kind_ins T id)) (vals m (read_buf p op) (kind_ins T id)).

  Record frame_ok (p : nprog) (own : nat -> f32) (st st' : St) (m : nat -> f32) : Prop := {
    fo_own : forall k b, np_inp p !! k = Some b -> m b = own k;
    fo_st : forall op, op ∈ np_ops p -> st' (op_node op) = (op_frame p st m op).1;
    fo_other : forall x, x ∉ op_node <$> np_ops p -> st' x = st x;
    fo_out : forall op j b, op ∈ np_ops p -> j < kind_outs T (op_node op) -> out_buf p op j = Some b ->
      m b = default f32_zero ((op_frame p st m op).2 !! j);
    fo_mod : forall mo ib ob, mo ∈ np_mods p -> mo_in mo = Some ib -> mo_out mo = Some ob -> m (mo_buf mo) = mix (m ib) (mo_amt mo) (m ob);
  }.

  Lemma vals_eq m1 m2 bs n : (forall j b, j < n -> bs j = Some b -> m1 b = m2 b) -> vals m1 bs n = vals m2 bs n.
  Proof.
    intros H. apply list_fmap_ext. intros k j [Hj Hk]%lookup_seq. unfold val. destruct (bs j) as [b|] eqn:E; [|done]. apply (H j); [lia|done].
  Qed.

  (** ** A frame has one result *)
  Lemma frame_unique g modamt p own st1 st2 st1' st2' m1 m2 : wired T g modamt p -> (forall x, st1 x = st2 x) ->
    frame_ok p own st1 st1' m1 -> frame_ok p own st2 st2' m2 ->
    (forall x, st1' x = st2' x) /\ (forall op j b, op ∈ np_ops p -> j < kind_outs T (op_node op) -> out_buf p op j = Some b -> m1 b = m2 b).
  Proof.
    intros Hw Hst F1 F2.
    assert (Hown : forall b, b ∈ np_inp p -> m1 b = m2 b).
    { intros b [k Hk]%elem_of_list_lookup. by rewrite (fo_own _ _ _ _ _ F1 k b Hk), (fo_own _ _ _ _ _ F2 k b Hk). }
    assert (Hops : forall i op, np_ops p !! i = Some op -> op_frame p st1 m1 op = op_frame p st2 m2 op).
    { induction i as [i IH] using (well_founded_induction lt_wf). intros op Hop. unfold op_frame. rewrite Hst.
      assert (Ho : op ∈ np_ops p) by (by eapply elem_of_list_lookup_2).
      assert (Hsrc : forall src q d e j b, wire T g q d e -> e_to e = op_node op -> src ∈ np_ops p -> op_node src = e_from e ->
        j = e_from_out e -> out_buf p src j = Some b -> m1 b = m2 b).
      { intros src q d e j b He E1 Hs E2 -> Hb. apply elem_of_list_lookup in Hs as [k Hk].
        assert (k < i) as Hlt by (by eapply (feeds_index T g modamt p Hw i k op src q d e)).
        assert (Hj : e_from_out e < kind_outs T (op_node src)) by (rewrite E2; apply He).
        assert (Hs : src ∈ np_ops p) by (by eapply elem_of_list_lookup_2).
        rewrite (fo_out _ _ _ _ _ F1 src (e_from_out e) b Hs Hj Hb), (fo_out _ _ _ _ _ F2 src (e_from_out e) b Hs Hj Hb).
        by rewrite (IH k Hlt src Hk). }
      f_equal.
      - apply vals_eq. intros j b _ Hb. apply Hown. by eapply elem_of_list_lookup_2.
      - apply vals_eq. intros j b Hj Hb. destruct (w_read _ _ _ _ Hw op j Ho Hj) as [_ [[_ Hr]|(q & d & e & src & He & Ee & Hs & Es & Hr)]].
        + apply Hown. rewrite Hr in Hb. by eapply elem_of_list_lookup_2.
        + injection Ee as Ee1 Ee2. destruct (mjoin (modamt !! (op_node op, j))) as [a|].
          * destruct Hr as (k & mo & (_ & Hmo & [ib Hin] & Ein & [ob Hout] & Eout) & Hr). rewrite Hr in Hb. injection Hb as <-.
            assert (Hmo' : mo ∈ np_mods p) by (by eapply elem_of_list_lookup_2).
            rewrite (fo_mod _ _ _ _ _ F1 mo ib ob), (fo_mod _ _ _ _ _ F2 mo ib ob) by done. f_equal.
            -- apply Hown. rewrite Hin in Ein. symmetry in Ein. by eapply elem_of_list_lookup_2.
            -- eapply Hsrc; [exact He|done|exact Hs|done|done|congruence].
          * rewrite Hr in Hb. by eapply Hsrc. }
    split.
    - intros x. destruct (decide (x ∈ op_node <$> np_ops p)) as [Hx|Hx].
      + apply elem_of_list_fmap in Hx as (op & -> & Ho). rewrite (fo_st _ _ _ _ _ F1 op Ho), (fo_st _ _ _ _ _ F2 op Ho).
        apply elem_of_list_lookup in Ho as [i Hi]. by rewrite (Hops i op Hi).
      + by rewrite (fo_other _ _ _ _ _ F1 x Hx), (fo_other _ _ _ _ _ F2 x Hx).
    - intros op j b Ho Hj Hb. rewrite (fo_out _ _ _ _ _ F1 op j b Ho Hj Hb), (fo_out _ _ _ _ _ F2 op j b Ho Hj Hb).
      apply elem_of_list_lookup in Ho as [i Hi]. by rewrite (Hops i op Hi).
  Qed.

  (** ** A block is a sequence of frames *)
  Definition bufs_of (h : heap) (bs : nat -> option nat) (n : nat) : list (list f32) := (fun j => default [] (samples h (bs j))) <$> seq 0 n.
  Lemma at_bufs h bs n f : at_frame f (bufs_of h bs n) = vals (col h f) bs n.
  Proof.
    unfold at_frame, bufs_of, vals. rewrite <- list_fmap_compose. apply list_fmap_ext. intros k j _. cbn. unfold val, samples, col.
    by destruct (bs j).
  Qed.
  Lemma list_by {A} (l : list A) n (f : nat -> option A) d : length l = n -> (forall j, j < length l -> l !! j = f j) ->
    l = (fun j => default d (f j)) <$> seq 0 n.
  Proof.
    intros Hl H. apply list_eq. intros j. rewrite list_lookup_fmap. destruct (decide (j < n)) as [Hj|Hj].
    - rewrite lookup_seq_lt by done. cbn. rewrite <- H by lia. destruct (lookup_lt_is_Some_2 l j ltac:(lia)) as [x ->]. done.
    - rewrite lookup_seq_ge by lia. cbn. apply lookup_ge_None. lia.
  Qed.

  (** the state of a node before frame [f] of the block *)
  Definition node_at (p : nprog) (h : heap) (st : St) (f : nat) (x : node_id) : S :=
    match list_find (fun op => op_node op = x) (np_ops p) with
    | Some (_, op) => st_at (step x (op_outc op) (op_inc op) (op_ats p op))
        (bufs_of h (own_buf p op) (kind_ins T x)) (bufs_of h (read_buf p op) (kind_ins T x)) (st x) f
    | None => st x
    end.

  Lemma node_at_op g modamt p h st f i op : wired T g modamt p -> np_ops p !! i = Some op ->
    node_at p h st f (op_node op) = st_at (step (op_node op) (op_outc op) (op_inc op) (op_ats p op))
        (bufs_of h (own_buf p op) (kind_ins T (op_node op))) (bufs_of h (read_buf p op) (kind_ins T (op_node op))) (st (op_node op)) f.
  Proof.
    intros Hw Hi. unfold node_at. destruct (list_find _ _) as [[k op']|] eqn:E.
    - apply list_find_Some in E as (Hk & Eop & _). pose proof (op_index T g modamt p Hw _ _ _ _ Hk Hi Eop) as ->.
      rewrite Hi in Hk. by injection Hk as ->.
    - apply list_find_None in E. exfalso. by eapply (proj1 (Forall_forall _ _) E op); [eapply elem_of_list_lookup_2|].
  Qed.
  Lemma node_at_other p h st f x : x ∉ op_node <$> np_ops p -> node_at p h st f x = st x.
  Proof.
    intros Hx. unfold node_at. destruct (list_find _ _) as [[k op']|] eqn:E; [|done].
    apply list_find_Some in E as (Hk & Eop & _). exfalso. apply Hx, elem_of_list_fmap. exists op'. split; [done|]. by eapply elem_of_list_lookup_2.
  Qed.

  (** the states while the operations run: a node's state is the initial one until its operation ran *)
  Lemma states_spec g modamt p nf h h' st st' : wired T g modamt p -> 
    dataflow T mix sem p nf h h' st st' ->
    (forall x, st' x = node_at p h' st nf x) /\
    forall i op, np_ops p !! i = Some op -> exists old outs, length old = kind_outs T (op_node op) /\ length outs = kind_outs T (op_node op) /\
      (forall j, j < length old -> old !! j = samples h (out_buf p op j)) /\ (forall j, j < length outs -> outs !! j = samples h' (out_buf p op j)) /\
      (run_frames (step (op_node op) (op_outc op) (op_inc op) (op_ats p op)) (st (op_node op)) 0 nf
        (bufs_of h' (own_buf p op) (kind_ins T (op_node op))) (bufs_of h' (read_buf p op) (kind_ins T (op_node op))) old).2 = outs.
  Proof.
    intros Hw [(sts & S0 & Sn & Hran) _].
    assert (Hat : forall i op s, np_ops p !! i = Some op -> sts !! i = Some s -> exists s' old outs, sts !! Datatypes.S i = Some s' /\
      length old = kind_outs T (op_node op) /\ length outs = kind_outs T (op_node op) /\
      (forall j, j < length old -> old !! j = samples h (out_buf p op j)) /\ (forall j, j < length outs -> outs !! j = samples h' (out_buf p op j)) /\
      (run_frames (step (op_node op) (op_outc op) (op_inc op) (op_ats p op)) (s (op_node op)) 0 nf
        (bufs_of h' (own_buf p op) (kind_ins T (op_node op))) (bufs_of h' (read_buf p op) (kind_ins T (op_node op))) old).2 = outs /\
      s' (op_node op) = st_at (step (op_node op) (op_outc op) (op_inc op) (op_ats p op))
        (bufs_of h' (own_buf p op) (kind_ins T (op_node op))) (bufs_of h' (read_buf p op) (kind_ins T (op_node op))) (s (op_node op)) nf /\
      forall x, x <> op_node op -> s' x = s x).
    { intros i op s Hop Hs. destruct (Hran i op Hop) as (s1 & s' & Hs1 & Hs' & ats & own & ins & old & outs & L1 & L2 & L3 & L4 & L5 & I1 & I2 & I3 & I4 & I5 & En).
      rewrite Hs in Hs1. injection Hs1 as <-. exists s', old, outs. split; [done|]. split; [done|]. split; [done|]. split; [done|]. split; [done|].
      pose proof (list_by _ _ _ (ASetting 0%Z) L1 I1) as Eats. pose proof (list_by _ _ _ [] L2 I2) as Eown. pose proof (list_by _ _ _ [] L3 I3) as Eins.
      rewrite Eats, Eown, Eins in En. unfold frame_sem in En. fold (op_ats p op) in En.
      fold (bufs_of h' (own_buf p op) (kind_ins T (op_node op))) in En. fold (bufs_of h' (read_buf p op) (kind_ins T (op_node op))) in En.
      pose proof (run_frames_spec (step (op_node op) (op_outc op) (op_inc op) (op_ats p op)) (bufs_of h' (own_buf p op) (kind_ins T (op_node op)))
        (bufs_of h' (read_buf p op) (kind_ins T (op_node op))) (s (op_node op)) nf 0 old) as (H1 & _). cbn [st_at] in H1.
      destruct (run_frames _ _ _ _ _ _ _) as [s2 outs2]. cbn [fst snd] in *. injection En as <- <-. split; [done|]. split.
      - rewrite decide_True by done. done.
      - intros x Hx. by rewrite decide_False. }
    assert (Hpre : forall i s, i <= length (np_ops p) -> sts !! i = Some s ->
      forall x, s x = if decide (x ∈ op_node <$> take i (np_ops p)) then node_at p h' st nf x else st x).
    { induction i as [|i IH]; intros s Hi Hs x.
      - rewrite S0 in Hs. injection Hs as <-. rewrite decide_False; [done|]. cbn. apply not_elem_of_nil.
      - destruct (lookup_lt_is_Some_2 (np_ops p) i ltac:(lia)) as [op Hop]. destruct (Hran i op Hop) as (s0 & _ & Hs0 & _).
        destruct (Hat i op s0 Hop Hs0) as (s' & _ & _ & Hs' & _ & _ & _ & _ & _ & E1 & E2). rewrite Hs in Hs'. injection Hs' as <-.
        specialize (IH s0 ltac:(lia) Hs0).
        assert (Hnin : op_node op ∉ op_node <$> take i (np_ops p)).
        { intros Hx. apply elem_of_list_fmap in Hx as (op' & Eop & [k Hk]%elem_of_list_lookup). apply lookup_take_Some in Hk as [Hk Hlt].
          pose proof (op_index T g modamt p Hw _ _ _ _ Hop Hk Eop). lia. }
        rewrite (take_S_r _ _ _ Hop), fmap_app. cbn [fmap list_fmap].
        destruct (decide (x = op_node op)) as [->|Hne].
        + rewrite decide_True by (rewrite elem_of_app; right; by left). rewrite E1.
          rewrite (IH (op_node op)). rewrite decide_False by done. by rewrite (node_at_op g modamt p h' st nf i op Hw Hop).
        + rewrite E2 by done. rewrite IH. destruct (decide (x ∈ op_node <$> take i (np_ops p))) as [Hx|Hx].
          * rewrite decide_True; [done|]. rewrite elem_of_app. by left.
          * rewrite decide_False; [done|]. rewrite elem_of_app, elem_of_list_singleton. tauto. }
    split.
    - intros x. rewrite (Hpre (length (np_ops p)) st' (le_n _) Sn x). rewrite take_ge by lia. case_decide; [done|]. symmetry. by apply node_at_other.
    - intros i op Hop. destruct (Hran i op Hop) as (s0 & _ & Hs0 & _).
      destruct (Hat i op s0 Hop Hs0) as (s' & old & outs & Hs' & L1 & L2 & I1 & I2 & Er & _). exists old, outs.
      split; [done|]. split; [done|]. split; [done|]. split; [done|]. rewrite <- Er.
      rewrite (Hpre i s0 (Nat.lt_le_incl _ _ (lookup_lt_Some _ _ _ Hop)) Hs0). rewrite decide_False; [done|].
      intros Hx. apply elem_of_list_fmap in Hx as (op' & Eop & [k Hk]%elem_of_list_lookup). apply lookup_take_Some in Hk as [Hk Hlt].
      pose proof (op_index T g modamt p Hw _ _ _ _ Hop Hk Eop). lia.
  Qed.

  Lemma process_parts h e st nf l h' e' st' fed : hok h (owned (ex_prog e) ++ l) -> 
    exec_process fadd mix sem h e st nf = Some (h', e', st', fed) ->
    exists h1 e1 ps fb, exec_smoothers fadd h e nf = Some (h1, e1) /\ ex_prog e1 = prog_with_params (ex_prog e) ps /\
      ex_prog e' = prog_with_fb (prog_with_params (ex_prog e) ps) fb /\ ex_sm e' = ex_sm e1 /\
      forall b, b ∈ np_inp (ex_prog e) -> h_bufs h' !! b = h_bufs h1 !! b.
  Proof.
    intros Hh. unfold exec_process. destruct (exec_smoothers fadd h e nf) as [[h1 e1]|] eqn:E1; cbn [mbind option_bind]; [|done].
    destruct (exec_smoothers_prog _ _ _ _ _ _ E1) as [ps Hps].
    destruct (foldm _ _ _) as [[[h2 st2] fb]|] eqn:E2; cbn [mbind option_bind]; [|done].
    destruct (foldm (monitor_slot _ _ _) _ _) as [fd|]; cbn [mbind option_bind]; [|done]. intros [= <- <- <- <-].
    exists h1, e1, ps, fb. split; [done|]. split; [done|]. split; [cbn; by rewrite Hps|]. split; [done|].
    intros b Hb.
    assert (b ∉ np_out (ex_prog e1) /\ b ∉ mo_buf <$> np_mods (ex_prog e1)) as [Hno Hnm].
    { rewrite Hps. cbn. pose proof (proj1 (proj1 Hh)) as Hn. unfold owned in Hn. rewrite <- !app_assoc in Hn.
      apply NoDup_app in Hn as (_ & Hn & _). specialize (Hn b Hb). rewrite !elem_of_app in Hn. tauto. }
    change h2 with ((h2, st2, fb).1.1).
    eapply (foldm_inv _ (fun w => h_bufs w.1.1 !! b = h_bufs h1 !! b)) with (s := (h1, st, np_fb (ex_prog e1))); [|reflexivity|exact E2].
    intros w op w' _ Hw E. rewrite <- Hw. by eapply (exec_op_frame fadd); [exact E|..].
  Qed.

  Lemma block_frames g modamt h e st nf l h' e' st' fed : wired T g modamt (ex_prog e) -> running (ex_prog e) -> sinv h e ->
    hok h (owned (ex_prog e) ++ l) -> 0 < nf <= block_size -> exec_process fadd mix sem h e st nf = Some (h', e', st', fed) ->
    (exists ps fb, ex_prog e' = prog_with_fb (prog_with_params (ex_prog e) ps) fb) /\
    (forall k f, k < length (np_params (ex_prog e)) -> traj fadd e' f k = traj fadd e (nf + f) k) /\
    (forall k, k < length (np_params (ex_prog e)) -> np_params (ex_prog e') !! k = Some (traj fadd e (nf - 1) k)) /\
    (forall op j b, op ∈ np_ops (ex_prog e) -> j < kind_outs T (op_node op) -> out_buf (ex_prog e) op j = Some b ->
       exists c, h_bufs h' !! b = Some c /\ length c = block_size) /\
    exists sts : nat -> St, (forall x, sts 0 x = st x) /\ (forall x, sts nf x = st' x) /\
      forall f, f < nf -> frame_ok (ex_prog e) (traj fadd e f) (sts f) (sts (Datatypes.S f)) (col h' f).
  Proof.
    intros Hw Hr Hs Hh Hnf E.
    destruct (process_parts _ _ _ _ _ _ _ _ _ Hh E) as (h1 & e1 & ps & fb & E1 & P1 & P2 & Esm & Hb).
    destruct (smoothers_vals fadd _ _ _ _ _ _ Hs Hh Hr Hnf E1) as (V1 & V2 & V3).
    destruct (process_flow T fadd mix sem (frame_fits step) g modamt _ _ _ _ _ _ _ _ _ Hw Hr Hh (proj1 Hnf) E) as [Hd Hw'].
    pose proof (process_own fadd mix sem (frame_fits step) _ _ _ _ _ _ _ _ _ Hh E) as [Hh' _].
    destruct (states_spec g modamt _ _ _ _ _ _ Hw' Hd) as [St' Sops]. destruct Hd as [_ Hmods].
    rewrite P2 in St', Sops, Hmods.
    assert (Hbuf : forall b, b ∈ owned (ex_prog e) -> exists c, h_bufs h' !! b = Some c /\ length c = block_size).
    { intros b Hin. assert (Hin' : b ∈ owned (ex_prog e) ++ l) by (rewrite elem_of_app; left; exact Hin).
      destruct (proj2 (proj1 (proj2 (proj1 Hh')) b) Hin') as [c Hc]. exists c. split; [done|]. by apply (proj2 (proj2 (proj1 Hh')) b c). }
    assert (Hout : forall op j b, out_buf (ex_prog e) op j = Some b -> b ∈ owned (ex_prog e)).
    { intros op j b Hx. unfold owned. rewrite !elem_of_app. right. left. by eapply elem_of_list_lookup_2. }
    split; [by exists ps, fb|]. split; [|split; [|split]].
    - intros k f Hk. rewrite <- V2 by done. unfold traj. rewrite Esm, P2, P1. done.
    - intros k Hk. rewrite <- V3 by done. by rewrite P2, P1.
    - intros op j b Ho Hj Hx. by eapply Hbuf, Hout.
    - exists (fun f => node_at (ex_prog e) h' st f). split; [|split].
      + intros x. unfold node_at. by destruct (list_find _ _) as [[? ?]|].
      + intros x. by rewrite St'.
      + intros f Hf. constructor.
        * intros k b Hk. destruct (V1 k b Hk) as (c & Hc & Hv). unfold col. rewrite Hb by (by eapply elem_of_list_lookup_2). rewrite Hc. cbn. by rewrite Hv.
        * intros op [i Hi]%elem_of_list_lookup. rewrite !(node_at_op g modamt _ _ _ _ i op Hw Hi). unfold op_frame.
          rewrite (node_at_op g modamt _ _ _ _ i op Hw Hi). cbn [st_at]. by rewrite !at_bufs.
        * intros x Hx. by rewrite !node_at_other.
        * intros op j b Ho Hj Hx. apply elem_of_list_lookup in Ho as [i Hi]. unfold op_frame. rewrite (node_at_op g modamt _ _ _ _ i op Hw Hi).
          destruct (Sops i op Hi) as (old & outs & L1 & L2 & I1 & I2 & Er).
          destruct (lookup_lt_is_Some_2 old j ltac:(lia)) as [bo Hbo].
          match type of Er with (run_frames ?stp ?s _ _ ?own ?ins _).2 = _ =>
            pose proof (run_frames_spec stp own ins s nf 0 old) as (_ & _ & H3) end. cbn [st_at] in H3.
          destruct (H3 j bo Hbo) as (b' & B1 & B2 & _ & B4). rewrite Er in B1. rewrite I2 in B1 by lia.
          change (samples h' (out_buf (prog_with_fb (prog_with_params (ex_prog e) ps) fb) op j)) with (samples h' (out_buf (ex_prog e) op j)) in B1.
          rewrite Hx in B1. cbn in B1. destruct (Hbuf b) as (c & Hc & Hl); [by eapply Hout|]. unfold col. rewrite B1. cbn.
          rewrite B4; [|lia|]. { cbn. unfold out_at. by rewrite !at_bufs. }
          rewrite <- B2. assert (b' = c) as -> by congruence. lia.
        * intros mo ib ob Hmo Hib Hob. destruct (Hmods mo Hmo) as (ow & sg & res & R1 & R2 & R3 & R4); [by rewrite Hib|].
          rewrite Hib in R1. rewrite Hob in R2. cbn in R1, R2. destruct (R4 f Hf) as (a & o & Ra & Ro & Rr). unfold col. rewrite R1, R2, R3. cbn.
          by rewrite Ra, Ro, Rr.
  Qed.
End split.
