(** Processing a block does not fail *)
From Verif Require Import Base M_Atom M_Graph M_Dir M_Grid S_Grid M_Layout S_Layout M_Prog M_Conf M_Exec M_Sync M_Engine.
From Verif Require Import S_Conf S_Sync S_Prog S_Own L_Graph L_Grid L_Layout L_Conf L_Conf2 L_Conf3 L_Sync L_Prog L_Build L_Fill L_Wire L_Own L_Own2 L_Own3 L_Flow S_Settle L_Settle L_Settle2 L_Settle3 L_Settle4.
Open Scope nat_scope.
Local Opaque block_size.

Lemma hok_at h l b : hok h l -> b ∈ l -> exists c, h_bufs h !! b = Some c /\ length c = block_size.
Proof.
  intros [(_ & H1 & H2) _] Hb. destruct (proj2 (H1 b) Hb) as [c Hc]. exists c. split; [done|]. by eapply H2.
Qed.

Section total.
  Context (fadd : f32 -> f32 -> f32) (mix : f32 -> f32 -> f32 -> f32).
  Context {St : Type}.
  Context (node_sem : node_id -> St -> nat -> N -> N -> list satom ->
                      list (list f32) -> list (list f32) -> list (list f32) -> St * list (list f32)).
  Context (Hfit : node_fits node_sem).

  Lemma write_total h l b i v : hok h l -> b ∈ l -> i < block_size -> is_Some (buf_write h b i v).
  Proof.
    intros Hh Hb Hi. destruct (hok_at _ _ _ Hh Hb) as (c & Hc & Hl). unfold buf_write. rewrite Hc. cbn [mbind option_bind].
    rewrite (proj2 (Nat.ltb_lt _ _)) by lia. by eexists.
  Qed.
  Lemma read_total h l b i : hok h l -> b ∈ l -> i < block_size -> is_Some (buf_read h b i).
  Proof.
    intros Hh Hb Hi. destruct (hok_at _ _ _ Hh Hb) as (c & Hc & Hl). unfold buf_read. rewrite Hc. cbn [mbind option_bind].
    apply lookup_lt_is_Some. lia.
  Qed.

  Lemma refresh_total inp l rl : (forall b, b ∈ inp -> b ∈ l) -> forall h, hok h l -> Forall (fun iv => iv.1 < length inp) rl ->
    is_Some (refresh_targets h inp rl).
  Proof.
    intros Hin. induction rl as [|[i v] rl IH]; intros h Hh Hf; cbn [refresh_targets]; [by eexists|].
    inversion Hf as [|? ? Hi Hf']; subst. cbn in Hi. destruct (lookup_lt_is_Some_2 inp i Hi) as [b Hb]. rewrite Hb. cbn [mbind option_bind].
    destruct (hok_at h l b Hh) as (c & Hc & Hl); [apply Hin; by eapply elem_of_list_lookup_2|].
    destruct (buf_fill h b v) as [h1|] eqn:E; cbn [mbind option_bind].
    - apply IH; [|done]. by eapply buf_fill_some.
    - unfold buf_fill in E. by rewrite Hc in E.
  Qed.

  Lemma run_smoother_total b l n : forall f s v h, hok h l -> b ∈ l -> f + n <= block_size -> is_Some (run_smoother fadd h b f n s v).
  Proof.
    induction n as [|n IH]; intros f s v h Hh Hb Hn; cbn [run_smoother]; [by eexists|].
    destruct (sm_next fadd s) as [s1 v1]. destruct (write_total h l b f v1 Hh Hb ltac:(lia)) as [h1 E]. rewrite E. cbn [mbind option_bind].
    apply IH; [by eapply buf_write_some|done|lia].
  Qed.

  Lemma run_smoothers_total inp l nf sms : (forall b, b ∈ inp -> b ∈ l) -> nf <= block_size -> forall ps rf h, hok h l -> length ps = length inp ->
    Forall (fun s => sm_done s.2 = false -> s.1 < length inp) sms -> is_Some (run_smoothers fadd h inp nf ps rf sms).
  Proof.
    intros Hin Hnf. induction sms as [|[i s] sms IH]; intros ps rf h Hh Hl Hf; cbn [run_smoothers]; [by eexists|].
    inversion Hf as [|? ? Hi Hf']; subst. cbn in Hi. destruct (sm_done s).
    - destruct (IH ps rf h Hh Hl Hf') as [[[[h1 ps1] rf1] sms1] ->]. by eexists.
    - specialize (Hi eq_refl). destruct (lookup_lt_is_Some_2 inp i Hi) as [b Hb]. rewrite Hb. cbn [mbind option_bind].
      destruct (run_smoother_total b l nf 0 s f32_zero h Hh) as [[[h1 s1] v1] E]; [apply Hin; by eapply elem_of_list_lookup_2|lia|].
      rewrite E. cbn [mbind option_bind]. rewrite (proj2 (Nat.ltb_lt _ _)) by lia.
      destruct (IH (<[i:=v1]> ps) (rf ++ [(i, v1)]) h1) as [[[[h2 ps2] rf2] sms2] ->]; [by eapply run_smoother_hok|by rewrite insert_length|done|]. by eexists.
  Qed.

  Lemma smoothers_total h e nf l : sinv h e -> hok h l -> (forall b, b ∈ np_inp (ex_prog e) -> b ∈ l) -> running (ex_prog e) -> nf <= block_size ->
    is_Some (exec_smoothers fadd h e nf).
  Proof.
    intros Hs Hh Hin Hr Hnf. unfold exec_smoothers. pose proof (rn_par _ Hr) as Hl.
    destruct (refresh_total (np_inp (ex_prog e)) l (rev (ex_refresh e)) Hin h Hh) as [h1 E1].
    { apply Forall_forall. intros [i v] Hx. rewrite elem_of_list_In, <- in_rev, <- elem_of_list_In in Hx. cbn. rewrite <- Hl. by eapply si_ref. }
    rewrite E1. cbn [mbind option_bind].
    destruct (run_smoothers_total (np_inp (ex_prog e)) l nf (ex_sm e) Hin Hnf (np_params (ex_prog e)) [] h1) as [[[[h2 ps2] rf2] sms2] ->]; [by eapply refresh_hok|done| |by eexists].
    apply Forall_lookup. intros j [i s] Hj Hd. cbn in *. rewrite <- Hl. eapply si_range; [exact Hs|]. eapply target_in; [apply Hs|exact Hj|exact Hd].
  Qed.

  Lemma slice_total {A} (r : nat * nat) (v : list A) : r.1 <= r.2 -> r.2 <= length v -> exists s, slice r v = Some s /\ length s = r.2 - r.1 /\
    (forall i x, s !! i = Some x -> v !! (r.1 + i) = Some x) /\ (forall x, x ∈ s -> x ∈ v).
  Proof.
    intros H1 H2. unfold slice. rewrite (proj2 (Nat.leb_le _ _) H1), (proj2 (Nat.leb_le _ _) H2). cbn [andb]. eexists. split; [done|].
    assert (Hx : forall i x, take (r.2 - r.1) (drop r.1 v) !! i = Some x -> v !! (r.1 + i) = Some x).
    { intros i x Hi. assert (i < r.2 - r.1). { apply lookup_lt_Some in Hi. rewrite take_length in Hi. lia. }
      by rewrite lookup_take, lookup_drop in Hi. }
    split; [rewrite take_length, drop_length; lia|]. split; [done|].
    intros x [i Hi]%elem_of_list_lookup. eapply elem_of_list_lookup_2. by apply Hx.
  Qed.

  Lemma modop_total nf h m l : hok h l -> nf <= block_size -> mo_buf m ∈ l -> (is_Some (mo_in m) <-> is_Some (mo_out m)) ->
    (forall b, mo_in m = Some b -> b ∈ l) -> (forall b, mo_out m = Some b -> b ∈ l) -> is_Some (modop_process mix nf h m).
  Proof.
    intros Hh Hnf Hb Hio Hi Ho. unfold modop_process. destruct (mo_in m) as [ib|]; [|by eexists].
    destruct (mo_out m) as [ob|]; [|destruct Hio as [Hio _]; destruct Hio as [? ?]; [by eexists|done]].
    destruct (foldm_total (modop_frame mix m ib ob) (fun h => hok h l) (seq 0 nf) h) as (h' & E & _); [|done|by eexists].
    intros h1 f Hf H1. apply elem_of_seq in Hf. unfold modop_frame.
    destruct (read_total h1 l ib f H1 (Hi _ eq_refl) ltac:(lia)) as [a ->]. cbn [mbind option_bind].
    destruct (read_total h1 l ob f H1 (Ho _ eq_refl) ltac:(lia)) as [o ->]. cbn [mbind option_bind].
    destruct (write_total h1 l (mo_buf m) f (mix a (mo_amt m) o) H1 Hb ltac:(lia)) as [h2 E]. exists h2. split; [done|]. by eapply buf_write_some.
  Qed.

  Lemma load_total h ps l : hok h l -> (forall b, b ∈ ps -> b ∈ l) -> is_Some (load_bufs h ps).
  Proof.
    intros Hh Hin. unfold load_bufs. apply mapM_is_Some. apply Forall_forall. intros b Hb.
    destruct (hok_at h l b Hh (Hin b Hb)) as (c & Hc & _). by exists c.
  Qed.
  Lemma curs_total h ps l : hok h l -> (forall o, o ∈ ps -> exists b, o = Some b /\ b ∈ l) -> is_Some (load_curs h ps).
  Proof.
    intros Hh Hin. unfold load_curs. apply mapM_is_Some. apply Forall_forall. intros o Ho. destruct (Hin o Ho) as (b & -> & Hb).
    destruct (hok_at h l b Hh Hb) as (c & Hc & _). by exists c.
  Qed.
  Lemma store_total h ps bs l : hok h l -> (forall b, b ∈ ps -> b ∈ l) -> Forall (fun b => length b = block_size) bs -> is_Some (store_bufs h ps bs).
  Proof.
    intros Hh Hin Hbs. unfold store_bufs.
    destruct (foldm_total (fun h pb => buf_put h pb.1 pb.2) (fun h => hok h l) (zip ps bs) h) as (h' & E & _); [|done|by eexists].
    intros h1 [p b] Hx H1. cbn [fst snd]. assert (Hp : p ∈ ps) by (by eapply elem_of_zip_l). assert (Hb : b ∈ bs) by (by eapply elem_of_zip_r).
    destruct (hok_at h1 l p H1 (Hin p Hp)) as (c & Hc & Hl). unfold buf_put. rewrite Hc. cbn [mbind option_bind]. eexists. split; [done|].
    eapply put_hok; [done|done|]. by apply (proj1 (Forall_forall _ _) Hbs).
  Qed.

  Lemma exec_op_total p nf h st fb op l : running p -> op ∈ np_ops p -> hok h (owned p ++ l) -> 0 < nf <= block_size -> length fb = length (np_out p) ->
    is_Some (exec_op mix node_sem p nf (h, st, fb) op).
  Proof.
    intros Hr Hop Hh Hnf Hfb. unfold exec_op. pose proof (proj1 (Forall_forall _ _) (rn_ops _ Hr) _ Hop) as [F1 F2 F3 F4 _].
    assert (Hptr : forall b, b ∈ pointers p -> b ∈ owned p ++ l) by (intros b Hb; rewrite elem_of_app; left; by apply rn_ptrs).
    assert (Hown : forall b, b ∈ owned p -> b ∈ owned p ++ l) by (intros b Hb; rewrite elem_of_app; by left).
    destruct (slice_total (op_mod op) (np_mods p)) as (mods & -> & _ & _ & Im); [apply F4|apply F4|]. cbn [mbind option_bind].
    destruct (foldm_total (modop_process mix nf) (fun h => hok h (owned p ++ l)) mods h) as (h1 & -> & H1); [|done|].
    { intros h0 m Hm H0. apply Im in Hm. destruct (modop_total nf h0 m (owned p ++ l) H0 ltac:(lia)) as [h' E].
      - apply Hown. unfold owned. rewrite !elem_of_app. right. right. by apply elem_of_list_fmap_1.
      - by apply (proj1 (Forall_forall _ _) (rn_mods _ Hr)).
      - intros b Hb. apply Hptr. unfold pointers. rewrite !elem_of_app. right. right. left. apply elem_of_list_omap. by exists m.
      - intros b Hb. apply Hptr. unfold pointers. rewrite !elem_of_app. right. right. right. apply elem_of_list_omap. by exists m.
      - exists h'. split; [done|]. by eapply modop_hok. }
    cbn [mbind option_bind].
    destruct (slice_total (op_in op) (np_inp p)) as (ps & -> & _ & _ & Ip); [apply F2|apply F2|]. cbn [mbind option_bind].
    destruct (load_total h1 ps _ H1) as [pb ->]; [intros b Hb; by apply Hown, inp_owned, Ip|]. cbn [mbind option_bind].
    destruct (slice_total (op_at op) (np_atoms p)) as (ats & -> & _ & _ & _); [apply F3|apply F3|]. cbn [mbind option_bind].
    destruct (slice_total (op_in op) (np_cur p)) as (is & -> & Li & Xi & _); [apply F2|rewrite rn_cur by done; apply F2|]. cbn [mbind option_bind].
    destruct (curs_total h1 is _ H1) as [ib ->].
    { intros o Ho. apply elem_of_list_lookup in Ho as [i Hi]. pose proof (lookup_lt_Some _ _ _ Hi) as Hlt. apply Xi in Hi.
      destruct (rn_reads _ Hr op ((op_in op).1 + i) Hop ltac:(lia)) as [b Hb]. rewrite Hi in Hb. cbn in Hb. subst o. exists b. split; [done|].
      apply Hptr. unfold pointers. rewrite !elem_of_app. right. left. apply elem_of_list_omap. exists (Some b). split; [by eapply elem_of_list_lookup_2|done]. }
    cbn [mbind option_bind].
    destruct (slice_total (op_out op) (np_out p)) as (os & -> & Lo & _ & Io); [apply F1|apply F1|]. cbn [mbind option_bind].
    assert (Ho : forall b, b ∈ os -> b ∈ owned p ++ l). { intros b Hb. apply Hown. unfold owned. rewrite !elem_of_app. right. left. by apply Io. }
    destruct (load_total h1 os _ H1 Ho) as [ob Eo]. rewrite Eo. cbn [mbind option_bind].
    destruct (mapM_lookup_all _ _ _ _ H1 Eo) as [Hob _].
    pose proof (Hfit (op_node op) st nf (op_outc op) (op_inc op) ats pb ib ob Hob) as [_ Hfits].
    destruct (node_sem _ _ _ _ _ _ _ _ _) as [st1 outs]. cbn in Hfits.
    destruct (store_total h1 os outs _ H1 Ho Hfits) as [h2 E2]. rewrite E2. cbn [mbind option_bind].
    rewrite (proj2 (Nat.eqb_neq _ _)) by lia.
    pose proof (store_hok _ _ _ _ _ H1 Hfits E2) as H2.
    destruct (foldm_total (publish h2 nf) (fun f => length f = length (np_out p)) (zip (seq (op_out op).1 (length os)) os) fb) as (fb' & -> & _); [|done|by eexists].
    intros f [i b] Hx Hf. unfold publish. cbn [fst snd].
    assert (Hi : i ∈ seq (op_out op).1 (length os)) by (by eapply elem_of_zip_l). assert (Hb : b ∈ os) by (by eapply elem_of_zip_r).
    destruct (read_total h2 _ b (nf - 1) H2 (Ho b Hb) ltac:(lia)) as [v ->]. cbn [mbind option_bind].
    apply elem_of_seq in Hi. rewrite (proj2 (Nat.ltb_lt _ _)) by (destruct F1; lia). eexists. split; [done|]. by rewrite insert_length.
  Qed.

  Lemma process_total h e st nf l : sinv h e -> hok h (owned (ex_prog e) ++ l) -> running (ex_prog e) -> 0 < nf <= block_size -> monitor_ready e ->
    is_Some (exec_process fadd mix node_sem h e st nf).
  Proof.
    intros Hs Hh Hr Hnf Hm. unfold exec_process.
    destruct (smoothers_total h e nf _ Hs Hh) as [[h1 e1] E1]; [intros b Hb; rewrite elem_of_app; left; by apply inp_owned|done|lia|].
    rewrite E1. cbn [mbind option_bind]. destruct (exec_smoothers_hok _ _ _ _ _ _ _ Hh E1) as [H1 S1].
    assert (Hp : ex_mon e1 = ex_mon e /\ np_out (ex_prog e1) = np_out (ex_prog e) /\ np_cur (ex_prog e1) = np_cur (ex_prog e) /\ owned (ex_prog e1) = owned (ex_prog e)).
    { revert E1. unfold exec_smoothers. destruct (refresh_targets _ _ _); cbn [mbind option_bind]; [|done].
      destruct (run_smoothers _ _ _ _ _ _ _) as [[[[h2 ps] rf] sms]|]; cbn [mbind option_bind]; [|done]. by intros [= <- <-]. }
    destruct Hp as (Pm & Po & Pc & Pw). pose proof (same_shape_running _ _ S1 Hr) as Hr1.
    destruct (foldm_total (exec_op mix node_sem (ex_prog e1) nf) (fun w => hok w.1.1 (owned (ex_prog e) ++ l) /\ length w.2 = length (np_out (ex_prog e1))) (np_ops (ex_prog e1)) (h1, st, np_fb (ex_prog e1))) as ([[h2 st2] fb2] & -> & [H2 _]).
    { intros [[h0 st0] fb0] op Hop [A1 A2]. cbn [fst snd] in *.
      destruct (exec_op_total (ex_prog e1) nf h0 st0 fb0 op l Hr1 Hop) as [[[h3 st3] fb3] E]; [by rewrite Pw|done|done|].
      exists (h3, st3, fb3). split; [done|]. cbn [fst snd]. destruct (exec_op_hok mix node_sem Hfit _ _ _ _ _ _ _ _ _ _ A1 E) as [? ?]. split; [done|lia]. }
    { cbn [fst snd]. split; [done|]. apply (rn_fb _ Hr1). }
    cbn [mbind option_bind fst] in *.
    destruct (foldm_total (monitor_slot (ex_prog e1) h2 nf) (fun _ => True) (zip (seq 0 (length (ex_mon e1))) (ex_mon e1)) []) as (fed & -> & _); [|done|by eexists].
    intros fd [k o] Hx _. apply elem_of_lookup_zip_with in Hx as (j & k' & o' & Hko & Hk & Ho). injection Hko as <- <-.
    apply lookup_seq in Hk as [-> _]. unfold monitor_slot. cbn [fst snd]. destruct o as [idx|]; [|by eexists].
    change (0 + j) with j. rewrite Pm in Ho. pose proof (Hm j idx Ho) as Hi. rewrite Po, Pc.
    assert (Hb : exists b, (if 2 <? j then np_out (ex_prog e) !! idx else mjoin (np_cur (ex_prog e) !! idx)) = Some b /\ b ∈ owned (ex_prog e) ++ l).
    { destruct (Nat.ltb_spec 2 j) as [Hlt|Hlt].
      - rewrite decide_True in Hi by lia. destruct (lookup_lt_is_Some_2 _ _ Hi) as [b Hb]. exists b. split; [done|].
        unfold owned. rewrite !elem_of_app. left. right. left. by eapply elem_of_list_lookup_2.
      - rewrite decide_False in Hi by lia. destruct Hi as [b Hb]. exists b. rewrite Hb. split; [done|]. rewrite elem_of_app. left.
        apply (rn_ptrs _ Hr). unfold pointers. rewrite !elem_of_app. right. left. apply elem_of_list_omap. exists (Some b). split; [by eapply elem_of_list_lookup_2|done]. }
    destruct Hb as (b & -> & Hb). cbn [mbind option_bind]. destruct (hok_at h2 _ b H2 Hb) as (c & -> & _). by eexists.
  Qed.
End total.
