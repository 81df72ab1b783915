(** One block evaluates the graph as a dataflow program: proofs *)
From Verif Require Import Base M_Atom M_Graph M_Dir M_Grid S_Grid M_Layout S_Layout M_Prog M_Conf M_Exec M_Sync M_Engine.
From Verif Require Import S_Conf S_Sync S_Prog S_Own S_Flow L_Graph L_Conf L_Prog L_Own L_Own2 L_Own3.
Open Scope nat_scope.
Local Opaque block_size.

Lemma slice_spec {A} r (l s : list A) : slice r l = Some s ->
  r.1 <= r.2 /\ r.2 <= length l /\ length s = r.2 - r.1 /\ forall j, j < length s -> s !! j = l !! (r.1 + j).
Proof.
  unfold slice. destruct (Nat.leb_spec r.1 r.2); [|done]. destruct (Nat.leb_spec r.2 (length l)); [|done]. cbn. intros [= <-].
  rewrite take_length, drop_length. repeat split; try lia. intros j Hj. rewrite lookup_take by lia. by rewrite lookup_drop.
Qed.

Lemma foldm_trace {A B} (f : B -> A -> option B) l : forall w w', foldm f w l = Some w' ->
  exists ws : list B, ws !! 0 = Some w /\ ws !! length l = Some w' /\
    forall i x, l !! i = Some x -> exists a b, ws !! i = Some a /\ ws !! S i = Some b /\ f a x = Some b.
Proof.
  induction l as [|x l IH]; intros w w'; cbn [foldm].
  - intros [= <-]. exists [w]. repeat split; try done.
  - destruct (f w x) as [w1|] eqn:E; cbn [mbind option_bind]; [|done]. intros (ws & H0 & Hn & Hs)%IH.
    exists (w :: ws). repeat split; try done. intros [|i] y Hy.
    + injection Hy as <-. exists w, w1. done.
    + apply Hs in Hy as (a & b & ? & ? & ?). by exists a, b.
Qed.

Section mods.
  Context (mix : f32 -> f32 -> f32 -> f32).

  Lemma modop_frames m ib ob k n h h' : ib <> mo_buf m -> ob <> mo_buf m ->
    foldm (modop_frame mix m ib ob) h (seq k n) = Some h' ->
    (forall b, b <> mo_buf m -> h_bufs h' !! b = h_bufs h !! b) /\
    (n <> 0 -> exists c ci co, h_bufs h' !! mo_buf m = Some c /\ h_bufs h !! ib = Some ci /\ h_bufs h !! ob = Some co /\
      (forall f, k <= f < k + n -> exists a o, ci !! f = Some a /\ co !! f = Some o /\ c !! f = Some (mix a (mo_amt m) o)) /\
      (forall f c0, h_bufs h !! mo_buf m = Some c0 -> f < k -> c !! f = c0 !! f)).
  Proof.
    intros Hi Ho. revert k h. induction n as [|n IH]; intros k h; cbn [seq foldm].
    - intros [= <-]. by split.
    - destruct (modop_frame mix m ib ob h k) as [h1|] eqn:E1; cbn [mbind option_bind]; [|done]. intros E.
      assert (Hh1 : exists ci co a o c0, h_bufs h !! ib = Some ci /\ h_bufs h !! ob = Some co /\ ci !! k = Some a /\ co !! k = Some o /\
         h_bufs h !! mo_buf m = Some c0 /\ k < length c0 /\ h_bufs h1 = <[mo_buf m := <[k := mix a (mo_amt m) o]> c0]> (h_bufs h)).
      { revert E1. clear. unfold modop_frame, buf_read, buf_write. destruct (h_bufs h !! ib) as [ci|]; cbn [mbind option_bind]; [|done].
        destruct (ci !! k) as [a|] eqn:Ea; cbn [mbind option_bind]; [|done].
        destruct (h_bufs h !! ob) as [co|] eqn:Eo; cbn [mbind option_bind]; [|done].
        destruct (co !! k) as [o|] eqn:Eb; cbn [mbind option_bind]; [|done].
        destruct (h_bufs h !! mo_buf m) as [c0|] eqn:Ec; cbn [mbind option_bind]; [|done].
        destruct (Nat.ltb_spec k (length c0)) as [Hk|]; [|done]. intros [= <-]. by exists ci, co, a, o, c0. }
      destruct Hh1 as (ci & co & a & o & c0 & Ei & Eo & Ea & Eb & Ec & Hk & Eh1).
      destruct (IH (S k) h1 E) as [H1 H2]. rewrite Eh1 in H1, H2. split.
      + intros b Hb. rewrite H1 by done. by apply lookup_insert_ne.
      + intros _. destruct n as [|n].
        * cbn in E. injection E as <-. rewrite Eh1. exists (<[k := mix a (mo_amt m) o]> c0), ci, co. rewrite lookup_insert.
          split; [done|]. split; [done|]. split; [done|]. split.
          -- intros f Hf. assert (f = k) as -> by lia. exists a, o. rewrite list_lookup_insert by done. done.
          -- intros f c1 Hc1 Hf. rewrite Ec in Hc1. injection Hc1 as <-. by rewrite list_lookup_insert_ne by lia.
        * destruct H2 as (c & ci' & co' & Hc & Hci & Hco & Hf1 & Hf2); [done|].
          rewrite lookup_insert_ne in Hci by done. rewrite lookup_insert_ne in Hco by done. rewrite Ei in Hci. rewrite Eo in Hco.
          injection Hci as <-. injection Hco as <-. exists c, ci, co. split; [done|]. split; [done|]. split; [done|]. split.
          -- intros f Hf. destruct (decide (f = k)) as [->|]; [|apply Hf1; lia]. exists a, o. split; [done|]. split; [done|].
             rewrite (Hf2 k _ (lookup_insert _ _ _)) by lia. by apply list_lookup_insert.
          -- intros f c1 Hc1 Hf. rewrite Ec in Hc1. injection Hc1 as <-. rewrite (Hf2 f _ (lookup_insert _ _ _)) by lia. by rewrite list_lookup_insert_ne by lia.
  Qed.

  (** the modulators of an operation *)
  Lemma mods_process nf (ms : list modop) h h' : 0 < nf -> NoDup (mo_buf <$> ms) ->
    (forall m b, m ∈ ms -> mo_in m = Some b \/ mo_out m = Some b -> b ∉ mo_buf <$> ms) ->
    foldm (modop_process mix nf) h ms = Some h' ->
    (forall b, b ∉ mo_buf <$> ms -> h_bufs h' !! b = h_bufs h !! b) /\
    (forall m, m ∈ ms -> is_Some (mo_in m) -> exists ib ob c ci co, mo_in m = Some ib /\ mo_out m = Some ob /\
      h_bufs h' !! mo_buf m = Some c /\ h_bufs h !! ib = Some ci /\ h_bufs h !! ob = Some co /\
      forall f, f < nf -> exists a o, ci !! f = Some a /\ co !! f = Some o /\ c !! f = Some (mix a (mo_amt m) o)).
  Proof.
    intros Hnf. revert h. induction ms as [|m ms IH]; intros h Hnd Hin; cbn [foldm].
    - intros [= <-]. split; [done|]. by intros ? ?%elem_of_nil.
    - cbn [fmap list_fmap] in Hnd, Hin. apply NoDup_cons in Hnd as [Hm Hnd].
      destruct (modop_process mix nf h m) as [h1|] eqn:E1; cbn [mbind option_bind]; [|done]. intros E2.
      destruct (IH h1 Hnd) as [F2 M2]; [|done|].
      { intros x b Hx Hb ?. apply (Hin x b); [by right|done|by right]. }
      assert (H1 : (forall b, b <> mo_buf m -> h_bufs h1 !! b = h_bufs h !! b) /\
        (is_Some (mo_in m) -> exists ib ob c ci co, mo_in m = Some ib /\ mo_out m = Some ob /\
          h_bufs h1 !! mo_buf m = Some c /\ h_bufs h !! ib = Some ci /\ h_bufs h !! ob = Some co /\
          forall f, f < nf -> exists a o, ci !! f = Some a /\ co !! f = Some o /\ c !! f = Some (mix a (mo_amt m) o))).
      { unfold modop_process in E1. destruct (mo_in m) as [ib|] eqn:Ei.
        - destruct (mo_out m) as [ob|] eqn:Eo.
          + destruct (modop_frames m ib ob 0 nf h h1) as [F1 M1].
            * intros ->. apply (Hin m (mo_buf m)); [left|by left|left].
            * intros ->. apply (Hin m (mo_buf m)); [left|by right|left].
            * done.
            * split; [done|]. intros _. destruct M1 as (c & ci & co & ? & ? & ? & Hf & _); [lia|].
              exists ib, ob, c, ci, co. split_and!; try done. intros f Hf1. apply Hf. lia.
          + destruct (Nat.eqb_spec nf 0); [lia|done].
        - injection E1 as <-. split; [done|]. by intros [? ?]. }
      destruct H1 as [F1 M1]. split.
      + intros b [Hb1 Hb2]%not_elem_of_cons. rewrite F2 by done. by apply F1.
      + intros x [->|Hx]%elem_of_cons Hs.
        * destruct (M1 Hs) as (ib & ob & c & ci & co & ? & ? & ? & ? & ? & ?). exists ib, ob, c, ci, co. split_and!; try done.
          by rewrite F2.
        * destruct (M2 x Hx Hs) as (ib & ob & c & ci & co & Hib & Hob & ? & Hci & Hco & ?). exists ib, ob, c, ci, co. split_and!; try done.
          -- rewrite <- F1; [done|]. intros ->. apply (Hin x (mo_buf m)); [by right|by left|left].
          -- rewrite <- F1; [done|]. intros ->. apply (Hin x (mo_buf m)); [by right|by right|left].
  Qed.
End mods.

Lemma store_spec ps : forall bs h h', NoDup ps -> length bs = length ps -> store_bufs h ps bs = Some h' ->
  (forall b, b ∉ ps -> h_bufs h' !! b = h_bufs h !! b) /\
  (forall j b, ps !! j = Some b -> h_bufs h' !! b = bs !! j).
Proof.
  unfold store_bufs. induction ps as [|p ps IH]; intros bs h h' Hnd Hl.
  - cbn. intros [= <-]. done.
  - destruct bs as [|c bs]; [done|]. cbn [zip zip_with foldm]. apply NoDup_cons in Hnd as [Hp Hnd].
    cbn [fst snd]. destruct (buf_put h p c) as [h1|] eqn:E1; cbn [mbind option_bind]; [|done]. intros E.
    assert (Eh1 : h_bufs h1 = <[p := c]> (h_bufs h)).
    { revert E1. unfold buf_put. destruct (h_bufs h !! p); cbn [mbind option_bind]; [|done]. by intros [= <-]. }
    destruct (IH bs _ _ Hnd ltac:(cbn in Hl; lia) E) as [H1 H2]. rewrite Eh1 in H1. split.
    + intros b [Hb1 Hb2]%not_elem_of_cons. rewrite H1 by done. by apply lookup_insert_ne.
    + intros [|j] b Hb; cbn in Hb.
      * injection Hb as <-. rewrite H1 by done. cbn. by rewrite lookup_insert.
      * by apply H2.
Qed.

Lemma mapM_all {A B} (f : A -> option B) l k : mapM f l = Some k -> length k = length l /\ forall j x, l !! j = Some x -> k !! j = f x.
Proof.
  intros E%mapM_Some. split; [symmetry; by eapply Forall2_length|]. intros j x Hx.
  destruct (Forall2_lookup_l _ _ _ _ _ E Hx) as (y & -> & ->). done.
Qed.

Section smooth_frame.
  Context (fadd : f32 -> f32 -> f32).
  Lemma buf_fill_frame h b v h' x : buf_fill h b v = Some h' -> x <> b -> h_bufs h' !! x = h_bufs h !! x.
  Proof. unfold buf_fill. destruct (h_bufs h !! b); cbn [mbind option_bind]; [|done]. intros [= <-] Hx. cbn. by apply lookup_insert_ne. Qed.
  Lemma buf_write_frame h b i v h' x : buf_write h b i v = Some h' -> x <> b -> h_bufs h' !! x = h_bufs h !! x.
  Proof.
    unfold buf_write. destruct (h_bufs h !! b); cbn [mbind option_bind]; [|done]. destruct (_ <? _); [|done].
    intros [= <-] Hx. cbn. by apply lookup_insert_ne.
  Qed.
  Lemma refresh_frame inp rl h h' x : refresh_targets h inp rl = Some h' -> x ∉ inp -> h_bufs h' !! x = h_bufs h !! x.
  Proof.
    revert h. induction rl as [|[i v] rl IH]; intros h; cbn [refresh_targets]; [by intros [= <-]|].
    destruct (inp !! i) as [b|] eqn:Eb; cbn [mbind option_bind]; [|done].
    destruct (buf_fill h b v) as [h1|] eqn:E; cbn [mbind option_bind]; [|done]. intros H1 Hx. rewrite (IH _ H1 Hx).
    eapply buf_fill_frame; [exact E|]. intros ->. apply Hx. by eapply elem_of_list_lookup_2.
  Qed.
  Lemma run_smoother_frame b n f s v h h' s' v' x : run_smoother fadd h b f n s v = Some (h', s', v') -> x <> b -> h_bufs h' !! x = h_bufs h !! x.
  Proof.
    revert f s v h. induction n as [|n IH]; intros f s v h; cbn [run_smoother]; [by intros [= <- _ _]|].
    destruct (sm_next fadd s) as [s1 v1]. destruct (buf_write h b f v1) as [h1|] eqn:E; cbn [mbind option_bind]; [|done].
    intros H1 Hx. rewrite (IH _ _ _ _ H1 Hx). by eapply buf_write_frame.
  Qed.
  Lemma run_smoothers_frame inp nf sms ps rf h h' ps' rf' sms' x :
    run_smoothers fadd h inp nf ps rf sms = Some (h', ps', rf', sms') -> x ∉ inp -> h_bufs h' !! x = h_bufs h !! x.
  Proof.
    intros E Hx. revert ps rf h ps' rf' sms' E. induction sms as [|[i s] sms IH]; intros ps rf h ps' rf' sms'; cbn [run_smoothers]; [by intros [= <- <- _ _]|].
    destruct (sm_done s).
    - destruct (run_smoothers _ h _ _ _ _ sms) as [[[[h1 ps1] rf1] sms1]|] eqn:E; cbn [mbind option_bind]; [|done].
      intros [= <- <- <- <-]. by eapply IH.
    - destruct (inp !! i) as [b|] eqn:Eb; cbn [mbind option_bind]; [|done].
      destruct (run_smoother _ h b 0 nf s f32_zero) as [[[h1 s1] v1]|] eqn:E1; cbn [mbind option_bind]; [|done].
      destruct (i <? length ps); [|done].
      destruct (run_smoothers _ h1 _ _ _ _ sms) as [[[[h2 ps2] rf2] sms2]|] eqn:E; cbn [mbind option_bind]; [|done].
      intros [= <- <- <- <-]. rewrite (IH _ _ _ _ _ _ E). eapply run_smoother_frame; [exact E1|].
      intros ->. apply Hx. by eapply elem_of_list_lookup_2.
  Qed.
  Lemma exec_smoothers_frame h e nf h' e' x : exec_smoothers fadd h e nf = Some (h', e') -> x ∉ np_inp (ex_prog e) ->
    h_bufs h' !! x = h_bufs h !! x.
  Proof.
    unfold exec_smoothers. destruct (refresh_targets _ _ _) as [h1|] eqn:E1; cbn [mbind option_bind]; [|done].
    destruct (run_smoothers _ _ _ _ _ _ _) as [[[[h2 ps] rf] sms]|] eqn:E2; cbn [mbind option_bind]; [|done].
    intros [= <- <-] Hx. rewrite (run_smoothers_frame _ _ _ _ _ _ _ _ _ _ _ E2 Hx). by eapply refresh_frame.
  Qed.
  Lemma exec_smoothers_prog h e nf h' e' : exec_smoothers fadd h e nf = Some (h', e') ->
    exists ps, ex_prog e' = prog_with_params (ex_prog e) ps.
  Proof.
    unfold exec_smoothers. destruct (refresh_targets _ _ _) as [h1|] eqn:E1; cbn [mbind option_bind]; [|done].
    destruct (run_smoothers _ _ _ _ _ _ _) as [[[[h2 ps] rf] sms]|] eqn:E2; cbn [mbind option_bind]; [|done].
    intros [= <- <-]. by exists ps.
  Qed.
End smooth_frame.

Section flow.
  Context (T : ntable) (mix : f32 -> f32 -> f32 -> f32).
  Context {St : Type}.
  Context (node_sem : node_id -> St -> nat -> N -> N -> list satom ->
                      list (list f32) -> list (list f32) -> list (list f32) -> St * list (list f32)).
  Context (Hfit : node_fits node_sem).

  Lemma exec_op_inv p nf h st fb op h' st' fb' : exec_op mix node_sem p nf (h, st, fb) op = Some (h', st', fb') ->
    exists mods h1 ps pb ats is ib os ob outs, slice (op_mod op) (np_mods p) = Some mods /\ foldm (modop_process mix nf) h mods = Some h1 /\
      slice (op_in op) (np_inp p) = Some ps /\ load_bufs h1 ps = Some pb /\ slice (op_at op) (np_atoms p) = Some ats /\
      slice (op_in op) (np_cur p) = Some is /\ load_curs h1 is = Some ib /\ slice (op_out op) (np_out p) = Some os /\
      load_bufs h1 os = Some ob /\ node_sem (op_node op) st nf (op_outc op) (op_inc op) ats pb ib ob = (st', outs) /\
      store_bufs h1 os outs = Some h'.
  Proof.
    unfold exec_op.
    destruct (slice (op_mod op) _) as [mods|]; cbn [mbind option_bind]; [|done].
    destruct (foldm _ h mods) as [h1|] eqn:E1; cbn [mbind option_bind]; [|done].
    destruct (slice (op_in op) (np_inp p)) as [ps|]; cbn [mbind option_bind]; [|done].
    destruct (load_bufs h1 ps) as [pb|] eqn:?; cbn [mbind option_bind]; [|done].
    destruct (slice (op_at op) _) as [ats|]; cbn [mbind option_bind]; [|done].
    destruct (slice (op_in op) (np_cur p)) as [is|]; cbn [mbind option_bind]; [|done].
    destruct (load_curs h1 is) as [ib|] eqn:?; cbn [mbind option_bind]; [|done].
    destruct (slice (op_out op) _) as [os|]; cbn [mbind option_bind]; [|done].
    destruct (load_bufs h1 os) as [ob|] eqn:Eo; cbn [mbind option_bind]; [|done].
    destruct (node_sem _ _ _ _ _ _ _ _ _) as [st1 outs] eqn:?.
    destruct (store_bufs h1 os outs) as [h2|] eqn:E2; cbn [mbind option_bind]; [|done].
    destruct (nf =? 0); [done|].
    destruct (foldm _ fb _) as [fb1|] eqn:E3; cbn [mbind option_bind]; [|done]. intros [= <- <- <-].
    exists mods, h1, ps, pb, ats, is, ib, os, ob, outs. done.
  Qed.

  (** the buffers an operation writes *)
  Definition writes (p : nprog) (op : nodeop) (x : nat) : Prop :=
    (exists k, (op_mod op).1 <= k < (op_mod op).2 /\ mo_buf <$> np_mods p !! k = Some x) \/
    (exists j, (op_out op).1 <= j < (op_out op).2 /\ np_out p !! j = Some x).

  Context (g : grid) (modamt : gmap (node_id * nat) (option f32)) (p : nprog).
  Context (Hw : wired T g modamt p) (Hnd : NoDup (owned p)).

  Lemma owned_parts : NoDup (np_inp p) /\ NoDup (np_out p) /\ NoDup (mo_buf <$> np_mods p) /\
    (forall x, x ∈ np_inp p -> x ∉ np_out p /\ x ∉ mo_buf <$> np_mods p) /\ (forall x, x ∈ np_out p -> x ∉ mo_buf <$> np_mods p).
  Proof.
    unfold owned in Hnd. apply NoDup_app in Hnd as (H1 & H2 & H3). apply NoDup_app in H3 as (H3 & H4 & H5).
    split_and!; try done. intros x Hx. apply H2 in Hx. rewrite elem_of_app in Hx. tauto.
  Qed.

  Lemma lookup_fm (ms : list modop) k x : mo_buf <$> ms !! k = Some x -> (mo_buf <$> ms) !! k = Some x.
  Proof. by rewrite list_lookup_fmap. Qed.

  Lemma writes_input op x : writes p op x -> x ∉ np_inp p.
  Proof.
    destruct owned_parts as (_ & _ & _ & H & _). intros [(k & _ & Hk%lookup_fm)|(j & _ & Hj)] Hx; apply H in Hx as [H1 H2].
    - by apply H2, elem_of_list_lookup_2 with k.
    - by apply H1, elem_of_list_lookup_2 with j.
  Qed.

  Lemma op_index i k op op' : np_ops p !! i = Some op -> np_ops p !! k = Some op' -> op_node op = op_node op' -> i = k.
  Proof.
    intros Hi Hk E. destruct (w_order _ _ _ _ Hw) as (Hno & _). eapply (NoDup_lookup _ _ _ (op_node op) Hno).
    - by rewrite list_lookup_fmap, Hi.
    - by rewrite list_lookup_fmap, Hk, E.
  Qed.

  Lemma writes_once i k op op' x : np_ops p !! i = Some op -> np_ops p !! k = Some op' -> writes p op x -> writes p op' x -> i = k.
  Proof.
    intros Hi Hk H1 H2. destruct (decide (op_node op = op_node op')) as [E|E]; [by eapply op_index|]. exfalso.
    destruct (w_disjoint _ _ _ _ Hw op op' (elem_of_list_lookup_2 _ _ _ Hi) (elem_of_list_lookup_2 _ _ _ Hk) E) as (D1 & _ & _ & D4).
    destruct owned_parts as (_ & N1 & N2 & _ & N3).
    destruct H1 as [(a & Ra & Ha%lookup_fm)|(a & Ra & Ha)], H2 as [(b & Rb & Hb%lookup_fm)|(b & Rb & Hb)].
    - rewrite (NoDup_lookup _ _ _ _ N2 Ha Hb) in Ra. by apply (D4 b).
    - apply (N3 x); by eapply elem_of_list_lookup_2.
    - apply (N3 x); by eapply elem_of_list_lookup_2.
    - rewrite (NoDup_lookup _ _ _ _ N1 Ha Hb) in Ra. by apply (D1 b).
  Qed.

  Lemma out_writes op j b : op ∈ np_ops p -> j < kind_outs T (op_node op) -> out_buf p op j = Some b -> writes p op b.
  Proof.
    intros Ho Hj Hb. destruct (w_sizes _ _ _ _ Hw op Ho) as [[H1 H2] _]. right. exists ((op_out op).1 + j). split; [lia|done].
  Qed.

  Lemma feeds_index i k op src q d e : np_ops p !! i = Some op -> np_ops p !! k = Some src -> wire T g q d e ->
    op_node op = e_to e -> op_node src = e_from e -> k < i.
  Proof.
    intros Hi Hk [Hc _] E1 E2. destruct (w_order _ _ _ _ Hw) as (Hno & _ & Hf).
    destruct (proj1 (before_lookup _ _ _) (Hf (e_from e) (e_to e) (ex_intro _ q (ex_intro _ d (ex_intro _ e (conj Hc (conj eq_refl eq_refl))))))) as (a & b & Hab & Ha & Hb).
    assert (a = k) as ->. { eapply (NoDup_lookup _ _ _ (e_from e) Hno); [done|]. by rewrite list_lookup_fmap, Hk; cbn; rewrite E2. }
    assert (b = i) as ->. { eapply (NoDup_lookup _ _ _ (e_to e) Hno); [done|]. by rewrite list_lookup_fmap, Hi; cbn; rewrite E1. }
    done.
  Qed.

  Context (Hr : running p).

  Lemma mod_wire i op m mo : np_ops p !! i = Some op -> (op_mod op).1 <= m < (op_mod op).2 -> np_mods p !! m = Some mo ->
    mo_in mo = None /\ mo_out mo = None \/
    exists ib ob k src, mo_in mo = Some ib /\ mo_out mo = Some ob /\ ib ∈ np_inp p /\ k < i /\ np_ops p !! k = Some src /\ writes p src ob.
  Proof.
    intros Hi Hm Hmo.
    destruct (w_mods _ _ _ _ Hw m mo Hmo) as [Hn|(q & d & e & src & dst & k & He & Hs & Es & Hd & Ed & -> & (Hk & _ & [ib Hin] & Ein & [ob Hout] & Eout))].
    - left. split; [done|]. pose proof (proj1 (Forall_forall _ _) (rn_mods _ Hr) mo (elem_of_list_lookup_2 _ _ _ Hmo)) as H. cbn in H.
      destruct (mo_out mo); [|done]. rewrite Hn in H. by destruct (proj2 H) as [? ?].
    - right. assert (dst = op) as ->.
      { destruct (decide (op_node dst = op_node op)) as [E|E].
        - apply elem_of_list_lookup in Hd as [x Hx]. pose proof (op_index _ _ _ _ Hx Hi E) as ->. congruence.
        - exfalso. destruct (w_disjoint _ _ _ _ Hw dst op Hd (elem_of_list_lookup_2 _ _ _ Hi) E) as (_ & _ & _ & D4).
          apply (D4 ((op_mod dst).1 + k)); [|done]. destruct (w_sizes _ _ _ _ Hw dst Hd) as (_ & _ & _ & [R1 R2]).
          apply lookup_lt_Some in Hk. lia. }
      apply elem_of_list_lookup in Hs as Hs'. destruct Hs' as [x Hx]. exists ib, ob, x, src. split_and!; try done.
      + rewrite Ein in Hin. by eapply elem_of_list_lookup_2.
      + eapply feeds_index; eauto.
      + rewrite Eout in Hout. eapply out_writes; [done| |done]. rewrite Es. apply He.
  Qed.

  (** one operation: frame, modulators, node *)
  Lemma exec_op_flow nf i op h st fb h' st' fb' l : 0 < nf -> np_ops p !! i = Some op -> hok h l ->
    exec_op mix node_sem p nf (h, st, fb) op = Some (h', st', fb') ->
    (forall x, ~ writes p op x -> h_bufs h' !! x = h_bufs h !! x) /\
    (forall m mo ib ob, (op_mod op).1 <= m < (op_mod op).2 -> np_mods p !! m = Some mo -> mo_in mo = Some ib -> mo_out mo = Some ob ->
       exists c ci co, h_bufs h' !! mo_buf mo = Some c /\ h_bufs h !! ib = Some ci /\ h_bufs h !! ob = Some co /\
         forall f, f < nf -> exists a o, ci !! f = Some a /\ co !! f = Some o /\ c !! f = Some (mix a (mo_amt mo) o)) /\
    exists ats own ins old outs,
      length ats = kind_ats T (op_node op) /\ length own = kind_ins T (op_node op) /\ length ins = kind_ins T (op_node op) /\
      length old = kind_outs T (op_node op) /\ length outs = kind_outs T (op_node op) /\
      (forall j, j < length ats -> ats !! j = np_atoms p !! ((op_at op).1 + j)) /\
      (forall j, j < length own -> own !! j = samples h (own_buf p op j)) /\
      (forall j, j < length ins -> exists b, read_buf p op j = Some b /\
         (~ (exists j', j' < kind_outs T (op_node op) /\ out_buf p op j' = Some b) -> ins !! j = h_bufs h' !! b)) /\
      (forall j, j < length old -> old !! j = samples h (out_buf p op j)) /\
      (forall j, j < length outs -> outs !! j = samples h' (out_buf p op j)) /\
      node_sem (op_node op) st nf (op_outc op) (op_inc op) ats own ins old = (st', outs).
  Proof.
    intros Hnf Hi Hh (mods & h1 & ps & pb & ats & is & ib & os & ob & outs & Em & Ef & Eps & Epb & Eat & Eis & Eib & Eos & Eob & En & Es)%exec_op_inv.
    assert (Ho : op ∈ np_ops p) by (by eapply elem_of_list_lookup_2).
    destruct (w_sizes _ _ _ _ Hw op Ho) as ([Z1 Z1'] & [Z2 Z2'] & [Z3 Z3'] & [Z4 Z4']).
    destruct owned_parts as (N1 & N2 & N3 & N4 & N5).
    apply slice_spec in Em as (_ & Lm & Sm & Im). apply slice_spec in Eps as (_ & _ & Sps & Ips). apply slice_spec in Eat as (_ & _ & Sat & Iat).
    apply slice_spec in Eis as (_ & _ & Sis & Iis). apply slice_spec in Eos as (_ & _ & Sos & Ios).
    assert (Hms : forall mo, mo ∈ mods -> exists m, (op_mod op).1 <= m < (op_mod op).2 /\ np_mods p !! m = Some mo).
    { intros mo [m Hm]%elem_of_list_lookup. pose proof (lookup_lt_Some _ _ _ Hm). exists ((op_mod op).1 + m). split; [lia|]. by rewrite <- Im. }
    assert (Hmb : forall x, x ∈ mo_buf <$> mods -> x ∈ mo_buf <$> np_mods p /\ writes p op x).
    { intros x (mo & -> & Hmo)%elem_of_list_fmap. destruct (Hms mo Hmo) as (m & Hm & Hmm). split.
      - apply elem_of_list_fmap. exists mo. split; [done|]. by eapply elem_of_list_lookup_2.
      - left. exists m. rewrite Hmm. done. }
    assert (NM : NoDup (mo_buf <$> mods)).
    { apply NoDup_alt. intros a b x Ha Hb. apply list_lookup_fmap_Some in Ha as (ma & Ha & ->), Hb as (mb & Hb & Eab).
      pose proof (lookup_lt_Some _ _ _ Ha). pose proof (lookup_lt_Some _ _ _ Hb). rewrite Im in Ha, Hb by done.
      assert ((op_mod op).1 + a = (op_mod op).1 + b); [|lia]. eapply (NoDup_lookup _ _ _ (mo_buf ma) N3).
      - by rewrite list_lookup_fmap, Ha.
      - by rewrite list_lookup_fmap, Hb; cbn; rewrite Eab. }
    destruct (mods_process mix nf mods h h1 Hnf NM) as [F1 M1]; [|done|].
    { intros mo b Hmo Hb Hin. destruct (Hms mo Hmo) as (m & Hm & Hmm). apply Hmb in Hin as [Hin1 Hin2].
      destruct (mod_wire i op m mo Hi Hm Hmm) as [[E1 E2]|(b1 & b2 & k & src & E1 & E2 & Hb1 & Hk & Hsrc & Hws)]; [destruct Hb; congruence|].
      destruct Hb as [Hb|Hb].
      - assert (b1 = b) as -> by congruence. by destruct (N4 _ Hb1).
      - assert (b2 = b) as -> by congruence. pose proof (writes_once _ _ _ _ _ Hsrc Hi Hws Hin2). lia. }
    assert (NO : NoDup os).
    { apply NoDup_alt. intros a b x Ha Hb. pose proof (lookup_lt_Some _ _ _ Ha). pose proof (lookup_lt_Some _ _ _ Hb).
      rewrite Ios in Ha, Hb by done. pose proof (NoDup_lookup _ _ _ _ N2 Ha Hb). lia. }
    assert (H1 : hok h1 l). { eapply (foldm_inv _ (fun h => hok h l)); [|exact Hh|exact Ef]. intros a x b _. intros. by eapply modop_hok. }
    destruct (mapM_lookup_all _ _ _ _ H1 Eob) as [Hob Lob].
    pose proof (Hfit (op_node op) st nf (op_outc op) (op_inc op) ats pb ib ob Hob) as [Lf _]. rewrite En in Lf. cbn [snd] in Lf.
    destruct (store_spec os outs h1 h' NO ltac:(congruence) Es) as [F2 S2].
    assert (Hos : forall x, x ∈ os -> x ∈ np_out p /\ writes p op x).
    { intros x [j Hj]%elem_of_list_lookup. pose proof (lookup_lt_Some _ _ _ Hj). rewrite Ios in Hj by done. split; [by eapply elem_of_list_lookup_2|].
      right. exists ((op_out op).1 + j). split; [lia|done]. }
    apply mapM_all in Epb as [Lpb Ipb]. apply mapM_all in Eib as [Lib Iib]. apply mapM_all in Eob as [_ Iob].
    split; [|split].
    - intros x Hx. rewrite F2 by (intros ?%Hos; tauto). apply F1. intros ?%Hmb. tauto.
    - intros m mo b1 b2 Hm Hmm E1 E2. assert (Hin : mo ∈ mods).
      { apply elem_of_list_lookup. exists (m - (op_mod op).1). rewrite Im by lia. by replace ((op_mod op).1 + (m - (op_mod op).1)) with m by lia. }
      destruct (M1 mo Hin) as (b1' & b2' & c & ci & co & E1' & E2' & Hc & Hci & Hco & Hf); [by rewrite E1|].
      assert (b1' = b1) as -> by congruence. assert (b2' = b2) as -> by congruence. exists c, ci, co. split_and!; try done.
      rewrite F2; [done|]. intros Hx%Hos. apply (N5 _ (proj1 Hx)). apply elem_of_list_fmap. exists mo. split; [done|]. by eapply elem_of_list_lookup_2.
    - exists ats, pb, ib, ob, outs. split_and!; try (unfold kind_ats, kind_ins, kind_outs in *; lia).
      + intros j Hj. by apply Iat.
      + intros j Hj. unfold samples, own_buf. rewrite <- Ips by lia. destruct (ps !! j) as [b|] eqn:Eb; [|apply lookup_ge_None in Eb; lia].
        cbn [mbind option_bind]. rewrite (Ipb _ _ Eb). apply F1. intros Hx%Hmb.
        assert (Hbi : b ∈ np_inp p); [|apply (proj2 (N4 _ Hbi)), Hx]. rewrite Ips in Eb by lia. by eapply elem_of_list_lookup_2.
      + intros j Hj. unfold read_buf. rewrite <- Iis by lia. destruct (is !! j) as [b|] eqn:Eb; [|apply lookup_ge_None in Eb; lia].
        pose proof (Iib _ _ Eb) as Eib. destruct b as [b|]; cbn in Eib; [|apply lookup_ge_None in Eib; lia].
        exists b. split; [done|]. intros Hno. rewrite Eib. symmetry. apply F2. intros [j' Hj']%elem_of_list_lookup. apply Hno.
        pose proof (lookup_lt_Some _ _ _ Hj'). exists j'. unfold out_buf. rewrite <- Ios by done. split; [unfold kind_outs in *; lia|done].
      + intros j Hj. unfold samples, out_buf. rewrite <- Ios by lia. destruct (os !! j) as [b|] eqn:Eb; [|apply lookup_ge_None in Eb; lia].
        cbn [mbind option_bind]. rewrite (Iob _ _ Eb). apply F1. intros Hx%Hmb. apply (N5 b); [|apply Hx].
        apply Hos. by eapply elem_of_list_lookup_2.
      + intros j Hj. unfold samples, out_buf. rewrite <- Ios by lia. destruct (os !! j) as [b|] eqn:Eb; [|apply lookup_ge_None in Eb; lia].
        cbn [mbind option_bind]. by rewrite (S2 _ _ Eb).
      + done.
  Qed.

  Lemma ops_flow nf h st fb h' st' fb' l : 0 < nf -> hok h l ->
    foldm (exec_op mix node_sem p nf) (h, st, fb) (np_ops p) = Some (h', st', fb') ->
    dataflow T mix node_sem p nf h h' st st' /\ (forall x, x ∉ np_out p -> x ∉ mo_buf <$> np_mods p -> h_bufs h' !! x = h_bufs h !! x).
  Proof.
    intros Hnf Hh E. destruct (foldm_trace _ _ _ _ E) as (ws & W0 & Wn & Ws).
    assert (Hok : forall i w, i <= length (np_ops p) -> ws !! i = Some w -> hok w.1.1 l).
    { induction i as [|i IH]; intros w Hi Hwi; [rewrite W0 in Hwi; by injection Hwi as <-|].
      destruct (lookup_lt_is_Some_2 (np_ops p) i ltac:(lia)) as [op Hop]. destruct (Ws i op Hop) as (a & b & Ha & Hb & Eab).
      rewrite Hb in Hwi. injection Hwi as <-. specialize (IH a ltac:(lia) Ha). destruct a as [[ha sa] fa], b as [[hb sb] fbb].
      by eapply exec_op_hok. }
    assert (Step : forall i op, np_ops p !! i = Some op -> exists ha sa fa hb sb fb1, ws !! i = Some (ha, sa, fa) /\ ws !! S i = Some (hb, sb, fb1) /\ hok ha l /\
       exec_op mix node_sem p nf (ha, sa, fa) op = Some (hb, sb, fb1)).
    { intros i op Hop. destruct (Ws i op Hop) as ([[ha sa] fa] & [[hb sb] fb1] & Ha & Hb & Eab). exists ha, sa, fa, hb, sb, fb1.
      split_and!; try done. apply (Hok i (ha, sa, fa)); [|done]. apply lookup_lt_Some in Hop. lia. }
    assert (Frame : forall n i x wa wb, ws !! i = Some wa -> ws !! (i + n) = Some wb -> i + n <= length (np_ops p) ->
       (forall m op, i <= m < i + n -> np_ops p !! m = Some op -> ~ writes p op x) -> h_bufs wb.1.1 !! x = h_bufs wa.1.1 !! x).
    { induction n as [|n IH]; intros i x wa wb Ha Hb Hle Hx.
      - rewrite Nat.add_0_r in Hb. congruence.
      - destruct (lookup_lt_is_Some_2 (np_ops p) (i + n) ltac:(lia)) as [op Hop].
        destruct (Step _ _ Hop) as (hc & sc & fc & hd & sd & fd & Hc & Hd & Hcok & Ecd).
        replace (i + S n) with (S (i + n)) in Hb by lia. rewrite Hd in Hb. injection Hb as <-. cbn [fst].
        destruct (exec_op_flow _ _ _ _ _ _ _ _ _ _ Hnf Hop Hcok Ecd) as [F _]. rewrite F by (eapply Hx; [|done]; lia).
        apply (IH i x wa (hc, sc, fc)); try done; [lia|]. intros m op' Hm. apply Hx. lia. }
    (* buffers not written from step i on have their final content there *)
    assert (Final : forall i x w, i <= length (np_ops p) -> ws !! i = Some w -> (forall m op, i <= m -> np_ops p !! m = Some op -> ~ writes p op x) ->
       h_bufs h' !! x = h_bufs w.1.1 !! x).
    { intros i x w Hi Hwi Hx. apply (Frame (length (np_ops p) - i) i x w (h', st', fb') Hwi).
      - by replace (i + (length (np_ops p) - i)) with (length (np_ops p)) by lia.
      - lia.
      - intros m op Hm. apply Hx. lia. }
    assert (Initial : forall i x w, i <= length (np_ops p) -> ws !! i = Some w -> (forall m op, m < i -> np_ops p !! m = Some op -> ~ writes p op x) ->
       h_bufs w.1.1 !! x = h_bufs h !! x).
    { intros i x w Hi Hwi Hx. apply (Frame i 0 x (h, st, fb) w W0 Hwi); [lia|]. intros m op Hm. apply Hx. lia. }
    split; [split|].
    - exists ((fun w : heap * St * list f32 => w.1.2) <$> ws). rewrite !list_lookup_fmap, W0, Wn. split; [done|]. split; [done|].
      intros i op Hop. destruct (Step _ _ Hop) as (ha & sa & fa & hb & sb & fb1 & Ha & Hb & Hak & Eab).
      pose proof (lookup_lt_Some _ _ _ Hop) as Hlt. assert (Ho : op ∈ np_ops p) by (by eapply elem_of_list_lookup_2).
      destruct (exec_op_flow _ _ _ _ _ _ _ _ _ _ Hnf Hop Hak Eab) as (F & M & ats & own & ins & old & outs & L1 & L2 & L3 & L4 & L5 & I1 & I2 & I3 & I4 & I5 & En).
      exists sa, sb. rewrite !list_lookup_fmap, Ha, Hb. split; [done|]. split; [done|].
      assert (After : forall x, writes p op x -> h_bufs h' !! x = h_bufs hb !! x).
      { intros x Hx. apply (Final (S i) x (hb, sb, fb1)); [lia|done|]. intros m op' Hm Hop' Hx'.
        pose proof (writes_once _ _ _ _ _ Hop Hop' Hx Hx'). lia. }
      exists ats, own, ins, old, outs. split_and!; try done.
      + intros j Hj. rewrite I2 by done. unfold samples. destruct (own_buf p op j) as [b|] eqn:Eb; [|done]. cbn [mbind option_bind].
        symmetry. apply (Final i b (ha, sa, fa)); [lia|done|]. intros m op' _ _ Hx%writes_input. apply Hx. by eapply elem_of_list_lookup_2.
      + intros j Hj. destruct (I3 j Hj) as (b & Eb & Hins).
        assert (Hsrc : b ∈ np_inp p \/ (exists m mo, (op_mod op).1 <= m < (op_mod op).2 /\ np_mods p !! m = Some mo /\ b = mo_buf mo) \/
                  exists k src, k < i /\ np_ops p !! k = Some src /\ writes p src b).
        { destruct (w_read _ _ _ _ Hw op j Ho ltac:(lia)) as [_ [[_ Hrd]|(q & d & e & src & He & Ee & Hs & Es & Hrd)]].
          - left. rewrite Eb in Hrd. symmetry in Hrd. by eapply elem_of_list_lookup_2.
          - right. apply elem_of_list_lookup in Hs as Hs'. destruct Hs' as [k Hk]. injection Ee as Ee1 Ee2.
            destruct (mjoin (modamt !! (op_node op, j))) as [a|].
            + left. destruct Hrd as (k1 & mo & (Hk1 & Hmo & _) & Hrd). exists ((op_mod op).1 + k1), mo. split_and!; try done; [lia| |congruence].
              apply lookup_lt_Some in Hk1. destruct (w_sizes _ _ _ _ Hw op Ho) as (_ & _ & _ & [Z4 Z4']). lia.
            + right. exists k, src. split; [by eapply feeds_index|]. split; [done|]. rewrite Eb in Hrd. eapply out_writes; [done| |by symmetry].
              rewrite Es. apply He. }
        unfold samples. rewrite Eb. cbn [mbind option_bind].
        destruct owned_parts as (N1 & N2 & N3 & N4 & N5).
        destruct Hsrc as [Hi|[(m & mo & Hm & Hmo & ->)|(k & src & Hk & Hksrc & Hws)]].
        * rewrite Hins.
          -- symmetry. apply (Final (S i) b (hb, sb, fb1)); [lia|done|]. by intros m op' _ _ Hx%writes_input.
          -- intros (j' & _ & Hj'). apply (proj1 (N4 _ Hi)). by eapply elem_of_list_lookup_2.
        * assert (Hwr : writes p op (mo_buf mo)) by (left; exists m; by rewrite Hmo). rewrite (After _ Hwr). apply Hins.
          intros (j' & _ & Hj'). apply (N5 (mo_buf mo)); [by eapply elem_of_list_lookup_2|]. apply elem_of_list_fmap. exists mo. split; [done|]. by eapply elem_of_list_lookup_2.
        * rewrite Hins.
          -- symmetry. apply (Final (S i) b (hb, sb, fb1)); [lia|done|]. intros m op' Hm Hop' Hx'. pose proof (writes_once _ _ _ _ _ Hksrc Hop' Hws Hx'). lia.
          -- intros (j' & Hlt' & Hj'). pose proof (writes_once _ _ _ _ _ Hksrc Hop Hws (out_writes op j' b Ho Hlt' Hj')). lia.
      + intros j Hj. rewrite I4 by done. unfold samples. destruct (out_buf p op j) as [b|] eqn:Eb; [|done]. cbn [mbind option_bind].
        apply (Initial i b (ha, sa, fa)); [lia|done|]. intros m op' Hm Hop' Hx'.
        pose proof (writes_once _ _ _ _ _ Hop' Hop Hx' (out_writes op j b Ho ltac:(lia) Eb)). lia.
      + intros j Hj. rewrite I5 by done. unfold samples. destruct (out_buf p op j) as [b|] eqn:Eb; [|done]. cbn [mbind option_bind].
        symmetry. apply After. eapply out_writes; [done| |done]. lia.
    - intros mo [m Hm]%elem_of_list_lookup [ib Hib].
      destruct (w_mods _ _ _ _ Hw m mo Hm) as [Hn|(q & d & e & src & op & k & He & Hs & Es & Hd & Ed & -> & (Hk & _ & _ & Ein & [ob Hout] & Eout))]; [congruence|].
      apply elem_of_list_lookup in Hd as Hd'. destruct Hd' as [i Hop]. pose proof (lookup_lt_Some _ _ _ Hop) as Hlt.
      assert (Hrange : (op_mod op).1 <= (op_mod op).1 + k < (op_mod op).2).
      { apply lookup_lt_Some in Hk. destruct (w_sizes _ _ _ _ Hw op Hd) as (_ & _ & _ & [Z4 Z4']). lia. }
      destruct (Step _ _ Hop) as (ha & sa & fa & hb & sb & fb1 & Ha & Hb & Hak & Eab).
      destruct (exec_op_flow _ _ _ _ _ _ _ _ _ _ Hnf Hop Hak Eab) as (F & M & _).
      destruct (M _ mo ib ob Hrange Hm Hib Hout) as (c & ci & co & Hc & Hci & Hco & Hf).
      destruct (mod_wire i op _ mo Hop Hrange Hm) as [[E1 _]|(ib' & ob' & k' & src' & E1 & E2 & Hin & Hk' & Hsrc' & Hws)]; [congruence|].
      assert (ib' = ib) as -> by congruence. assert (ob' = ob) as -> by congruence.
      exists ci, co, c. rewrite Hib, Hout. unfold samples. cbn [mbind option_bind]. split_and!; try done.
      + rewrite <- Hci. apply (Final i ib (ha, sa, fa)); [lia|done|]. by intros m' op' _ _ Hx%writes_input.
      + rewrite <- Hco. apply (Final i ob (ha, sa, fa)); [lia|done|]. intros m' op' Hm' Hop' Hx'. pose proof (writes_once _ _ _ _ _ Hsrc' Hop' Hws Hx'). lia.
      + rewrite <- Hc. apply (Final (S i) (mo_buf mo) (hb, sb, fb1)); [lia|done|]. intros m' op' Hm' Hop' Hx'.
        assert (Hwr : writes p op (mo_buf mo)) by (left; exists ((op_mod op).1 + k); by rewrite Hm).
        pose proof (writes_once _ _ _ _ _ Hop Hop' Hwr Hx'). lia.
    - intros x H1 H2. apply (Final 0 x (h, st, fb)); [lia|done|]. intros m op _ Hop [(k & _ & Hk%lookup_fm)|(j & _ & Hj)].
      + apply H2. by eapply elem_of_list_lookup_2.
      + apply H1. by eapply elem_of_list_lookup_2.
  Qed.
End flow.
