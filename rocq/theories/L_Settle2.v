(** Proofs about smoothing in the audio thread: a block *)
From Verif Require Import Base M_Atom M_Graph M_Dir M_Grid S_Grid M_Layout S_Layout M_Prog M_Conf M_Exec M_Sync M_Engine.
From Verif Require Import S_Conf S_Sync S_Prog S_Own L_Graph L_Grid L_Layout L_Conf L_Conf2 L_Sync L_Prog L_Build L_Fill L_Wire L_Own L_Own2 L_Own3 L_Flow S_Settle L_Settle.
Open Scope nat_scope.
Local Opaque block_size.

Section block.
  Context (fadd : f32 -> f32 -> f32).

  (** one smoother over the frames of a block *)
  Lemma run_one b n : forall f s v h h' s' v', run_smoother fadd h b f n s v = Some (h', s', v') ->
    sm_target s' = sm_target s /\ sm_slope s' = sm_slope s /\ sm_count s' = sm_count s - n /\
    sm_done s' = sm_done s || (sm_count s <? n) /\ (sm_count s < n -> v' = sm_target s).
  Proof.
    induction n as [|n IH]; intros f s v h h' s' v'; cbn [run_smoother].
    - intros [= <- <- <-]. split; [done|]. split; [done|]. split; [lia|]. split; [|lia].
      destruct (Nat.ltb_spec (sm_count s) 0); [lia|]. by rewrite orb_false_r.
    - destruct (sm_next fadd s) as [s1 v1] eqn:En. destruct (buf_write h b f v1) as [h1|]; cbn [mbind option_bind]; [|done].
      intros E. destruct (IH _ _ _ _ _ _ _ E) as (H1 & H2 & H3 & H4 & H5).
      unfold sm_next in En. destruct (sm_count s) as [|c] eqn:Ec.
      + injection En as <- <-. cbn in *. split; [done|]. split; [done|]. split; [lia|]. split.
        * rewrite H4. cbn. by rewrite orb_true_r.
        * intros _. destruct (decide (0 < n)) as [|Hn]; [by apply H5|]. assert (n = 0) as -> by lia. cbn in E. by injection E as _ _ <-.
      + injection En as <- <-. cbn in *. split; [done|]. split; [done|]. split; [lia|]. split.
        * rewrite H4. f_equal.
        * intros Hn. apply H5. lia.
  Qed.

  Definition runs (l : sms) : list nat := (filter (fun s => sm_done s.2 = false) l).*1.
  Lemma runs_in l i : i ∈ runs l <-> exists j s, l !! j = Some (i, s) /\ sm_done s = false.
  Proof.
    unfold runs. rewrite elem_of_list_fmap. split.
    - intros ([i0 s] & -> & [Hd [j Hj]%elem_of_list_lookup]%elem_of_list_filter). by exists j, s.
    - intros (j & s & Hj & Hd). exists (i, s). split; [done|]. apply elem_of_list_filter. split; [done|]. by eapply elem_of_list_lookup_2.
  Qed.
  Lemma runs_target l i : i ∈ runs l <-> is_Some (target_of l i).
  Proof.
    rewrite runs_in. split.
    - intros (j & s & Hj & Hd). destruct (target_of l i) eqn:E; [by eexists|]. rewrite (proj1 (target_none l i) E j s Hj) in Hd. done.
    - intros [v Hv]. destruct (target_some _ _ _ Hv) as (j & s & ? & ? & _). by exists j, s.
  Qed.
  Lemma one_cons x l : one_each (x :: l) -> one_each l.
  Proof. intros H j1 j2 i s1 s2 H1 H2 D1 D2. pose proof (H (S j1) (S j2) i s1 s2 H1 H2 D1 D2). lia. Qed.
  Lemma one_head i s l : one_each ((i, s) :: l) -> sm_done s = false -> i ∉ runs l.
  Proof.
    intros H Hd (j & s' & Hj & Hd')%runs_in. pose proof (H 0 (S j) i s s' eq_refl Hj Hd Hd'). done.
  Qed.

  (** what a block does to a smoother *)
  Definition aged (nf : nat) (x y : nat * smoother f32) : Prop :=
    y.1 = x.1 /\ sm_target y.2 = sm_target x.2 /\ sm_slope y.2 = sm_slope x.2 /\
    (sm_done x.2 = true -> y = x) /\
    (sm_done x.2 = false -> sm_count y.2 = sm_count x.2 - nf /\ sm_done y.2 = (sm_count x.2 <? nf)).

  Lemma run_all inp nf l : forall h ps rf h' ps' rf' l', NoDup inp -> one_each l ->
    run_smoothers fadd h inp nf ps rf l = Some (h', ps', rf', l') ->
    Forall2 (aged nf) l l' /\ length ps' = length ps /\ (forall k, k ∉ runs l -> ps' !! k = ps !! k) /\
    (exists r, rf' = rf ++ r /\ r.*1 = runs l /\ forall i v, (i, v) ∈ r -> ps' !! i = Some v) /\
    (forall j i s, l !! j = Some (i, s) -> sm_done s = false -> sm_count s < nf -> ps' !! i = Some (sm_target s)) /\
    (forall i b, inp !! i = Some b -> i ∉ runs l -> h_bufs h' !! b = h_bufs h !! b).
  Proof.
    induction l as [|[i s] l IH]; intros h ps rf h' ps' rf' l' Hnd Ho; cbn [run_smoothers].
    - intros [= <- <- <- <-]. split; [constructor|]. split; [done|]. split; [done|]. split.
      { exists []. rewrite app_nil_r. split; [done|]. split; [done|]. by intros ? ? ?%elem_of_nil. }
      split; [by intros j|done].
    - destruct (sm_done s) eqn:Ed.
      + destruct (run_smoothers fadd h inp nf ps rf l) as [[[[h1 ps1] rf1] l1]|] eqn:E; cbn [mbind option_bind]; [|done].
        intros [= <- <- <- <-]. destruct (IH _ _ _ _ _ _ _ Hnd (one_cons _ _ Ho) E) as (H1 & H2 & H3 & H4 & H5 & H6).
        assert (Hr : runs ((i, s) :: l) = runs l) by (unfold runs; rewrite filter_cons_False; [done|cbn; congruence]).
        rewrite Hr. split.
        { constructor; [|done]. unfold aged. split; [done|]. split; [done|]. split; [done|]. split; [done|]. cbn. congruence. }
        split; [done|]. split; [done|]. split; [done|]. split; [|done].
        intros [|j] k t; cbn; [intros [= <- <-]; congruence|]. by apply H5.
      + destruct (inp !! i) as [b|] eqn:Eb; cbn [mbind option_bind]; [|done].
        destruct (run_smoother fadd h b 0 nf s f32_zero) as [[[h1 s1] v1]|] eqn:E1; cbn [mbind option_bind]; [|done].
        destruct (Nat.ltb_spec i (length ps)) as [Hlt|]; [|done].
        destruct (run_smoothers fadd h1 inp nf (<[i:=v1]> ps) (rf ++ [(i, v1)]) l) as [[[[h2 ps2] rf2] l2]|] eqn:E2; cbn [mbind option_bind]; [|done].
        intros [= <- <- <- <-]. destruct (IH _ _ _ _ _ _ _ Hnd (one_cons _ _ Ho) E2) as (H1 & H2 & H3 & (r & H4 & H4' & H4'') & H5 & H6).
        destruct (run_one _ _ _ _ _ _ _ _ _ E1) as (R1 & R2 & R3 & R4 & R5). rewrite Ed in R4. cbn in R4.
        pose proof (one_head _ _ _ Ho Ed) as Hi.
        assert (Hr : runs ((i, s) :: l) = i :: runs l) by (unfold runs; rewrite filter_cons_True; [done|done]).
        assert (Hpi : ps2 !! i = Some v1) by (rewrite H3 by done; by rewrite list_lookup_insert).
        rewrite Hr. split.
        { constructor; [|done]. unfold aged. cbn. split; [done|]. split; [done|]. split; [done|]. split; [congruence|]. done. }
        split; [by rewrite H2, insert_length|]. split.
        { intros k [K1 K2]%not_elem_of_cons. rewrite H3 by done. by apply list_lookup_insert_ne. }
        split.
        { exists ((i, v1) :: r). rewrite H4, <- app_assoc. split; [done|]. split; [cbn; by rewrite H4'|].
          intros k v [[= -> ->]|Hx]%elem_of_cons; [done|by apply H4'']. }
        split.
        * intros [|j] k t; cbn.
          -- intros [= <- <-] _ Hc. rewrite Hpi. f_equal. by apply R5.
          -- by apply H5.
        * intros k x Hx [K1 K2]%not_elem_of_cons. rewrite (H6 k x Hx K2). eapply run_smoother_frame; [exact E1|].
          intros ->. apply K1. by eapply NoDup_lookup.
  Qed.

  Lemma refresh_spec inp rl : forall h h', NoDup inp -> refresh_targets h inp rl = Some h' ->
    (forall i b, inp !! i = Some b -> i ∉ rl.*1 -> h_bufs h' !! b = h_bufs h !! b) /\
    (forall i b v, inp !! i = Some b -> i ∈ rl.*1 -> (forall w, (i, w) ∈ rl -> w = v) ->
       forall c, h_bufs h !! b = Some c -> h_bufs h' !! b = Some (replicate (length c) v)).
  Proof.
    induction rl as [|[i0 v0] rl IH]; intros h h' Hnd; cbn [refresh_targets].
    - intros [= <-]. split; [done|]. intros i b v _ Hx. by apply elem_of_nil in Hx.
    - destruct (inp !! i0) as [b0|] eqn:Eb; cbn [mbind option_bind]; [|done].
      destruct (buf_fill h b0 v0) as [h1|] eqn:E1; cbn [mbind option_bind]; [|done]. intros E2.
      destruct (IH _ _ Hnd E2) as [F G]. split.
      + intros i b Hb [K1 K2]%not_elem_of_cons. rewrite (F i b Hb K2). eapply buf_fill_frame; [exact E1|].
        intros ->. apply K1. cbn. by eapply NoDup_lookup.
      + intros i b v Hb Hi Hw c Hc. destruct (decide (i ∈ rl.*1)) as [Hin|Hout].
        * assert (exists c1, h_bufs h1 !! b = Some c1 /\ length c1 = length c) as (c1 & Hc1 & Hl).
          { destruct (decide (b = b0)) as [->|Hne]; [|exists c; split; [by rewrite (buf_fill_frame _ _ _ _ b E1)|done]].
            revert E1. unfold buf_fill. rewrite Hc. cbn [mbind option_bind]. intros [= <-]. cbn. rewrite lookup_insert. eexists. split; [done|]. apply replicate_length. }
          rewrite <- Hl. apply (G i b v); [done|done| |done]. intros w Hw'. apply Hw. by right.
        * apply elem_of_cons in Hi as [->|Hi]; [|done]. cbn in *. rewrite Eb in Hb. injection Hb as <-.
          rewrite (F i0 b0 Eb Hout). assert (v0 = v) as -> by (apply Hw; left).
          revert E1. unfold buf_fill. rewrite Hc. cbn [mbind option_bind]. intros [= <-]. cbn. by rewrite lookup_insert.
  Qed.

  Lemma aged_target nf l l' i v : one_each l -> Forall2 (aged nf) l l' -> one_each l' ->
    target_of l' i = Some v -> target_of l i = Some v.
  Proof.
    intros Ho Hf Ho' Ht. destruct (target_some _ _ _ Ht) as (j & s' & Hj & Hd & <-).
    destruct (Forall2_lookup_r _ _ _ _ _ Hf Hj) as ([i0 s] & Hj0 & A1 & A2 & _ & A4 & _). cbn in *. subst i0.
    rewrite A2. apply target_in with j; [done|done|]. destruct (sm_done s) eqn:E; [|done]. rewrite <- Hd, <- E.
    specialize (A4 eq_refl). injection A4 as ->. congruence.
  Qed.

  Lemma smoothers_sinv h e nf l h' e' : sinv h e -> hok h (owned (ex_prog e) ++ l) -> running (ex_prog e) ->
    exec_smoothers fadd h e nf = Some (h', e') ->
    sinv h' e' /\ ev e' = ev e /\ Forall2 (aged nf) (ex_sm e) (ex_sm e') /\ (ex_refresh e').*1 = runs (ex_sm e).
  Proof.
    intros Hs Hh Hrun. unfold exec_smoothers.
    destruct (refresh_targets _ _ _) as [h1|] eqn:E1; cbn [mbind option_bind]; [|done].
    destruct (run_smoothers _ _ _ _ _ _ _) as [[[[h2 ps] rf] l']|] eqn:E2; cbn [mbind option_bind]; [|done].
    intros [= <- <-]. pose proof (si_one _ _ Hs) as Ho.
    assert (Hnd : NoDup (np_inp (ex_prog e))).
    { pose proof (proj1 (proj1 Hh)) as Hn. unfold owned in Hn. rewrite <- !app_assoc in Hn. by apply NoDup_app in Hn as [? _]. }
    destruct (run_all _ _ _ _ _ _ _ _ _ _ Hnd Ho E2) as (A1 & A2 & A3 & (r & A4 & A5 & A6) & A7 & A8). cbn in A4. subst rf.
    destruct (refresh_spec _ _ _ _ Hnd E1) as [B1 B2].
    assert (Ho' : one_each l').
    { intros j1 j2 i s1 s2 H1 H2 D1 D2.
      destruct (Forall2_lookup_r _ _ _ _ _ A1 H1) as ([i1 t1] & K1 & ? & _ & _ & X1 & _).
      destruct (Forall2_lookup_r _ _ _ _ _ A1 H2) as ([i2 t2] & K2 & ? & _ & _ & X2 & _). cbn in *. subst i1 i2.
      eapply Ho; [exact K1|exact K2| |].
      - destruct (sm_done t1) eqn:E; [|done]. specialize (X1 eq_refl). injection X1 as ->. congruence.
      - destruct (sm_done t2) eqn:E; [|done]. specialize (X2 eq_refl). injection X2 as ->. congruence. }
    assert (Hfin : forall i v, target_of (ex_sm e) i = Some v -> target_of l' i = None -> ps !! i = Some v).
    { intros i v Ht Hn. destruct (target_some _ _ _ Ht) as (j & s & Hj & Hd & <-).
      destruct (Forall2_lookup_l _ _ _ _ _ A1 Hj) as ([i' s'] & Hj' & X1 & _ & _ & _ & X5). cbn in X1, X5. subst i'.
      destruct (X5 Hd) as [_ Hd']. rewrite (proj1 (target_none l' i) Hn j s' Hj') in Hd'. symmetry in Hd'.
      apply Nat.ltb_lt in Hd'. by eapply A7. }
    assert (Hstay : forall i v, target_of l' i = Some v -> target_of (ex_sm e) i = Some v) by (intros; by eapply aged_target).
    split; [|split; [|split; [done|]]].
    - constructor; cbn [ex_sm ex_prog ex_refresh prog_with_params np_params np_inp].
      + done.
      + intros i v Ht. rewrite A2. by eapply (si_range _ _ Hs), Hstay.
      + intros i v Hin. split; [|right; by apply A6]. by eapply lookup_lt_Some, A6.
      + intros i b v Hb Hv Ht Hr. rewrite A5 in Hr. rewrite (A8 i b Hb Hr). rewrite A3 in Hv by done.
        assert (Hn : target_of (ex_sm e) i = None).
        { destruct (target_of (ex_sm e) i) eqn:E; [|done]. exfalso. apply Hr, runs_target. by rewrite E. }
        assert (Hin : b ∈ owned (ex_prog e) ++ l) by (unfold owned; rewrite !elem_of_app; left; left; by eapply elem_of_list_lookup_2).
        destruct (proj2 (proj1 (proj2 (proj1 Hh)) b) Hin) as [c Hc]. pose proof (proj2 (proj2 (proj1 Hh)) b c Hc) as Hcl.
        assert (Hrv : forall k, k ∈ (rev (ex_refresh e)).*1 <-> k ∈ (ex_refresh e).*1).
        { intros k. rewrite !elem_of_list_fmap. split; intros (y & -> & Hy); exists y; (split; [done|]); by rewrite !elem_of_list_In, <- in_rev in *. }
        destruct (decide (i ∈ (ex_refresh e).*1)) as [Hi|Hi].
        * rewrite <- Hcl. apply (B2 i b v Hb).
          -- by apply Hrv.
          -- intros w Hw. rewrite elem_of_list_In, <- in_rev, <- elem_of_list_In in Hw.
             destruct (si_ref _ _ Hs i w Hw) as [_ [[? ?]|Hpw]]; congruence.
          -- done.
        * rewrite (B1 i b Hb). { by eapply (si_buf _ _ Hs). }
          by rewrite Hrv.
    - unfold ev. cbn [ex_prog]. f_equal. apply list_eq. intros i. rewrite !ev_lookup. cbn [ex_prog ex_sm prog_with_params np_params].
      destruct (target_of (ex_sm e) i) as [v|] eqn:Et.
      + assert (Hlt : i < length (np_params (ex_prog e))) by (by eapply (si_range _ _ Hs)).
        destruct (lookup_lt_is_Some_2 _ _ Hlt) as [x Hx]. rewrite Hx. cbn.
        destruct (target_of l' i) as [w|] eqn:Et'.
        * apply Hstay in Et' as Et2. assert (w = v) as -> by congruence.
          destruct (lookup_lt_is_Some_2 ps i) as [y Hy]; [lia|]. by rewrite Hy.
        * by rewrite (Hfin i v Et Et').
      + rewrite A3. 2: { rewrite runs_target, Et. by intros [? ?]. }
        destruct (target_of l' i) as [w|] eqn:Et'; [|done]. apply Hstay in Et'. congruence.
    - cbn. done.
  Qed.

  Context (mix : f32 -> f32 -> f32 -> f32).
  Context {St : Type}.
  Context (node_sem : node_id -> St -> nat -> N -> N -> list satom ->
                      list (list f32) -> list (list f32) -> list (list f32) -> St * list (list f32)).

  Lemma slice_in {A} r (l s : list A) x : slice r l = Some s -> x ∈ s -> x ∈ l.
  Proof.
    unfold slice. destruct (_ && _); [|done]. intros [= <-] Hx.
    apply elem_of_list_lookup in Hx as [i Hi]. apply elem_of_list_lookup. exists (r.1 + i).
    destruct (decide (i < r.2 - r.1)); [|rewrite lookup_take_ge in Hi by lia; done].
    rewrite lookup_take in Hi by done. by rewrite lookup_drop in Hi.
  Qed.

  Lemma modop_frame_bufs nf h m h' b : modop_process mix nf h m = Some h' -> b <> mo_buf m -> h_bufs h' !! b = h_bufs h !! b.
  Proof.
    unfold modop_process. destruct (mo_in m) as [ib|]; [|by intros [= <-]].
    destruct (mo_out m) as [ob|]; [|destruct (nf =? 0); [by intros [= <-]|done]].
    intros E Hb. eapply (foldm_inv _ (fun x => h_bufs x !! b = h_bufs h !! b)); [|done|exact E].
    intros h1 f h2 _ H1. unfold modop_frame.
    destruct (buf_read h1 ib f); cbn [mbind option_bind]; [|done].
    destruct (buf_read h1 ob f); cbn [mbind option_bind]; [|done].
    intros E2. rewrite (buf_write_frame _ _ _ _ _ b E2) by done. done.
  Qed.

  Lemma exec_op_frame p nf w op w' b : exec_op mix node_sem p nf w op = Some w' -> b ∉ np_out p -> b ∉ mo_buf <$> np_mods p ->
    h_bufs w'.1.1 !! b = h_bufs w.1.1 !! b.
  Proof.
    destruct w as [[h st] fb], w' as [[h' st'] fb']. cbn [fst]. intros E Ho Hm.
    destruct (exec_op_inv _ _ _ _ _ _ _ _ _ _ _ E) as (mods & h1 & ps & pb & ats & is & ib & os & ob & outs & E1 & E2 & _ & _ & _ & _ & _ & E3 & _ & _ & E4).
    assert (H1 : h_bufs h1 !! b = h_bufs h !! b).
    { eapply (foldm_inv _ (fun x => h_bufs x !! b = h_bufs h !! b)); [|done|exact E2].
      intros a m a' Hin Ha E5. rewrite (modop_frame_bufs _ _ _ _ b E5); [done|]. intros ->. apply Hm. apply elem_of_list_fmap.
      exists m. split; [done|]. by eapply slice_in. }
    rewrite <- H1. eapply (foldm_inv _ (fun x => h_bufs x !! b = h_bufs h1 !! b)); [|reflexivity|exact E4].
    intros a [q c] a' Hin Ha. cbn [fst snd]. unfold buf_put. destruct (h_bufs a !! q); cbn [mbind option_bind]; [|done]. intros [= <-]. cbn.
    rewrite lookup_insert_ne; [done|]. intros ->. apply Ho. apply elem_of_zip_l in Hin. by eapply slice_in.
  Qed.

  Lemma process_sinv h e st nf l h' e' st' fed : sinv h e -> hok h (owned (ex_prog e) ++ l) -> running (ex_prog e) ->
    exec_process fadd mix node_sem h e st nf = Some (h', e', st', fed) ->
    sinv h' e' /\ ev e' = ev e /\ Forall2 (aged nf) (ex_sm e) (ex_sm e') /\ (ex_refresh e').*1 = runs (ex_sm e).
  Proof.
    intros Hs Hh Hrun. unfold exec_process. destruct (exec_smoothers fadd h e nf) as [[h1 e1]|] eqn:E1; cbn [mbind option_bind]; [|done].
    destruct (smoothers_sinv _ _ _ _ _ _ Hs Hh Hrun E1) as (S1 & V1 & G1 & R1).
    destruct (exec_smoothers_prog _ _ _ _ _ _ E1) as [ps Hps].
    destruct (foldm _ _ _) as [[[h2 st2] fb]|] eqn:E2; cbn [mbind option_bind]; [|done].
    destruct (foldm (monitor_slot _ _ _) _ _) as [fd|]; cbn [mbind option_bind]; [|done]. intros [= <- <- <- <-].
    split; [|by split_and!].
    assert (Hb : forall b, b ∈ np_inp (ex_prog e1) -> h_bufs h2 !! b = h_bufs h1 !! b).
    { intros b Hb. rewrite Hps in Hb. cbn in Hb.
      assert (b ∉ np_out (ex_prog e1) /\ b ∉ mo_buf <$> np_mods (ex_prog e1)) as [Hno Hnm].
      { rewrite Hps. cbn. pose proof (proj1 (proj1 Hh)) as Hn. unfold owned in Hn. rewrite <- !app_assoc in Hn.
        apply NoDup_app in Hn as (_ & Hn & _). specialize (Hn b Hb). rewrite !elem_of_app in Hn. tauto. }
      change h2 with ((h2, st2, fb).1.1).
      eapply (foldm_inv _ (fun w => h_bufs w.1.1 !! b = h_bufs h1 !! b)) with (s := (h1, st, np_fb (ex_prog e1))); [|reflexivity|exact E2].
      intros w op w' _ Hw E. rewrite <- Hw. by eapply exec_op_frame; [exact E|..]. }
    pose proof (sinv_heap _ _ _ S1 Hb) as [S1a S1b S1c S1d]. by constructor.
  Qed.
End block.
