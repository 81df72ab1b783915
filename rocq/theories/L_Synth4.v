(** The walk keeps the state of the constructor in step with what was said (C31) *)
From Coq Require Import QArith.
From stdpp Require Import strings.
From Verif Require Import Base M_Atom M_Graph S_Graph M_Grid M_Prog M_Conf M_Exec M_Nodes M_Synth S_Nodes S_Grid S_Conf S_Sync S_Prog S_Synth.
From Verif Require Import L_Graph L_Conf L_Conf3 L_Sync P_Nodes L_Synth L_Synth2 L_Synth3.
Open Scope list_scope.
Open Scope nat_scope.
Local Opaque node_rows.

Section state.
  Context (def : nat -> nat -> f32) (norm denorm : nat -> nat -> f32 -> f32) (q2f : Q -> f32).
  Context (i2f : Z -> f32) (load_sample : satom -> satom) (feq : f32 -> f32 -> bool).
  Notation T := (hexo_table def norm denorm q2f).
  Notation has_value := (has_value T i2f load_sample feq).
  Notation HT := (C28_table_ok def norm denorm q2f).

  Record sinv (D : list said) (s : synth) : Prop := {
    si_tracks : tracks D (sy_nodes s);
    si_fine : conf_fine T (sy_conf s);
    si_quiet : forall q, last_val D q.1 q.2 = None -> quiet T (sy_conf s) q;
    si_made : forall n, n ∈ created (sy_conf s) -> named D n;
    si_order : exists g, R (sy_order s) g;
    si_closed : forall n i src o, last_from D n i = Some (src, o) -> known src;
  }.

  Definition heard (D X : list said) (c : nconf) : Prop :=
    forall n i v ma, last_val D n i = Some (v, ma) -> is_Some (last_val X n i) -> has_value c n i v ma.

  Lemma update_node_spec it D s n : fair it -> sinv D s ->
    exists s' ms b, update_node T i2f load_sample feq it s n = (s', ms, inr b) /\
      sinv D s' /\ sy_nodes s' = sy_nodes s /\ sy_order s' = sy_order s /\ created (sy_conf s') = created (sy_conf s) /\
      (forall i v ma, last_val D n i = Some (v, ma) -> has_value (sy_conf s') n i v ma) /\
      (forall q, q.1 <> n -> same_at (sy_conf s) (sy_conf s') q) /\ Forall no_prog ms.
  Proof.
    intros Hf Hs. unfold update_node. destruct (sy_nodes s !! n) as [cfg|] eqn:E.
    - destruct (tk_cfg _ _ (si_tracks _ _ Hs) n cfg E) as [Hn Hc].
      assert (Hperm : it_params it n (nc_params cfg) ≡ₚ map_to_list (nc_params cfg)) by apply Hf.
      assert (Hel : forall name vm, (name, vm) ∈ it_params it n (nc_params cfg) <-> nc_params cfg !! name = Some vm).
      { intros name vm. by rewrite Hperm, elem_of_map_to_list. }
      destruct (update_entries_spec T i2f load_sample feq n Hn (it_params it n (nc_params cfg)) (sy_conf s) [] false (si_fine _ _ Hs))
        as (c' & ms & b & E' & H1 & H2 & H3 & H4 & H5).
      { rewrite Hperm. apply NoDup_fst_map_to_list. }
      { intros name vm Hin. apply Hel in Hin. destruct (ct_param _ _ _ Hc _ _ Hin) as (i & Hi & _). by exists i. }
      rewrite E'. cbn [app]. exists (with_conf s c'), ms, b. split; [done|]. split; [|split_and!]; cbn [with_conf sy_nodes sy_order sy_conf]; try done.
      + constructor; cbn; try apply Hs; [done| |].
        * intros q Hq. eapply quiet_same; [apply H4|by apply (si_quiet _ _ Hs)].
          intros name vm Hin Hqn Hp. apply Hel in Hin. destruct (ct_param _ _ _ Hc _ _ Hin) as (i & Hi & Hl).
          assert (i = q.2) as -> by (by eapply pname_fun). rewrite Hqn in Hq. by rewrite Hq in Hl.
        * rewrite H2. apply Hs.
      + intros i v ma Hl. destruct (ct_val _ _ _ Hc _ _ Hl) as (name & Hp & Hin). apply Hel in Hin. by eapply H3.
      + intros q Hq. apply H4. intros name vm _ Hqn. done.
    - exists s, [], false. split_and!; try done.
      + intros i v ma Hl. rewrite last_val_other in Hl; [done|].
        intros x Hx <-. apply (tk_subj _ _ (si_tracks _ _ Hs)), (tk_named _ _ (si_tracks _ _ Hs)) in Hx. rewrite E in Hx. by destruct Hx.
  Qed.

  Context (xs : list bnode) (bs : list builder) (Hbs : Forall2 (bnode_ok bs) xs bs).

  Lemma refs_ok : wf_refs bs.
  Proof.
    intros a b (d & k & i & o & Hd & Hk). destruct (Forall2_lookup_r _ _ _ _ _ Hbs Hd) as (x & _ & [_ _ Hops]).
    apply elem_of_list_lookup in Hk as [j Hj]. destruct (Forall2_lookup_r _ _ _ _ _ Hops Hj) as (op & _ & Hop).
    destruct op; try done. cbn in Hop. destruct Hop as (-> & _ & d' & Hd' & _). by eapply lookup_lt_Some.
  Qed.

  Definition told (only : bool) (l : list builder) : list said := keep only (mjoin (says T bs <$> l)).
  Lemma told_app only l1 l2 : told only (l1 ++ l2) = told only l1 ++ told only l2.
  Proof. unfold told. rewrite fmap_app. rewrite <- keep_app. f_equal.
    induction (says T bs <$> l1) as [|x y IH]; [done|]. change (x ++ mjoin (y ++ (says T bs <$> l2)) = (x ++ mjoin y) ++ mjoin (says T bs <$> l2)).
    by rewrite IH, app_assoc. Qed.
  Lemma told_cons only d l : told only (d :: l) = keep only (says T bs d) ++ told only l.
  Proof. unfold told. cbn [fmap list_fmap mjoin list_join]. by rewrite keep_app. Qed.

  Definition is_upd (only : bool) (D X : list said) (s s' : synth) (ms : list gmsg) : Prop :=
    if only then (forall X0, heard D X0 (sy_conf s) -> heard (D ++ X) (X0 ++ X) (sy_conf s')) /\ Forall no_prog ms
    else sy_conf s' = sy_conf s /\ ms = [].

  Lemma upd_trans only D X1 X2 s1 s2 s3 ms1 ms2 : is_upd only D X1 s1 s2 ms1 -> is_upd only (D ++ X1) X2 s2 s3 ms2 ->
    is_upd only D (X1 ++ X2) s1 s3 (ms1 ++ ms2).
  Proof.
    destruct only; cbn.
    - intros [H1 H1'] [H2 H2']. split; [|by apply Forall_app]. intros X0 H0. rewrite !app_assoc. by apply H2, H1.
    - intros [-> ->] [-> ->]. done.
  Qed.

  Lemma node_spec it only D s r d x : fair it -> sinv D s -> bs !! r = Some d -> xs !! r = Some x ->
    exists w s1 ms b,
      foldm (walk_op T xs only (bn_id x)) (WState (default (NCfg ∅ ∅) (sy_nodes s !! bn_id x)) false false [] None) (bn_ops x) = Some w /\
      ws_err w = None /\ ws_after w = sources d /\
      (let s := Synth (sy_conf s) (<[bn_id x := ws_cfg w]> (sy_nodes s)) (sy_order s) in
       if only && ws_par w then update_node T i2f load_sample feq it s (bn_id x) else (s, [], inr false)) = (s1, ms, inr b) /\
      sinv (D ++ keep only (says T bs d)) s1 /\ is_upd only D (keep only (says T bs d)) s s1 ms /\
      sy_order s1 = sy_order s /\ created (sy_conf s1) = created (sy_conf s).
  Proof.
    intros Hf Hs Hd Hx. destruct (Forall2_lookup_lr _ _ _ _ _ _ Hbs Hx Hd) as [Hid Hn Hops]. rewrite Hid. set (n := bd_node d) in *.
    pose proof (si_tracks _ _ Hs) as Ht.
    destruct (ops_track def norm denorm q2f xs bs only n _ _ Hbs Hops Hn (D ++ [SayNode n])
                (WState (default (NCfg ∅ ∅) (sy_nodes s !! n)) false false [] None)) as (w & E & He & Hc & Ha & Hp & _).
    { done. }
    { cbn. eapply tracks_ext; [..|by apply tracks_get]; intros i; [by rewrite last_from_app|by rewrite last_val_app]. }
    assert (Hk : (D ++ [SayNode n]) ++ keep only (omap (say1 def norm denorm q2f bs n) (bd_calls d)) = D ++ keep only (says T bs d)).
    { rewrite says_eq, <- app_assoc. f_equal. by destruct only. }
    rewrite Hk in Hc. set (X := keep only (says T bs d)) in *.
    assert (HX : forall y, y ∈ X -> subject y = n) by (intros y Hy; by eapply says_subject, elem_keep).
    assert (HXn : SayNode n ∈ X) by (unfold X; apply keep_node; rewrite says_eq; by left).
    set (s0 := Synth (sy_conf s) (<[n := ws_cfg w]> (sy_nodes s)) (sy_order s)).
    assert (Hs0 : sinv (D ++ X) s0).
    { constructor; cbn; try apply Hs.
      - by apply tracks_put.
      - intros q Hq. apply (si_quiet _ _ Hs). rewrite last_val_app in Hq. by destruct (last_val X q.1 q.2).
      - intros m Hm. apply (si_made _ _ Hs) in Hm. unfold named in *. set_solver.
      - intros m i src o Hl. rewrite last_from_app in Hl. destruct (last_from X m i) as [[src' o']|] eqn:El.
        + injection Hl as -> ->. apply last_from_in in El. apply elem_keep in El. rewrite says_eq in El. apply elem_of_cons in El as [El|El]; [done|].
          apply elem_of_list_omap in El as (k & Hk' & Ek). destruct k as [| | |k' i' src' o']; try done. cbn in Ek.
          destruct (bs !! src') as [d'|] eqn:Ed'; [|done]. cbn in Ek. injection Ek as _ _ <- _.
          destruct (Forall2_lookup_r _ _ _ _ _ Hbs Ed') as (x' & _ & H'). apply H'.
        + by eapply (si_closed _ _ Hs). }
    assert (Hother : forall m i, m <> n -> last_val (D ++ X) m i = last_val D m i).
    { intros m i Hm. rewrite last_val_app, last_val_other; [done|]. intros y Hy. by rewrite (HX y Hy). }
    exists w. destruct (only && ws_par w) eqn:Eop.
    - apply andb_true_iff in Eop as [Eo Ep].
      destruct (update_node_spec it (D ++ X) s0 n Hf Hs0) as (s1 & ms & b & E1 & H1 & H2 & H3 & H4 & H5 & H6 & H7).
      exists s1, ms, b. split; [done|]. split; [done|]. split; [done|]. split; [done|]. split; [done|]. split; [|by rewrite H3, H4].
      rewrite Eo. split; [|done]. intros X0 H0 m i v ma Hl Hx0. destruct (decide (m = n)) as [->|Hm]; [by apply H5|].
      rewrite Hother in Hl by done. eapply same_at_value; [apply (H6 (m, i)); exact Hm|]. apply H0; [done|].
      rewrite last_val_app, last_val_other in Hx0; [done|]. intros y Hy. by rewrite (HX y Hy).
    - exists s0, [], false. split; [done|]. split; [done|]. split; [done|]. split; [done|]. split; [done|]. split; [|done].
      destruct only; [|done]. cbn in Eop. split; [|constructor]. cbn [sy_conf s0].
      destruct (Hp Eop) as [_ Hq].
      assert (HXv : forall m i, last_val X m i = None).
      { intros m i. destruct (decide (m = n)) as [->|Hm]; [|apply last_val_other; intros y Hy; by rewrite (HX y Hy)].
        unfold X. rewrite last_val_keep, says_eq. change (SayNode (bd_node d) :: ?l) with ([SayNode (bd_node d)] ++ l). rewrite last_val_app, Hq. done. }
      intros X0 H0 m i v ma Hl Hx0. rewrite last_val_app, HXv in Hl, Hx0. by apply H0.
  Qed.

  Lemma walk_spec it only f : fair it ->
    (forall r l D s, passes bs [r] l -> pd bs f r -> sinv D s ->
      exists s' ms b, walk T i2f load_sample feq f xs it only s r = Some (s', ms, inr b) /\
        sinv (D ++ told only l) s' /\ is_upd only D (told only l) s s' ms /\ sy_order s' = sy_order s /\ created (sy_conf s') = created (sy_conf s)).
  Proof.
    intros Hf. induction f as [|f IH]; intros r l D s Hl Hp Hs; [done|].
    assert (Hall : forall rs l D s ms0 b0, passes bs rs l -> (forall r, r ∈ rs -> pd bs f r) -> sinv D s ->
      exists s' ms b, walk_all (walk T i2f load_sample feq f xs it only) rs s ms0 b0 = Some (s', ms0 ++ ms, inr b) /\
        sinv (D ++ told only l) s' /\ is_upd only D (told only l) s s' ms /\ sy_order s' = sy_order s /\ created (sy_conf s') = created (sy_conf s)).
    { clear -IH. induction rs as [|r rs IHr]; intros l D s ms0 b0 Hl Hp Hs.
      - inversion Hl; subst. exists s, [], b0. cbn. unfold told. cbn. rewrite keep_nil, !app_nil_r. split_and!; try done.
        destruct only; [|done]. split; [|constructor]. intros X0. by rewrite !app_nil_r.
      - inversion Hl as [|r' rs' d l1 l2 Hd H1 H2]; subst.
        assert (Hl1 : passes bs [r] (d :: l1)).
        { replace (d :: l1) with (d :: l1 ++ []) by (by rewrite app_nil_r). constructor; [done|done|constructor]. }
        destruct (IH r (d :: l1) D s Hl1 (Hp r ltac:(by left)) Hs) as (s1 & ms1 & b1 & E1 & S1 & U1 & O1 & C1).
        destruct (IHr l2 _ s1 (ms0 ++ ms1) (b0 || b1) H2 (fun r Hr => Hp r ltac:(by right)) S1) as (s2 & ms2 & b2 & E2 & S2 & U2 & O2 & C2).
        exists s2, (ms1 ++ ms2), b2. cbn [walk_all]. rewrite E1. cbn [mbind option_bind]. rewrite E2, app_assoc.
        change (d :: l1 ++ l2) with ((d :: l1) ++ l2). rewrite told_app, app_assoc. split_and!; [done|done| |by rewrite O2|by rewrite C2].
        by eapply upd_trans. }
    inversion Hl as [|r' rs' d l1 l2 Hd H1 H2]; subst. inversion H2; subst. rewrite app_nil_r.
    destruct (Forall2_lookup_r _ _ _ _ _ Hbs Hd) as (x & Hx & _). cbn [walk]. rewrite Hx. cbn [mbind option_bind].
    destruct (node_spec it only D s r d x Hf Hs Hd Hx) as (w & s1 & ms & b & E1 & E2 & E3 & E4 & S1 & U1 & O1 & C1).
    rewrite E1. cbn [mbind option_bind]. rewrite E2. cbn zeta in E4. rewrite E4, E3.
    destruct (Hall (sources d) l1 (D ++ keep only (says T bs d)) s1 ms (ws_edge w || b) H1) as (s2 & ms2 & b2 & E5 & S2 & U2 & O2 & C2).
    { intros b' Hb'. destruct Hp as (d' & Hd' & Hp). rewrite Hd in Hd'. injection Hd' as <-. by apply Hp. }
    { exact S1. }
    exists s2, (ms ++ ms2), b2. rewrite E5, told_cons, app_assoc. split_and!; [done|done| |by rewrite O2|by rewrite C2]. by eapply upd_trans.
  Qed.

  (** a walk that ends does so because the builders are not circular *)
  Lemma walk_ends it only f : fair it -> forall r D s out, sinv D s ->
    walk T i2f load_sample feq f xs it only s r = Some out -> pd bs f r.
  Proof.
    intros Hf. induction f as [|f IH]; intros r D s out Hs; [done|]. cbn [walk].
    destruct (xs !! r) as [x|] eqn:Hx; cbn [mbind option_bind]; [|done].
    destruct (Forall2_lookup_l _ _ _ _ _ Hbs Hx) as (d & Hd & _).
    destruct (node_spec it only D s r d x Hf Hs Hd Hx) as (w & s1 & ms & b & E1 & E2 & E3 & E4 & S1 & U1 & O1 & C1).
    rewrite E1. cbn [mbind option_bind]. rewrite E2. cbn zeta in E4. rewrite E4, E3. intros E5.
    exists d. split; [done|]. revert E5 S1. generalize (D ++ keep only (says T bs d)). generalize (ws_edge w || b). clear -IH Hf Hbs. revert s1 ms.
    induction (sources d) as [|r rs IHr]; intros s1 ms b D E S1; [by intros ? ?%elem_of_nil|]. cbn [walk_all] in E.
    destruct (walk _ _ _ _ f xs it only s1 r) as [[[s2 ms2] res]|] eqn:E2; cbn [mbind option_bind] in E; [|done].
    pose proof (IH r D s1 _ S1 E2) as Hp.
    destruct (pd_passes bs f [r]) as [l Hl]; [by intros ? ->%elem_of_list_singleton|].
    destruct (walk_spec it only f Hf r l D s1 Hl Hp S1) as (s2' & ms2' & b2 & E2' & S2 & _). rewrite E2 in E2'. injection E2' as <- <- ->.
    intros b' [->|Hb]%elem_of_cons; [done|]. by eapply IHr.
  Qed.

  Lemma walk_upload_spec it only r l D s : fair it -> passes bs [r] l -> sinv D s ->
    exists s' ms b, walk_upload T i2f load_sample feq xs it only s r = Some (s', ms, inr b) /\
      sinv (D ++ told only l) s' /\ is_upd only D (told only l) s s' ms /\ sy_order s' = sy_order s /\ created (sy_conf s') = created (sy_conf s).
  Proof.
    intros Hf Hl Hs. unfold walk_upload. apply walk_spec; try done. pose proof (passes_bound bs r l Hl) as Hp.
    eapply pd_mono; [exact Hp|]. rewrite (Forall2_length _ _ _ Hbs). lia.
  Qed.
End state.
