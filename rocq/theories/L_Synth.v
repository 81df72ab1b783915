(** Builders, what they say and how the walk over them stores it (C31) *)
From stdpp Require Import strings.
From Coq Require Import QArith.
From Verif Require Import Base M_Atom M_Graph M_Grid M_Prog M_Conf M_Exec M_Nodes M_Synth S_Nodes S_Grid S_Conf S_Sync S_Prog S_Synth L_Conf P_Nodes.
Open Scope nat_scope.

(** * Names *)
Lemma rows_count : length node_rows = 42.
Proof. reflexivity. Qed.
Local Opaque node_rows.

Definition pname (n : node_id) (i : nat) (name : string) : Prop := exists p, inp_param n name = Some p /\ pa_idx p = i.

Lemma pname_inj n i name name' : known n -> pname n i name -> pname n i name' -> name = name'.
Proof.
  intros Hn (p & Hp & <-) (q & Hq & Hi). destruct (C28_params n Hn) as (H1 & _).
  apply H1 in Hp as [Hp <-]. apply H1 in Hq as [Hq <-]. rewrite Hi in Hq. rewrite Hp in Hq. by injection Hq as ->.
Qed.
Lemma pname_fun n i j name : pname n i name -> pname n j name -> i = j.
Proof. intros (p & Hp & <-) (q & Hq & <-). rewrite Hp in Hq. by injection Hq as ->. Qed.

Lemma input_name n i name : known n -> info_inputs n !! i = Some name -> node_inp n name = Some i /\ pname n i name.
Proof.
  intros Hn Hi. destruct (known_row n Hn) as (r & Er & _ & HG). unfold info_inputs in Hi. rewrite Er in Hi. cbn in Hi.
  rewrite list_lookup_fmap in Hi. destruct (nr_ins r !! i) as [p|] eqn:Ep; [|done]. injection Hi as <-.
  assert (E : first (fun q => String.eqb (pr_name q) (pr_name p)) (nr_ins r) = Some p).
  { apply (r_find_in r HG). split; [by eapply elem_of_list_lookup_2|done]. }
  unfold node_inp, pname, inp_param. rewrite Er. cbn [mbind option_bind]. rewrite E. cbn.
  rewrite (r_in_idx r HG i p Ep). split; [done|]. eexists. split; [done|]. done.
Qed.
Lemma output_name n i name : known n -> info_outputs n !! i = Some name -> node_out n name = Some i.
Proof.
  intros Hn Hi. destruct (known_row n Hn) as (r & Er & _ & HG). unfold info_outputs in Hi. rewrite Er in Hi. cbn in Hi.
  rewrite list_lookup_fmap in Hi. destruct (nr_outs r !! i) as [p|] eqn:Ep; [|done]. injection Hi as <-.
  assert (E : first (fun q => String.eqb (or_name q) (or_name p)) (nr_outs r) = Some p).
  { apply (r_find_out r HG). split; [by eapply elem_of_list_lookup_2|done]. }
  unfold node_out. rewrite Er. cbn [mbind option_bind]. rewrite E. cbn. by rewrite (r_out_idx r HG i p Ep).
Qed.
Lemma atom_name n j p : known n -> atom_param_by_idx n j = Some p -> pname n (pa_idx p) (pa_name p).
Proof.
  intros Hn Hj. destruct (C28_atoms n Hn) as (_ & H2 & _). destruct (H2 j p Hj) as [Hp _].
  destruct (C28_params n Hn) as (H1 & _). exists p. split; [|done]. by apply H1.
Qed.

Lemma row_kind k i j : row_of (NId k i) = row_of (NId k j).
Proof. done. Qed.
Lemma atom_idx_kind n j : pa_idx <$> atom_param_by_idx n j = pa_idx <$> atom_param_by_idx (NId (nid_kind n) 0) j.
Proof.
  unfold atom_param_by_idx. destruct n as [k i]. cbn [nid_kind]. rewrite (row_kind k i 0).
  destruct (row_of (NId k 0)); [|done]. cbn [mbind option_bind]. by destruct (first _ _).
Qed.

(** * Builders *)
Section builders.
  Context (def : nat -> nat -> f32) (norm denorm : nat -> nat -> f32 -> f32) (q2f : Q -> f32).
  Notation T := (hexo_table def norm denorm q2f).

  Lemma at_id_eq n j p : atom_param_by_idx n j = Some p -> nt_at_id T (nid_kind n) j = pa_idx p.
  Proof. intros H. pose proof (atom_idx_kind n j) as E. rewrite H in E. cbn. by destruct (atom_param_by_idx (NId _ 0) j); cbn in *; [injection E as <-|]. Qed.

  Definition ids_in (bs bs' : list builder) : Prop :=
    forall i d, bs !! i = Some d -> exists d', bs' !! i = Some d' /\ bd_node d' = bd_node d.

  Definition op_ok (bs : list builder) (n : node_id) (op : bop) (k : bcall) : Prop :=
    match op, k with
    | BDenorm name v ma, KSet _ i v' ma' => v' = v /\ ma' = ma /\ info_inputs n !! i = Some name
    | BSetting name v, KSetting _ i v' => v' = v /\ pa_name <$> atom_param_by_idx n i = Some name
    | BInput name src out, KInput _ i src' o => src' = src /\ info_inputs n !! i = Some name /\
        exists d, bs !! src = Some d /\ info_outputs (bd_node d) !! o = Some out
    | _, _ => False
    end.
  Record bnode_ok (bs : list builder) (x : bnode) (d : builder) : Prop := {
    bo_id : bn_id x = bd_node d;
    bo_known : known (bd_node d);
    bo_ops : Forall2 (op_ok bs (bd_node d)) (bn_ops x) (bd_calls d);
  }.

  Lemma op_ok_mono bs bs' n op k : ids_in bs bs' -> op_ok bs n op k -> op_ok bs' n op k.
  Proof.
    intros Hi. destruct op, k; try done. cbn. intros (H1 & H2 & d & Hd & Ho). split; [done|]. split; [done|].
    destruct (Hi _ _ Hd) as (d' & Hd' & E). exists d'. by rewrite E.
  Qed.
  Lemma bnode_ok_mono bs bs' x d : ids_in bs bs' -> bnode_ok bs x d -> bnode_ok bs' x d.
  Proof. intros Hi [H1 H2 H3]. constructor; [done|done|]. eapply Forall2_impl; [exact H3|]. intros ? ?. by apply op_ok_mono. Qed.

  Lemma ids_in_app bs d : ids_in bs (bs ++ [d]).
  Proof. intros i x Hx. exists x. split; [|done]. by apply lookup_app_l_Some. Qed.
  Lemma ids_in_alter bs k b : ids_in bs (alter (add_call k) b bs).
  Proof.
    intros i x Hx. destruct (decide (b = i)) as [->|].
    - exists (add_call k x). split; [|done]. by rewrite list_lookup_alter, Hx.
    - exists x. split; [|done]. by rewrite list_lookup_alter_ne.
  Qed.

  Lemma push_ok xs bs b op k d : Forall2 (bnode_ok bs) xs bs -> bs !! b = Some d -> op_ok bs (bd_node d) op k ->
    Forall2 (bnode_ok (alter (add_call k) b bs)) (bpush xs b op) (alter (add_call k) b bs).
  Proof.
    intros HF Hd Hop. apply Forall2_same_length_lookup. split.
    - unfold bpush. rewrite !alter_length. by eapply Forall2_length.
    - intros i x y. unfold bpush. destruct (decide (b = i)) as [->|Hne].
      + rewrite !list_lookup_alter. destruct (xs !! i) as [x0|] eqn:Ex; [|done]. rewrite Hd. cbn. intros [= <-] [= <-].
        pose proof (Forall2_lookup_lr _ _ _ _ _ _ HF Ex Hd) as [H1 H2 H3]. constructor; cbn; [done|done|].
        apply Forall2_app.
        * eapply Forall2_impl; [exact H3|]. intros ? ?. apply op_ok_mono, ids_in_alter.
        * constructor; [|constructor]. eapply op_ok_mono; [apply ids_in_alter|done].
      + rewrite !list_lookup_alter_ne by done. intros Hx Hy. eapply bnode_ok_mono; [apply ids_in_alter|].
        by eapply Forall2_lookup_lr.
  Qed.

  Lemma info_len n i : i < in_count n <-> is_Some (info_inputs n !! i).
  Proof. unfold in_count. by rewrite lookup_lt_is_Some. Qed.
  Lemma out_len n i : i < out_count n <-> is_Some (info_outputs n !! i).
  Proof. unfold out_count. by rewrite lookup_lt_is_Some. Qed.

  Lemma bstep_ok xs bs k bs' ks : Forall2 (bnode_ok bs) xs bs -> makes (ks ++ [k]) bs' -> (forall bs0, makes ks bs0 -> bs0 = bs) ->
    Forall2 (bnode_ok bs') (bstep xs k) bs'.
  Proof.
    intros HF Hm Hu.
    assert (Hin : forall b i, (let* n := xs !! b in info_inputs (bn_id n) !! i) = let* n := bs !! b in info_inputs (bd_node n) !! i).
    { intros b i. destruct (xs !! b) as [x|] eqn:Ex.
      - destruct (Forall2_lookup_l _ _ _ _ _ HF Ex) as (y & Ey & Hy). rewrite Ey. cbn. by rewrite (bo_id _ _ _ Hy).
      - apply lookup_ge_None in Ex. rewrite (Forall2_length _ _ _ HF) in Ex. apply lookup_ge_None in Ex. by rewrite Ex. }
    assert (Hat : forall b i, (let* n := xs !! b in pa_name <$> atom_param_by_idx (bn_id n) i) = let* n := bs !! b in pa_name <$> atom_param_by_idx (bd_node n) i).
    { intros b i. destruct (xs !! b) as [x|] eqn:Ex.
      - destruct (Forall2_lookup_l _ _ _ _ _ HF Ex) as (y & Ey & Hy). rewrite Ey. cbn. by rewrite (bo_id _ _ _ Hy).
      - apply lookup_ge_None in Ex. rewrite (Forall2_length _ _ _ HF) in Ex. apply lookup_ge_None in Ex. by rewrite Ex. }
    assert (Hou : forall b i, (let* n := xs !! b in info_outputs (bn_id n) !! i) = let* n := bs !! b in info_outputs (bd_node n) !! i).
    { intros b i. destruct (xs !! b) as [x|] eqn:Ex.
      - destruct (Forall2_lookup_l _ _ _ _ _ HF Ex) as (y & Ey & Hy). rewrite Ey. cbn. by rewrite (bo_id _ _ _ Hy).
      - apply lookup_ge_None in Ex. rewrite (Forall2_length _ _ _ HF) in Ex. apply lookup_ge_None in Ex. by rewrite Ex. }
    assert (Hkn : forall b d, bs !! b = Some d -> known (bd_node d)).
    { intros b d Hd. destruct (Forall2_lookup_r _ _ _ _ _ HF Hd) as (x & _ & Hx). apply Hx. }
    inversion Hm as [E|ks' bs0 kind inst H0 Hk Hi E|ks' bs0 b i v ma H0 Hi E|ks' bs0 b i v H0 Hi E|ks' bs0 b i src o H0 Hi Ho E|ks' bs0 k' H0 Hb E]; subst;
      try (by destruct ks);
      apply app_inj_tail in E as [-> <-]; rewrite (Hu _ H0) in *; cbn [bstep].
    - rewrite decide_True by done. apply Forall2_app.
      + eapply Forall2_impl; [exact HF|]. intros ? ?. apply bnode_ok_mono, ids_in_app.
      + constructor; [|constructor]. constructor; cbn; [done| |constructor]. unfold known. cbn. rewrite rows_count in Hk. lia.
    - rewrite Hin. destruct Hi as (d & Hd & Hi). rewrite Hd. cbn [mbind option_bind]. apply info_len in Hi as [name Hn]. rewrite Hn.
      eapply push_ok; [done|exact Hd|]. by cbn.
    - rewrite Hat. destruct Hi as (d & Hd & Hi). rewrite Hd. cbn [mbind option_bind].
      apply (C28_atoms (bd_node d) (Hkn _ _ Hd)) in Hi as [p Hp]. rewrite Hp. cbn [fmap option_fmap option_map].
      eapply push_ok; [done|exact Hd|]. cbn. by rewrite Hp.
    - rewrite Hin, Hou. destruct Hi as (d & Hd & Hi). destruct Ho as (d' & Hd' & Ho). rewrite Hd, Hd'. cbn [mbind option_bind].
      apply info_len in Hi as [name Hn]. apply out_len in Ho as [out Hout]. rewrite Hn, Hout.
      eapply push_ok; [done|exact Hd|]. cbn. split; [done|]. split; [done|]. by exists d'.
    - destruct k' as [kind inst|b i v ma|b i v|b i src o]; cbn [bstep].
      + by rewrite decide_False.
      + rewrite Hin. destruct (bs !! b) as [d|] eqn:Hd; [|done]. cbn [mbind option_bind].
        destruct (info_inputs (bd_node d) !! i) eqn:Hn; [|done]. destruct Hb. exists d. split; [done|]. apply info_len. by rewrite Hn.
      + rewrite Hat. destruct (bs !! b) as [d|] eqn:Hd; [|done]. cbn [mbind option_bind].
        destruct (atom_param_by_idx (bd_node d) i) eqn:Hn; [|done]. destruct Hb. exists d. split; [done|].
        apply (C28_atoms (bd_node d) (Hkn _ _ Hd)). by rewrite Hn.
      + rewrite Hin, Hou. destruct (bs !! b) as [d|] eqn:Hd; [|done]. cbn [mbind option_bind].
        destruct (info_inputs (bd_node d) !! i) eqn:Hn; [|done]. destruct (bs !! src) as [d'|] eqn:Hd'; [|done]. cbn [mbind option_bind].
        destruct (info_outputs (bd_node d') !! o) eqn:Hn'; [|done]. destruct Hb. split; [exists d|exists d']; (split; [done|]).
        * apply info_len. by rewrite Hn.
        * apply out_len. by rewrite Hn'.
  Qed.

  Lemma makes_fun ks : (exists bs, makes ks bs) /\ forall bs bs', makes ks bs -> makes ks bs' -> bs = bs'.
  Proof.
    induction ks as [|k ks [[bs Hbs] IH]] using rev_ind.
    - split; [exists []; constructor|]. intros bs bs' H H'.
      inversion H; subst; try (by destruct ks). inversion H'; subst; try (by destruct ks). done.
    - split.
      + destruct k as [kind inst|b i v ma|b i v|b i src o].
        * destruct (decide (0 < kind <= length node_rows /\ inst < 256)) as [[H1 H2]|Hn]; eexists; [by apply makes_new|by apply (makes_bad ks bs (KNew _ _))].
        * destruct (bs !! b) as [d|] eqn:Hd; [destruct (decide (i < in_count (bd_node d)))|].
          -- eexists. apply makes_set; [done|]. by exists d.
          -- exists bs. apply (makes_bad ks bs (KSet _ _ _ _)); [done|]. intros (d' & Hd' & ?). rewrite Hd in Hd'. by injection Hd' as <-.
          -- exists bs. apply (makes_bad ks bs (KSet _ _ _ _)); [done|]. intros (d' & Hd' & ?). by rewrite Hd in Hd'.
        * destruct (bs !! b) as [d|] eqn:Hd; [destruct (decide (i < at_count (bd_node d)))|].
          -- eexists. apply makes_setting; [done|]. by exists d.
          -- exists bs. apply (makes_bad ks bs (KSetting _ _ _)); [done|]. intros (d' & Hd' & ?). rewrite Hd in Hd'. by injection Hd' as <-.
          -- exists bs. apply (makes_bad ks bs (KSetting _ _ _)); [done|]. intros (d' & Hd' & ?). by rewrite Hd in Hd'.
        * assert (Hdec : (has_input bs b i /\ has_output bs src o) \/ ~ (has_input bs b i /\ has_output bs src o)).
          { unfold has_input, has_output. destruct (bs !! b) as [d|]; [|right; intros [(? & ? & _) _]; done].
            destruct (bs !! src) as [d'|]; [|right; intros [_ (? & ? & _)]; done].
            destruct (decide (i < in_count (bd_node d))).
            2:{ right. intros [(? & [= <-] & ?) _]. done. }
            destruct (decide (o < out_count (bd_node d'))).
            2:{ right. intros [_ (? & [= <-] & ?)]. done. }
            left. split; eauto. }
          destruct Hdec as [[H1 H2]|Hn]; eexists; [by apply makes_input|by apply (makes_bad ks bs (KInput _ _ _ _))].
      + intros bs1 bs2 H1 H2.
        inversion H1 as [E|ks1 bs0 kind inst H0 Hk Hi E|ks1 bs0 b i v ma H0 Hi E|ks1 bs0 b i v H0 Hi E|ks1 bs0 b i src o H0 Hi Ho E|ks1 bs0 k' H0 Hb E]; subst;
          try (by destruct ks); apply app_inj_tail in E as [-> <-];
        inversion H2 as [E'|ks2 bs0' kind' inst' H0' Hk' Hi' E'|ks2 bs0' b' i' v' ma' H0' Hi' E'|ks2 bs0' b' i' v' H0' Hi' E'|ks2 bs0' b' i' src' o' H0' Hi' Ho' E'|ks2 bs0' k'' H0' Hb' E']; subst;
          try (by destruct ks); apply app_inj_tail in E' as [-> E']; try discriminate; simplify_eq; rewrite (IH _ _ H0 H0') in *; try done;
          exfalso; tauto.
  Qed.

  Lemma brun_ok ks bs : makes ks bs -> Forall2 (bnode_ok bs) (brun ks) bs.
  Proof.
    revert bs. induction ks as [|k ks IH] using rev_ind; intros bs Hm.
    - inversion Hm; subst; try (by destruct ks). constructor.
    - unfold brun. rewrite foldl_app. cbn [foldl]. destruct (makes_fun ks) as [[bs0 H0] Hu].
      eapply (bstep_ok _ bs0); [by apply IH|exact Hm|]. intros ? ?. by eapply Hu.
  Qed.
End builders.
