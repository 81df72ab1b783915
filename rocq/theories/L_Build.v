(** Proofs about program building: operations, connections and connected flags *)
From Verif Require Import Base M_Atom M_Graph M_Dir M_Grid M_Layout M_Prog M_Conf M_Exec M_Sync.
From Verif Require Import S_Conf S_Sync L_Conf L_Conf2 L_Prog L_Sync.
Open Scope nat_scope.

Section build.
  Context (T : ntable) (HT : table_ok T).

  (** instances agree up to the used mark *)
  Definition same_inst (c c1 : nconf) : Prop :=
    forall n, ni_mark <$> conf_inst c n = ni_mark <$> conf_inst c1 n.

  Lemma same_inst_mark c c1 n : conf_inv T c -> same_inst c c1 -> same_inst (conf_mark c n) c1.
  Proof.
    intros Hc Hs m. rewrite (mark_inst T) by done. rewrite <- (Hs m). destruct (decide (m = n)); [|done].
    by destruct (conf_inst c m).
  Qed.

  Lemma same_inst_some c c1 n ni : same_inst c c1 -> conf_inst c n = Some ni ->
    exists ni1, conf_inst c1 n = Some ni1 /\ ni_as_op ni = ni_as_op ni1 /\ ni_in ni = ni_in ni1 /\ ni_out ni = ni_out ni1 /\
      ni_map ni = ni_map ni1 /\ ni_idx ni = ni_idx ni1.
  Proof.
    intros Hs Hn. specialize (Hs n). rewrite Hn in Hs. destruct (conf_inst c1 n) as [ni1|]; [|done].
    exists ni1. split; [done|]. injection Hs as H1 H2 H3 H4 H5 H6 H7. unfold ni_as_op. rewrite H1, H2, H3, H4, H5, H6. done.
  Qed.
  Lemma same_inst_none c c1 n : same_inst c c1 -> conf_inst c n = None -> conf_inst c1 n = None.
  Proof. intros Hs Hn. specialize (Hs n). rewrite Hn in Hs. by destruct (conf_inst c1 n). Qed.

  Definition op_none : nodeop := NodeOp 0 Nop (0, 0) (0, 0) (0, 0) (0, 0) [] 0%N 0%N.
  Definition op0 (c1 : nconf) (n : node_id) : nodeop :=
    match conf_inst c1 n with Some ni => ni_as_op ni | None => op_none end.

  Definition entry (c1 : nconf) (e : edge_t) : option (nat * nat * option nat) :=
    match conf_inst c1 (e_from e), conf_inst c1 (e_to e) with
    | Some s, Some d =>
        match local2global (ni_in d) (e_to_input e), local2global (ni_out s) (e_from_out e) with
        | Some ii, Some oi => Some (oi, ii, mjoin (ni_mod_global d (e_to_input e)))
        | _, _ => None
        end
    | _, _ => None
    end.

  Definition step_op (c1 : nconf) (n : node_id) (op : nodeop) (e : edge_t) : nodeop :=
    match entry c1 e with
    | Some (oi, ii, md) =>
        let op := op_set_out_flag op oi in
        if decide (e_to e = n) then op_push_input (op_set_in_flag op ii) (oi, ii, md) else op
    | None => op
    end.
  Definition opf (c1 : nconf) (es : list edge_t) (n : node_id) : nodeop := foldl (step_op c1 n) (op0 c1 n) es.

  Lemma opf_snoc c1 es e n : opf c1 (es ++ [e]) n = step_op c1 n (opf c1 es n) e.
  Proof. unfold opf. by rewrite foldl_app. Qed.

  (** a program with other operations *)
  Lemma with_ops_twice p o1 o2 : with_ops (with_ops p o1) o2 = with_ops p o2.
  Proof. done. Qed.

  (** the node's index in the program fits into a byte *)
  Definition small (c1 : nconf) : Prop := length (cf_nodes c1) <= 256.

  (** what is known right after the ports were rebuilt *)
  Record fresh (c1 : nconf) : Prop := {
    fr_inv : conf_inv T c1;
    fr_nodup : NoDup (created c1);
    fr_inst : forall n, n ∈ created c1 -> exists i ni, created c1 !! i = Some n /\ conf_inst c1 n = Some ni /\ ni_idx ni = i /\ ni_id ni = n;
    fr_small : small c1;
  }.

  Lemma fresh_idx c1 n m ni mi : fresh c1 -> conf_inst c1 n = Some ni -> conf_inst c1 m = Some mi ->
    u8 (ni_idx ni) = u8 (ni_idx mi) -> n = m.
  Proof.
    intros Hf Hn Hm Hu.
    assert (forall k ki, conf_inst c1 k = Some ki -> created c1 !! ni_idx ki = Some k) as Hx.
    { intros k ki Hk. destruct (inst_node T c1 k ki (fr_inv _ Hf) Hk) as (i & Hi & _ & _).
      destruct (fr_inst c1 Hf k) as (i' & ki' & H1 & H2 & H3 & _).
      { apply (idx_ids T); [apply Hf|by eexists]. }
      rewrite Hk in H2. injection H2 as <-. by rewrite H3. }
    pose proof (Hx _ _ Hn) as H1. pose proof (Hx _ _ Hm) as H2.
    pose proof (lookup_lt_Some _ _ _ H1) as L1. pose proof (lookup_lt_Some _ _ _ H2) as L2.
    pose proof (fr_small _ Hf) as Hs. unfold small in Hs. unfold created in L1, L2. rewrite fmap_length in L1, L2.
    unfold u8 in Hu. rewrite !Nat.mod_small in Hu by lia. congruence.
  Qed.

  Lemma op0_idx c1 n ni : conf_inst c1 n = Some ni -> op_idx (op0 c1 n) = u8 (ni_idx ni).
  Proof. intros H. unfold op0. by rewrite H. Qed.

  Lemma add_nodes_ops c1 p1 order : fresh c1 -> np_ops p1 = [] -> NoDup order ->
    (forall n, n ∈ order -> n ∈ created c1) ->
    let cp := foldl conf_add_node (c1, p1) order in
    same_inst cp.1 c1 /\ conf_inv T cp.1 /\ cp.2 = with_ops p1 (op0 c1 <$> order).
  Proof.
    intros Hf Hp. cbn zeta. induction order as [|n order IH] using rev_ind; intros Hnd Hin.
    - cbn. split; [done|]. split; [apply Hf|]. destruct p1; cbn in *. by subst.
    - apply NoDup_app in Hnd as (Hnd & Hni & _). rewrite foldl_app. cbn [foldl].
      destruct IH as (Hs & Hc & Ho); [done|intros m Hm; apply Hin, elem_of_app; by left|].
      set (cp := foldl conf_add_node (c1, p1) order) in *.
      destruct (fr_inst c1 Hf n) as (i & ni & _ & Hn & _ & _); [apply Hin, elem_of_app; right; left|].
      unfold conf_add_node. destruct (conf_inst cp.1 n) as [ni'|] eqn:En.
      2: { apply (same_inst_none _ _ _ Hs) in En. congruence. }
      destruct (same_inst_some _ _ _ _ Hs En) as (ni1 & Hn1 & Hop & _). rewrite Hn in Hn1. injection Hn1 as <-.
      cbn [fst snd]. split; [by apply same_inst_mark|]. split; [by apply mark_inv|].
      rewrite Hop. unfold prog_append_op. rewrite Ho. cbn [np_ops with_ops].
      destruct (existsb _ _) eqn:Ex.
      { exfalso. apply existsb_exists in Ex as (o & Hoin & Heq). apply Nat.eqb_eq in Heq.
        apply elem_of_list_In in Hoin. apply elem_of_list_fmap in Hoin as (m & -> & Hm).
        destruct (fr_inst c1 Hf m) as (i' & mi & _ & Hm' & _ & _); [apply Hin, elem_of_app; by left|].
        rewrite (op0_idx _ _ _ Hm') in Heq. cbn [op_idx ni_as_op] in Heq.
        pose proof (fresh_idx _ _ _ _ _ Hf Hm' Hn Heq) as ->. by apply (Hni n Hm); left. }
      rewrite with_ops_twice, fmap_app. do 2 f_equal. cbn. unfold op0. by rewrite Hn.
  Qed.

  Lemma ops_add_input_fmap (f g : node_id -> nodeop) order idx ii oi md t :
    t ∈ order -> NoDup order -> op_idx (f t) = idx ->
    (forall n, n ∈ order -> n <> t -> op_idx (f n) <> idx) ->
    (forall n, n ∈ order -> n <> t -> g n = f n) ->
    g t = op_push_input (op_set_in_flag (f t) ii) (oi, ii, md) ->
    ops_add_input (f <$> order) idx ii oi md = g <$> order.
  Proof.
    induction order as [|n order IH]; [by intros ?%elem_of_nil|].
    intros Ht Hnd Hft Hne Hg Hgt. apply NoDup_cons in Hnd as [Hni Hnd]. cbn [fmap list_fmap ops_add_input].
    destruct (Nat.eqb_spec (op_idx (f n)) idx) as [E|E].
    - assert (n = t) as ->.
      { destruct (decide (n = t)); [done|]. exfalso. apply (Hne n); [left|done|done]. }
      rewrite Hgt. f_equal. apply list_fmap_ext. intros i m Hm.
      symmetry. apply Hg; [right; by eapply elem_of_list_lookup_2|]. intros ->. apply Hni. by eapply elem_of_list_lookup_2.
    - assert (n <> t) by (intros ->; done). rewrite Hg; [|left|done]. f_equal.
      apply elem_of_cons in Ht as [?|Ht]; [congruence|]. apply IH; try done.
      + intros m Hm. apply Hne. by right.
      + intros m Hm. apply Hg. by right.
  Qed.

  Lemma set_out_idx op o : op_idx (op_set_out_flag op o) = op_idx op.
  Proof. unfold op_set_out_flag. by destruct (in_range _ _). Qed.

  Lemma opf_idx c1 es n : op_idx (opf c1 es n) = op_idx (op0 c1 n).
  Proof.
    induction es as [|e es IH] using rev_ind; [done|]. rewrite opf_snoc, <- IH. unfold step_op.
    destruct (entry c1 e) as [[[oi ii] md]|]; [|done].
    destruct (decide _); cbn [op_push_input op_idx]; [|by rewrite set_out_idx].
    unfold op_set_in_flag. destruct (in_range _ _); cbn [op_idx]; by rewrite set_out_idx.
  Qed.

  (** inputs that pass the modulator lookup *)
  Definition inputs_ok (es : list edge_t) : Prop := forall e, e ∈ es -> e_to_input e <> max_node_inputs.

  Lemma connects_ops c1 p1 order es cp : fresh c1 -> NoDup order -> (forall n, n ∈ order -> n ∈ created c1) ->
    (forall e, e ∈ es -> e_to e ∈ order) ->
    same_inst cp.1 c1 -> conf_inv T cp.1 -> cp.2 = with_ops p1 (op0 c1 <$> order) ->
    forall cp', foldm conf_connect cp es = Some cp' ->
    same_inst cp'.1 c1 /\ conf_inv T cp'.1 /\ cp'.2 = with_ops p1 (opf c1 es <$> order).
  Proof.
    intros Hf Hnd Hin Hes Hs Hc Hp. induction es as [|e es IH] using rev_ind; intros cp'.
    - cbn. intros [= <-]. done.
    - rewrite foldm_app. destruct (foldm conf_connect cp es) as [cp1|] eqn:E1; cbn [mbind option_bind foldm]; [|done].
      destruct (IH (fun e' He' => Hes e' (proj2 (elem_of_app _ _ _) (or_introl He'))) cp1 eq_refl) as (H1 & H2 & H3).
      destruct (conf_connect cp1 e) as [cp2|] eqn:E2; cbn [mbind option_bind]; [|done]. intros [= <-].
      assert (He : e_to e ∈ order) by (apply Hes, elem_of_app; right; left).
      unfold conf_connect in E2.
      destruct (conf_inst cp1.1 (e_from e)) as [s|] eqn:Es.
      2: { injection E2 as <-. split; [done|]. split; [done|]. rewrite H3. f_equal. apply list_fmap_ext. intros ? n _.
           rewrite opf_snoc. unfold step_op, entry. by rewrite (same_inst_none _ _ _ H1 Es). }
      destruct (conf_inst cp1.1 (e_to e)) as [d|] eqn:Ed.
      2: { injection E2 as <-. split; [done|]. split; [done|]. rewrite H3. f_equal. apply list_fmap_ext. intros ? n _.
           rewrite opf_snoc. unfold step_op, entry. rewrite (same_inst_none _ _ _ H1 Ed). by destruct (conf_inst c1 (e_from e)). }
      destruct (same_inst_some _ _ _ _ H1 Es) as (s1 & Hs1 & _ & _ & Hso & _).
      destruct (same_inst_some _ _ _ _ H1 Ed) as (d1 & Hd1 & _ & Hdi & _ & Hdm & Hdx).
      assert (Hmg : ni_mod_global d (e_to_input e) = ni_mod_global d1 (e_to_input e)) by (unfold ni_mod_global; by rewrite Hdm).
      rewrite Hmg, Hdi, Hso, Hdx in E2. destruct (ni_mod_global d1 (e_to_input e)) as [md|] eqn:Em; cbn [mbind option_bind] in E2; [|done].
      injection E2 as <-. cbn [fst snd]. split; [by apply same_inst_mark|]. split; [by apply mark_inv|].
      destruct (local2global (ni_in d1) (e_to_input e)) as [ii|] eqn:Ei.
      2: { rewrite H3. f_equal. apply list_fmap_ext. intros ? n _. rewrite opf_snoc. unfold step_op, entry. by rewrite Hs1, Hd1, Ei. }
      destruct (local2global (ni_out s1) (e_from_out e)) as [oi|] eqn:Eo.
      2: { rewrite H3. f_equal. apply list_fmap_ext. intros ? n _. rewrite opf_snoc. unfold step_op, entry. by rewrite Hs1, Hd1, Ei, Eo. }
      assert (Hent : entry c1 e = Some (oi, ii, md)) by (unfold entry; by rewrite Hs1, Hd1, Ei, Eo, Em).
      rewrite H3. unfold prog_append_edge. rewrite with_ops_twice. f_equal. cbn [np_ops with_ops].
      rewrite <- list_fmap_compose.
      apply (ops_add_input_fmap _ _ _ _ _ _ _ (e_to e)); try done.
      + cbn [compose]. rewrite set_out_idx, opf_idx. by apply op0_idx.
      + intros n Hn Hne Heq. cbn [compose] in Heq. rewrite set_out_idx, opf_idx in Heq.
        destruct (fr_inst c1 Hf n (Hin n Hn)) as (i & ni & _ & Hni & _ & _). rewrite (op0_idx _ _ _ Hni) in Heq.
        apply Hne. by eapply fresh_idx.
      + intros n Hn Hne. cbn [compose]. rewrite opf_snoc. unfold step_op. rewrite Hent. by rewrite decide_False by congruence.
      + cbn [compose]. rewrite opf_snoc. unfold step_op. rewrite Hent. by rewrite decide_True by done.
  Qed.

  (** fields of the finished operations *)
  Lemma step_static c1 n op e : let op' := step_op c1 n op e in
    op_node op' = op_node op /\ op_out op' = op_out op /\ op_in op' = op_in op /\ op_at op' = op_at op /\ op_mod op' = op_mod op.
  Proof.
    cbn zeta. unfold step_op. destruct (entry c1 e) as [[[oi ii] md]|]; [|done].
    unfold op_set_in_flag, op_set_out_flag.
    destruct (decide _); repeat (match goal with |- context [in_range ?a ?b] => destruct (in_range a b) end; cbn); done.
  Qed.
  Lemma opf_static c1 es n : op_node (opf c1 es n) = op_node (op0 c1 n) /\ op_out (opf c1 es n) = op_out (op0 c1 n) /\
    op_in (opf c1 es n) = op_in (op0 c1 n) /\ op_at (opf c1 es n) = op_at (op0 c1 n) /\ op_mod (opf c1 es n) = op_mod (op0 c1 n).
  Proof.
    induction es as [|e es IH] using rev_ind; [done|]. rewrite opf_snoc.
    destruct (step_static c1 n (opf c1 es n) e) as (-> & -> & -> & -> & ->). done.
  Qed.

  Definition entry_for (c1 : nconf) (n : node_id) (e : edge_t) : option (nat * nat * option nat) :=
    if decide (e_to e = n) then entry c1 e else None.

  Lemma opf_inputs c1 es n : op_inputs (opf c1 es n) = op_inputs (op0 c1 n) ++ omap (entry_for c1 n) es.
  Proof.
    induction es as [|e es IH] using rev_ind; [by rewrite app_nil_r|]. rewrite opf_snoc, omap_app, app_assoc, <- IH.
    cbn [omap list_omap]. unfold entry_for, step_op.
    destruct (entry c1 e) as [[[oi ii] md]|].
    - destruct (decide _); cbn [op_push_input op_inputs].
      + f_equal. unfold op_set_in_flag, op_set_out_flag. by repeat (match goal with |- context [in_range ?a ?b] => destruct (in_range a b) end; cbn).
      + rewrite app_nil_r. unfold op_set_out_flag. by destruct (in_range _ _).
    - destruct (decide _); by rewrite app_nil_r.
  Qed.

  Lemma opf_inc c1 es n j : N.testbit (op_inc (opf c1 es n)) (N.of_nat j) = true <->
    N.testbit (op_inc (op0 c1 n)) (N.of_nat j) = true \/
    exists e oi ii md, e ∈ es /\ entry_for c1 n e = Some (oi, ii, md) /\ in_range (op_in (op0 c1 n)) ii = true /\
       ii - (op_in (op0 c1 n)).1 = j.
  Proof.
    induction es as [|e es IH] using rev_ind.
    - cbn. split; [by left|]. intros [?|(e & ? & ? & ? & He & _)]; [done|by apply elem_of_nil in He].
    - rewrite opf_snoc. unfold step_op.
      assert (Hold : (exists e0 oi ii md, e0 ∈ es ++ [e] /\ entry_for c1 n e0 = Some (oi, ii, md) /\ in_range (op_in (op0 c1 n)) ii = true /\
       ii - (op_in (op0 c1 n)).1 = j) <->
       (exists e0 oi ii md, e0 ∈ es /\ entry_for c1 n e0 = Some (oi, ii, md) /\ in_range (op_in (op0 c1 n)) ii = true /\
       ii - (op_in (op0 c1 n)).1 = j) \/ exists oi ii md, entry_for c1 n e = Some (oi, ii, md) /\ in_range (op_in (op0 c1 n)) ii = true /\
       ii - (op_in (op0 c1 n)).1 = j).
      { split.
        - intros (e0 & oi & ii & md & [He| ->%elem_of_list_singleton]%elem_of_app & Hx); [left; by exists e0, oi, ii, md|right; by exists oi, ii, md].
        - intros [(e0 & oi & ii & md & He & Hx)|(oi & ii & md & Hx)]; [exists e0, oi, ii, md|exists e, oi, ii, md]; (split; [apply elem_of_app|done]); [by left|right; left]. }
      rewrite Hold. clear Hold. unfold entry_for at 2.
      destruct (entry c1 e) as [[[oi ii] md]|].
      + destruct (decide (e_to e = n)) as [Ht|Ht]; cbn [op_push_input op_inc].
        * destruct (opf_static c1 es n) as (_ & _ & Hi & _).
          unfold op_set_in_flag.
          assert (Hio : op_in (op_set_out_flag (opf c1 es n) oi) = op_in (op0 c1 n)).
          { rewrite <- Hi. unfold op_set_out_flag. by destruct (in_range _ _). }
          assert (Hic : op_inc (op_set_out_flag (opf c1 es n) oi) = op_inc (opf c1 es n)).
          { unfold op_set_out_flag. by destruct (in_range _ _). }
          rewrite Hio. destruct (in_range (op_in (op0 c1 n)) ii) eqn:Er; cbn [op_inc]; rewrite Hic.
          -- rewrite N.lor_spec, orb_true_iff, IH, N.shiftl_1_l, N.pow2_bits_eqb, N.eqb_eq.
             split.
             ++ intros [[?|?]|?]; [tauto|tauto|]. right. right. exists oi, ii, md. split; [done|]. split; [done|]. lia.
             ++ intros [?|[?|(? & ? & ? & [= <- <- <-] & _ & Hj)]]; [tauto|tauto|]. right. lia.
          -- rewrite IH. split; [tauto|]. intros [?|[?|(? & ? & ? & [= <- <- <-] & Hr & _)]]; [tauto|tauto|congruence].
        * assert (Hic : op_inc (op_set_out_flag (opf c1 es n) oi) = op_inc (opf c1 es n)).
          { unfold op_set_out_flag. by destruct (in_range _ _). }
          rewrite Hic, IH. split; [tauto|]. intros [?|[?|(? & ? & ? & ? & _)]]; [tauto|tauto|done].
      + rewrite IH. split; [tauto|]. intros [?|[?|(? & ? & ? & Hx & _)]]; [tauto|tauto|]. by destruct (decide _).
  Qed.

  Lemma opf_outc c1 es n j : N.testbit (op_outc (opf c1 es n)) (N.of_nat j) = true <->
    N.testbit (op_outc (op0 c1 n)) (N.of_nat j) = true \/
    exists e oi ii md, e ∈ es /\ entry c1 e = Some (oi, ii, md) /\ in_range (op_out (op0 c1 n)) oi = true /\
       oi - (op_out (op0 c1 n)).1 = j.
  Proof.
    induction es as [|e es IH] using rev_ind.
    - cbn. split; [by left|]. intros [?|(e & ? & ? & ? & He & _)]; [done|by apply elem_of_nil in He].
    - rewrite opf_snoc. unfold step_op.
      assert (Hold : (exists e0 oi ii md, e0 ∈ es ++ [e] /\ entry c1 e0 = Some (oi, ii, md) /\ in_range (op_out (op0 c1 n)) oi = true /\
       oi - (op_out (op0 c1 n)).1 = j) <->
       (exists e0 oi ii md, e0 ∈ es /\ entry c1 e0 = Some (oi, ii, md) /\ in_range (op_out (op0 c1 n)) oi = true /\
       oi - (op_out (op0 c1 n)).1 = j) \/ exists oi ii md, entry c1 e = Some (oi, ii, md) /\ in_range (op_out (op0 c1 n)) oi = true /\
       oi - (op_out (op0 c1 n)).1 = j).
      { split.
        - intros (e0 & oi & ii & md & [He| ->%elem_of_list_singleton]%elem_of_app & Hx); [left; by exists e0, oi, ii, md|right; by exists oi, ii, md].
        - intros [(e0 & oi & ii & md & He & Hx)|(oi & ii & md & Hx)]; [exists e0, oi, ii, md|exists e, oi, ii, md]; (split; [apply elem_of_app|done]); [by left|right; left]. }
      rewrite Hold. clear Hold.
      destruct (entry c1 e) as [[[oi ii] md]|].
      + assert (Hoc : op_outc (if decide (e_to e = n) then op_push_input (op_set_in_flag (op_set_out_flag (opf c1 es n) oi) ii) (oi, ii, md)
                               else op_set_out_flag (opf c1 es n) oi) = op_outc (op_set_out_flag (opf c1 es n) oi)).
        { destruct (decide _); [|done]. cbn. unfold op_set_in_flag. by destruct (in_range _ _). }
        rewrite Hoc. unfold op_set_out_flag. destruct (opf_static c1 es n) as (_ & Hi & _). rewrite Hi.
        destruct (in_range (op_out (op0 c1 n)) oi) eqn:Er; cbn [op_outc].
        * rewrite N.lor_spec, orb_true_iff, IH, N.shiftl_1_l, N.pow2_bits_eqb, N.eqb_eq.
             split.
             ++ intros [[?|?]|?]; [tauto|tauto|]. right. right. exists oi, ii, md. split; [done|]. split; [done|]. lia.
             ++ intros [?|[?|(? & ? & ? & [= <- <- <-] & _ & Hj)]]; [tauto|tauto|]. right. lia.
        * rewrite IH. split; [tauto|]. intros [?|[?|(? & ? & ? & [= <- <- <-] & Hr & _)]]; [tauto|tauto|congruence].
      + rewrite IH. split; [tauto|]. intros [?|[?|(? & ? & ? & Hx & _)]]; [tauto|tauto|done].
  Qed.
End build.
