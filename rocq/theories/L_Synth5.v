(** Uploading a described synthesizer (C31) *)
From Coq Require Import QArith.
From stdpp Require Import strings.
From Verif Require Import Base M_Atom M_Graph S_Graph M_Grid M_Prog M_Conf M_Exec M_Nodes M_Synth S_Nodes S_Grid S_Conf S_Sync S_Prog S_Synth.
From Verif Require Import L_Graph L_Conf L_Conf3 L_Sync L_Build L_Fill L_Wire P_Nodes L_Synth L_Synth2 L_Synth3 L_Synth4.
Open Scope list_scope.
Open Scope nat_scope.
Local Opaque node_rows.

(** * The order of the nodes *)
Lemma bounded_limit (B : node_id -> list node_id) s : (forall a b, edge s a b -> b ∈ B a) -> (forall a, length (B a) <= 32) -> within_limit s.
Proof.
  intros HB Hl a. unfold MAX_NODE_EDGES. transitivity (length (B a)); [|specialize (Hl a); lia]. apply submseteq_length, NoDup_submseteq.
  - apply NoDup_remove_dups.
  - intros b Hb. apply HB. by apply targets_elem.
Qed.
Lemma before_rev {A} (l : list A) a b : before l a b -> before (rev l) b a.
Proof.
  intros (l1 & l2 & l3 & ->). exists (rev l3), (rev l2), (rev l1).
  change (l1 ++ a :: l2 ++ b :: l3) with (l1 ++ [a] ++ l2 ++ [b] ++ l3). rewrite !rev_app_distr. cbn. by rewrite <- !app_assoc.
Qed.
Lemma clos_flip {A} (R S : A -> A -> Prop) a b : (forall x y, R x y -> S y x) -> clos_trans _ R a b -> clos_trans _ S b a.
Proof. intros H. induction 1; [by apply t_step, H|by eapply t_trans]. Qed.

Section order.
  Context (B : node_id -> list node_id) (HB : forall a, length (B a) <= 32).
  Definition inside (g : sgraph) : Prop := forall a b, edge g a b -> b ∈ B a.

  Lemma edges_order n (xs : list (string * (node_id * string))) : (forall x, x ∈ xs -> x.2.1 ∈ B n) ->
    forall go g, R go g -> inside g -> n ∈ sg_nodes g ->
    exists go' g', foldm (fun go (x : string * (node_id * string)) => gord_add_edge go n x.2.1) go xs = Some go' /\ R go' g' /\ inside g' /\
      (forall a b, edge g' a b <-> edge g a b \/ a = n /\ exists x, x ∈ xs /\ x.2.1 = b) /\
      (forall m, m ∈ sg_nodes g' <-> m ∈ sg_nodes g \/ exists x, x ∈ xs /\ x.2.1 = m).
  Proof.
    induction xs as [|x xs IH]; intros Hxs go g HR Hin Hn.
    - exists go, g. split_and!; try done.
      + intros a b. split; [by left|]. intros [?|(_ & x & ?%elem_of_nil & _)]; done.
      + intros m. split; [by left|]. intros [?|(x & ?%elem_of_nil & _)]; done.
    - set (g1 := sg_step g (GAddEdge n x.2.1)).
      assert (Hn1 : n ∈ sg_add x.2.1 (sg_nodes g)) by (apply elem_sg_add; by right).
      assert (He1 : forall a b, edge g1 a b <-> edge g a b \/ a = n /\ x.2.1 = b).
      { intros a b. unfold edge, g1. cbn. rewrite decide_True by done. rewrite elem_of_cons. split; [|intros [?|[-> ->]]; [by right|by left]].
        intros [[= -> ->]|?]; [by right|by left]. }
      assert (Hi1 : inside g1).
      { intros a b [H|[-> <-]]%He1; [by apply Hin|]. apply Hxs. by left. }
      destruct (add_edge_some go g n x.2.1 HR) as [go1 E1]; [by apply (bounded_limit B)|].
      pose proof (R_add_edge go g n x.2.1 go1 HR E1) as HR1. fold g1 in HR1.
      destruct (IH (fun y Hy => Hxs y ltac:(by right)) go1 g1 HR1 Hi1) as (go2 & g2 & E2 & HR2 & Hi2 & He2 & Hn2).
      { unfold g1. cbn. done. }
      exists go2, g2. cbn [foldm]. rewrite E1. cbn [mbind option_bind]. rewrite E2. split_and!; try done.
      + intros a b. rewrite He2, He1. split.
        * intros [[?|[-> <-]]|(-> & y & Hy & <-)]; [by left|right; split; [done|]; exists x; split; [by left|done]|].
          right. split; [done|]. exists y. split; [by right|done].
        * intros [?|(-> & y & [->|Hy]%elem_of_cons & <-)]; [left; by left|left; by right|]. right. split; [done|]. by exists y.
      + intros m. rewrite Hn2. unfold g1. cbn. rewrite elem_sg_add. split.
        * intros [[->|?]|(y & Hy & <-)]; [right; exists x; split; [by left|done]|by left|]. right. exists y. split; [by right|done].
        * intros [?|(y & [->|Hy]%elem_of_cons & <-)]; [left; by right|left; by left|]. right. by exists y.
  Qed.

  Lemma nodes_order it (es : list (node_id * ncfg)) : fair it ->
    (forall n cfg name src out, (n, cfg) ∈ es -> nc_edges cfg !! name = Some (src, out) -> src ∈ B n) ->
    forall go g, R go g -> inside g ->
    exists go' g', foldm (order_node it) go es = Some go' /\ R go' g' /\ inside g' /\
      (forall a b, edge g' a b <-> edge g a b \/ exists cfg name out, (a, cfg) ∈ es /\ nc_edges cfg !! name = Some (b, out)) /\
      (forall m, m ∈ sg_nodes g' <-> m ∈ sg_nodes g \/ (exists cfg, (m, cfg) ∈ es) \/
                  exists n cfg name out, (n, cfg) ∈ es /\ nc_edges cfg !! name = Some (m, out)).
  Proof.
    intros Hf. induction es as [|[n cfg] es IH]; intros Hes go g HR Hin.
    - exists go, g. split_and!; try done.
      + intros a b. split; [by left|]. intros [?|(? & ? & ? & ?%elem_of_nil & _)]; done.
      + intros m. split; [by left|]. intros [?|[(? & ?%elem_of_nil)|(? & ? & ? & ? & ?%elem_of_nil & _)]]; done.
    - destruct (R_add_node go g n HR) as [HR1 _]. set (g1 := SG (sg_add n (sg_nodes g)) (sg_edges g)) in *.
      assert (Hx : forall x, x ∈ it_edges it n (nc_edges cfg) <-> nc_edges cfg !! x.1 = Some x.2).
      { intros [name y]. assert (it_edges it n (nc_edges cfg) ≡ₚ map_to_list (nc_edges cfg)) as -> by apply Hf. by rewrite elem_of_map_to_list. }
      destruct (edges_order n (it_edges it n (nc_edges cfg))) with (go := fst (gord_add_node go n)) (g := g1) as (go2 & g2 & E2 & HR2 & Hi2 & He2 & Hn2).
      { intros [name [src out]] H. apply Hx in H. cbn in *. eapply Hes; [by left|done]. }
      { done. }
      { done. }
      { cbn. apply elem_sg_add. by left. }
      destruct (IH (fun n' cfg' name src out H => Hes n' cfg' name src out ltac:(by right)) go2 g2 HR2 Hi2) as (go3 & g3 & E3 & HR3 & Hi3 & He3 & Hn3).
      exists go3, g3. cbn [foldm]. unfold order_node at 2. cbn [fst snd]. rewrite E2. cbn [mbind option_bind]. rewrite E3. split_and!; try done.
      + intros a b. rewrite He3, He2. split.
        * intros [[?|(-> & [name [s o]] & H & <-)]|(c & name & out & Hc & He)]; [by left|right; apply Hx in H; exists cfg, name, o; split; [by left|done]|].
          right. exists c, name, out. split; [by right|done].
        * intros [?|(c & name & out & [[= -> ->]|Hc]%elem_of_cons & He)]; [left; by left| |].
          -- left. right. split; [done|]. exists (name, (b, out)). split; [by apply Hx|done].
          -- right. by exists c, name, out.
      + intros m. rewrite Hn3, Hn2. unfold g1. cbn [sg_nodes]. rewrite elem_sg_add. split.
        * intros [[[->|?]|([name [s o]] & H & <-)]|[(c & Hc)|(n' & c & name & out & Hc & He)]].
          -- right. left. exists cfg. by left.
          -- by left.
          -- right. right. apply Hx in H. exists n, cfg, name, o. split; [by left|done].
          -- right. left. exists c. by right.
          -- right. right. exists n', c, name, out. split; [by right|done].
        * intros [?|[(c & [[= -> ->]|Hc]%elem_of_cons)|(n' & c & name & out & [[= -> ->]|Hc]%elem_of_cons & He)]].
          -- left. left. by right.
          -- left. left. by left.
          -- right. left. by exists c.
          -- left. right. exists (name, (m, out)). split; [by apply Hx|done].
          -- right. right. by exists n', c, name, out.
  Qed.
End order.

Lemma wired_by_ext T (E E' : edge_t -> Prop) modamt p : (forall e, E e <-> E' e) -> wired_by T E modamt p -> wired_by T E' modamt p.
Proof.
  intros HE. assert (Hw : forall e, wire_in T E e <-> wire_in T E' e) by (intros e; unfold wire_in; by rewrite HE).
  intros [H1 H2 H3 H4 H5 H6]. constructor; [done|done|..].
  - intros op j Ho Hj. destruct (H3 op j Ho Hj) as [Hs [[Hn Hr]|(e & src & He & Hx)]]; (split; [done|]).
    + left. split; [|done]. intros e He. by apply Hn, Hw.
    + right. apply Hw in He. by exists e, src.
  - intros m mo Hm. destruct (H4 m mo Hm) as [?|(e & src & dst & k & He & Hx)]; [by left|right]. apply Hw in He. by exists e, src, dst, k.
  - intros op j Ho. rewrite (H5 op j Ho). split; intros (e & He & Hx); exists e; (split; [by apply Hw|done]).
  - intros op j Ho. rewrite (H6 op j Ho). split; intros (e & He & Hx); exists e; (split; [by apply Hw|done]).
Qed.

Section upload.
  Context (def : nat -> nat -> f32) (norm denorm : nat -> nat -> f32 -> f32) (q2f : Q -> f32).
  Context (i2f : Z -> f32) (load_sample : satom -> satom) (feq : f32 -> f32 -> bool).
  Notation T := (hexo_table def norm denorm q2f).
  Notation has_value := (has_value T i2f load_sample feq).
  Notation HT := (C28_table_ok def norm denorm q2f).
  Notation sinv := (sinv def norm denorm q2f).

  Definition complete (D : list said) : Prop := forall n i src o, last_from D n i = Some (src, o) -> named D src.

  Lemma edges_few D n cfg : known n -> cfg_tracks D n cfg -> length (map_to_list (nc_edges cfg)) <= 32.
  Proof.
    intros Hn Hc. destruct (C28_inputs n Hn) as (_ & _ & _ & _ & Hle & _). unfold in_count in Hle.
    transitivity (length (info_inputs n)); [|done]. rewrite <- (fmap_length fst).
    apply submseteq_length, NoDup_submseteq; [apply NoDup_fst_map_to_list|].
    intros name ([name' [src out]] & -> & Hin)%elem_of_list_fmap. apply elem_of_map_to_list in Hin. cbn.
    destruct (ct_edge _ _ _ Hc _ _ _ Hin) as (i & o & Hi & _). by eapply elem_of_list_lookup_2.
  Qed.

  Lemma upload_order it D s : fair it -> sinv D s -> complete D ->
    exists go go' ordered ok, foldm (order_node it) (gord_clear (sy_order s)) (it_nodes it (sy_nodes s)) = Some go /\
      gord_calculate_order go [] = Some (go', ordered, ok) /\ (exists g, R go' g) /\ (ok = true <-> said_acyclic D) /\
      (ok = true -> NoDup (rev ordered) /\ (forall n, n ∈ rev ordered <-> named D n) /\ forall a b, feeds_said D a b -> before (rev ordered) a b).
  Proof.
    intros Hf Hs Hcl. pose proof (si_tracks _ _ _ _ _ _ Hs) as Ht.
    assert (Hel : forall n cfg, (n, cfg) ∈ it_nodes it (sy_nodes s) <-> sy_nodes s !! n = Some cfg).
    { intros n cfg. assert (it_nodes it (sy_nodes s) ≡ₚ map_to_list (sy_nodes s)) as -> by apply Hf. by rewrite elem_of_map_to_list. }
    set (B := fun n => match sy_nodes s !! n with Some cfg => (fun x : string * (node_id * string) => x.2.1) <$> map_to_list (nc_edges cfg) | None => [] end).
    destruct (nodes_order B) with (it := it) (es := it_nodes it (sy_nodes s)) (go := gord_clear (sy_order s)) (g := sg_empty)
      as (go & g & E & HR & _ & He & Hn).
    { intros n. unfold B. destruct (sy_nodes s !! n) as [cfg|] eqn:En; [|cbn; lia]. rewrite fmap_length.
      destruct (tk_cfg _ _ Ht _ _ En) as [Hk Hc]. by eapply edges_few. }
    { done. }
    { intros n cfg name src out H%Hel He. unfold B. rewrite H. apply elem_of_list_fmap. exists (name, (src, out)). split; [done|]. by apply elem_of_map_to_list. }
    { destruct (si_order _ _ _ _ _ _ Hs) as [g Hg]. by eapply R_clear. }
    { intros a b H. by apply elem_of_nil in H. }
    assert (He' : forall a b, edge g a b <-> feeds_said D b a).
    { intros a b. rewrite He. split.
      - intros [?%elem_of_nil|(cfg & name & out & H%Hel & Hx)]; [done|]. destruct (tk_cfg _ _ Ht _ _ H) as [Hk Hc].
        destruct (ct_edge _ _ _ Hc _ _ _ Hx) as (i & o & _ & _ & _ & Hl). by exists i, o.
      - intros (i & o & Hl). right.
        assert (Hna : named D a). { apply last_from_in in Hl. by apply (tk_subj _ _ Ht) in Hl. }
        apply (tk_named _ _ Ht) in Hna as [cfg Hcfg]. destruct (tk_cfg _ _ Ht _ _ Hcfg) as [Hk Hc].
        destruct (ct_from _ _ _ Hc _ _ _ Hl) as (name & out & _ & _ & Hx). exists cfg, name, out. split; [by apply Hel|done]. }
    assert (Hn' : forall m, m ∈ sg_nodes g <-> named D m).
    { intros m. rewrite Hn. split.
      - intros [?%elem_of_nil|[(cfg & H%Hel)|(n & cfg & name & out & H%Hel & Hx)]]; [done|apply (tk_named _ _ Ht); by exists cfg|].
        destruct (tk_cfg _ _ Ht _ _ H) as [Hk Hc]. destruct (ct_edge _ _ _ Hc _ _ _ Hx) as (i & o & _ & _ & _ & Hl). by eapply Hcl.
      - intros [cfg Hc]%(tk_named _ _ Ht). right. left. exists cfg. by apply Hel. }
    destruct (calculate_order_ok go g [] HR) as (go' & ok & ord & Ec & HR' & Hok & Hord).
    exists go, go', (if ok then [] ++ ord else []), ok. split; [done|]. split; [done|]. split; [by exists g|]. split.
    - rewrite Hok. unfold acyclic, said_acyclic, reach. split; intros H n Hx; apply (H n); (eapply clos_flip; [|exact Hx]); intros x y; by rewrite He'.
    - intros ->. destruct (Hord eq_refl) as [Hp Hb]. cbn [app]. split_and!.
      + rewrite <- Permutation_rev, Hp. apply (R_nd _ _ HR).
      + intros n. rewrite <- Hn', <- Hp. by rewrite !elem_of_list_In, <- in_rev.
      + intros a b Hab. apply before_rev, Hb, He'. done.
  Qed.

  Lemma known_T n : known n -> nt_known T (nid_kind n) = true.
  Proof.
    intros [H1 H2]. change (nt_known T (nid_kind n)) with ((0 <? nid_kind n) && (nid_kind n <=? length node_rows)). rewrite rows_count.
    apply andb_true_iff. split; [apply Nat.ltb_lt; lia|apply Nat.leb_le; lia].
  Qed.

  Lemma ensure_spec it D : fair it -> forall ns s ms, sinv D s -> NoDup ns -> (forall n, n ∈ ns -> named D n) ->
    exists s' ms', ensure_nodes T i2f load_sample feq it s ms ns = (s', ms ++ ms', None) /\ sinv D s' /\ Forall no_prog ms' /\
      sy_nodes s' = sy_nodes s /\ sy_order s' = sy_order s /\
      (forall x, x ∈ created (sy_conf s') <-> x ∈ created (sy_conf s) \/ x ∈ ns) /\
      (forall n i v ma, n ∈ ns -> last_val D n i = Some (v, ma) -> has_value (sy_conf s') n i v ma) /\
      (forall q, q.1 ∉ ns -> same_at (sy_conf s) (sy_conf s') q).
  Proof.
    intros Hf. induction ns as [|n ns IH]; intros s ms Hs Hnd Hna.
    - exists s, []. cbn. rewrite app_nil_r. split_and!; [done|done|constructor|done|done| |by intros ? ? ? ? ?%elem_of_nil|done].
      intros x. split; [by left|]. intros [?|?%elem_of_nil]; done.
    - cbn [ensure_nodes]. apply NoDup_cons in Hnd as [Hni Hnd].
      set (s0 := match cf_idx (sy_conf s) !! n with Some _ => s | None => with_conf s (default (sy_conf s) (conf_create T (sy_conf s) n)) end).
      assert (Hs0 : sinv D s0 /\ sy_nodes s0 = sy_nodes s /\ sy_order s0 = sy_order s /\
        (forall x, x ∈ created (sy_conf s0) <-> x ∈ created (sy_conf s) \/ x = n) /\ (forall q, same_at (sy_conf s) (sy_conf s0) q)).
      { pose proof (si_fine _ _ _ _ _ _ Hs) as Hfi. unfold s0. pose proof (idx_ids T (sy_conf s) n (cn_inv _ _ Hfi)) as Hidx.
        destruct (cf_idx (sy_conf s) !! n) as [i|] eqn:Ei.
        - split_and!; try done. intros x. split; [by left|]. intros [?| ->]; [done|]. apply Hidx. by exists i.
        - assert (Hn : n ∉ created (sy_conf s)) by (intros [? ?]%Hidx; done).
          assert (Hk : known n).
          { destruct (proj2 (tk_named _ _ (si_tracks _ _ _ _ _ _ Hs) n)) as [cfg Hc]; [apply Hna; by left|].
            by apply (tk_cfg _ _ (si_tracks _ _ _ _ _ _ Hs) n cfg). }
          destruct (conf_create T (sy_conf s) n) as [c'|] eqn:Ec; [|unfold conf_create in Ec; by rewrite known_T in Ec].
          change (default (sy_conf s) (Some c')) with c'. destruct (create_fine T HT _ _ _ Hfi Hn Ec) as [Hfi' Hcr]. pose proof (create_same T _ _ _ Ec) as Hsa.
          split_and!; cbn [with_conf sy_nodes sy_order sy_conf]; try done.
          + constructor; cbn; try apply Hs; [done| |].
            * intros q Hq. eapply quiet_same; [apply Hsa|]. by apply (si_quiet _ _ _ _ _ _ Hs).
            * rewrite Hcr. intros x [?| ->%elem_of_list_singleton]%elem_of_app; [by apply (si_made _ _ _ _ _ _ Hs)|]. apply Hna. by left.
          + intros x. rewrite Hcr, elem_of_app, elem_of_list_singleton. done. }
      destruct Hs0 as (Hs0 & N0 & O0 & C0 & A0).
      destruct (update_node_spec def norm denorm q2f i2f load_sample feq it D s0 n Hf Hs0) as (s1 & ms1 & b1 & E1 & S1 & N1 & O1 & C1 & V1 & A1 & M1).
      rewrite E1. destruct (IH s1 (ms ++ ms1) S1 Hnd) as (s2 & ms2 & E2 & S2 & M2 & N2 & O2 & C2 & V2 & A2).
      { intros m Hm. apply Hna. by right. }
      exists s2, (ms1 ++ ms2). rewrite E2, app_assoc. split_and!; try done.
      + by apply Forall_app.
      + by rewrite N2, N1.
      + by rewrite O2, O1.
      + intros x. rewrite C2, C1, C0, elem_of_cons. tauto.
      + intros m i v ma [->|Hm]%elem_of_cons Hl; [|by apply V2]. eapply same_at_value; [by apply (A2 (n, i))|]. by apply V1.
      + intros q Hq. apply not_elem_of_cons in Hq as [Hq1 Hq2]. eapply same_at_trans; [apply A0|]. eapply same_at_trans; [by apply A1|by apply A2].
  Qed.

  Lemma until_error_ok (es : list edge_t) : until_error (inr <$> es) = (es, None).
  Proof. induction es as [|e es IH]; [done|]. cbn. change (list_fmap _ _ inr es) with (inr (A:=synerr) <$> es). by rewrite IH. Qed.

  Lemma edges_spec it D nodes order : fair it -> tracks D nodes -> (forall n, n ∈ order <-> named D n) ->
    exists es : list edge_t, synth_edges it nodes order = inr <$> es /\
      forall e, e ∈ es <-> last_from D (e_to e) (e_to_input e) = Some (e_from e, e_from_out e).
  Proof.
    intros Hf Ht Hord.
    assert (Hone : forall n cfg, nodes !! n = Some cfg -> exists es : list edge_t, name_edge n <$> it_edges it n (nc_edges cfg) = inr <$> es /\
      forall e, e ∈ es <-> e_to e = n /\ last_from D n (e_to_input e) = Some (e_from e, e_from_out e)).
    { intros n cfg Hcfg. destruct (tk_cfg _ _ Ht _ _ Hcfg) as [Hn Hc].
      assert (Hx : forall x, x ∈ it_edges it n (nc_edges cfg) <-> nc_edges cfg !! x.1 = Some x.2).
      { intros [name y]. assert (it_edges it n (nc_edges cfg) ≡ₚ map_to_list (nc_edges cfg)) as -> by apply Hf. by rewrite elem_of_map_to_list. }
      assert (Hg : forall l, (forall x, x ∈ l -> nc_edges cfg !! x.1 = Some x.2) -> exists es : list edge_t, name_edge n <$> l = inr <$> es /\
        forall e, e ∈ es <-> exists x i o, x ∈ l /\ info_inputs n !! i = Some x.1 /\ info_outputs x.2.1 !! o = Some x.2.2 /\
                     last_from D n i = Some (x.2.1, o) /\ e = Edge x.2.1 o n i).
      { induction l as [|[name [src out]] l IH]; intros Hl.
        - exists []. split; [done|]. intros e. split; [by intros ?%elem_of_nil|]. by intros (? & ? & ? & ?%elem_of_nil & _).
        - destruct IH as (es & E & He); [intros; apply Hl; by right|].
          destruct (ct_edge _ _ _ Hc name src out) as (i & o & H1 & H2 & H3 & H4); [apply (Hl (name, (src, out))); by left|].
          exists (Edge src o n i :: es). split.
          + cbn [fmap list_fmap]. change (list_fmap _ _ ?f ?x) with (f <$> x). rewrite E. f_equal. unfold name_edge. cbn [fst snd].
            destruct (input_name n i name Hn H1) as [-> _]. by rewrite (output_name src o out H3 H2).
          + intros e. rewrite elem_of_cons, He. split.
            * intros [->|(x & i' & o' & Hx' & Hr)]; [exists (name, (src, out)), i, o; split; [by left|done]|]. exists x, i', o'. split; [by right|done].
            * intros (x & i' & o' & [->|Hx']%elem_of_cons & Hi & Ho & Hlf & ->); [|right; by exists x, i', o'].
              left. cbn in *. assert (i' = i) as -> by exact (input_inj _ _ _ _ Hn Hi H1).
              rewrite H4 in Hlf. by injection Hlf as ->. }
      destruct (Hg (it_edges it n (nc_edges cfg))) as (es & E & He); [intros; by apply Hx|]. exists es. split; [done|]. intros e. rewrite He. split.
      - intros (x & i & o & _ & _ & _ & H4 & ->). done.
      - intros [<- Hl]. destruct (ct_from _ _ _ Hc _ _ _ Hl) as (name & out & H1 & H2 & H3).
        exists (name, (e_from e, out)), (e_to_input e), (e_from_out e). split; [by apply Hx|]. cbn. split_and!; try done. by destruct e. }
    assert (Hg : forall l, (forall n, n ∈ l -> named D n) -> exists es : list edge_t, synth_edges it nodes l = inr <$> es /\
      forall e, e ∈ es <-> e_to e ∈ l /\ last_from D (e_to e) (e_to_input e) = Some (e_from e, e_from_out e)).
    { induction l as [|n l IH]; intros Hl.
      - exists []. split; [done|]. intros e. split; [by intros ?%elem_of_nil|]. by intros [?%elem_of_nil _].
      - destruct IH as (es & E & He); [intros; apply Hl; by right|].
        destruct (proj2 (tk_named _ _ Ht n)) as [cfg Hcfg]; [apply Hl; by left|]. destruct (Hone n cfg Hcfg) as (es1 & E1 & He1).
        exists (es1 ++ es). split.
        + unfold synth_edges in *. cbn [fmap list_fmap mjoin list_join]. rewrite Hcfg, E1, fmap_app. f_equal. exact E.
        + intros e. rewrite elem_of_app, He1, He, elem_of_cons. split; [|naive_solver]. intros [[<- ?]|[? ?]]; split; auto. }
    destruct (Hg order) as (es & E & He); [intros; by apply Hord|]. exists es. split; [done|]. intros e. rewrite He. split; [by intros [_ ?]|].
    intros Hl. split; [|done]. apply Hord. apply last_from_in in Hl. by apply (tk_subj _ _ Ht) in Hl.
  Qed.

  (** The rest of an upload once the order is known *)
  Lemma finish_spec it D s ms h order : fair it -> sinv D s -> complete D -> NoDup order -> (forall n, n ∈ order <-> named D n) ->
    (forall a b, feeds_said D a b -> before order a b) ->
    exists s1 ms1 es h' c' p, ensure_nodes T i2f load_sample feq it s ms order = (s1, ms ++ ms1, None) /\ Forall no_prog ms1 /\
      until_error (synth_edges it (sy_nodes s1) order) = (es, None) /\
      conf_program T h (sy_conf s1) order es = Some (h', c', p) /\
      sinv D (with_conf s1 c') /\ heard def norm denorm q2f i2f load_sample feq D D c' /\
      (length order <= 256 -> forall finc hx e hx' e' t, exec_message finc hx e (MNewProg p true) = Some (hx', e', t) ->
        plays T i2f load_sample feq D (cf_modamt c') (ex_prog e')).
  Proof.
    intros Hf Hs Hcl Hnd Hord Hbef.
    destruct (ensure_spec it D Hf order s ms Hs Hnd) as (s1 & ms1 & E1 & S1 & M1 & N1 & O1 & C1 & V1 & A1); [by intros n ?%Hord|].
    destruct (edges_spec it D (sy_nodes s1) order Hf (si_tracks _ _ _ _ _ _ S1) Hord) as (es & E2 & He).
    assert (Hcr : forall x, x ∈ created (sy_conf s1) <-> x ∈ order).
    { intros x. rewrite C1. split; [|by right]. intros [Hx|?]; [|done]. apply Hord. by apply (si_made _ _ _ _ _ _ Hs). }
    assert (Hfi : conf_fine T (sy_conf s1)) by apply S1.
    assert (Hes : forall e, e ∈ es -> e_from e ∈ order /\ e_to e ∈ order).
    { intros e Hl%He. split; apply Hord; [by eapply Hcl|]. apply last_from_in in Hl. by apply (tk_subj _ _ (si_tracks _ _ _ _ _ _ S1)) in Hl. }
    assert (Hport : forall e, e ∈ es -> known (e_to e) /\ e_to_input e < in_count (e_to e)).
    { intros e Hl. pose proof (proj1 (Hord _) (proj2 (Hes e Hl))) as Hna. apply He in Hl.
      apply (tk_named _ _ (si_tracks _ _ _ _ _ _ S1)) in Hna as [cfg Hcfg]. destruct (tk_cfg _ _ (si_tracks _ _ _ _ _ _ S1) _ _ Hcfg) as [Hk Hc].
      split; [done|]. destruct (ct_from _ _ _ Hc _ _ _ Hl) as (name & out & Hi & _). apply info_len. by rewrite Hi. }
    destruct (program_total T HT h (sy_conf s1) order es Hfi) as [[[h' c'] p] Ep].
    { intros e Hl. destruct (Hport e Hl) as [Hk Hi]. destruct (C28_inputs _ Hk) as (_ & _ & _ & _ & Hle & _). unfold max_node_inputs. lia. }
    destruct (program_conf T _ _ _ _ _ _ _ Ep) as (h1 & c1 & p1 & Er & Hsv & Hiv).
    pose proof (rebuild_fine T HT _ _ _ _ _ Hfi Er) as Hf1.
    assert (Hsa : forall q, same_at c1 c' q) by (intros q; destruct Hsv as (_ & _ & H1 & H2 & _ & H3 & _); unfold same_at; by rewrite H1, H2, H3).
    assert (Hc' : created c' = created (sy_conf s1)).
    { unfold created. destruct Hsv as (_ & _ & _ & _ & _ & _ & ->). by apply (rebuild_ids T HT _ _ _ _ _ (cn_inv _ _ Hfi) Er). }
    assert (Hfine' : conf_fine T c').
    { constructor; [by apply Hiv, Hf1|]. rewrite Hc'. apply Hfi. }
    assert (Hq' : forall q, last_val D q.1 q.2 = None -> quiet T c' q).
    { intros q Hq. eapply quiet_same; [apply Hsa|]. eapply (rebuild_quiet T HT i2f load_sample feq); [exact Hfi|exact Er|]. by apply (si_quiet _ _ _ _ _ _ S1). }
    assert (Hv' : forall n i v ma, last_val D n i = Some (v, ma) -> has_value c' n i v ma).
    { intros n i v ma Hl. eapply same_at_value; [apply Hsa|]. eapply (rebuild_value T HT i2f load_sample feq); [exact Hfi|exact Er|]. apply V1; [|done].
      apply Hord. assert (Hin : exists x, x ∈ D /\ subject x = n).
      { unfold last_val in Hl. apply last_Some in Hl as [l Hl].
        assert (Hb : (v, ma) ∈ omap (fun x => match x with SayVal n' i' v ma => if decide (n' = n /\ i' = i) then Some (v, ma) else None | _ => None end) D) by (rewrite Hl; set_solver).
        apply elem_of_list_omap in Hb as (x & Hx & Ex). exists x. split; [done|]. destruct x as [m|m j s' o|m j v' a]; try done. case_decide as Hd; [|done]. by destruct Hd as [-> _]. }
      destruct Hin as (x & Hx & <-). by apply (tk_subj _ _ (si_tracks _ _ _ _ _ _ S1)). }
    exists s1, ms1, es, h', c', p. split; [done|]. split; [done|]. split; [by rewrite E2, until_error_ok|]. split; [done|]. split.
    { constructor; cbn; try apply S1; [done|done|]. rewrite Hc'. apply S1. }
    split; [by intros n i v ma Hl _; apply Hv'|].
    intros Hlen finc hx e hx' e' t Ex.
    assert (Hlen1 : length (created (sy_conf s1)) <= 256).
    { transitivity (length order); [|done]. apply submseteq_length, NoDup_submseteq; [apply Hfi|]. intros x. by rewrite Hcr. }
    destruct (program_built T HT h (sy_conf s1) order es h' c' p Hfi Hlen1 Hnd) as (c2 & p2 & Hl & _ & Hsv2 & Hb & _ & _); [by intros n ?%Hcr|by intros x [_ ?]%Hes|done|].
    destruct (install_wired_by T HT finc es (sy_conf s1) c2 order p true hx e hx' e' t Hl Hb Hnd Hes) as (Ho & Hw & Hsc); [by intros n ?%Hcr|done|].
    assert (Hma : cf_modamt c' = cf_modamt (sy_conf s1)).
    { destruct Hsv2 as (_ & _ & _ & -> & _). by apply (ld_modamt _ _ _ Hl). }
    assert (Hca : carries T c' (ex_prog e')) by (eapply (built_carries T); [exact Hl|exact Hsv2|exact Hb|by intros n ?%Hcr|exact Hsc]).
    constructor.
    - by rewrite Ho.
    - by rewrite Ho.
    - by rewrite Ho.
    - rewrite Hma. eapply wired_by_ext; [|exact Hw]. exact He.
    - intros n i Hi. assert (Ha : is_atom T (n, i) = false) by (by apply is_atom_input).
      destruct (last_val D n i) as [[v ma]|] eqn:El; [|left; by apply (Hq' (n, i))].
      destruct (Hv' n i v ma El) as [_ H]. by apply H.
    - intros op i Hop Hi. destruct (ca_param _ _ _ Hca op i Hop Hi) as [[w Hw1] Hw2]. exists w. split; [done|]. rewrite Hw1 in Hw2. symmetry in Hw2.
      assert (Ha : is_atom T (op_node op, i) = false) by (by apply is_atom_input).
      destruct (last_val D (op_node op) i) as [[v ma]|] eqn:El.
      + destruct (Hv' _ _ _ _ El) as [(w' & H1 & H2) _]. unfold conf_get_param, stored in *. rewrite Ha in *. rewrite Hw2 in H1. cbn in H1. injection H1 as <-.
        destruct H2 as [H2|H2]; [left; by injection H2|by right].
      + by apply (Hq' (op_node op, i)).
    - intros op j Hop Hj. destruct (ca_atom _ _ _ Hca op j Hop Hj) as [[w Hw1] Hw2]. exists w. split; [done|]. rewrite Hw1 in Hw2. symmetry in Hw2.
      assert (Ha : is_atom T (op_node op, nt_at_id T (nid_kind (op_node op)) j) = true) by (by apply (is_atom_atom T HT)).
      destruct (last_val D (op_node op) _) as [[v ma]|] eqn:El.
      + destruct (Hv' _ _ _ _ El) as [(w' & H1 & H2) _]. unfold conf_get_param, stored in *. rewrite Ha in *. rewrite Hw2 in H1. injection H1 as <-. done.
      + destruct (Hq' (op_node op, nt_at_id T (nid_kind (op_node op)) j) El) as (_ & Hq & _). destruct (Hq w Hw2) as (j' & H1 & H2 & H3). cbn [fst snd] in *.
        assert (j' = j) as ->; [|done]. symmetry. eapply (tok_at_inj T HT); [exact Hj|exact H1|exact H2].
  Qed.

  (** * Whole calls *)
  Context (xs : list bnode) (bs : list builder) (Hbs : Forall2 (bnode_ok bs) xs bs).
  Notation told := (told def norm denorm q2f bs).

  Lemma told_complete D r l : passes bs [r] l -> complete D -> complete (D ++ told false l).
  Proof.
    intros Hl Hc n i src o H. unfold named. rewrite elem_of_app. rewrite last_from_app in H.
    destruct (last_from (told false l) n i) as [[src' o']|] eqn:E; [|left; by eapply Hc].
    injection H as -> ->. right. apply last_from_in in E. unfold L_Synth4.told, keep in *.
    apply elem_of_list_join in E as (X & Hx & HX). apply elem_of_list_fmap in HX as (d & -> & Hd). rewrite says_eq in Hx.
    apply elem_of_cons in Hx as [Hx|Hx]; [done|]. apply elem_of_list_omap in Hx as (k & Hk & Ek). destruct k as [| | |b i' s' o']; try done. cbn in Ek.
    destruct (bs !! s') as [d'|] eqn:Ed; [|done]. cbn in Ek. injection Ek as _ _ <- _.
    destruct (passes_closed bs [r] l Hl) as [_ Hcl]. apply elem_of_list_join. exists (says T bs d'). split; [rewrite says_eq; by left|].
    apply elem_of_list_fmap. exists d'. split; [done|]. eapply (Hcl d s' d'); [done| |done]. apply elem_sources. by exists b, i', o'.
  Qed.
  Lemma kept_complete D l : complete D -> complete (D ++ told true l).
  Proof.
    intros Hc n i src o H. unfold named. rewrite elem_of_app. rewrite last_from_app in H. unfold L_Synth4.told in H.
    rewrite last_from_kept in H. left. by eapply Hc.
  Qed.

  Lemma upload_spec h it D s r l : fair it -> sinv D s -> complete D -> passes bs [r] l -> let D' := D ++ told false l in
    complete D' /\
    (exists h' s' ms p, said_acyclic D' /\ synth_upload T i2f load_sample feq h s it xs r = Some (h', s', ms ++ [MNewProg p true], None) /\ Forall no_prog ms /\
       sinv D' s' /\ heard def norm denorm q2f i2f load_sample feq D' D' (sy_conf s') /\
       (few D' ->
        forall finc hx e hx' e' t, exec_message finc hx e (MNewProg p true) = Some (hx', e', t) ->
          plays T i2f load_sample feq D' (cf_modamt (sy_conf s')) (ex_prog e'))) \/
    complete D' /\
    (exists s', ~ said_acyclic D' /\ synth_upload T i2f load_sample feq h s it xs r = Some (h, s', [], Some SynCycle) /\ sinv D' s' /\ sy_conf s' = sy_conf s).
  Proof.
    intros Hf Hs Hc Hl D'.
    destruct (walk_upload_spec def norm denorm q2f i2f load_sample feq xs bs Hbs it false r l D s Hf Hl Hs) as (s1 & ms1 & b & E1 & S1 & [U1 ->] & O1 & C1).
    assert (Hc' : complete D') by (by eapply told_complete). fold D' in S1.
    destruct (upload_order it D' s1 Hf S1 Hc') as (go & go' & ordered & ok & E2 & E3 & HR & Hok & Hord).
    unfold synth_upload. rewrite E1. cbn [mbind option_bind]. rewrite E2. cbn [mbind option_bind]. rewrite E3. cbn [mbind option_bind].
    set (s2 := Synth (sy_conf s1) (sy_nodes s1) go').
    assert (S2 : sinv D' s2) by (constructor; cbn; try apply S1; done).
    destruct ok; cbn [negb].
    - left. split; [done|]. destruct (Hord eq_refl) as (O2 & O3 & O4).
      destruct (finish_spec it D' s2 [] h (rev ordered) Hf S2 Hc' O2 O3 O4) as (s3 & ms3 & es & h' & c' & p & F1 & F2 & F3 & F4 & F5 & F6 & F7).
      rewrite F1. cbn [app]. unfold conf_program in F4. destruct (conf_rebuild T h (sy_conf s3)) as [[[h1 c1] p1]|]; cbn [mbind option_bind] in *; [|done].
      rewrite F3. destruct (foldm conf_connect _ es) as [[c2 p2]|]; cbn [mbind option_bind] in *; [|done].
      destruct (conf_fill c2 p2) as [p3|]; cbn [mbind option_bind] in *; [|done]. injection F4 as -> -> ->.
      exists h', (with_conf s3 c'), ms3, p. split; [by apply Hok|]. split; [done|]. split; [done|]. split; [done|]. split; [done|].
      intros (ns & H1 & H2). apply F7. transitivity (length ns); [|done]. apply submseteq_length, NoDup_submseteq; [done|]. intros n Hn. by apply H1, O3.
    - right. split; [done|]. exists s2. split; [by intros H%Hok|]. done.
  Qed.

  Lemma sinv_ext D D' s : (forall n i, last_from D' n i = last_from D n i) -> (forall n i, last_val D' n i = last_val D n i) ->
    (forall x, x ∈ D' -> x ∈ D) -> (forall n, named D n -> named D' n) -> sinv D s -> sinv D' s.
  Proof.
    intros H1 H2 H3 H4 Hs. constructor; try apply Hs.
    - constructor.
      + intros n cfg Hn. destruct (tk_cfg _ _ (si_tracks _ _ _ _ _ _ Hs) n cfg Hn) as [Hk Ht]. split; [done|]. apply (tracks_ext D); auto.
      + intros n. rewrite (tk_named _ _ (si_tracks _ _ _ _ _ _ Hs)). split; [apply H4|apply H3].
      + intros x Hx. by apply H4, (tk_subj _ _ (si_tracks _ _ _ _ _ _ Hs)), H3.
    - intros q Hq. apply (si_quiet _ _ _ _ _ _ Hs). by rewrite <- H2.
    - intros n Hn. by apply H4, (si_made _ _ _ _ _ _ Hs).
    - intros n i src o. rewrite H1. apply (si_closed _ _ _ _ _ _ Hs).
  Qed.
  Lemma acyclic_ext D D' : (forall n i, last_from D' n i = last_from D n i) -> said_acyclic D <-> said_acyclic D'.
  Proof.
    intros H. assert (Hf : forall a b, feeds_said D a b <-> feeds_said D' a b) by (intros a b; unfold feeds_said; by setoid_rewrite H).
    assert (Ht : forall a b, clos_trans _ (feeds_said D) a b <-> clos_trans _ (feeds_said D') a b).
    { intros a b. split; induction 1 as [x y Hx|x y z _ IH1 _ IH2]; [apply t_step; by apply Hf|exact (t_trans _ _ _ _ _ IH1 IH2)|apply t_step; by apply Hf|exact (t_trans _ _ _ _ _ IH1 IH2)]. }
    unfold said_acyclic. by setoid_rewrite Ht.
  Qed.
  Lemma plays_ext D D' ma p : (forall n i, last_from D' n i = last_from D n i) -> (forall n i, last_val D' n i = last_val D n i) ->
    (forall n, named D n <-> named D' n) -> plays T i2f load_sample feq D ma p -> plays T i2f load_sample feq D' ma p.
  Proof.
    intros H1 H2 H3 [P1 P2 P3 P4 P5 P6 P7]. constructor.
    - done.
    - intros n. by rewrite P2.
    - intros a b (i & o & H). apply P3. exists i, o. by rewrite <- H1.
    - eapply wired_by_ext; [|exact P4]. intros e. cbn. by rewrite H1.
    - intros n i. rewrite H2. apply P5.
    - intros op i. rewrite H2. apply P6.
    - intros op j. rewrite H2. apply P7.
  Qed.
  Lemma twice_from D l n i : last_from ((D ++ told true l) ++ told false l) n i = last_from (D ++ told false l) n i.
  Proof. rewrite !last_from_app. unfold L_Synth4.told. by rewrite last_from_kept. Qed.
  Lemma twice_val D l n i : last_val ((D ++ told true l) ++ told false l) n i = last_val (D ++ told false l) n i.
  Proof. rewrite !last_val_app. unfold L_Synth4.told. rewrite !last_val_keep. by destruct (last_val _ n i). Qed.
  Lemma twice_in D l x : x ∈ D ++ told false l -> x ∈ (D ++ told true l) ++ told false l.
  Proof. rewrite !elem_of_app. tauto. Qed.
  Lemma twice_named D l n : named ((D ++ told true l) ++ told false l) n <-> named (D ++ told false l) n.
  Proof.
    unfold named. rewrite !elem_of_app. split; [|tauto]. intros [[?|H]|?]; [by left| |by right]. right. unfold L_Synth4.told in *. by apply keep_node in H.
  Qed.

  Lemma update_spec h it it' D s r l : fair it -> fair it' -> sinv D s -> complete D -> passes bs [r] l -> let D' := D ++ told false l in
    (exists s' ms, synth_update T i2f load_sample feq h s it it' xs r = Some (h, s', ms, inr false) /\ Forall no_prog ms /\
       sinv (D ++ told true l) s' /\ complete (D ++ told true l) /\ heard def norm denorm q2f i2f load_sample feq D' (told false l) (sy_conf s')) \/
    complete D' /\
    (exists h' s' ms p, said_acyclic D' /\ synth_update T i2f load_sample feq h s it it' xs r = Some (h', s', ms ++ [MNewProg p true], inr true) /\ Forall no_prog ms /\
       sinv D' s' /\ heard def norm denorm q2f i2f load_sample feq D' D' (sy_conf s') /\
       (few D' ->
        forall finc hx e hx' e' t, exec_message finc hx e (MNewProg p true) = Some (hx', e', t) ->
          plays T i2f load_sample feq D' (cf_modamt (sy_conf s')) (ex_prog e'))) \/
    complete D' /\
    (exists s' ms, ~ said_acyclic D' /\ synth_update T i2f load_sample feq h s it it' xs r = Some (h, s', ms, inl SynCycle) /\ Forall no_prog ms /\ sinv D' s').
  Proof.
    intros Hf Hf' Hs Hc Hl D'. assert (Hc' : complete D') by (by eapply told_complete).
    destruct (walk_upload_spec def norm denorm q2f i2f load_sample feq xs bs Hbs it true r l D s Hf Hl Hs) as (s1 & ms1 & b & E1 & S1 & [U1 M1] & O1 & C1).
    unfold synth_update. rewrite E1. cbn [mbind option_bind]. destruct b.
    - right. assert (Hc1 : complete (D ++ told true l)) by (by apply kept_complete).
      destruct (upload_spec h it' _ s1 r l Hf' S1 Hc1 Hl) as [[_ (h' & s' & ms & p & A & E & M & S & H & P)]|[_ (s' & A & E & S & K)]].
      + left. split; [done|]. rewrite E. cbn [mbind option_bind]. exists h', s', (ms1 ++ ms), p. rewrite app_assoc. split_and!.
        * eapply acyclic_ext; [|exact A]. intros n i. by rewrite twice_from.
        * done.
        * by apply Forall_app.
        * eapply sinv_ext; [..|exact S]; [intros; by rewrite twice_from|intros; by rewrite twice_val|apply twice_in|intros; by apply twice_named].
        * intros n i v ma H1 H2. apply H; by rewrite twice_val.
        * intros (ns & H1 & H2) finc hx e hx' e' t Ex. eapply plays_ext; [..|eapply P; [|exact Ex]];
            [intros; by rewrite twice_from|intros; by rewrite twice_val|intros; by apply twice_named|]. exists ns. split; [|done]. intros n Hn. apply H1. by apply twice_named.
      + right. split; [done|]. rewrite E. cbn [mbind option_bind]. exists s', (ms1 ++ []). split_and!.
        * rewrite acyclic_ext; [exact A|]. intros n i. by rewrite twice_from.
        * done.
        * by rewrite app_nil_r.
        * eapply sinv_ext; [..|exact S]; [intros; by rewrite twice_from|intros; by rewrite twice_val|apply twice_in|intros; by apply twice_named].
    - left. exists s1, ms1. split; [done|]. split; [done|]. split; [done|]. split; [by apply kept_complete|].
      intros n i v ma H1 H2. assert (Hv : forall n i, last_val (told true l) n i = last_val (told false l) n i) by (intros; unfold L_Synth4.told; by rewrite !last_val_keep).
      apply (U1 []); [intros ? ? ? ? _ [? ?]; done| |].
      + unfold D' in H1. rewrite last_val_app in *. by rewrite Hv.
      + cbn [app]. by rewrite Hv.
  Qed.

  (** circular builders *)
  Lemma walk_endless it only f r D s : fair it -> sinv D s -> endless bs r -> walk T i2f load_sample feq f xs it only s r = None.
  Proof.
    intros Hf Hs He. destruct (walk _ _ _ _ f xs it only s r) eqn:E; [|done]. exfalso.
    pose proof (walk_ends def norm denorm q2f i2f load_sample feq xs bs Hbs it only f Hf r D s _ Hs E) as Hp.
    destruct (pd_passes bs f [r]) as [l Hl]; [by intros ? ->%elem_of_list_singleton|]. by eapply endless_not_passes.
  Qed.
End upload.
