(** Proofs about the node graph ordering. *)
From Verif Require Import Base M_Graph S_Graph.

(** ** Refinement: concrete ordering vs abstract graph *)
Record R (g : gord) (s : sgraph) : Prop := mkR {
  R_len : length (go_nodes g) = length (go_indeg g);
  R_cnt : go_count g = length (sg_nodes s);
  R_cap : go_count g <= length (go_nodes g);
  R_nd : NoDup (sg_nodes s);
  R_idx : forall n i, go_node2idx g !! n = Some i <-> sg_nodes s !! i = Some n;
  R_node : forall i n, sg_nodes s !! i = Some n ->
     exists es, go_nodes g !! i = Some (GNode n es) /\ NoDup es /\
       forall j, j ∈ es <-> exists m, sg_nodes s !! j = Some m /\ edge s n m;
  R_wf : forall a b, edge s a b -> a ∈ sg_nodes s /\ b ∈ sg_nodes s;
}.

Lemma R_new : R gord_new sg_empty.
Proof.
  split; cbn [gord_new go_nodes go_indeg go_count go_node2idx sg_empty sg_nodes sg_edges].
  - by rewrite !replicate_length.
  - reflexivity.
  - lia.
  - constructor.
  - intros n i. rewrite lookup_empty, lookup_nil. naive_solver.
  - intros i n. by rewrite lookup_nil.
  - intros a b Hab. unfold edge in Hab. cbn in Hab. by apply elem_of_nil in Hab.
Qed.

Lemma R_clear g s : R g s -> R (gord_clear g) sg_empty.
Proof.
  intros H. split; cbn.
  - apply H.
  - reflexivity.
  - lia.
  - constructor.
  - intros n i. rewrite lookup_empty. naive_solver.
  - intros i n Hi. done.
  - intros a b Hab. by apply elem_of_nil in Hab.
Qed.

Lemma sg_add_in n s : n ∈ sg_add n s.
Proof. unfold sg_add. case_decide; [done|]. set_solver. Qed.

Lemma elem_sg_add n m s : m ∈ sg_add n s <-> m = n \/ m ∈ s.
Proof. unfold sg_add. case_decide; set_solver. Qed.

Lemma R_add_node g s n :
  R g s ->
  R (fst (gord_add_node g n)) (SG (sg_add n (sg_nodes s)) (sg_edges s)) /\
  sg_add n (sg_nodes s) !! snd (gord_add_node g n) = Some n.
Proof.
  intros H. unfold gord_add_node, sg_add.
  destruct (go_node2idx g !! n) as [i|] eqn:Hi.
  - apply (R_idx _ _ H) in Hi. rewrite decide_True by (eapply elem_of_list_lookup_2; eauto).
    cbn. split; [destruct H; by split|done].
  - assert (Hn : n ∉ sg_nodes s).
    { intros Hin. apply elem_of_list_lookup in Hin as [i Hin].
      apply (R_idx _ _ H) in Hin. congruence. }
    rewrite decide_False by done. cbn [fst snd].
    pose proof (R_cnt _ _ H) as Hc.
    pose proof (R_cap _ _ H) as Hcap. pose proof (R_len _ _ H) as Hlen.
    set (nodes := if bool_decide (length (go_nodes g) < S (go_count g))
                  then vec_grow (go_nodes g) (S (go_count g)) gnode_new else go_nodes g).
    set (indeg := if bool_decide (length (go_nodes g) < S (go_count g))
                  then vec_grow (go_indeg g) (S (go_count g)) 0 else go_indeg g).
    assert (Hl1 : length nodes = length indeg /\ S (go_count g) <= length nodes).
    { unfold nodes, indeg, vec_grow. case_bool_decide.
      - rewrite !app_length, !replicate_length. lia.
      - lia. }
    assert (Hl2 : forall i, i < length (go_nodes g) -> nodes !! i = go_nodes g !! i).
    { intros i Hlt. unfold nodes, vec_grow. case_bool_decide; [|done]. by apply lookup_app_l. }
    split.
    + split; cbn [go_nodes go_indeg go_count go_node2idx sg_nodes sg_edges].
      * rewrite insert_length. lia.
      * rewrite app_length. cbn. lia.
      * rewrite insert_length. lia.
      * apply NoDup_app. split; [apply H|]. split; [set_solver|]. apply NoDup_singleton.
      * intros m i. destruct (decide (m = n)) as [->|Hne].
        -- rewrite lookup_insert. split.
           ++ intros [= <-]. rewrite Hc. by apply list_lookup_middle.
           ++ intros Hl. apply lookup_app_Some in Hl as [Hl|[Hge Hl]].
              ** apply elem_of_list_lookup_2 in Hl. done.
              ** apply list_lookup_singleton_Some in Hl as [? ?]. f_equal. lia.
        -- rewrite lookup_insert_ne by done. rewrite (R_idx _ _ H m i). split.
           ++ intros Hl. by apply lookup_app_l_Some.
           ++ intros Hl. apply lookup_app_Some in Hl as [Hl|[Hge Hl]]; [done|].
              apply list_lookup_singleton_Some in Hl as [? ?]. congruence.
      * intros i m Hl. apply lookup_app_Some in Hl as [Hl|[Hge Hl]].
        -- destruct (R_node _ _ H _ _ Hl) as (es & Hes & Hnd & Hj).
           pose proof (lookup_lt_Some _ _ _ Hl) as Hlt.
           exists es. rewrite list_lookup_insert_ne by lia. rewrite Hl2 by lia.
           split; [done|]. split; [done|].
           intros j. rewrite Hj. split.
           ++ intros (m' & Hm' & He). exists m'. split; [by apply lookup_app_l_Some|done].
           ++ intros (m' & Hm' & He). apply lookup_app_Some in Hm' as [Hm'|[Hge Hm']]; [eauto|].
              apply list_lookup_singleton_Some in Hm' as [? <-].
              apply (R_wf _ _ H) in He. naive_solver.
        -- apply list_lookup_singleton_Some in Hl as [Hi0 <-].
           replace i with (go_count g) by lia.
           exists []. rewrite list_lookup_insert by lia. split; [done|]. split; [constructor|].
           intros j. split; [set_solver|]. intros (m' & _ & He).
           apply (R_wf _ _ H) in He. naive_solver.
      * intros a b He. apply (R_wf _ _ H) in He. cbn. set_solver.
    + rewrite Hc. by apply list_lookup_middle.
Qed.

Lemma targets_elem s a b : b ∈ targets s a <-> edge s a b.
Proof.
  unfold targets, edge. rewrite elem_of_remove_dups, elem_of_list_fmap. split.
  - intros ([x y] & -> & Hin). apply elem_of_list_filter in Hin as [Hx Hin]. cbn in *. by subst.
  - intros Hin. exists (a, b). split; [done|]. apply elem_of_list_filter. done.
Qed.


Lemma R_targets g s i n es :
  R g s -> sg_nodes s !! i = Some n -> go_nodes g !! i = Some (GNode n es) ->
  length es = length (targets s n).
Proof.
  intros H Hi Hes. destruct (R_node _ _ H _ _ Hi) as (es' & Hes' & Hnd & Hj).
  rewrite Hes in Hes'. injection Hes' as <-.
  set (f := fun j => default Nop (sg_nodes s !! j)).
  rewrite <- (fmap_length f es).
  apply Permutation_length, NoDup_Permutation.
  - apply NoDup_fmap_2_strong; [|done].
    intros x y Hx Hy. apply Hj in Hx as (mx & Hx & _). apply Hj in Hy as (my & Hy & _).
    unfold f. rewrite Hx, Hy. cbn. intros ->.
    eapply NoDup_lookup; [apply (R_nd _ _ H)| |]; eassumption.
  - apply NoDup_remove_dups.
  - intros m. rewrite targets_elem, elem_of_list_fmap. split.
    + intros (j & -> & Hjes). apply Hj in Hjes as (m & Hm & He). unfold f. rewrite Hm. done.
    + intros He. destruct (R_wf _ _ H _ _ He) as [_ Hm].
      apply elem_of_list_lookup in Hm as [j Hm]. exists j. split.
      * unfold f. by rewrite Hm.
      * apply Hj. eauto.
Qed.

Lemma R_add_edge_aux g s a b i j es :
  R g s -> sg_nodes s !! i = Some a -> sg_nodes s !! j = Some b ->
  go_nodes g !! i = Some (GNode a es) ->
  forall es', NoDup es' -> (forall k, k ∈ es' <-> k ∈ es \/ k = j) ->
  R (GOrd (go_node2idx g) (go_count g) (<[i := GNode a es']> (go_nodes g)) (go_indeg g))
    (SG (sg_nodes s) ((a, b) :: sg_edges s)).
Proof.
  intros H Hi Hj Hes es' Hnd Hes'.
  pose proof (lookup_lt_Some _ _ _ Hes) as Hilt.
  split; cbn [go_nodes go_indeg go_count go_node2idx sg_nodes sg_edges].
  - rewrite insert_length. apply H.
  - apply H.
  - rewrite insert_length. apply H.
  - apply H.
  - apply H.
  - intros k n Hk. destruct (R_node _ _ H _ _ Hk) as (es0 & Hes0 & Hnd0 & Hk0).
    destruct (decide (k = i)) as [->|Hne].
    + assert (n = a) as -> by congruence. assert (es0 = es) as -> by congruence.
      exists es'. rewrite list_lookup_insert by done. split; [done|]. split; [done|].
      intros k. rewrite Hes', Hk0. unfold edge. cbn [sg_edges]. split.
      * intros [(m & Hm & He)|Hkj]; [|subst k; exists b]; [exists m|]; split; try done; set_solver.
      * intros (m & Hm & He). apply elem_of_cons in He as [[= ->]|He]; [|eauto].
        right. eapply NoDup_lookup; [apply (R_nd _ _ H)| |]; eassumption.
    + exists es0. rewrite list_lookup_insert_ne by done. split; [done|]. split; [done|].
      intros k'. rewrite Hk0. unfold edge. cbn [sg_edges]. split.
      * intros (m & Hm & He). exists m. split; [done|]. set_solver.
      * intros (m & Hm & He). exists m. split; [done|].
        apply elem_of_cons in He as [[= -> ->]|He]; [|done].
        exfalso. apply Hne. eapply NoDup_lookup; [apply (R_nd _ _ H)| |]; eassumption.
  - intros x y He. unfold edge in He. cbn in He. apply elem_of_cons in He as [[= -> ->]|He].
    + split; eapply elem_of_list_lookup_2; eassumption.
    + by apply (R_wf _ _ H).
Qed.

Lemma R_add_edge g s a b g' :
  R g s -> gord_add_edge g a b = Some g' -> R g' (sg_step s (GAddEdge a b)).
Proof.
  intros H Hg. unfold gord_add_edge in Hg.
  pose proof (R_add_node _ _ b H) as [H1 Hb].
  destruct (gord_add_node g b) as [g1 ti]. cbn [fst snd] in *.
  unfold sg_step. set (ns := sg_add b (sg_nodes s)) in *.
  destruct (go_node2idx g1 !! a) as [fi|] eqn:Hfi.
  - apply (R_idx _ _ H1) in Hfi. cbn [sg_nodes] in Hfi.
    rewrite decide_True by (eapply elem_of_list_lookup_2; eauto).
    destruct (R_node _ _ H1 _ _ Hfi) as (es & Hes & Hnd & Hj).
    rewrite Hes in Hg. cbn [mbind option_bind] in Hg. unfold gnode_add_edge in Hg.
    cbn [gn_edges gn_id] in Hg.
    case_decide as Hin.
    + injection Hg as <-. rewrite list_insert_id by done.
      pose proof (R_add_edge_aux _ _ _ _ _ _ _ H1 Hfi Hb Hes es Hnd) as HR.
      rewrite list_insert_id in HR by done. apply HR. naive_solver.
    + case_decide; [|done]. injection Hg as <-.
      eapply (R_add_edge_aux _ _ _ _ _ _ _ H1 Hfi Hb Hes).
      * apply NoDup_app. split; [done|]. split; [set_solver|]. apply NoDup_singleton.
      * set_solver.
  - injection Hg as <-. rewrite decide_False; [done|].
    intros Hin. apply elem_of_list_lookup in Hin as [i Hin].
    assert (go_node2idx g1 !! a = Some i); [|congruence].
    by apply (R_idx _ _ H1).
Qed.

Lemma add_edge_some g s a b :
  R g s -> within_limit (sg_step s (GAddEdge a b)) -> is_Some (gord_add_edge g a b).
Proof.
  intros H Hlim. unfold gord_add_edge.
  pose proof (R_add_node _ _ b H) as [H1 Hb].
  destruct (gord_add_node g b) as [g1 ti]. cbn [fst snd] in *.
  unfold sg_step in Hlim. set (ns := sg_add b (sg_nodes s)) in *.
  destruct (go_node2idx g1 !! a) as [fi|] eqn:Hfi; [|eauto].
  apply (R_idx _ _ H1) in Hfi. cbn [sg_nodes] in Hfi.
  rewrite decide_True in Hlim by (eapply elem_of_list_lookup_2; eauto).
  destruct (R_node _ _ H1 _ _ Hfi) as (es & Hes & Hnd & Hj).
  rewrite Hes. cbn [mbind option_bind]. unfold gnode_add_edge. cbn [gn_edges gn_id].
  case_decide as Hin; [eauto|].
  case_decide as Hlt; [eauto|]. exfalso. apply Hlt. unfold MAX_NODE_EDGES in *.
  assert (HR : R (GOrd (go_node2idx g1) (go_count g1) (<[fi := GNode a (es ++ [ti])]> (go_nodes g1)) (go_indeg g1))
                 (SG ns ((a, b) :: sg_edges s))).
  { eapply (R_add_edge_aux _ _ _ _ _ _ _ H1 Hfi Hb Hes).
    - apply NoDup_app. split; [done|]. split; [set_solver|]. apply NoDup_singleton.
    - set_solver. }
  pose proof (R_targets _ _ fi a (es ++ [ti]) HR Hfi) as Ht.
  cbn [go_nodes] in Ht. rewrite list_lookup_insert in Ht by (eapply lookup_lt_Some; eauto).
  specialize (Ht eq_refl). rewrite app_length in Ht. cbn [length] in Ht.
  specialize (Hlim a). unfold MAX_NODE_EDGES in Hlim. lia.
Qed.

Lemma add_edge_none g s a b :
  R g s -> gord_add_edge g a b = None -> ~ within_limit (sg_step s (GAddEdge a b)).
Proof.
  intros H Hn Hl. destruct (add_edge_some _ _ _ _ H Hl) as [? ?]. congruence.
Qed.

(** ** Kahn's algorithm on indices *)
Section kahn.
Context (n : nat) (adj : nat -> list nat).
Hypothesis adj_nd : forall i, i < n -> NoDup (adj i).
Hypothesis adj_lt : forall i j, i < n -> j ∈ adj i -> j < n.

(** number of unvisited predecessors *)
Definition cnt (vis : list nat) (v : nat) : nat :=
  length (filter (fun u => v ∈ adj u /\ u ∉ vis) (seq 0 n)).

Lemma cnt_zero vis v : cnt vis v = 0 <-> forall u, u < n -> v ∈ adj u -> u ∈ vis.
Proof.
  unfold cnt. rewrite length_zero_iff_nil. split.
  - intros Hf u Hu Hv. destruct (decide (u ∈ vis)) as [|Hnv]; [done|].
    assert (u ∈ filter (fun u => v ∈ adj u /\ u ∉ vis) (seq 0 n)) as Hin.
    { apply elem_of_list_filter. split; [done|]. apply elem_of_seq. lia. }
    rewrite Hf in Hin. by apply elem_of_nil in Hin.
  - intros Hall. apply elem_of_nil_inv. intros u Hu.
    apply elem_of_list_filter in Hu as [[H1 H2] H3]. apply elem_of_seq in H3.
    apply H2, Hall; [lia|done].
Qed.

Lemma cnt_visit vis u v :
  u < n -> u ∉ vis ->
  cnt vis v = cnt (u :: vis) v + (if decide (v ∈ adj u) then 1 else 0).
Proof.
  intros Hu Huv. unfold cnt.
  assert (Hseq : seq 0 n = seq 0 u ++ u :: seq (S u) (n - S u)).
  { replace n with (u + (S (n - S u))) at 1 by lia. rewrite seq_app. done. }
  rewrite Hseq, !filter_app, !app_length.
  assert (Hoth : forall l : list nat, u ∉ l ->
     filter (fun u0 => v ∈ adj u0 /\ u0 ∉ u :: vis) l = filter (fun u0 => v ∈ adj u0 /\ u0 ∉ vis) l).
  { intros l Hl. induction l as [|x l IH]; [done|].
    apply not_elem_of_cons in Hl as [Hx Hl]. specialize (IH Hl).
    rewrite !filter_cons.
    destruct (decide (v ∈ adj x /\ x ∉ vis)) as [Ha|Ha].
    - rewrite decide_True; [by rewrite IH|]. split; [apply Ha|].
      apply not_elem_of_cons. split; [done|apply Ha].
    - rewrite decide_False; [by rewrite IH|]. intros [H1 H2]. apply Ha. split; [done|].
      apply not_elem_of_cons in H2. apply H2. }
  rewrite (Hoth (seq 0 u)) by (rewrite elem_of_seq; lia).
  rewrite !filter_cons.
  rewrite (decide_False (P := v ∈ adj u /\ u ∉ u :: vis)) by (intros [_ Hx]; apply Hx; left).
  rewrite (Hoth (seq (S u) (n - S u))) by (rewrite elem_of_seq; lia).
  destruct (decide (v ∈ adj u)) as [Hv|Hv].
  - rewrite decide_True by done. cbn [length]. lia.
  - rewrite decide_False by (intros [? ?]; done). lia.
Qed.

Lemma cnt_equiv vis vis' v : (forall x, x ∈ vis <-> x ∈ vis') -> cnt vis v = cnt vis' v.
Proof.
  intros He. unfold cnt. f_equal. apply list_filter_iff. intros x. by rewrite He.
Qed.

(** topological prefix *)
Definition topo (l : list nat) : Prop :=
  forall l1 v l2, l = l1 ++ v :: l2 -> forall u, u < n -> v ∈ adj u -> u ∈ l1.

Lemma topo_nil : topo [].
Proof. intros l1 v l2 H. destruct l1; done. Qed.

Lemma topo_snoc l v : topo l -> (forall u, u < n -> v ∈ adj u -> u ∈ l) -> topo (l ++ [v]).
Proof.
  intros Ht Hv l1 w l2 Heq u Hu Hw.
  destruct l2 as [|x l2 _] using rev_ind.
  - apply app_inj_tail in Heq as [<- <-]. by apply Hv.
  - rewrite app_comm_cons, app_assoc in Heq. apply app_inj_tail in Heq as [-> ->]. by eapply Ht.
Qed.

(** invariant while visiting the edges of a node: [rem] are the edges still to do *)
Record KInv (vis rem deq ind : list nat) : Prop := {
  ki_nd : NoDup (vis ++ deq);
  ki_lt : forall x, x ∈ vis ++ deq -> x < n;
  ki_ind : forall v, v < n -> ind !! v = Some (cnt vis v + (if decide (v ∈ rem) then 1 else 0));
  ki_zero : forall v, v < n -> (v ∈ vis ++ deq <-> ind !! v = Some 0);
  ki_topo : topo (vis ++ deq);
}.

Lemma visit_edges_ok rem : forall vis deq ind,
  NoDup rem -> (forall j, j ∈ rem -> j < n) ->
  KInv vis rem deq ind ->
  exists ind' deq', visit_edges rem ind deq = Some (ind', deq') /\ KInv vis [] deq' ind' /\
                    length ind' = length ind.
Proof.
  induction rem as [|j rem IH]; intros vis deq ind Hnd Hlt HI.
  - exists ind, deq. split; [done|]. split; done.
  - apply NoDup_cons in Hnd as [Hj Hnd].
    assert (Hjn : j < n) by (apply Hlt; left).
    cbn [visit_edges]. rewrite (ki_ind _ _ _ _ HI j Hjn).
    rewrite decide_True by left. cbn [mbind option_bind].
    rewrite Nat.add_1_r.
    set (ind1 := <[j:=cnt vis j]> ind).
    assert (Hlen : length ind1 = length ind) by apply insert_length.
    assert (Hj1 : j < length ind).
    { eapply lookup_lt_Some. apply (ki_ind _ _ _ _ HI j Hjn). }
    assert (Hjnot : j ∉ vis ++ deq).
    { intros Hin. apply (ki_zero _ _ _ _ HI j Hjn) in Hin.
      rewrite (ki_ind _ _ _ _ HI j Hjn) in Hin. rewrite decide_True in Hin by left.
      injection Hin. lia. }
    destruct (IH vis (if decide (cnt vis j = 0) then deq ++ [j] else deq) ind1) as (i' & d' & Hv & HK & Hl').
    + done.
    + intros k Hk. apply Hlt. by right.
    + assert (Hind : forall v, v < n -> ind1 !! v = Some (cnt vis v + (if decide (v ∈ rem) then 1 else 0))).
      { intros v Hvn. unfold ind1. destruct (decide (v = j)) as [->|Hne].
        - rewrite list_lookup_insert by done. rewrite decide_False by done. f_equal. lia.
        - rewrite list_lookup_insert_ne by done. rewrite (ki_ind _ _ _ _ HI v Hvn).
          f_equal. f_equal. destruct (decide (v ∈ rem)) as [Hr|Hr].
          + rewrite decide_True by (by right). done.
          + rewrite decide_False; [done|]. intros Hx. apply elem_of_cons in Hx as [?|?]; done. }
      case_decide as Hz.
      * split.
        -- rewrite app_assoc. apply NoDup_app. split; [apply HI|]. split; [set_solver|].
           apply NoDup_singleton.
        -- intros x. rewrite app_assoc, elem_of_app, elem_of_list_singleton.
           intros [Hx| ->]; [by apply (ki_lt _ _ _ _ HI)|done].
        -- apply Hind.
        -- intros v Hvn. rewrite app_assoc, elem_of_app, elem_of_list_singleton.
           destruct (decide (v = j)) as [->|Hne].
           ++ rewrite Hind by done. rewrite decide_False by done. rewrite Hz. naive_solver.
           ++ rewrite (ki_zero _ _ _ _ HI v Hvn). unfold ind1.
              rewrite list_lookup_insert_ne by done. naive_solver.
        -- rewrite app_assoc. apply topo_snoc; [apply HI|]. intros u Hu Hv.
           apply elem_of_app. left. by apply (proj1 (cnt_zero vis j) Hz).
      * split; try apply HI; [apply Hind|].
        intros v Hvn. destruct (decide (v = j)) as [->|Hne].
        -- rewrite Hind by done. rewrite decide_False by done. rewrite Nat.add_0_r.
           split; [done|]. intros [= ?]. done.
        -- rewrite (ki_zero _ _ _ _ HI v Hvn). unfold ind1.
           by rewrite list_lookup_insert_ne by done.
    + exists i', d'. split; [|split; [done|lia]]. exact Hv.
Qed.

Lemma NoDup_bound (l : list nat) : NoDup l -> (forall x, x ∈ l -> x < n) -> length l <= n.
Proof.
  intros Hnd Hlt. rewrite <- (seq_length n 0).
  apply submseteq_length. apply NoDup_submseteq; [done|].
  intros x Hx. apply elem_of_seq. specialize (Hlt x Hx). lia.
Qed.

Lemma kahn_loop_ok (nodes : list gnode) (ids : nat -> node_id) :
  (forall i, i < n -> nodes !! i = Some (GNode (ids i) (adj i))) ->
  forall fuel vis deq ind visited out,
  KInv vis [] deq ind -> n < fuel + length vis ->
  exists ind' vis', kahn_loop fuel nodes ind deq visited out =
     Some (ind', visited + (length vis' - length vis), out ++ drop (length vis) (ids <$> vis')) /\
     KInv vis' [] [] ind' /\ vis `prefix_of` vis' /\ length ind' = length ind.
Proof.
  intros Hnodes fuel.
  induction fuel as [|fuel IH]; intros vis deq ind visited out HI Hf.
  - exfalso. assert (length vis <= n); [|lia]. apply NoDup_bound.
    + pose proof (ki_nd _ _ _ _ HI) as Hn. apply NoDup_app in Hn. apply Hn.
    + intros x Hx. apply (ki_lt _ _ _ _ HI). set_solver.
  - cbn [kahn_loop]. destruct deq as [|i deq].
    + exists ind, vis. rewrite Nat.sub_diag, drop_ge by (by rewrite fmap_length).
      rewrite app_nil_r, Nat.add_0_r. split; [done|]. split; [done|]. split; [done|done].
    + assert (Hi : i < n) by (apply (ki_lt _ _ _ _ HI); set_solver).
      rewrite (Hnodes i Hi). cbn [mbind option_bind gn_edges gn_id].
      pose proof (ki_nd _ _ _ _ HI) as Hnd0.
      assert (Hivis : i ∉ vis).
      { apply NoDup_app in Hnd0 as (_ & Hd & _). intros Hx. apply (Hd _ Hx). left. }
      assert (HI1 : KInv (vis ++ [i]) (adj i) deq ind).
      { assert (Hassoc : (vis ++ [i]) ++ deq = vis ++ i :: deq) by by rewrite <- app_assoc.
        split; rewrite ?Hassoc; try apply HI.
        intros v Hv. rewrite (ki_ind _ _ _ _ HI v Hv). rewrite decide_False by apply not_elem_of_nil.
        rewrite Nat.add_0_r. f_equal. rewrite (cnt_visit vis i v Hi Hivis). f_equal.
        apply cnt_equiv. set_solver. }
      destruct (visit_edges_ok (adj i) (vis ++ [i]) deq ind) as (ind1 & deq1 & Hve & HI2 & Hl1).
      { by apply adj_nd. }
      { intros j Hj. by eapply adj_lt. }
      { done. }
      rewrite Hve. cbn [mbind option_bind].
      destruct (IH (vis ++ [i]) deq1 ind1 (S visited) (out ++ [ids i]) HI2) as (ind' & vis' & Hk & HI' & Hp & Hl').
      { rewrite app_length. cbn [length]. lia. }
      exists ind', vis'. split; [|split; [done|split]].
      * rewrite Hk. destruct Hp as [tl ->].
        rewrite !app_length. cbn [length]. f_equal. f_equal; [f_equal; lia|].
        rewrite !fmap_app.
        assert (Hd1 : drop (length vis + 1) (((ids <$> vis) ++ (ids <$> [i])) ++ (ids <$> tl)) = ids <$> tl).
        { apply drop_app_alt. by rewrite app_length, fmap_length. }
        rewrite Hd1. rewrite <- (app_assoc (ids <$> vis)).
        rewrite (drop_app_alt (ids <$> vis)) by (by rewrite fmap_length).
        by rewrite <- app_assoc.
      * etrans; [|done]. by eexists.
      * lia.
Qed.

End kahn.

(** ** In-degrees *)
Lemma bump_list_ok es : forall ind,
  NoDup es -> (forall j, j ∈ es -> j < length ind) ->
  exists ind', foldl bump (Some ind) es = Some ind' /\ length ind' = length ind /\
    forall v, ind' !! v = (fun d => d + (if decide (v ∈ es) then 1 else 0)) <$> ind !! v.
Proof.
  induction es as [|j es IH]; intros ind Hnd Hlt.
  - exists ind. split; [done|]. split; [done|]. intros v.
    rewrite decide_False by apply not_elem_of_nil.
    destruct (ind !! v); cbn; [|done]. f_equal. lia.
  - apply NoDup_cons in Hnd as [Hj Hnd]. cbn [foldl].
    destruct (lookup_lt_is_Some_2 ind j) as [d Hd]; [apply Hlt; left|].
    unfold bump at 2. cbn [mbind option_bind]. rewrite Hd. cbn [mbind option_bind].
    destruct (IH (<[j:=S d]> ind) Hnd) as (ind' & Hf & Hl & Hv).
    { intros k Hk. rewrite insert_length. apply Hlt. by right. }
    exists ind'. split; [done|]. rewrite insert_length in Hl. split; [done|].
    intros v. rewrite Hv. destruct (decide (v = j)) as [->|Hne].
    + rewrite list_lookup_insert by (eapply lookup_lt_Some; eauto). rewrite Hd. cbn.
      rewrite decide_False by done. rewrite decide_True by left. f_equal. lia.
    + rewrite list_lookup_insert_ne by done.
      destruct (decide (v ∈ es)).
      * rewrite decide_True by (by right). done.
      * rewrite decide_False; [done|]. rewrite elem_of_cons. naive_solver.
Qed.

Lemma calc_indeg_ok (n : nat) (adj : nat -> list nat) (ids : nat -> node_id) (len : nat) :
  n <= len ->
  (forall i, i < n -> NoDup (adj i)) ->
  (forall i j, i < n -> j ∈ adj i -> j < n) ->
  exists ind, foldl (fun ind nd => foldl bump ind (gn_edges nd)) (Some (replicate len 0))
     ((fun i => GNode (ids i) (adj i)) <$> seq 0 n) = Some ind /\
   length ind = len /\ forall v, v < n -> ind !! v = Some (cnt n adj [] v).
Proof.
  intros Hlen Hnd Hlt.
  assert (Hk : forall k, k <= n -> exists ind,
    foldl (fun ind nd => foldl bump ind (gn_edges nd)) (Some (replicate len 0))
     ((fun i => GNode (ids i) (adj i)) <$> seq 0 k) = Some ind /\
    length ind = len /\
    forall v, v < n -> ind !! v = Some (length (filter (fun u => v ∈ adj u) (seq 0 k)))).
  { induction k as [|k IH]; intros Hkn.
    - exists (replicate len 0). split; [done|]. split; [apply replicate_length|].
      intros v Hv. apply lookup_replicate. split; [done|lia].
    - destruct IH as (ind & Hf & Hl & Hv); [lia|].
      rewrite seq_S, fmap_app, foldl_app, Hf. cbn [foldl fmap list_fmap gn_edges Nat.add].
      destruct (bump_list_ok (adj k) ind) as (ind' & Hf' & Hl' & Hv').
      + apply Hnd. lia.
      + intros j Hj. rewrite Hl. assert (j < n) by (eapply Hlt; [|done]; lia). lia.
      + exists ind'. split; [done|]. split; [congruence|].
        intros v Hvn. rewrite Hv', Hv by done. cbn. f_equal.
        rewrite filter_app, app_length, filter_cons, filter_nil.
        destruct (decide (v ∈ adj k)); done. }
  destruct (Hk n) as (ind & Hf & Hl & Hv); [lia|].
  exists ind. split; [done|]. split; [done|]. intros v Hvn. rewrite Hv by done.
  f_equal. unfold cnt. f_equal. apply list_filter_iff. intros x. split; [|naive_solver].
  intros Hx. split; [done|apply not_elem_of_nil].
Qed.

(** ** Cycles *)
Lemma not_NoDup_dup {A} `{EqDecision A} (l : list A) :
  ~ NoDup l -> exists i j x, i < j /\ l !! i = Some x /\ l !! j = Some x.
Proof.
  induction l as [|a l IH]; intros Hnd; [exfalso; apply Hnd; constructor|].
  destruct (decide (a ∈ l)) as [Ha|Ha].
  - apply elem_of_list_lookup in Ha as [j Hj]. exists 0, (S j), a. split; [lia|done].
  - destruct IH as (i & j & x & Hij & Hi & Hj).
    + intros Hl. apply Hnd. by constructor.
    + exists (S i), (S j), x. split; [lia|done].
Qed.

Lemma back_walk (n : nat) (P : nat -> Prop) (E : nat -> nat -> Prop) :
  (forall v, P v -> exists u, P u /\ E u v) -> (forall v, P v -> v < n) ->
  forall v0, P v0 -> exists v, clos_trans _ E v v.
Proof.
  intros Hpred Hlt v0 Hv0.
  assert (Hwalk : forall k, exists l, length l = S k /\ Forall P l /\
     forall i j x y, i < j -> l !! i = Some x -> l !! j = Some y -> clos_trans _ E x y).
  { induction k as [|k (l & Hl & HP & Hw)].
    - exists [v0]. split; [done|]. split; [by repeat constructor|].
      intros i j x y Hij Hi Hj. apply list_lookup_singleton_Some in Hi as [? ?].
      apply list_lookup_singleton_Some in Hj as [? ?]. lia.
    - destruct l as [|a l]; [done|].
      assert (Ha : P a) by by inversion HP.
      destruct (Hpred a Ha) as (u & Hu & Hua).
      exists (u :: a :: l). split; [cbn in *; lia|]. split; [by constructor|].
      intros i j x y Hij Hi Hj. destruct j as [|j]; [lia|]. cbn in Hj.
      destruct i as [|i].
      + cbn in Hi. injection Hi as <-.
        destruct j as [|j]; cbn in Hj.
        * injection Hj as <-. by apply t_step.
        * eapply t_trans; [by apply t_step|]. eapply (Hw 0 (S j)); [lia|done|done].
      + cbn in Hi. eapply (Hw i j); [lia|done|done]. }
  destruct (Hwalk n) as (l & Hl & HP & Hw).
  destruct (decide (NoDup l)) as [Hnd|Hnd].
  - exfalso. assert (length l <= n); [|lia].
    apply NoDup_bound; [done|]. intros x Hx. apply Hlt. rewrite Forall_forall in HP. by apply HP.
  - assert (Hdup : exists i j x, i < j /\ l !! i = Some x /\ l !! j = Some x).
    { by apply not_NoDup_dup. }
    destruct Hdup as (i & j & x & Hij & Hi & Hj). exists x. by eapply (Hw i j).
Qed.

Lemma before_lookup {A} (l : list A) a b :
  before l a b <-> exists i j, i < j /\ l !! i = Some a /\ l !! j = Some b.
Proof.
  split.
  - intros (l1 & l2 & l3 & ->). exists (length l1), (length l1 + S (length l2)).
    split; [lia|]. split; [by apply list_lookup_middle|].
    rewrite lookup_app_r by lia. replace (length l1 + S (length l2) - length l1) with (S (length l2)) by lia.
    cbn. by apply list_lookup_middle.
  - intros (i & j & Hij & Hi & Hj).
    apply elem_of_list_split_length in Hi as (l1 & l2 & -> & ->).
    rewrite lookup_app_r in Hj by lia.
    destruct (j - length l1) as [|k] eqn:Hk; [lia|]. cbn in Hj.
    apply elem_of_list_split_length in Hj as (l3 & l4 & -> & _).
    exists l1, l3, l4. done.
Qed.

Lemma order_acyclic s ord :
  NoDup ord -> (forall a b, edge s a b -> before ord a b) -> acyclic s.
Proof.
  intros Hnd He n Hr.
  assert (Hall : forall a b, reach s a b -> before ord a b).
  { intros a b Hab. induction Hab as [a b Hab|a b c _ IH1 _ IH2]; [by apply He|].
    apply before_lookup in IH1 as (i & j & Hij & Hi & Hj).
    apply before_lookup in IH2 as (j' & k & Hjk & Hj' & Hk).
    apply before_lookup. exists i, k.
    assert (j = j') by (eapply NoDup_lookup; eauto). subst. split; [lia|done]. }
  apply Hall, before_lookup in Hr as (i & j & Hij & Hi & Hj).
  assert (i = j) by (eapply NoDup_lookup; eauto). lia.
Qed.

(** ** The ordering *)
Lemma calculate_order_ok g s out : R g s ->
  exists g' ok ord, gord_calculate_order g out = Some (g', if ok : bool then out ++ ord else [], ok) /\
    R g' s /\ (ok = true <-> acyclic s) /\
    (ok = true -> ord ≡ₚ sg_nodes s /\ forall a b, edge s a b -> before ord a b).
Proof.
  intros H.
  set (n := go_count g).
  set (ids := fun i => default Nop (sg_nodes s !! i)).
  set (adj := fun i => gn_edges (default gnode_new (go_nodes g !! i))).
  pose proof (R_cnt _ _ H) as Hcnt. fold n in Hcnt.
  assert (Hid : forall i, i < n -> sg_nodes s !! i = Some (ids i)).
  { intros i Hi. unfold ids. destruct (lookup_lt_is_Some_2 (sg_nodes s) i) as [x Hx]; [lia|].
    by rewrite Hx. }
  assert (Hnode : forall i, i < n -> go_nodes g !! i = Some (GNode (ids i) (adj i))).
  { intros i Hi. destruct (R_node _ _ H _ _ (Hid i Hi)) as (es & Hes & _).
    unfold adj. rewrite Hes. done. }
  assert (Hadj : forall i, i < n -> NoDup (adj i) /\ forall j, j ∈ adj i <-> j < n /\ edge s (ids i) (ids j)).
  { intros i Hi. destruct (R_node _ _ H _ _ (Hid i Hi)) as (es & Hes & Hnd & Hj).
    rewrite (Hnode i Hi) in Hes. injection Hes as Hes. rewrite Hes. split; [done|].
    intros j. rewrite Hj. split.
    - intros (m & Hm & He). pose proof (lookup_lt_Some _ _ _ Hm) as Hlt.
      split; [lia|]. rewrite (Hid j) in Hm by lia. injection Hm as ->. done.
    - intros [Hjn He]. exists (ids j). split; [by apply Hid|done]. }
  assert (Hnds : take n (go_nodes g) = (fun i => GNode (ids i) (adj i)) <$> seq 0 n).
  { apply list_eq. intros i. rewrite list_lookup_fmap. destruct (decide (i < n)) as [Hi|Hi].
    - rewrite lookup_take by done. rewrite (Hnode i Hi). rewrite lookup_seq_lt by done. done.
    - rewrite lookup_take_ge by lia. rewrite lookup_seq_ge by lia. done. }
  assert (Hndadj : forall i, i < n -> NoDup (adj i)) by (intros i Hi; by apply Hadj).
  assert (Hltadj : forall i j, i < n -> j ∈ adj i -> j < n).
  { intros i j Hi Hj. apply (Hadj i Hi) in Hj. apply Hj. }
  destruct (calc_indeg_ok n adj ids (length (go_indeg g))) as (ind & Hind & Hindl & Hindv).
  { rewrite <- (R_len _ _ H). apply (R_cap _ _ H). }
  { done. }
  { done. }
  unfold gord_calculate_order, calc_indeg. fold n. rewrite Hnds, Hind. cbn [mbind option_bind].
  set (deq := filter (fun i => ind !! i = Some 0) (seq 0 n)).
  assert (Hdeq : forall v, v < n -> (v ∈ deq <-> ind !! v = Some 0)).
  { intros v Hv. unfold deq. rewrite elem_of_list_filter, elem_of_seq. split; [naive_solver|].
    intros ?. split; [done|lia]. }
  assert (HI : KInv n adj [] [] deq ind).
  { split; cbn [app].
    - apply NoDup_filter, NoDup_seq.
    - intros x Hx. apply elem_of_list_filter in Hx as [_ Hx]. apply elem_of_seq in Hx. lia.
    - intros v Hv. rewrite Hindv by done. rewrite decide_False by apply not_elem_of_nil. f_equal. lia.
    - done.
    - intros l1 v l2 Heq u Hu Huv. exfalso.
      assert (Hv : v ∈ deq) by (rewrite Heq; set_solver).
      assert (Hvn : v < n) by eauto.
      apply Hdeq in Hv; [|done]. rewrite Hindv in Hv by done. injection Hv as Hv.
      pose proof (proj1 (cnt_zero n adj [] v) Hv u Hu Huv) as Hx. by apply elem_of_nil in Hx. }
  destruct (kahn_loop_ok n adj Hndadj Hltadj (go_nodes g) ids Hnode (S n) [] deq ind 0 out HI)
    as (ind' & vis & Hk & HI' & _ & Hl').
  { cbn. lia. }
  rewrite Hk. cbn [mbind option_bind length drop].
  rewrite !Nat.add_0_l, !Nat.sub_0_r.
  set (g' := GOrd (go_node2idx g) n (go_nodes g) ind').
  assert (HR' : R g' s).
  { destruct H. split; cbn; try done. congruence. }
  pose proof (ki_nd _ _ _ _ _ _ HI') as Hndv. pose proof (ki_topo _ _ _ _ _ _ HI') as Htopo.
  rewrite app_nil_r in Hndv, Htopo.
  assert (Hvlt : forall x, x ∈ vis -> x < n).
  { intros x Hx. apply (ki_lt _ _ _ _ _ _ HI'). set_solver. }
  assert (Hinj : forall x y, x < n -> y < n -> ids x = ids y -> x = y).
  { intros x y Hx Hy He. eapply NoDup_lookup; [apply (R_nd _ _ H)|by apply Hid|]. rewrite He. by apply Hid. }
  case_decide as Hfull.
  - exists g', true, (ids <$> vis). split; [done|]. split; [done|].
    assert (Hperm : vis ≡ₚ seq 0 n).
    { apply submseteq_Permutation_length_eq; [rewrite seq_length; lia|].
      apply NoDup_submseteq; [done|]. intros x Hx. apply elem_of_seq. specialize (Hvlt x Hx). lia. }
    assert (Hord : forall a b, edge s a b -> before (ids <$> vis) a b).
    { intros a b He. destruct (R_wf _ _ H _ _ He) as [Ha Hb].
      apply elem_of_list_lookup in Ha as [ia Ha]. apply elem_of_list_lookup in Hb as [ib Hb].
      pose proof (lookup_lt_Some _ _ _ Ha). pose proof (lookup_lt_Some _ _ _ Hb).
      rewrite (Hid ia) in Ha by lia. rewrite (Hid ib) in Hb by lia.
      injection Ha as <-. injection Hb as <-.
      assert (Hibv : ib ∈ vis) by (rewrite Hperm; apply elem_of_seq; lia).
      apply elem_of_list_split in Hibv as (l1 & l2 & Hsp).
      assert (Hia : ia ∈ l1).
      { eapply (Htopo l1 ib l2); [done|lia|]. apply Hadj; [lia|]. split; [lia|done]. }
      apply elem_of_list_split in Hia as (l3 & l4 & ->).
      exists (ids <$> l3), (ids <$> l4), (ids <$> l2). rewrite Hsp.
      rewrite <- app_assoc, !fmap_app. cbn. by rewrite ?fmap_app, <- ?app_assoc. }
    assert (Hp2 : ids <$> vis ≡ₚ sg_nodes s).
    { rewrite Hperm. apply (eq_ind _ (fun l => l ≡ₚ sg_nodes s) (reflexivity (sg_nodes s))).
      apply list_eq. intros i. rewrite list_lookup_fmap.
      destruct (decide (i < n)) as [Hi|Hi].
      - rewrite lookup_seq_lt by done. cbn. by apply Hid.
      - rewrite lookup_seq_ge by lia. cbn. apply lookup_ge_None. lia. }
    split; [|done]. split; [intros _|done].
    eapply order_acyclic; [|done]. rewrite Hp2. apply H.
  - exists g', false, []. split; [done|]. split; [done|]. split; [|done]. split; [done|].
    intros Hac. exfalso.
    (* there is an unvisited node *)
    assert (Hun : exists v, v < n /\ v ∉ vis).
    { destruct (decide (Forall (fun v => v ∈ vis) (seq 0 n))) as [Hall|Hall].
      - exfalso. apply Hfull. apply Nat.le_antisymm; [by apply NoDup_bound|].
        rewrite <- (seq_length n 0) at 1. apply submseteq_length, NoDup_submseteq; [apply NoDup_seq|].
        intros x Hx. rewrite Forall_forall in Hall. by apply Hall.
      - apply not_Forall_Exists in Hall; [|apply _]. apply Exists_exists in Hall as (v & Hv & Hnv).
        exists v. apply elem_of_seq in Hv. split; [lia|done]. }
    destruct Hun as (v0 & Hv0 & Hnv0).
    destruct (back_walk n (fun v => v < n /\ v ∉ vis) (fun u v => u < n /\ v < n /\ v ∈ adj u))
      with (v0 := v0) as (v & Hv).
    + intros v [Hv Hnv].
      destruct (decide (cnt n adj vis v = 0)) as [Hz|Hz].
      * exfalso. apply Hnv.
        assert (v ∈ vis ++ []) as Hx; [|by rewrite app_nil_r in Hx].
        apply (ki_zero _ _ _ _ _ _ HI' v Hv). rewrite (ki_ind _ _ _ _ _ _ HI' v Hv).
        rewrite decide_False by apply not_elem_of_nil. f_equal. lia.
      * unfold cnt in Hz. destruct (filter (fun u => v ∈ adj u /\ u ∉ vis) (seq 0 n)) as [|u l] eqn:Hf; [done|].
        assert (Hu : u ∈ u :: l) by left. rewrite <- Hf in Hu.
        apply elem_of_list_filter in Hu as [[Huv Hun] Hu]. apply elem_of_seq in Hu.
        exists u. split; [split; [lia|done]|]. split; [lia|done].
    + intros v [Hv _]. done.
    + done.
    + apply (Hac (ids v)). revert Hv. generalize v at 2 4 as w. generalize v as v'. clear -Hadj.
      intros v w Hv. unfold reach. induction Hv as [x y (Hx & Hy & Hxy)|x y z _ IH1 _ IH2].
      * apply t_step. apply (Hadj x Hx) in Hxy. apply Hxy.
      * by eapply t_trans.
Qed.

(** ** Histories *)
Lemma R_step g s o g' : R g s -> gord_step g o = Some g' -> R g' (sg_step s o).
Proof.
  intros H. destruct o as [|n|a b|]; cbn [gord_step sg_step].
  - intros [= <-]. by eapply R_clear.
  - intros [= <-]. by apply R_add_node.
  - by apply R_add_edge.
  - destruct (calculate_order_ok g s [] H) as (g1 & ok & ord & -> & HR & _).
    cbn. intros [= <-]. done.
Qed.

Lemma step_some g s o : R g s -> within_limit (sg_step s o) -> is_Some (gord_step g o).
Proof.
  intros H. destruct o as [|n|a b|]; cbn [gord_step]; [eauto|eauto| |].
  - intros Hl. by eapply add_edge_some.
  - intros _. destruct (calculate_order_ok g s [] H) as (g1 & ok & ord & -> & _). eauto.
Qed.

Lemma gord_run_None os : foldl (fun g o => g ← g; gord_step g o) None os = None.
Proof. by induction os. Qed.

Lemma gord_run_cons g o os :
  gord_run g (o :: os) = g' ← gord_step g o; gord_run g' os.
Proof.
  unfold gord_run. cbn. destruct (gord_step g o); cbn; [done|]. apply gord_run_None.
Qed.

Lemma gord_run_snoc g os o :
  gord_run g (os ++ [o]) = g' ← gord_run g os; gord_step g' o.
Proof. unfold gord_run. by rewrite foldl_app. Qed.

Lemma R_run os : forall g s g', R g s -> gord_run g os = Some g' -> R g' (sg_run s os).
Proof.
  induction os as [|o os IH]; intros g s g' H.
  - intros [= <-]. done.
  - rewrite gord_run_cons. destruct (gord_step g o) as [g1|] eqn:Hg1; [|done].
    cbn. intros Hr. eapply IH; [|done]. by eapply R_step.
Qed.

Lemma run_some os : forall g s, R g s ->
  (forall os1 os2, os = os1 ++ os2 -> within_limit (sg_run s os1)) ->
  is_Some (gord_run g os).
Proof.
  induction os as [|o os IH]; intros g s H Hl.
  - eexists. done.
  - rewrite gord_run_cons. destruct (step_some g s o H) as [g1 Hg1].
    { apply (Hl [o] os). done. }
    rewrite Hg1. cbn. apply (IH g1 (sg_step s o)).
    + by eapply R_step.
    + intros os1 os2 ->. apply (Hl (o :: os1) os2). done.
Qed.

(** ** Path queries *)
Lemma has_path_pushed g s m :
  R g s ->
  exists ps, match go_node2idx g !! m with
             | None => Some []
             | Some i => node ← go_nodes g !! i; mapM (fun j => gn_id <$> go_nodes g !! j) (gn_edges node)
             end = Some ps /\ (forall x, x ∈ ps <-> edge s m x) /\ length ps = length (targets s m).
Proof.
  intros H. destruct (go_node2idx g !! m) as [i|] eqn:Hi.
  - apply (R_idx _ _ H) in Hi.
    destruct (R_node _ _ H _ _ Hi) as (es & Hes & Hnd & Hj).
    rewrite Hes. cbn [mbind option_bind gn_edges].
    assert (Hm : mapM (fun j => gn_id <$> go_nodes g !! j) es = Some ((fun j => default Nop (sg_nodes s !! j)) <$> es)).
    { apply mapM_Some_2. apply Forall2_fmap_r. apply Forall2_same_length_lookup_2; [done|].
      intros k x y Hx Hy. assert (x = y) as -> by congruence.
      apply elem_of_list_lookup_2 in Hx. apply Hj in Hx as (m' & Hm' & _).
      destruct (R_node _ _ H _ _ Hm') as (es' & -> & _). cbn. by rewrite Hm'. }
    eexists. split; [exact Hm|]. split.
    + intros x. rewrite elem_of_list_fmap. split.
      * intros (j & -> & Hje). apply Hj in Hje as (m' & Hm' & He). by rewrite Hm'.
      * intros He. destruct (R_wf _ _ H _ _ He) as [_ Hx]. apply elem_of_list_lookup in Hx as [j Hx].
        exists j. rewrite Hx. split; [done|]. apply Hj. eauto.
    + rewrite fmap_length. by eapply R_targets.
  - exists []. split; [done|].
    assert (Hno : forall x, ~ edge s m x).
    { intros x He. destruct (R_wf _ _ H _ _ He) as [Hm _]. apply elem_of_list_lookup in Hm as [i Hm].
      apply (R_idx _ _ H) in Hm. congruence. }
    split.
    + intros x. split; [set_solver|]. intros He. by apply Hno in He.
    + destruct (targets s m) as [|x l] eqn:Ht; [done|].
      exfalso. apply (Hno x). apply targets_elem. rewrite Ht. left.
Qed.

(** remaining pushes possible: sum of the numbers of targets of unvisited nodes *)
Definition budget (s : sgraph) (visited : list node_id) : nat :=
  sum_list_with (fun m => if decide (m ∈ visited) then 0 else length (targets s m)) (sg_nodes s).

Lemma sum_list_with_ext {A} (f h : A -> nat) l :
  (forall x, x ∈ l -> f x = h x) -> sum_list_with f l = sum_list_with h l.
Proof.
  induction l as [|x l IH]; intros He; [done|]. cbn.
  rewrite He by left. rewrite IH; [done|]. intros y Hy. apply He. by right.
Qed.

Lemma budget_visit s visited m :
  NoDup (sg_nodes s) -> m ∉ visited -> (m ∉ sg_nodes s -> targets s m = []) ->
  budget s visited = budget s (m :: visited) + length (targets s m).
Proof.
  intros Hnd Hm Hno. unfold budget.
  destruct (decide (m ∈ sg_nodes s)) as [Hin|Hin].
  - apply elem_of_list_split in Hin as (l1 & l2 & Hl). rewrite Hl in *.
    apply NoDup_app in Hnd as (_ & Hd & Hnd). apply NoDup_cons in Hnd as [Hm2 _].
    assert (Hm1 : m ∉ l1) by (intros Hx; apply (Hd m Hx); left).
    rewrite !sum_list_with_app. cbn [sum_list_with].
    rewrite (decide_False (P := m ∈ visited)) by done.
    rewrite (decide_True (P := m ∈ m :: visited)) by left.
    assert (He : forall l, m ∉ l ->
      sum_list_with (fun m0 => if decide (m0 ∈ visited) then 0 else length (targets s m0)) l =
      sum_list_with (fun m0 => if decide (m0 ∈ m :: visited) then 0 else length (targets s m0)) l).
    { intros l Hl'. apply sum_list_with_ext. intros x Hx.
      destruct (decide (x ∈ visited)).
      - by rewrite decide_True by (by right).
      - rewrite decide_False; [done|]. rewrite elem_of_cons. intros [->|?]; done. }
    rewrite (He l1 Hm1), (He l2 Hm2). lia.
  - rewrite Hno by done. cbn. rewrite Nat.add_0_r. apply sum_list_with_ext. intros x Hx.
    destruct (decide (x ∈ visited)).
    + by rewrite decide_True by (by right).
    + rewrite decide_False; [done|]. rewrite elem_of_cons. intros [->|?]; done.
Qed.

Lemma has_path_loop_ok g s from to : R g s ->
  forall fuel visited stack,
  length stack + budget s visited < fuel ->
  (forall x, x ∈ visited -> reach0 s from x /\ x <> to) ->
  (forall x, x ∈ stack -> reach0 s from x) ->
  (from ∈ visited \/ from ∈ stack) ->
  (forall x y, x ∈ visited -> edge s x y -> y ∈ visited \/ y ∈ stack) ->
  exists r, has_path_loop fuel g to visited stack = Some r /\
    (r = Some true -> reach0 s from to) /\ (r = Some false -> ~ reach0 s from to).
Proof.
  intros H fuel. induction fuel as [|fuel IH]; intros visited stack Hf Hv Hs Hfrom Hcl; [lia|].
  cbn [has_path_loop]. destruct stack as [|m stack].
  - exists (Some false). split; [done|]. split; [done|]. intros _ Hr.
    assert (Hall : forall x, reach0 s from x -> x ∈ visited).
    { intros x Hx. apply clos_rt_rtn1 in Hx. induction Hx as [|y z Hyz _ IHx].
      - destruct Hfrom as [|Hx]; [done|]. by apply elem_of_nil in Hx.
      - destruct (Hcl _ _ IHx Hyz) as [|Hx]; [done|]. by apply elem_of_nil in Hx. }
    destruct (Hv to (Hall _ Hr)). done.
  - destruct (decide (m ∈ visited)) as [Hmv|Hmv].
    { exists None. done. }
    destruct (decide (m = to)) as [->|Hmt].
    { exists (Some true). split; [done|]. split; [|done]. intros _. apply Hs. left. }
    destruct (has_path_pushed g s m H) as (ps & Hps & Hpse & Hpl).
    rewrite Hps. cbn [mbind option_bind].
    apply IH.
    + rewrite app_length, rev_length. rewrite (budget_visit s visited m) in Hf.
      * cbn [length] in Hf. lia.
      * apply H.
      * done.
      * intros Hno. destruct (targets s m) as [|x l] eqn:Ht; [done|]. exfalso. apply Hno.
        assert (Hx : x ∈ targets s m) by (rewrite Ht; left). apply targets_elem in Hx.
        apply (R_wf _ _ H) in Hx. apply Hx.
    + intros x Hx. apply elem_of_cons in Hx as [->|Hx]; [|by apply Hv].
      split; [|done]. apply Hs. left.
    + intros x Hx. apply elem_of_app in Hx as [Hx|Hx]; [|apply Hs; by right].
      assert (Hx' : x ∈ ps) by (by apply elem_of_list_In, in_rev, elem_of_list_In).
      apply Hpse in Hx'. eapply rt_trans; [apply Hs; left|]. by apply rt_step.
    + destruct Hfrom as [?|Hx]; [left; by right|].
      apply elem_of_cons in Hx as [->|Hx]; [left; left|]. right. set_solver.
    + intros x y Hx He. apply elem_of_cons in Hx as [->|Hx].
      * right. apply elem_of_app. left. apply Hpse in He.
        by apply elem_of_list_In, in_rev; rewrite rev_involutive; apply elem_of_list_In.
      * destruct (Hcl _ _ Hx He) as [?|Hy]; [left; by right|].
        apply elem_of_cons in Hy as [->|Hy]; [left; left|]. right. set_solver.
Qed.

Lemma sum_edges_budget g s : R g s ->
  budget s [] = sum_list_with (fun n => length (gn_edges n)) (take (go_count g) (go_nodes g)).
Proof.
  intros H. unfold budget.
  assert (Hg : forall l k, l = drop k (sg_nodes s) -> 
     sum_list_with (fun m => if decide (m ∈ []) then 0 else length (targets s m)) l =
     sum_list_with (fun n => length (gn_edges n)) (drop k (take (go_count g) (go_nodes g)))).
  { induction l as [|m l IH]; intros k Hk.
    - rewrite drop_ge; [done|]. rewrite take_length.
      assert (length (drop k (sg_nodes s)) = 0) as Hl by (rewrite <- Hk; done).
      rewrite drop_length in Hl. rewrite (R_cnt _ _ H). lia.
    - assert (Hm : sg_nodes s !! k = Some m).
      { rewrite <- (Nat.add_0_r k). rewrite <- lookup_drop. rewrite <- Hk. done. }
      destruct (R_node _ _ H _ _ Hm) as (es & Hes & _).
      pose proof (lookup_lt_Some _ _ _ Hm) as Hlt.
      rewrite (drop_S _ (GNode m es)).
      + cbn [sum_list_with]. rewrite decide_False by apply not_elem_of_nil. cbn [gn_edges].
        rewrite (R_targets _ _ _ _ _ H Hm Hes). f_equal. apply IH.
        rewrite (drop_S _ m) in Hk by done. by injection Hk.
      + rewrite lookup_take; [done|]. rewrite (R_cnt _ _ H). lia. }
  rewrite (Hg (sg_nodes s) 0 eq_refl). by rewrite drop_0.
Qed.

Lemma has_path_ok g s from to : R g s ->
  exists r, gord_has_path g from to = Some r /\
    (r = Some true -> reach0 s from to) /\ (r = Some false -> ~ reach0 s from to).
Proof.
  intros H. unfold gord_has_path, has_path_fuel. apply (has_path_loop_ok g s from to H).
  - cbn [length]. rewrite <- (sum_edges_budget g s H). lia.
  - intros x Hx. by apply elem_of_nil in Hx.
  - intros x Hx. apply elem_of_list_singleton in Hx as ->. apply rt_refl.
  - right. left.
  - intros x y Hx. by apply elem_of_nil in Hx.
Qed.

(** ** Statements over histories *)
Lemma order_sound os g out g' out' :
  gord_run gord_new os = Some g ->
  gord_calculate_order g out = Some (g', out', true) ->
  exists ord, out' = out ++ ord /\ NoDup ord /\
    (forall n, n ∈ ord <-> n ∈ sg_nodes (sg_run sg_empty os)) /\
    (forall a b, edge (sg_run sg_empty os) a b -> before ord a b).
Proof.
  intros Hr Hc. pose proof (R_run _ _ _ _ R_new Hr) as HR.
  destruct (calculate_order_ok _ _ out HR) as (g1 & ok & ord & Hc' & _ & _ & Hord).
  rewrite Hc in Hc'. destruct ok; [|done]. injection Hc' as <- ->.
  destruct (Hord eq_refl) as [Hp Hb]. exists ord. split; [done|].
  split; [rewrite Hp; apply HR|]. split; [|done]. intros n. by rewrite Hp.
Qed.

Lemma order_iff_acyclic os g out :
  gord_run gord_new os = Some g ->
  exists g' out' ok, gord_calculate_order g out = Some (g', out', ok) /\
    (ok = true <-> acyclic (sg_run sg_empty os)) /\
    (ok = false -> out' = []).
Proof.
  intros Hr. pose proof (R_run _ _ _ _ R_new Hr) as HR.
  destruct (calculate_order_ok _ _ out HR) as (g1 & ok & ord & Hc' & _ & Hac & _).
  eexists _, _, ok. split; [exact Hc'|]. split; [done|]. by intros ->.
Qed.

Lemma build_no_panic os :
  (forall os1 os2, os = os1 ++ os2 -> within_limit (sg_run sg_empty os1)) ->
  is_Some (gord_run gord_new os).
Proof. intros Hl. eapply run_some; [apply R_new|done]. Qed.

Lemma fanout_refuted : exists os, gord_run gord_new os = None.
Proof.
  exists (GAddNode (NId 1 0) :: ((fun i => GAddEdge (NId 1 0) (NId 2 i)) <$> seq 0 65)).
  vm_compute. reflexivity.
Qed.

Lemma has_path_sound os g a b :
  gord_run gord_new os = Some g ->
  exists r, gord_has_path g a b = Some r /\
    (r = Some true -> reach0 (sg_run sg_empty os) a b) /\
    (r = Some false -> ~ reach0 (sg_run sg_empty os) a b).
Proof.
  intros Hr. pose proof (R_run _ _ _ _ R_new Hr) as HR. by apply has_path_ok.
Qed.

Lemma has_path_diamond :
  exists os g a b, gord_run gord_new os = Some g /\ acyclic (sg_run sg_empty os) /\
    gord_has_path g a b = Some None.
Proof.
  set (os := [GAddNode (NId 1 0); GAddEdge (NId 1 0) (NId 2 0); GAddEdge (NId 1 0) (NId 3 0);
              GAddEdge (NId 2 0) (NId 4 0); GAddEdge (NId 3 0) (NId 4 0)]).
  exists os.
  destruct (gord_run gord_new os) as [g|] eqn:Hg; [|vm_compute in Hg; done].
  exists g, (NId 1 0), (NId 5 0). split; [done|]. split.
  - destruct (order_iff_acyclic os g [] Hg) as (g' & out' & ok & Hc & Hac & _).
    apply Hac. vm_compute in Hg. injection Hg as <-. vm_compute in Hc. injection Hc as _ _ <-. done.
  - vm_compute in Hg. injection Hg as <-. vm_compute. reflexivity.
Qed.
