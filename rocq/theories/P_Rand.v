(** C67: lists of nodes and random nodes *)
From Coq Require Import QArith Sorted Lqa.
From stdpp Require Import strings.
From Verif Require Import Base M_Atom M_Graph M_Conf M_Nodes M_Rand S_Rand.
Open Scope string_scope.
Open Scope list_scope.
Open Scope nat_scope.

Lemma all_length : length all_node_ids = length node_rows.
Proof. apply imap_length. Qed.
Lemma rows_positive : 0 < length node_rows.
Proof. assert ((0 <? length node_rows) = true) as E by (vm_compute; reflexivity). by apply Nat.ltb_lt in E. Qed.

(** the names and labels of the excluded nodes belong together *)
Lemma labels_names : forallb (fun r => Bool.eqb (bool_decide (nr_variant r = "Out" \/ nr_variant r = "FbRd" \/ nr_variant r = "Test" \/ nr_variant r = "Rust1x1"))
  (bool_decide (nr_str r ∈ useless))) node_rows = true.
Proof. vm_compute. reflexivity. Qed.
Lemma satisfies_suits sel n : placeable n -> satisfies n sel = true <-> suits sel n.
Proof.
  intros (k & r & -> & Hr). unfold satisfies, suits. destruct (decide _) as [E|_]; [discriminate E|]. destruct sel; [done|].
  unfold node_label, node_name, row_of. cbn [nid_kind]. rewrite Hr. cbn [from_option].
  pose proof labels_names as HL. rewrite forallb_forall in HL. specialize (HL r (proj1 (elem_of_list_In _ _) (elem_of_list_lookup_2 _ _ _ Hr))).
  apply Bool.eqb_prop in HL. split.
  - intros H Hu. rewrite (bool_decide_eq_true_2 _ Hu) in HL. apply bool_decide_eq_true in HL.
    repeat (destruct (decide _); [done|]). tauto.
  - intros Hu. rewrite (bool_decide_eq_false_2 _ Hu) in HL. apply bool_decide_eq_false in HL.
    repeat (destruct (decide _); [tauto|]). done.
Qed.

Lemma drawn_all x : exists n, all_node_ids !! N.to_nat (x mod N.of_nat (length all_node_ids))%N = Some n /\ drawn x n /\ placeable n.
Proof.
  pose proof rows_positive as HP. rewrite all_length. set (k := N.to_nat _).
  assert (k < length node_rows) as Hk. { subst k. pose proof (N.mod_lt x (N.of_nat (length node_rows))) as H. lia. }
  destruct (lookup_lt_is_Some_2 node_rows k Hk) as [r Hr]. exists (NId (S k) 0). split.
  { unfold all_node_ids. rewrite list_lookup_imap, Hr. done. }
  split; [|by exists k, r]. exists k. do 2 (split; [done|]). subst k. lia.
Qed.
Lemma drawn_det x n m : drawn x n -> drawn x m -> n = m.
Proof. intros (k & H1 & H2 & H3) (k' & H1' & H2' & H3'). destruct n, m. cbn in *. assert (k = k') by lia. congruence. Qed.

Lemma draw_spec next sel count fuel : forall cnt out, length out <= count -> exists ds, length ds = fuel /\
  (forall i n, ds !! i = Some n -> drawn (next (cnt + i)) n /\ placeable n) /\
  draw next sel count fuel cnt out = Some (out ++ take (count - length out) (filter (suits sel) ds)).
Proof.
  induction fuel as [|fuel IH]; intros cnt out Hl.
  - exists []. do 2 (split; [done|]). cbn. by rewrite take_nil, app_nil_r.
  - destruct (drawn_all (next cnt)) as (n & Hn & Hd & Hp). cbn [draw].
    set (out' := if satisfies n sel then out ++ [n] else out).
    destruct (Nat.ltb_spec (length out) count) as [Hlt|Hge].
    + destruct (IH (S cnt) out') as (ds & D1 & D2 & D3).
      { subst out'. destruct (satisfies n sel); [rewrite app_length; cbn; lia|lia]. }
      exists (n :: ds). split; [cbn; lia|]. split.
      { intros [|i] m Hm; cbn in Hm; [injection Hm as <-; by rewrite Nat.add_0_r|]. rewrite Nat.add_succ_r. apply (D2 i m Hm). }
      rewrite Hn. cbn [mbind option_bind]. change (if satisfies n sel then out ++ [n] else out) with out'. rewrite D3. f_equal. subst out'. rewrite filter_cons.
      pose proof (satisfies_suits sel n Hp) as HS. destruct (satisfies n sel), (decide (suits sel n)) as [Hs|Hs]; try done.
      * rewrite app_length. cbn [length]. destruct (count - length out) as [|j] eqn:Ej; [lia|]. replace (count - (length out + 1)) with j by lia.
        rewrite <- app_assoc. done.
      * by destruct (Hs (proj1 HS eq_refl)).
      * by discriminate (proj2 HS Hs).
    + clear IH. assert (exists ds, length ds = S fuel /\ forall i n, ds !! i = Some n -> drawn (next (cnt + i)) n /\ placeable n) as (ds & D1 & D2).
      { clear. generalize (S fuel). intros m. induction m as [|m (ds & D1 & D2)]; [exists []; done|].
        destruct (drawn_all (next (cnt + m))) as (n & _ & Hd & Hp). exists (ds ++ [n]). split; [rewrite app_length; cbn; lia|].
        intros i x Hx. apply lookup_app_Some in Hx as [Hx|[Hi Hx]]; [by apply D2|].
        destruct (i - length ds) as [|y] eqn:Ei; [|done]. cbn in Hx. injection Hx as <-. replace i with m by lia. done. }
      exists ds. split; [done|]. split; [done|]. replace (count - length out) with 0 by lia. by rewrite take_0, app_nil_r.
Qed.

(** Random nodes are the suitable ones of the first hundred numbers in their order, as many as were asked for; all of them exist and
    suit, and what is missing is filled with empty nodes. *)
Theorem C67_random next count sel : exists got,
  get_rand_node_id next count sel = Some (got ++ replicate (count - length got) Nop) /\ length got <= count /\
  (forall n, n ∈ got -> placeable n /\ suits sel n) /\
  forall ds, length ds = 100 -> (forall i n, ds !! i = Some n -> drawn (next i) n) -> got = take count (filter (suits sel) ds).
Proof.
  destruct (draw_spec next sel count 100 0 []) as (ds & D1 & D2 & D3); [cbn; lia|]. cbn [length app] in D3. rewrite Nat.sub_0_r in D3.
  exists (take count (filter (suits sel) ds)). unfold get_rand_node_id. rewrite D3. cbn [mbind option_bind]. split; [done|].
  split; [apply firstn_le_length|]. split.
  - intros n Hn. apply elem_of_take in Hn as (i & Hn & _). apply elem_of_list_lookup_2, elem_of_list_filter in Hn as [Hs Hn]. split; [|done].
    apply elem_of_list_lookup in Hn as [j Hj]. by apply (D2 j n Hj).
  - intros es E1 E2. do 2 f_equal. apply list_eq_same_length with 100; [done|done|]. intros i x y _ Hx Hy.
    apply (drawn_det (next i)); [by apply (D2 i)|by apply E2].
Qed.
Print Assumptions C67_random.

Theorem C67_count next count sel : exists out, get_rand_node_id next count sel = Some out /\ length out = count.
Proof. destruct (C67_random next count sel) as (got & H & Hl & _). eexists. split; [exact H|]. rewrite app_length, replicate_length. lia. Qed.
Print Assumptions C67_count.

Lemma draws_exist next m : exists ds, length ds = m /\ forall i n, ds !! i = Some n -> drawn (next i) n /\ placeable n.
Proof. destruct (draw_spec next SelAny 0 m 0 []) as (ds & D1 & D2 & _); [done|]. exists ds. split; [done|]. intros i n H. apply (D2 i n H). Qed.

(** Up to a hundred nodes of any kind are always found. *)
Theorem C67_any next count : count <= 100 -> exists out, get_rand_node_id next count SelAny = Some out /\ length out = count /\ Forall placeable out.
Proof.
  intros Hc. destruct (C67_random next count SelAny) as (got & H & Hl & Hg & Hd). destruct (draws_exist next 100) as (ds & D1 & D2).
  specialize (Hd ds D1 (fun i n H => proj1 (D2 i n H))).
  assert (filter (suits SelAny) ds = ds) as HF. { clear. induction ds as [|d ds IH]; [done|]. rewrite filter_cons, decide_True by done. by rewrite IH. }
  rewrite HF in Hd. assert (length got = count) as HL by (rewrite Hd, take_length; lia).
  exists got. rewrite H, HL, Nat.sub_diag. cbn [replicate]. rewrite app_nil_r. do 2 (split; [done|]). apply Forall_forall. intros n Hn. by apply Hg.
Qed.
Print Assumptions C67_any.

(** Every suitable node of the list can come out. *)
Theorem C67_every n sel count : placeable n -> suits sel n -> 0 < count -> exists next out, get_rand_node_id next count sel = Some out /\ n ∈ out.
Proof.
  intros (k & r & -> & Hr) Hs Hc. exists (fun _ => N.of_nat k).
  destruct (C67_random (fun _ => N.of_nat k) count sel) as (got & H & _ & _ & Hd). exists (got ++ replicate (count - length got) Nop). split; [done|].
  rewrite (Hd (replicate 100 (NId (S k) 0))).
  - apply elem_of_app. left. change 100 with (S 99). cbn [replicate]. rewrite filter_cons, decide_True by done. destruct count; [lia|]. apply elem_of_cons. by left.
  - apply replicate_length.
  - intros i n Hi. apply lookup_replicate in Hi as [-> _]. exists k. do 2 (split; [done|]). apply lookup_lt_Some in Hr. rewrite N.mod_small; lia.
Qed.
Print Assumptions C67_every.

(** Useful nodes may be missing even for a single choice, when the numbers are unlucky; and more than a hundred nodes are never found. *)
Theorem C67_useful_refuted : ~ (forall next count, count <= 100 -> exists out, get_rand_node_id next count SelOnlyUseful = Some out /\ Nop ∉ out).
Proof.
  intros H. destruct (H (fun _ => 9%N) 1) as (out & E & Hn); [lia|]. apply Hn.
  assert (get_rand_node_id (fun _ => 9%N) 1 SelOnlyUseful = Some [Nop]) as E' by (vm_compute; reflexivity).
  rewrite E' in E. apply (inj Some) in E as <-. apply elem_of_list_here.
Qed.
Print Assumptions C67_useful_refuted.
Theorem C67_many_refuted next count sel : 100 < count -> exists out, get_rand_node_id next count sel = Some out /\ Nop ∈ out.
Proof.
  intros Hc. destruct (C67_random next count sel) as (got & H & Hl & Hg & Hd). destruct (draws_exist next 100) as (ds & D1 & D2).
  specialize (Hd ds D1 (fun i n H => proj1 (D2 i n H))). eexists. split; [exact H|]. apply elem_of_app. right.
  assert (length got <= 100). { rewrite Hd, take_length. pose proof (filter_length (suits sel) ds). lia. }
  destruct (count - length got) eqn:E; [lia|]. apply elem_of_cons. by left.
Qed.
Print Assumptions C67_many_refuted.

(** The list of a category has exactly its nodes, each once, in the order of the node list; [skip] leaves out the first ones. *)
Lemma list_cat_skip c rows : forall k skip, list_cat c k rows skip = drop skip (list_cat c k rows 0).
Proof.
  induction rows as [|r rows IH]; intros k skip; [by destruct skip|]. cbn [list_cat]. destruct (decide _).
  - destruct skip as [|skip]; [done|]. cbn [drop]. apply IH.
  - apply IH.
Qed.
Lemma list_cat_in c n rows : forall k, n ∈ list_cat c k rows 0 <-> exists i r, rows !! i = Some r /\ nr_cat r = c /\ n = NId (S (k + i)) 0.
Proof.
  induction rows as [|r rows IH]; intros k; cbn [list_cat].
  - split; [intros H; by apply elem_of_nil in H|intros (i & r & H & _); done].
  - assert (n ∈ list_cat c (S k) rows 0 <-> exists i r', (r :: rows) !! S i = Some r' /\ nr_cat r' = c /\ n = NId (S (k + S i)) 0) as HI.
    { rewrite IH. by setoid_rewrite Nat.add_succ_r. }
    destruct (decide _) as [Hc|Hc]; [rewrite elem_of_cons|]; rewrite HI; split.
    + intros [->|(i & r' & H)]; [exists 0, r; by rewrite Nat.add_0_r|by exists (S i), r'].
    + intros ([|i] & r' & H1 & H2 & H3); [left; by rewrite Nat.add_0_r in H3|right; by exists i, r'].
    + intros (i & r' & H). by exists (S i), r'.
    + intros ([|i] & r' & H1 & H2 & H3); [cbn in H1; by injection H1 as <-|by exists i, r'].
Qed.
Lemma list_cat_sorted c rows : forall k, StronglySorted (fun a b => nid_kind a < nid_kind b) (list_cat c k rows 0).
Proof.
  induction rows as [|r rows IH]; intros k; cbn [list_cat]; [constructor|]. destruct (decide _); [|apply IH]. constructor; [apply IH|].
  apply Forall_forall. intros n Hn. apply list_cat_in in Hn as (i & r' & _ & _ & ->). cbn. lia.
Qed.
Theorem C67_lists c skip : cat_node_ids c skip = drop skip (cat_node_ids c 0) /\
  (forall n, n ∈ cat_node_ids c 0 <-> placeable n /\ ui_category n = c) /\
  StronglySorted (fun a b => nid_kind a < nid_kind b) (cat_node_ids c skip).
Proof.
  split; [apply list_cat_skip|]. split.
  - intros n. unfold cat_node_ids. rewrite list_cat_in. split.
    + intros (i & r & Hr & Hc & ->). split; [by exists i, r|]. unfold ui_category, row_of. cbn [nid_kind plus]. by rewrite Hr.
    + intros [(k & r & -> & Hr) Hc]. exists k, r. split; [done|]. split; [|done]. unfold ui_category, row_of in Hc. cbn [nid_kind] in Hc. by rewrite Hr in Hc.
  - unfold cat_node_ids. rewrite list_cat_skip. pose proof (list_cat_sorted c node_rows 0) as HS.
    revert skip. induction HS as [|a l HS IH Ha]; intros skip; [rewrite drop_nil; constructor|]. destruct skip; [by constructor|apply IH].
Qed.
Print Assumptions C67_lists.

(** Every node is in the list of its own category and in no other. *)
Theorem C67_catalogue n : placeable n -> n ∈ cat_node_ids (ui_category n) 0 /\ forall c, n ∈ cat_node_ids c 0 -> c = ui_category n.
Proof.
  intros Hn. split; [by apply (C67_lists (ui_category n) 0)|]. intros c Hc. by apply (C67_lists c 0) in Hc as [_ <-].
Qed.
Print Assumptions C67_catalogue.

(** Two oscillators never start in opposite phases: the phases are at most a quarter of a period apart, and those of the first three
    instances are fixed and different. *)
Theorem C67_phases r1 r2 a b : (0 <= r1 <= 1)%Q -> (0 <= r2 <= 1)%Q ->
  (0 <= init_phase r1 a <= 1 # 4)%Q /\ (- (1 # 4) <= init_phase r1 a - init_phase r2 b <= 1 # 4)%Q /\
  (nid_inst a < 3 -> init_phase r1 a = init_phase r2 a) /\
  (nid_inst a < 3 -> nid_inst b < 3 -> nid_inst a <> nid_inst b -> ~ (init_phase r1 a == init_phase r2 b)%Q).
Proof.
  intros H1 H2. assert (forall r n, (0 <= r <= 1)%Q -> (0 <= init_phase r n <= 1 # 4)%Q) as HB.
  { intros r n Hr. unfold init_phase. destruct (nid_inst n) as [|[|[|m]]]; lra. }
  pose proof (HB r1 a H1) as Ba. pose proof (HB r2 b H2) as Bb. split; [done|]. split; [lra|]. unfold init_phase. split.
  - intros Ha. destruct (nid_inst a) as [|[|[|m]]]; [done|done|done|lia].
  - intros Ha Hb Hne. destruct (nid_inst a) as [|[|[|m]]], (nid_inst b) as [|[|[|m']]]; try lia; try done; lra.
Qed.
Print Assumptions C67_phases.

(** Cases: three random numbers, of which the second selects a node that is not useful *)
Definition c67_next (i : nat) : N := match i with 0 => 0%N | 1 => 9%N | 2 => 53%N | _ => 3%N end.
Example C67_case : get_rand_node_id c67_next 2 SelOnlyUseful = Some [node_from_str "amp"; node_from_str "sin"].
Proof. vm_compute. reflexivity. Qed.
Example C67_case_any : get_rand_node_id c67_next 2 SelAny = Some [node_from_str "amp"; node_from_str "rust1x1"].
Proof. vm_compute. reflexivity. Qed.
Example C67_case_osc : node_name <$> cat_node_ids COsc 1 = ["sin"; "bosc"; "vosc"; "bowstri"; "noise"; "formfm"].
Proof. vm_compute. reflexivity. Qed.
