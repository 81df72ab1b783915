(** Properties of the node name tables: C28 *)
From Coq Require Import QArith.
From stdpp Require Import strings.
From Verif Require Import Base M_Atom M_Conf S_Conf M_Nodes S_Nodes.
Open Scope string_scope.
Open Scope nat_scope.

(** ** First matching arms *)
Lemma first_spec {A} (f : A -> bool) (l : list A) x : first f l = Some x -> x ∈ l /\ f x = true.
Proof.
  unfold first. destruct (list_find f l) as [[i y]|] eqn:E; [|done]. cbn. intros [= ->].
  apply list_find_Some in E as (H1 & H2 & _). split; [by eapply elem_of_list_lookup_2|by apply Is_true_true].
Qed.

Lemma first_none {A} (f : A -> bool) (l : list A) : first f l = None -> forall x, x ∈ l -> f x = false.
Proof.
  unfold first. destruct (list_find f l) as [[i y]|] eqn:E; [done|]. intros _ x Hx. apply list_find_None in E.
  rewrite Forall_forall in E. specialize (E x Hx). destruct (f x); [|done]. by destruct E.
Qed.

(** Entries whose keys are all different are found by their key *)
Lemma first_key {A} (f : A -> nat) (l : list A) x : NoDup (f <$> l) -> x ∈ l -> first (fun y => f y =? f x) l = Some x.
Proof.
  intros Hn Hx. destruct (first _ l) as [y|] eqn:E.
  - apply first_spec in E as [Hy E]. apply Nat.eqb_eq in E. f_equal.
    apply elem_of_list_lookup in Hx as [i Hi], Hy as [j Hj].
    assert (i = j) as <-; [|congruence]. eapply (NoDup_lookup (f <$> l)); [done| |]; rewrite list_lookup_fmap; [by rewrite Hi|by rewrite Hj; cbn; f_equal].
  - specialize (first_none _ _ E x Hx). cbn. by rewrite Nat.eqb_refl.
Qed.

Lemma first_name {A} (f : A -> string) (l : list A) x : NoDup (f <$> l) -> x ∈ l -> first (fun y => String.eqb (f y) (f x)) l = Some x.
Proof.
  intros Hn Hx. destruct (first _ l) as [y|] eqn:E.
  - apply first_spec in E as [Hy E]. apply String.eqb_eq in E. f_equal.
    apply elem_of_list_lookup in Hx as [i Hi], Hy as [j Hj].
    assert (i = j) as <-; [|congruence]. eapply (NoDup_lookup (f <$> l)); [done| |]; rewrite list_lookup_fmap; [by rewrite Hi|by rewrite Hj; cbn; f_equal].
  - specialize (first_none _ _ E x Hx). cbn. by rewrite String.eqb_refl.
Qed.

(** Entries numbered from [a] on are found by their position *)
Lemma first_seq {A} (f : A -> nat) (l : list A) a i : f <$> l = seq a (length l) ->
  first (fun y => f y =? i) l = (if a <=? i then l !! (i - a) else None).
Proof.
  intros Hs. destruct (first _ l) as [y|] eqn:E.
  - apply first_spec in E as [Hy E]. apply Nat.eqb_eq in E. apply elem_of_list_lookup in Hy as [j Hj].
    assert ((f <$> l) !! j = Some (f y)) as Hf by (rewrite list_lookup_fmap, Hj; done).
    rewrite Hs in Hf. apply lookup_seq in Hf as [Hf _]. destruct (Nat.leb_spec a i); [|lia]. replace (i - a) with j by lia. done.
  - destruct (Nat.leb_spec a i); [|done]. destruct (l !! (i - a)) as [y|] eqn:El; [|done]. exfalso.
    assert ((f <$> l) !! (i - a) = Some (f y)) as Hf by (rewrite list_lookup_fmap, El; done).
    rewrite Hs in Hf. apply lookup_seq in Hf as [Hf _].
    pose proof (first_none _ _ E y (elem_of_list_lookup_2 _ _ _ El)) as Hn. cbn in Hn. apply Nat.eqb_neq in Hn. lia.
Qed.

(** ** What the rows of the table have in common *)
Definition row_good (r : nrow) : Prop :=
  (pr_idx <$> nr_ins r = seq 0 (length (nr_ins r))) /\
  (ar_idx <$> nr_ats r = seq (length (nr_ins r)) (length (nr_ats r))) /\
  (NoDup (ar_at <$> nr_ats r)) /\ Forall (fun a => ar_at a < length (nr_ats r)) (nr_ats r) /\
  (or_idx <$> nr_outs r = seq 0 (length (nr_outs r))) /\
  NoDup ((pr_name <$> nr_ins r) ++ (ar_name <$> nr_ats r)) /\ NoDup (or_name <$> nr_outs r) /\
  length (nr_ins r) <= 32 /\ length (nr_ins r) + length (nr_ats r) <= 255 /\ length (nr_outs r) <= 64.
Local Instance row_good_dec r : Decision (row_good r).
Proof. unfold row_good. apply _. Defined.

Lemma rows_good : Forall row_good node_rows.
Proof. apply (bool_decide_unpack _). vm_compute. exact I. Qed.

Lemma rows_names : NoDup ("nop" :: (nr_str <$> node_rows)).
Proof. apply (bool_decide_unpack _). vm_compute. exact I. Qed.


Lemma known_row n : known n -> exists r, row_of n = Some r /\ r ∈ node_rows /\ row_good r.
Proof.
  intros [H1 H2]. unfold row_of. destruct n as [[|k] i]; cbn [nid_kind] in *; [lia|].
  destruct (node_rows !! k) as [r|] eqn:E.
  - exists r. split; [done|]. assert (r ∈ node_rows) as Hin by by eapply elem_of_list_lookup_2. split; [done|].
    pose proof rows_good as HG. rewrite Forall_forall in HG. by apply HG.
  - apply lookup_ge_None in E. change (length node_rows) with 42 in E. lia.
Qed.

Section row.
  Context (n : node_id) (r : nrow) (Hr : row_of n = Some r) (HG : row_good r).

  Lemma r_ins : in_count n = length (nr_ins r).
  Proof using Hr. unfold in_count, info_inputs. rewrite Hr. cbn. apply fmap_length. Qed.
  Lemma r_ats : at_count n = length (nr_ats r).
  Proof using Hr. unfold at_count, info_atoms. rewrite Hr. cbn. apply fmap_length. Qed.
  Lemma r_outs : out_count n = length (nr_outs r).
  Proof using Hr. unfold out_count, info_outputs. rewrite Hr. cbn. apply fmap_length. Qed.

  Lemma r_in i : first (fun p => pr_idx p =? i) (nr_ins r) = nr_ins r !! i.
  Proof using HG. destruct HG as (H1 & _). rewrite (first_seq pr_idx (nr_ins r) 0 i H1). cbn. by rewrite Nat.sub_0_r. Qed.
  Lemma r_at i : first (fun a => ar_idx a =? i) (nr_ats r) = (if length (nr_ins r) <=? i then nr_ats r !! (i - length (nr_ins r)) else None).
  Proof using HG. destruct HG as (_ & H2 & _). apply first_seq, H2. Qed.
  Lemma r_out i : first (fun o => or_idx o =? i) (nr_outs r) = nr_outs r !! i.
  Proof using HG. destruct HG as (_ & _ & _ & _ & H5 & _). rewrite (first_seq or_idx (nr_outs r) 0 i H5). cbn. by rewrite Nat.sub_0_r. Qed.
  Lemma r_in_idx i p : nr_ins r !! i = Some p -> pr_idx p = i.
  Proof using HG.
    intros H. destruct HG as (H1 & _). assert ((pr_idx <$> nr_ins r) !! i = Some (pr_idx p)) as E by (rewrite list_lookup_fmap, H; done).
    rewrite H1 in E. apply lookup_seq in E. lia.
  Qed.
  Lemma r_at_idx i a : nr_ats r !! i = Some a -> ar_idx a = length (nr_ins r) + i.
  Proof using HG.
    intros H. destruct HG as (_ & H1 & _). assert ((ar_idx <$> nr_ats r) !! i = Some (ar_idx a)) as E by (rewrite list_lookup_fmap, H; done).
    rewrite H1 in E. apply lookup_seq in E. lia.
  Qed.
  Lemma r_out_idx i p : nr_outs r !! i = Some p -> or_idx p = i.
  Proof using HG.
    intros H. destruct HG as (_ & _ & _ & _ & H1 & _). assert ((or_idx <$> nr_outs r) !! i = Some (or_idx p)) as E by (rewrite list_lookup_fmap, H; done).
    rewrite H1 in E. apply lookup_seq in E. lia.
  Qed.
  Lemma r_names : NoDup (pr_name <$> nr_ins r) /\ NoDup (ar_name <$> nr_ats r) /\
    (forall p a, p ∈ nr_ins r -> a ∈ nr_ats r -> pr_name p <> ar_name a) /\ NoDup (or_name <$> nr_outs r).
  Proof using HG.
    destruct HG as (_ & _ & _ & _ & _ & H6 & H7 & _). apply NoDup_app in H6 as (A & B & C). split_and!; try done.
    intros p a Hp Ha E. apply (B (pr_name p)); [apply elem_of_list_fmap; eauto|]. rewrite E. apply elem_of_list_fmap; eauto.
  Qed.

  (** The entry of a parameter index *)
  Lemma r_param i : param_by_idx n i =
    match nr_ins r !! i with
    | Some p => Some (ParamId (pr_name p) n i)
    | None => if length (nr_ins r) <=? i then (fun a => ParamId (ar_name a) n i) <$> nr_ats r !! (i - length (nr_ins r)) else None
    end.
  Proof using Hr HG.
    unfold param_by_idx. rewrite Hr. cbn [mbind option_bind]. rewrite r_in. destruct (nr_ins r !! i) as [p|] eqn:E.
    - by rewrite (r_in_idx i p E).
    - rewrite r_at. destruct (Nat.leb_spec (length (nr_ins r)) i); [|done]. destruct (nr_ats r !! _) as [a|] eqn:Ea; [|done].
      cbn. rewrite (r_at_idx _ _ Ea). do 2 f_equal. lia.
  Qed.

  Lemma r_inp_name i : inp_name_by_idx n i =
    match nr_ins r !! i with
    | Some p => Some (pr_name p)
    | None => if length (nr_ins r) <=? i then ar_name <$> nr_ats r !! (i - length (nr_ins r)) else None
    end.
  Proof using Hr HG.
    unfold inp_name_by_idx. rewrite Hr. cbn [mbind option_bind]. rewrite r_in. destruct (nr_ins r !! i) as [p|] eqn:E; [done|].
    rewrite r_at. by destruct (Nat.leb_spec (length (nr_ins r)) i).
  Qed.

  Lemma r_find_in s p : first (fun p => String.eqb (pr_name p) s) (nr_ins r) = Some p <-> p ∈ nr_ins r /\ pr_name p = s.
  Proof using HG.
    split; [intros [H1 H2]%first_spec; split; [done|by apply String.eqb_eq]|]. intros [H <-]. apply first_name; [apply r_names|done].
  Qed.
  Lemma r_find_at s p : first (fun p => String.eqb (ar_name p) s) (nr_ats r) = Some p <-> p ∈ nr_ats r /\ ar_name p = s.
  Proof using HG.
    split; [intros [H1 H2]%first_spec; split; [done|by apply String.eqb_eq]|]. intros [H <-]. apply first_name; [apply r_names|done].
  Qed.
  Lemma r_find_out s p : first (fun p => String.eqb (or_name p) s) (nr_outs r) = Some p <-> p ∈ nr_outs r /\ or_name p = s.
  Proof using HG.
    split; [intros [H1 H2]%first_spec; split; [done|by apply String.eqb_eq]|]. intros [H <-]. apply first_name; [apply r_names|done].
  Qed.
End row.

(** ** C28 *)

(** The kinds of nodes have different names, and the name of a kind gives the kind back *)
Theorem C28_kinds : (forall n, known n -> node_from_str (node_name n) = NId (nid_kind n) 0) /\
  (forall s, node_from_str s <> Nop -> known (node_from_str s) /\ node_name (node_from_str s) = s).
Proof.
  pose proof rows_names as HN. apply NoDup_cons in HN as [Hnop HN]. split.
  - intros n Hn. destruct (known_row n Hn) as (r & Er & _ & _). unfold node_name. rewrite Er. cbn [from_option].
    unfold row_of in Er. destruct n as [[|k] i]; [done|]. cbn [nid_kind] in *. unfold node_from_str.
    destruct (decide (nr_str r = "nop")) as [E|_].
    { destruct Hnop. rewrite <- E. apply elem_of_list_fmap. eexists; split; [done|]. by eapply elem_of_list_lookup_2. }
    destruct (list_find (fun r' => nr_str r' = nr_str r) node_rows) as [[j r']|] eqn:E.
    + apply list_find_Some in E as (E1 & E2 & _). do 2 f_equal.
      eapply (NoDup_lookup (nr_str <$> node_rows)); [done| |]; rewrite list_lookup_fmap; [by rewrite E1|by rewrite Er; cbn; f_equal].
    + apply list_find_None in E. rewrite Forall_forall in E. by destruct (E r (elem_of_list_lookup_2 _ _ _ Er)).
  - intros s. unfold node_from_str. destruct (decide (s = "nop")); [done|].
    destruct (list_find (fun r' => nr_str r' = s) node_rows) as [[j r']|] eqn:E; [|done]. intros _.
    apply list_find_Some in E as (E1 & E2 & _). unfold known, node_name, row_of. cbn [nid_kind]. rewrite E1. cbn. split; [|done].
    apply lookup_lt_Some in E1. change (length node_rows) with 42 in E1. lia.
Qed.
Print Assumptions C28_kinds.

(** Inputs: names and indices correspond to each other, for all strings and numbers *)
Theorem C28_inputs n : known n ->
  (forall s i, node_inp n s = Some i <-> i < in_count n /\ inp_name_by_idx n i = Some s) /\
  (forall i, is_Some (inp_name_by_idx n i) <-> i < in_count n + at_count n) /\
  (forall i p, inp_param_by_idx n i = Some p <-> i < in_count n /\ param_by_idx n i = Some p) /\
  (forall i, i < in_count n -> info_in_name n i = inp_name_by_idx n i) /\
  in_count n <= 32 /\ in_count n + at_count n <= 255.
Proof.
  intros Hn. destruct (known_row n Hn) as (r & Er & _ & HG). rewrite (r_ins n r Er), (r_ats n r Er). split_and!.
  - intros s i. unfold node_inp. rewrite Er. cbn [mbind option_bind]. rewrite (r_inp_name n r Er HG). split.
    + destruct (first _ _) as [p|] eqn:E; [|done]. cbn. intros [= <-]. apply (r_find_in r HG) in E as [Hp <-].
      apply elem_of_list_lookup in Hp as [j Hj]. rewrite (r_in_idx r HG j p Hj), Hj. split; [by eapply lookup_lt_Some|done].
    + intros [Hi E]. destruct (nr_ins r !! i) as [p|] eqn:Ep; [|apply lookup_ge_None in Ep; lia]. injection E as <-.
      rewrite (proj2 (r_find_in r HG (pr_name p) p)); [|split; [by eapply elem_of_list_lookup_2|done]]. cbn. f_equal. by apply (r_in_idx r HG).
  - intros i. rewrite (r_inp_name n r Er HG). destruct (nr_ins r !! i) as [p|] eqn:E.
    + apply lookup_lt_Some in E. split; [lia|eauto].
    + apply lookup_ge_None in E. destruct (Nat.leb_spec (length (nr_ins r)) i); [|lia]. rewrite fmap_is_Some, lookup_lt_is_Some. lia.
  - intros i p. unfold inp_param_by_idx. rewrite Er. cbn [mbind option_bind]. rewrite (r_in r HG), (r_param n r Er HG). split.
    + destruct (nr_ins r !! i) as [q|] eqn:E; [|done]. cbn. intros [= <-]. rewrite (r_in_idx r HG i q E). split; [by eapply lookup_lt_Some|done].
    + intros [Hi H]. destruct (nr_ins r !! i) as [q|] eqn:E; [|apply lookup_ge_None in E; lia]. cbn. by rewrite (r_in_idx r HG i q E).
  - intros i Hi. unfold info_in_name, info_inputs. rewrite Er. cbn [from_option]. rewrite list_lookup_fmap, (r_inp_name n r Er HG).
    destruct (nr_ins r !! i) as [p|] eqn:E; [done|]. apply lookup_ge_None in E. lia.
  - apply HG.
  - apply HG.
Qed.
Print Assumptions C28_inputs.

(** Parameters: inputs and atoms share the indices, first the inputs *)
Theorem C28_params n : known n ->
  (forall s p, inp_param n s = Some p <-> param_by_idx n (pa_idx p) = Some p /\ pa_name p = s) /\
  (forall i p, param_by_idx n i = Some p -> pa_idx p = i /\ pa_node p = n /\ inp_name_by_idx n i = Some (pa_name p) /\
     (param_is_atom p = true <-> in_count n <= i)) /\
  (forall i, is_Some (param_by_idx n i) <-> i < in_count n + at_count n).
Proof.
  intros Hn. destruct (known_row n Hn) as (r & Er & _ & HG). rewrite (r_ins n r Er), (r_ats n r Er).
  pose proof (r_names r HG) as (_ & _ & HD & _). split_and!.
  - intros s p. unfold inp_param. rewrite Er. cbn [mbind option_bind]. rewrite (r_param n r Er HG). split.
    + destruct (first _ (nr_ins r)) as [q|] eqn:E.
      * intros [= <-]. apply (r_find_in r HG) in E as [Hp <-]. cbn [pa_idx pa_name].
        apply elem_of_list_lookup in Hp as [j Hj]. rewrite (r_in_idx r HG j q Hj), Hj. done.
      * destruct (first _ (nr_ats r)) as [q|] eqn:E2; [|done]. cbn. intros [= <-]. apply (r_find_at r HG) in E2 as [Hp <-]. cbn [pa_idx pa_name].
        apply elem_of_list_lookup in Hp as [j Hj]. rewrite (r_at_idx r HG j q Hj). rewrite lookup_ge_None_2 by lia.
        destruct (Nat.leb_spec (length (nr_ins r)) (length (nr_ins r) + j)); [|lia].
        replace (length (nr_ins r) + j - length (nr_ins r)) with j by lia. rewrite Hj. done.
    + intros [H <-]. destruct (nr_ins r !! pa_idx p) as [q|] eqn:Eq.
      * injection H as H. assert (pa_name p = pr_name q) as -> by (by rewrite <- H). rewrite (proj2 (r_find_in r HG (pr_name q) q)); [|split; [by eapply elem_of_list_lookup_2|done]].
        by rewrite (r_in_idx r HG _ q Eq), H.
      * destruct (Nat.leb_spec (length (nr_ins r)) (pa_idx p)) as [Hle|]; [|done]. destruct (nr_ats r !! _) as [a|] eqn:Ea; [|done].
        cbn in H. injection H as H. assert (a ∈ nr_ats r) as Ha by by eapply elem_of_list_lookup_2.
        assert (pa_name p = ar_name a) as Epn by by rewrite <- H.
        destruct (first _ (nr_ins r)) as [q|] eqn:E.
        { apply (r_find_in r HG) in E as [Hq Hqn]. destruct (HD q a Hq Ha). congruence. }
        rewrite (proj2 (r_find_at r HG (pa_name p) a)) by done. cbn. rewrite (r_at_idx r HG _ a Ea), <- H. cbn [pa_idx]. do 2 f_equal. lia.
  - intros i p. rewrite (r_param n r Er HG), (r_inp_name n r Er HG). unfold param_is_atom. destruct (nr_ins r !! i) as [q|] eqn:E.
    + intros [= <-]. cbn [pa_idx pa_node pa_name]. rewrite Er, (r_in r HG), E. split_and!; try done. apply lookup_lt_Some in E. split; [done|lia].
    + apply lookup_ge_None in E as E'. destruct (Nat.leb_spec (length (nr_ins r)) i) as [Hle|]; [|done]. destruct (nr_ats r !! _) as [a|] eqn:Ea; [|done].
      cbn. intros [= <-]. cbn [pa_idx pa_node pa_name]. rewrite Er, (r_in r HG), E, (r_at r HG).
      destruct (Nat.leb_spec (length (nr_ins r)) i); [|lia]. rewrite Ea. done.
  - intros i. rewrite (r_param n r Er HG). destruct (nr_ins r !! i) as [p|] eqn:E.
    + apply lookup_lt_Some in E. split; [lia|eauto].
    + apply lookup_ge_None in E. destruct (Nat.leb_spec (length (nr_ins r)) i); [|lia]. rewrite fmap_is_Some, lookup_lt_is_Some. lia.
Qed.
Print Assumptions C28_params.

(** Atoms: the atom numbers below the count enumerate the atom parameters, each once *)
Theorem C28_atoms n : known n ->
  (forall j, is_Some (atom_param_by_idx n j) <-> j < at_count n) /\
  (forall j p, atom_param_by_idx n j = Some p -> param_by_idx n (pa_idx p) = Some p /\ in_count n <= pa_idx p) /\
  (forall j j' p p', atom_param_by_idx n j = Some p -> atom_param_by_idx n j' = Some p' -> pa_idx p = pa_idx p' -> j = j') /\
  (forall i p, in_count n <= i -> param_by_idx n i = Some p -> exists j, atom_param_by_idx n j = Some p).
Proof.
  intros Hn. destruct (known_row n Hn) as (r & Er & _ & HG). rewrite (r_ins n r Er), (r_ats n r Er).
  pose proof HG as (_ & H2 & H3 & H4 & _). rewrite Forall_forall in H4.
  assert (forall j p, atom_param_by_idx n j = Some p <-> exists i a, nr_ats r !! i = Some a /\ ar_at a = j /\ p = ParamId (ar_name a) n (length (nr_ins r) + i)) as HS.
  { intros j p. unfold atom_param_by_idx. rewrite Er. cbn [mbind option_bind]. split.
    - destruct (first _ _) as [a|] eqn:E; [|done]. cbn. intros [= <-]. apply first_spec in E as [Ha E]. apply Nat.eqb_eq in E.
      apply elem_of_list_lookup in Ha as [i Hi]. exists i, a. by rewrite (r_at_idx r HG i a Hi).
    - intros (i & a & Hi & <- & ->). rewrite (first_key ar_at (nr_ats r) a H3) by by eapply elem_of_list_lookup_2.
      cbn. by rewrite (r_at_idx r HG i a Hi). }
  assert (forall j, j < length (nr_ats r) -> j ∈ (ar_at <$> nr_ats r)) as Hall.
  { intros j Hj. assert (ar_at <$> nr_ats r ⊆+ seq 0 (length (nr_ats r))) as Hsub.
    { apply NoDup_submseteq; [done|]. intros x (a & -> & Ha)%elem_of_list_fmap. apply elem_of_seq. specialize (H4 a Ha). cbn in H4. lia. }
    apply submseteq_Permutation_length_eq in Hsub; [|by rewrite seq_length, fmap_length].
    rewrite Hsub. apply elem_of_seq. lia. }
  split_and!.
  - intros j. split.
    + intros [p (i & a & Hi & <- & _)%HS]. apply H4. by eapply elem_of_list_lookup_2.
    + intros Hj. apply Hall in Hj. apply elem_of_list_fmap in Hj as (a & -> & Ha). apply elem_of_list_lookup in Ha as [i Hi].
      eexists. apply HS. eauto.
  - intros j p (i & a & Hi & <- & ->)%HS. cbn [pa_idx]. split; [|lia]. rewrite (r_param n r Er HG), lookup_ge_None_2 by lia.
    destruct (Nat.leb_spec (length (nr_ins r)) (length (nr_ins r) + i)); [|lia].
    replace (length (nr_ins r) + i - length (nr_ins r)) with i by lia. by rewrite Hi.
  - intros j j' p p' (i & a & Hi & <- & ->)%HS (i' & a' & Hi' & <- & ->)%HS. cbn [pa_idx]. intros E. assert (i = i') as <- by lia. congruence.
  - intros i p Hle. rewrite (r_param n r Er HG), lookup_ge_None_2 by lia. destruct (Nat.leb_spec (length (nr_ins r)) i); [|lia].
    destruct (nr_ats r !! _) as [a|] eqn:Ea; [|done]. cbn. intros [= <-]. exists (ar_at a). apply HS. exists (i - length (nr_ins r)), a.
    split_and!; [done|done|]. do 2 f_equal. lia.
Qed.
Print Assumptions C28_atoms.

(** Outputs *)
Theorem C28_outputs n : known n ->
  (forall s i, node_out n s = Some i <-> out_name_by_idx n i = Some s) /\
  (forall i, is_Some (out_name_by_idx n i) <-> i < out_count n) /\
  (forall i, info_out_name n i = out_name_by_idx n i) /\
  out_count n <= 64.
Proof.
  intros Hn. destruct (known_row n Hn) as (r & Er & _ & HG). rewrite (r_outs n r Er).
  assert (forall i, out_name_by_idx n i = or_name <$> nr_outs r !! i) as HO.
  { intros i. unfold out_name_by_idx. rewrite Er. cbn [mbind option_bind]. by rewrite (r_out r HG). }
  split_and!.
  - intros s i. rewrite HO. unfold node_out. rewrite Er. cbn [mbind option_bind]. split.
    + destruct (first _ _) as [p|] eqn:E; [|done]. cbn. intros [= <-]. apply (r_find_out r HG) in E as [Hp <-].
      apply elem_of_list_lookup in Hp as [j Hj]. rewrite (r_out_idx r HG j p Hj), Hj. done.
    + destruct (nr_outs r !! i) as [p|] eqn:Ep; [|done]. cbn. intros [= <-].
      rewrite (proj2 (r_find_out r HG (or_name p) p)); [|split; [by eapply elem_of_list_lookup_2|done]]. cbn. f_equal. by apply (r_out_idx r HG).
  - intros i. by rewrite HO, fmap_is_Some, lookup_lt_is_Some.
  - intros i. rewrite HO. unfold info_out_name, info_outputs. rewrite Er. cbn [from_option]. by rewrite list_lookup_fmap.
  - apply HG.
Qed.
Print Assumptions C28_outputs.

(** The default of every setting lies in its range *)
Theorem C28_settings p lo hi i : setting_min_max p = Some (lo, hi) -> atom_def p = Some (inr (ISetting i)) -> (lo <= i <= hi)%Z.
Proof.
  assert (forallb (fun r => forallb (fun a => match ar_init a with ISetting i => (ar_min a <=? i)%Z && (i <=? ar_max a)%Z | _ => true end) (nr_ats r)) node_rows = true) as H.
  { vm_compute. reflexivity. }
  unfold setting_min_max, atom_def. destruct (row_of (pa_node p)) as [r|] eqn:Er; [|done]. cbn [mbind option_bind].
  assert (r ∈ node_rows) as Hr.
  { unfold row_of in Er. destruct (nid_kind (pa_node p)); [done|]. by eapply elem_of_list_lookup_2. }
  destruct (first _ (nr_ats r)) as [a|] eqn:Ea; [|done]. cbn. intros [= <- <-].
  destruct (first _ (nr_ins r)); [done|]. intros [= E]. apply first_spec in Ea as [Ha _].
  rewrite forallb_forall in H. apply elem_of_list_In, H in Hr. rewrite forallb_forall in Hr. apply elem_of_list_In, Hr in Ha.
  rewrite E in Ha. apply andb_prop in Ha as [?%Z.leb_le ?%Z.leb_le]. done.
Qed.
Print Assumptions C28_settings.

(** Every node is listed under its category *)
Theorem C28_categories n : known n -> exists c, NId (nid_kind n) 0 ∈ get_node_ids c 0 /\ forall c', NId (nid_kind n) 0 ∈ get_node_ids c' 0 -> c' = c.
Proof.
  intros Hn. destruct (known_row n Hn) as (r & Er & Hin & _). unfold row_of in Er. destruct n as [[|k] i]; [done|]. cbn [nid_kind] in *.
  assert (forall c, NId (S k) 0 ∈ get_node_ids c 0 <-> nr_cat r = c) as HS.
  { intros c. unfold get_node_ids. rewrite drop_0, elem_of_list_fmap. split.
    - intros ([k' r'] & E & [Hc H]%elem_of_list_filter). cbn [fst snd] in E, Hc. injection E as <-. apply elem_of_lookup_imap in H as (k' & r'' & [= <- <-] & H). congruence.
    - intros Hc. exists (k, r). split; [done|]. apply elem_of_list_filter. split; [done|]. apply elem_of_lookup_imap. eauto. }
  exists (nr_cat r). split; [by apply HS|]. intros c' H. by apply HS in H.
Qed.
Print Assumptions C28_categories.

(** The table of the code is one that the theorems about the frontend are about. *)
Theorem C28_table_ok def norm denorm q2f : table_ok (hexo_table def norm denorm q2f).
Proof.
  assert (forall k, 43 <= k -> row_of (NId k 0) = None) as Hbig.
  { intros [|k] Hk; [done|]. unfold row_of. cbn [nid_kind]. apply lookup_ge_None. change (length node_rows) with 42. lia. }
  assert (forall k, (k = 0 \/ 43 <= k) -> in_count (NId k 0) = 0 /\ at_count (NId k 0) = 0) as Hz.
  { intros k Hk. unfold in_count, at_count, info_inputs, info_atoms. destruct Hk as [->|Hk]; [done|]. by rewrite (Hbig k Hk). }
  assert (forall k, k = 0 \/ 43 <= k \/ known (NId k 0)) as Hc by (intros k; unfold known; cbn; lia).
  assert (forall k j, known (NId k 0) -> j < at_count (NId k 0) -> exists p, atom_param_by_idx (NId k 0) j = Some p) as Hat.
  { intros k j Hk Hj. destruct (C28_atoms _ Hk) as (A & _). by apply A. }
  split; cbn [hexo_table nt_ins nt_known nt_ats nt_at_id].
  - intros k. destruct (Hc k) as [Hk|[Hk|Hk]]; [destruct (Hz k); unfold max_node_inputs; [by left|lia]|destruct (Hz k); unfold max_node_inputs; [by right|lia]|].
    destruct (C28_inputs _ Hk) as (_ & _ & _ & _ & H & _). exact H.
  - done.
  - intros k j Hj. destruct (Hc k) as [Hk|[Hk|Hk]]; [destruct (Hz k); [by left|lia]|destruct (Hz k); [by right|lia]|].
    destruct (Hat k j Hk Hj) as [p E]. rewrite E. cbn. destruct (C28_atoms _ Hk) as (_ & A & _). by apply (A j p).
  - intros k j j' Hj Hj'. destruct (Hc k) as [Hk|[Hk|Hk]]; [destruct (Hz k); [by left|lia]|destruct (Hz k); [by right|lia]|].
    destruct (Hat k j Hk Hj) as [p E], (Hat k j' Hk Hj') as [p' E']. rewrite E, E'. cbn. intros Ei. destruct (C28_atoms _ Hk) as (_ & _ & A & _). by eapply A.
Qed.
Print Assumptions C28_table_ok.

(** C28, refuted: [NodeInfo] names the atoms of a node differently than [ParamId] does: [smap] numbers its atoms in another order than it
    lists them, and [in_name] does not know the atom with the shared index *)
Theorem C28_info_refuted : node_from_str "smap" = NId 4 0 /\ info_at_name (NId 4 0) 0 = Some "mode" /\
  pa_name <$> atom_param_by_idx (NId 4 0) 0 = Some "clip" /\
  inp_name_by_idx (NId 1 0) 3 = Some "neg_att" /\ info_in_name (NId 1 0) 3 = None.
Proof. vm_compute. done. Qed.
Print Assumptions C28_info_refuted.

Example C28_example : known (node_from_str "sampl") /\ node_inp (node_from_str "sampl") "det" = Some 5 /\
  inp_param (node_from_str "sampl") "pmode" = Some (ParamId "pmode" (node_from_str "sampl") 7) /\
  node_out (node_from_str "tseq") "gat6" = Some 11.
Proof. unfold known. vm_compute. repeat split; lia. Qed.
