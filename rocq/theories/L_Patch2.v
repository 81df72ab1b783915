(** Proofs for C26: patterns and block functions *)
From stdpp Require Import strings.
From Verif Require Import Base M_Prog L_Conf M_Track S_Track L_Track L_Track2 M_Block S_Block L_Block L_Block2 L_Block3 M_Repr M_Patch S_Patch.
Open Scope string_scope.
Open Scope list_scope.
Open Scope nat_scope.

(** ** Counting *)
Lemma count_from_spec has fuel : forall i, let n := count_from has fuel i in
  i <= n /\ n <= i + fuel /\ (forall j, i <= j < n -> has j = true) /\ (n < i + fuel -> has n = false).
Proof.
  induction fuel as [|fuel IH]; intros i; cbn [count_from].
  { split; [lia|]. split; [lia|]. split; [lia|lia]. }
  destruct (has i) eqn:E; cbn zeta in *.
  - destruct (IH (S i)) as (H1 & H2 & H3 & H4). split; [lia|]. split; [lia|]. split; [|intros; apply H4; lia].
    intros j Hj. destruct (decide (j = i)) as [->|]; [done|]. apply H3. lia.
  - split; [lia|]. split; [lia|]. split; [lia|done].
Qed.

Lemma count_saved (has : nat -> bool) (X : gset nat) lo i : (forall j, has j = true <-> j ∈ X) ->
  i < count_from has (size X) lo <-> saved_id lo (fun j => j ∈ X) i.
Proof.
  intros HX. destruct (count_from_spec has (size X) lo) as (H1 & H2 & H3 & H4). cbn zeta in *. set (n := count_from has (size X) lo) in *.
  assert (has n = false) as Hn.
  { destruct (decide (n = lo + size X)) as [E|]; [|apply H4; lia]. destruct (has n) eqn:En; [|done]. exfalso.
    assert (size (list_to_set (seq lo (S (size X))) : gset nat) <= size X) as Hs.
    { apply subseteq_size. intros j Hj. apply elem_of_list_to_set, elem_of_seq in Hj. apply HX.
      destruct (decide (j = n)) as [->|]; [done|]. apply H3. lia. }
    rewrite size_list_to_set in Hs by apply NoDup_seq. rewrite seq_length in Hs. lia. }
  unfold saved_id. split.
  - intros Hi. destruct (decide (i < lo)); [by left|]. right. intros j Hj. apply HX, H3. lia.
  - intros [?|Hi]; [lia|]. destruct (decide (i < n)); [done|]. assert (n ∈ X) as Hx by (apply Hi; lia). apply HX in Hx. congruence.
Qed.

(** ** Patterns *)
Section pats.
  Context {V : Type} (zero : V).
  Implicit Types q : pattern V.

  Lemma forallb_elem {A} (g : A -> bool) l : forallb g l = true <-> forall x, x ∈ l -> g x = true.
  Proof. rewrite forallb_forall. by setoid_rewrite elem_of_list_In. Qed.
  Lemma forallb_not {A} (g : A -> bool) l : forallb g l = false <-> exists x, x ∈ l /\ g x = false.
  Proof.
    induction l as [|y l IH]; cbn.
    - split; [done|]. intros (x & Hx & _). by apply elem_of_nil in Hx.
    - rewrite andb_false_iff, IH. split.
      + intros [H|(x & Hx & H)]; [exists y|exists x]; (split; [|done]); [left|by right].
      + intros (x & Hx & H). apply elem_of_cons in Hx as [->|Hx]; [by left|]. right. by exists x.
  Qed.
  Lemma unset_spec q : pat_is_unset q = false <-> pattern_set q.
  Proof.
    unfold pat_is_unset, pattern_set. rewrite andb_false_iff, !forallb_not.
    apply Morphisms_Prop.or_iff_morphism.
    - split.
      + intros (t & Ht & Hne). apply bool_decide_eq_false in Hne. apply elem_of_list_lookup in Ht as [c Hc]. by exists c, t.
      + intros (c & t & Ht & Hne). exists t. split; [by eapply elem_of_list_lookup_2|by apply bool_decide_eq_false].
    - split.
      + intros (row & Hr & H). apply forallb_not in H as (c & Hc & H). apply bool_decide_eq_false in H. destruct c as [v|]; [|done].
        apply elem_of_list_lookup in Hr as [r Hr], Hc as [i Hc]. exists r, i, v. unfold get2. rewrite Hr. cbn. by rewrite Hc.
      + intros (r & c & v & Hg). unfold get2 in Hg. destruct (pt_data q !! r) as [row|] eqn:Hr; cbn in Hg; [|done].
        exists row. split; [by eapply elem_of_list_lookup_2|]. apply forallb_not. exists (Some v). split; [by eapply elem_of_list_lookup_2|].
        by apply bool_decide_eq_false.
  Qed.

  Definition pat_made q : Prop := exists os, pat_run (pat_new zero max_pattern_len) os = Some q.
  Lemma made_shaped q : pat_made q -> shaped q.
  Proof. intros [os H]. eapply run_shaped; [apply new_shaped|exact H]. Qed.
  Lemma new_made : pat_made (pat_new zero max_pattern_len).
  Proof. by exists []. Qed.
  Lemma load_made q s : pat_made q -> pat_made s -> exists q', pat_from_repr q (pat_to_repr s) = Some q' /\ pat_made q' /\ same_pattern s q'.
  Proof.
    intros Hq Hs. destruct (repr_roundtrip s q (made_shaped _ Hs) (made_shaped _ Hq)) as (q' & E & H). exists q'. split; [done|]. split; [|done].
    destruct Hq as [os Hq]. exists (os ++ [PRepr (pat_to_repr s)]). unfold pat_run in *.
    rewrite foldm_app, Hq. cbn [mbind option_bind foldm pat_step]. destruct (Nat.eqb_spec (length (pr_types (pat_to_repr s))) max_cols) as [_|Hne]; [by rewrite E|].
    exfalso. apply Hne. cbn. rewrite fmap_length. apply sh_types, made_shaped, Hs.
  Qed.

  Lemma load_pats (l : list (option patrepr)) (ps : gmap nat (pattern V)) :
    (forall i q, ps !! i = Some q -> pat_made q) ->
    (forall i r, l !! i = Some (Some r) -> exists s, pat_made s /\ r = pat_to_repr s) ->
    exists ps', foldm (load_pattern zero) ps (imap pair l) = Some ps' /\
      (forall i q, ps' !! i = Some q -> pat_made q) /\
      (forall i s, pat_made s -> l !! i = Some (Some (pat_to_repr s)) -> exists q, ps' !! i = Some q /\ same_pattern s q) /\
      (forall i, (forall r, l !! i <> Some (Some r)) -> ps' !! i = ps !! i).
  Proof.
    intros Hps. induction l as [|o l IH] using rev_ind; intros Hl.
    { exists ps. split; [done|]. split; [done|]. split; done. }
    destruct IH as (ps1 & E1 & M1 & H1 & O1).
    { intros i r Hi. apply Hl with (i := i). apply lookup_app_l_Some. done. }
    rewrite imap_app, foldm_app, E1. cbn [mbind option_bind imap foldm compose]. rewrite Nat.add_0_r.
    unfold load_pattern at 1. cbn [fst snd]. destruct o as [r|]; cbn [mbind option_bind].
    - destruct (Hl (length l) r) as (s & Hs & ->); [by rewrite lookup_app_r, Nat.sub_diag by lia|].
      destruct (load_made (default (pat_new zero max_pattern_len) (ps1 !! length l)) s) as (q' & E & Hm & Hsame); [|done|].
      { destruct (ps1 !! length l) as [q|] eqn:Eq; [by eapply M1|]. apply new_made. }
      rewrite E. cbn [mbind option_bind]. eexists. split; [done|]. split; [|split].
      + intros i q. rewrite lookup_insert_Some. intros [[_ <-]|[_ Hi]]; [done|by eapply M1].
      + intros i s' Hs' Hi. apply lookup_app_Some in Hi as [Hi|[Hlen Hi]].
        * rewrite lookup_insert_ne by (apply lookup_lt_Some in Hi; lia). by apply H1.
        * apply list_lookup_singleton_Some in Hi as [Hi0 Hi]. assert (i = length l) as -> by lia. rewrite lookup_insert. exists q'. split; [done|].
          destruct (load_made (default (pat_new zero max_pattern_len) (ps1 !! length l)) s') as (q'' & E' & _ & Hsame'); [|done|].
          { destruct (ps1 !! length l) as [q|] eqn:Eq; [by eapply M1|]. apply new_made. }
          apply (inj Some) in Hi. rewrite Hi in E. rewrite E in E'. by injection E' as ->.
      + intros i Hi. destruct (decide (i = length l)) as [->|Hne].
        { exfalso. eapply Hi. rewrite lookup_app_r, Nat.sub_diag by lia. done. }
        rewrite lookup_insert_ne by done. apply O1. intros r Hr. apply (Hi r). by apply lookup_app_l_Some.
    - eexists. split; [done|]. split; [done|]. split.
      + intros i s' Hs' Hi. apply lookup_app_Some in Hi as [Hi|[Hlen Hi]]; [by apply H1|].
        by apply list_lookup_singleton_Some in Hi as [_ Hi].
      + intros i Hi. apply O1. intros r Hr. apply (Hi r). by apply lookup_app_l_Some.
  Qed.
End pats.

(** ** Block functions *)
Section funs.
  Context (types : string -> option btype) (Ht : types_ok types).

  Definition blank (f : bfun) : Prop := forall i a, f_areas f !! i = Some a -> a_blocks a = ∅.
  Lemma blank_ref f i a x y : blank f -> f_areas f !! i = Some a -> ref_at a x y = None.
  Proof.
    intros Hb Ha. unfold ref_at. destruct (a_origin a !! (x, y)); cbn [mbind option_bind]; [|done].
    by rewrite (Hb _ _ Ha), lookup_empty.
  Qed.
  Lemma blank_remove f i a x y : blank f -> f_areas f !! i = Some a -> area_remove_at a x y = None.
  Proof.
    intros Hb Ha. unfold area_remove_at. destruct (a_origin a !! (x, y)); cbn [mbind option_bind]; [|done].
    by rewrite (Hb _ _ Ha), lookup_empty.
  Qed.
  Lemma blank_chain f i a x y : blank f -> f_areas f !! i = Some a -> chain_at a x y = Some None.
  Proof. intros Hb Ha. unfold chain_at. by erewrite blank_ref. Qed.
  Lemma recalc_blank fuel f f' : recalculate fuel f = Some f' -> blank f -> blank f'.
  Proof.
    intros E Hb i a Ha. apply recalc_ok in E as (E & _). destruct (same_lookup _ _ E _ _ Ha) as (a0 & H0 & -> & _). by eapply Hb.
  Qed.

  Lemma step_gen fuel f o f' sn' e : bf_step types fuel (f, []) o = Some (f', sn', e) -> f_gen f <= f_gen f'.
  Proof.
    destruct o; cbn [bf_step].
    - destruct (bf_instanciate _ _ _ _ _ _ _) as [f1 e1] eqn:E. intros [= <- _ _]. revert E. unfold bf_instanciate.
      destruct (f_areas f !! id); [|by intros [= <- _]]. destruct (types typ); [|by intros [= <- _]]. destruct (negb _); [by intros [= <- _]|].
      destruct (create_areas_eq (BFun (f_areas f) (S (f_next f)) (f_gen f)) (instanciate_block b inp (S (f_next f)))) as (k & c & -> & _).
      case_match; intros [= <- _]; cbn; lia.
    - destruct (bf_remove _ _ _ _) as [f1 e1] eqn:E. intros [= <- _ _]. revert E. unfold bf_remove.
      destruct (f_areas f !! id); [|by intros [= <- _]]. destruct (area_remove_at _ _ _) as [[? ?]|]; intros [= <- _]; cbn; lia.
    - intros H. apply bind_Some in H as ([f1 e1] & E & [= <- _ _]). revert E. unfold bf_move.
      intros H. apply bind_Some in H as (circ & _ & H). destruct circ; [by injection H as <- _|].
      destruct (f_areas f !! id); [|by injection H as <- _]. destruct (area_remove_at _ _ _) as [[? [b o]]|]; [|by injection H as <- _].
      cbn zeta in H. destruct (f_areas (f_with_area f id a0) !! id2); [|by injection H as <- _]. destruct (space_at _ _ _ _); injection H as <- _; [cbn; lia|].
      case_match; cbn; lia.
    - destruct (bf_clone _ _ _ _ _ _ _ _) as [f1 e1] eqn:E. intros [= <- _ _]. revert E. unfold bf_clone.
      destruct (f_areas f !! id); [|by intros [= <- _]]. destruct (ref_at _ _ _) as [[b o]|]; [|by intros [= <- _]].
      match goal with |- context [create_areas ?g ?c] => destruct (create_areas_eq g c) as (k & c' & -> & _) end.
      destruct (_ !! id2); [|intros [= <- _]; cbn; lia]. destruct (space_at _ _ _ _); intros [= <- _]; cbn; lia.
    - intros H. apply bind_Some in H as (f1 & E & [= <- _ _]). revert E. unfold bf_shift. case_match; [|by intros [= <-]].
      destruct p as [a [b o]]. intros H'. apply bind_Some in H' as (b' & _ & [= <-]). cbn. lia.
    - intros H. apply bind_Some in H as ([f1 l] & E & [= <- _ _]). revert E. unfold bf_retrieve.
      destruct (f_areas f !! id); [|by intros [= <- _]]. intros H. apply bind_Some in H as (oc & _ & H). destruct oc; [|by injection H as <- _].
      destruct remove; [destruct (remove_load _ _)|destruct (clone_load _ _ _)]; injection H as <- _; cbn; lia.
    - intros H. apply bind_Some in H as ([f1 l] & E & [= <- _ _]). revert E. unfold bf_split.
      destruct (f_areas f !! id); [|by intros [= <- _]]. intros H. apply bind_Some in H as (oc & _ & H). destruct oc; [|by injection H as <- _].
      destruct (remove_load _ _) as [a' l']. case_match; [|by injection H as <- _]. destruct (split_load _ _ _ _ _) as [n l2].
      destruct (has_space _ _ _ _); injection H as <- _; cbn; lia.
    - intros H. apply bind_Some in H as ([f1 l] & E & [= <- _ _]). revert E. unfold bf_move_chain.
      destruct (f_areas f !! id); [|by intros [= <- _]]. intros H. apply bind_Some in H as (oc & _ & H). destruct oc; [|by injection H as <- _].
      destruct (remove_load _ _) as [a' l']. cbn zeta in H. destruct (id2 =? id).
      + destruct (try_fit _ _ _); injection H as <- _; cbn; lia.
      + apply bind_Some in H as (circ & _ & H). destruct circ; [injection H as <- _; cbn; lia|].
        destruct (load_normalize l') as [l2 o]. destruct (f_areas (f_bump f) !! id2); [|injection H as <- _; cbn; lia].
        destruct (try_fit _ _ _); injection H as <- _; cbn; lia.
    - intros H. apply bind_Some in H as (f1 & E & [= <- _ _]). apply recalc_ok in E as (_ & _ & ->). done.
    - by intros [= <- _ _].
    - by intros [= <- _ _].
  Qed.

  Lemma step_blank fuel f o f' sn' e : bf_step types fuel (f, []) o = Some (f', sn', e) -> blank f -> f_gen f' = 0 -> blank f'.
  Proof.
    intros H Hb Hg. destruct o; cbn [bf_step] in H.
    - destruct (bf_instanciate _ _ _ _ _ _ _) as [f1 e1] eqn:E. injection H as <- _ _.
      apply inst_cases in E as [[-> _]|(a & ty & k & b & _ & _ & _ & _ & _ & _ & _ & ->)]; done.
    - destruct (bf_remove _ _ _ _) as [f1 e1] eqn:E. injection H as <- _ _. revert E. unfold bf_remove.
      destruct (f_areas f !! id) eqn:Ea; [|by intros [= <- _]]. erewrite blank_remove by done. by intros [= <- _].
    - apply bind_Some in H as ([f1 e1] & E & [= <- _ _]). revert E. unfold bf_move.
      intros H. apply bind_Some in H as (circ & _ & H). destruct circ; [by injection H as <- _|].
      destruct (f_areas f !! id) eqn:Ea; [|by injection H as <- _]. erewrite blank_remove in H by done. by injection H as <- _.
    - destruct (bf_clone _ _ _ _ _ _ _ _) as [f1 e1] eqn:E. injection H as <- _ _. revert E. unfold bf_clone.
      destruct (f_areas f !! id) eqn:Ea; [|by intros [= <- _]]. erewrite blank_ref by done. by intros [= <- _].
    - apply bind_Some in H as (f1 & E & [= <- _ _]). revert E. unfold bf_shift.
      destruct (f_areas f !! id) eqn:Ea; cbn [mbind option_bind]; [|by intros [= <-]]. erewrite blank_ref by done. by intros [= <-].
    - apply bind_Some in H as ([f1 l] & E & [= <- _ _]). revert E. unfold bf_retrieve.
      destruct (f_areas f !! id) eqn:Ea; [|by intros [= <- _]]. erewrite blank_chain by done. by intros [= <- _].
    - apply bind_Some in H as ([f1 l] & E & [= <- _ _]). revert E. unfold bf_split.
      destruct (f_areas f !! id) eqn:Ea; [|by intros [= <- _]]. erewrite blank_chain by done. by intros [= <- _].
    - apply bind_Some in H as ([f1 l] & E & [= <- _ _]). revert E. unfold bf_move_chain.
      destruct (f_areas f !! id) eqn:Ea; [|by intros [= <- _]]. erewrite blank_chain by done. by intros [= <- _].
    - apply bind_Some in H as (f1 & E & [= <- _ _]). by eapply recalc_blank.
    - by injection H as <- _ _.
    - by injection H as <- _ _.
  Qed.

  Lemma made_inv f : made types f -> inv f /\ (f_gen f = 0 -> blank f).
  Proof.
    induction 1 as [|f o fuel f' sn e Hf [IH1 IH2] Hp Hs|f g fuel f' Hf [IH1 IH2] Hg [IHg _] Hl].
    - split; [apply new_inv|]. intros _ i a Ha. apply list_lookup_singleton_Some in Ha as [_ <-]. done.
    - split.
      + eapply (step_inv types fuel Ht (f, [])) in Hs as [? _]; [done|done|constructor|done].
      + intros Hg. eapply step_blank; [exact Hs| |done]. apply IH2. apply step_gen in Hs. lia.
    - unfold bf_load in Hl. apply bind_Some in Hl as (f1 & E & [= <-]). apply recalc_ok in E as (E1 & E2 & E3). cbn [f_areas f_next f_gen bf_save sn_areas sn_id] in *.
      split; [|intros Hx; cbn in Hx; lia]. destruct IHg as (G1 & G2 & G3). split; [|split].
      + eapply same_fun_ok; [| |exact G1]; done.
      + by eapply same_tree.
      + cbn. by rewrite <- (Forall2_length _ _ _ E1).
  Qed.
  Lemma made_set f : made types f -> has_block f -> bf_is_unset f = false.
  Proof.
    intros Hf (i & o & b & Hb). apply made_inv in Hf as [_ Hf]. unfold bf_is_unset. apply Nat.eqb_neq. intros Hg.
    unfold bf_block_at in Hb. destruct (f_areas f !! i) as [a|] eqn:Ea; cbn in Hb; [|done]. rewrite (Hf Hg i a Ea), lookup_empty in Hb. done.
  Qed.

  Lemma load_funs (l : list (option bsnap)) (fs : gmap nat bfun) (es : gset nat) :
    (forall i f, fs !! i = Some f -> made types f /\ i ∈ es) ->
    (forall i s, l !! i = Some (Some s) -> exists g, made types g /\ s = bf_save g) ->
    exists n, forall fuel, n <= fuel -> exists fs' es', foldm (load_fun fuel) (fs, es) (imap pair l) = Some (fs', es') /\
      (forall i f, fs' !! i = Some f -> made types f /\ i ∈ es') /\
      (forall i g, l !! i = Some (Some (bf_save g)) -> exists f, fs' !! i = Some f /\ Forall2 same_blocks (f_areas g) (f_areas f) /\ f_next f = f_next g) /\
      (forall i, (forall s, l !! i <> Some (Some s)) -> fs' !! i = fs !! i).
  Proof.
    intros Hfs. induction l as [|o l IH] using rev_ind; intros Hl.
    { exists 0. intros fuel _. exists fs, es. split; [done|]. split; [done|]. split; done. }
    destruct IH as (n1 & IH).
    { intros i r Hi. apply Hl with (i := i). apply lookup_app_l_Some. done. }
    destruct o as [s|].
    - destruct (Hl (length l) s) as (g & Hg & ->); [by rewrite lookup_app_r, Nat.sub_diag by lia|].
      assert (exists n2, forall fuel gen, n2 <= fuel -> is_Some (recalculate fuel (BFun (f_areas g) (f_next g) gen))) as (n2 & Hn2).
      { apply made_inv in Hg as [(_ & G1 & G2) _]. destruct (recalculate_total g G1 G2) as [n Hn]. exists n. intros fuel gen Hle.
        specialize (Hn fuel Hle) as [f' Hf']. unfold recalculate in *. cbn [f_areas f_next f_gen]. apply bind_Some in Hf' as ([[? ?] ?] & -> & Hf').
        cbn [mbind option_bind]. apply bind_Some in Hf' as (? & -> & _). by eexists. }
      exists (Nat.max n1 n2). intros fuel Hle. destruct (IH fuel) as (fs1 & es1 & E1 & M1 & H1 & O1); [lia|].
      rewrite imap_app, foldm_app, E1. cbn [mbind option_bind imap foldm compose]. rewrite Nat.add_0_r.
      unfold load_fun at 1. cbn [fst snd]. set (f0 := default bfun_new (fs1 !! length l)).
      destruct (Hn2 fuel (f_gen f0)) as [f1 Ef1]; [lia|].
      assert (bf_load fuel f0 (bf_save g) = Some (f_bump f1)) as El by (unfold bf_load; cbn [bf_save sn_areas sn_id]; by rewrite Ef1).
      rewrite El. cbn [mbind option_bind]. eexists _, _. split; [done|].
      assert (made types f0) as Hf0.
      { unfold f0. destruct (fs1 !! length l) as [f|] eqn:Ef; [by eapply M1|apply made_new]. }
      apply recalc_ok in Ef1 as (R1 & R2 & _). cbn [f_areas f_next] in R1, R2. split; [|split].
      + intros i f. rewrite lookup_insert_Some. intros [[<- <-]|[_ Hi]].
        * split; [exact (made_load types f0 g fuel _ Hf0 Hg El)|set_solver].
        * apply M1 in Hi as [? ?]. split; [done|set_solver].
      + intros i g' Hi. apply lookup_app_Some in Hi as [Hi|[Hlen Hi]].
        * rewrite lookup_insert_ne by (apply lookup_lt_Some in Hi; lia). by apply H1.
        * apply list_lookup_singleton_Some in Hi as [Hi0 Hi]. assert (i = length l) as -> by lia. rewrite lookup_insert. eexists. split; [done|].
          injection Hi as Ea En. rewrite <- Ea, <- En. done.
      + intros i Hi. destruct (decide (i = length l)) as [->|Hne].
        { exfalso. eapply Hi. rewrite lookup_app_r, Nat.sub_diag by lia. done. }
        rewrite lookup_insert_ne by done. apply O1. intros r Hr. apply (Hi r). by apply lookup_app_l_Some.
    - exists n1. intros fuel Hle. destruct (IH fuel Hle) as (fs1 & es1 & E1 & M1 & H1 & O1).
      rewrite imap_app, foldm_app, E1. cbn [mbind option_bind imap foldm compose]. unfold load_fun at 1. cbn [fst snd mbind option_bind].
      eexists _, _. split; [done|]. split; [done|]. split.
      + intros i g' Hi. apply lookup_app_Some in Hi as [Hi|[Hlen Hi]]; [by apply H1|].
        by apply list_lookup_singleton_Some in Hi as [_ Hi].
      + intros i Hi. apply O1. intros r Hr. apply (Hi r). by apply lookup_app_l_Some.
  Qed.
End funs.
