(** Proofs about the serialised pattern, the column data sent to the backend and the history of updates *)
From Coq Require Import String Ascii.
From Verif Require Import Base M_Prog L_Conf M_Track S_Track L_Track.
Open Scope nat_scope.
Local Opaque max_pattern_len max_cols.

Lemma type_code_inv t : code_type (type_code t) = t.
Proof. by destruct t. Qed.

Lemma repr_cells {V} (p : pattern V) r c :
  get2 (pr_data (pat_to_repr p)) r c = (fun x : option Z => match x with Some v => v | None => (-1)%Z end) <$> get2 (pt_data p) r c.
Proof. unfold get2. cbn. rewrite list_lookup_fmap. destruct (pt_data p !! r); [|done]. cbn. by rewrite list_lookup_fmap. Qed.

Lemma repr_roundtrip {V} (p q : pattern V) : shaped p -> shaped q ->
  exists q', pat_from_repr q (pat_to_repr p) = Some q' /\
    pt_data q' = pt_data p /\ pt_types q' = pt_types p /\ pt_rows q' = pt_rows p /\ pt_step q' = pt_step p /\ pt_cursor q' = pt_cursor p.
Proof.
  intros S Sq. unfold pat_from_repr.
  destruct (set_types_spec (pr_types (pat_to_repr p)) 0 _ (pt_dirty q) (sh_types _ Sq)) as (ts & d & E & Lt & Ld & G & _ & _).
  { cbn. rewrite fmap_length, (sh_types _ S). lia. }
  rewrite E. cbn [mbind option_bind].
  destruct (set_rows_data_spec (pr_data (pat_to_repr p)) 0 _ (sh_data _ Sq)) as (data & E2 & Sd & Gd).
  { cbn. rewrite fmap_length. destruct (sh_data _ S). lia. }
  { cbn. apply Forall_fmap. destruct (sh_data _ S) as [_ H]. eapply Forall_impl; [exact H|]. intros row Hrow. cbn in Hrow |- *. rewrite fmap_length. lia. }
  rewrite E2. cbn [mbind option_bind]. eexists. split; [done|]. cbn. split_and!; try done.
  - eapply shape2_ext; [exact Sd|exact (sh_data _ S)|]. intros r c Hr Hc. rewrite Gd. rewrite decide_True by lia.
    rewrite Nat.sub_0_r, repr_cells. destruct (get2_some _ _ _ r c (sh_data _ S) Hr Hc) as [x Hx]. rewrite Hx. cbn. f_equal.
    destruct x as [v|]; [|done]. pose proof (sh_cells _ S _ _ _ Hx). unfold cell_of. destruct (Z.ltb_spec v 0); [lia|].
    by rewrite Z.mod_small by lia.
  - apply list_eq. intros i. destruct (pt_types p !! i) as [t|] eqn:Et.
    + replace i with (0 + i) by lia. rewrite (G i (type_code t)).
      * by rewrite type_code_inv.
      * cbn. by rewrite list_lookup_fmap, Et.
    + apply lookup_ge_None in Et. apply lookup_ge_None. rewrite Lt. rewrite (sh_types _ S) in Et. lia.
Qed.

Section out.
  Context {V : Type} (zero : V) (val note gate : Z -> V) (lerp : V -> V -> nat -> nat -> V).
  Local Notation anchor := (anchor zero val).
  Local Notation vloop := (value_loop zero val lerp).

  (** *** Held and gate columns *)
  Definition given_before (f : nat -> option Z) (r : nat) (x : option Z) : Prop :=
    match x with
    | Some v => exists r0, r0 < r /\ f r0 = Some v /\ forall i, r0 < i < r -> f i = None
    | None => forall i, i < r -> f i = None
    end.
  Lemma given_before_last f r x : last_given f r x <-> given_before f (S r) x.
  Proof.
    destruct x; cbn; [|split; intros H i Hi; apply H; lia].
    split; intros (r0 & ? & ? & H); exists r0; (split_and!; [lia|done|]); intros i Hi; apply H; lia.
  Qed.
  Lemma given_before_step f r x : given_before f (S r) x -> match f r with Some v => x = Some v | None => given_before f r x end.
  Proof.
    intros H. destruct (f r) as [v|] eqn:E.
    - destruct x as [w|]; cbn in H.
      + destruct H as (r0 & ? & E0 & H). destruct (decide (r0 = r)) as [->|]; [congruence|].
        rewrite H in E by lia. done.
      + rewrite H in E by lia. done.
    - destruct x as [w|]; cbn in *.
      + destruct H as (r0 & ? & E0 & H). exists r0. assert (r0 <> r) by (intros ->; congruence).
        split_and!; [lia|done|]. intros i Hi. apply H. lia.
      + intros i Hi. apply H. lia.
  Qed.

  Lemma hold_loop_spec conv cells f n : forall cur r,
    (forall i, r <= i < r + n -> cells i = Some (f i)) ->
    (forall x, given_before f r x -> cur = match x with Some v => conv v | None => zero end) ->
    exists out, hold_loop conv cells cur r n = Some out /\ length out = n /\
      forall k x, k < n -> last_given f (r + k) x ->
        out !! k = Some (match x with Some v => conv v | None => zero end, if f (r + k) then 1 else 0).
  Proof.
    induction n as [|n IH]; intros cur r Hc Hcur; cbn [hold_loop].
    - exists []. split_and!; try done. intros; lia.
    - rewrite (Hc r) by lia. cbn [mbind option_bind].
      assert (exists cur' g, match f r with Some v => (conv v, 1) | None => (cur, 0) end = (cur', g) /\ g = (if f r then 1 else 0) /\
        forall x, given_before f (S r) x -> cur' = match x with Some v => conv v | None => zero end) as (cur' & g & -> & Hg & Hcur').
      { destruct (f r) as [v|] eqn:E; eexists _, _; (split; [done|split; [done|]]); intros x Hx; apply given_before_step in Hx; rewrite E in Hx.
        - by rewrite Hx.
        - by apply Hcur. }
      destruct (IH cur' (S r)) as (out & E & L & G); [intros; apply Hc; lia|done|].
      rewrite E. cbn [mbind option_bind]. eexists. split; [done|]. split; [cbn; lia|].
      intros [|k] x Hk Hx.
      + rewrite Nat.add_0_r in *. cbn. apply given_before_last in Hx. rewrite (Hcur' _ Hx), Hg. done.
      + cbn. rewrite <- Nat.add_succ_comm in *. apply G; [lia|done].
  Qed.

  Lemma gate_loop_spec cells f n : forall r,
    (forall i, r <= i < r + n -> cells i = Some (f i)) ->
    exists out, gate_loop gate cells r n = Some out /\ length out = n /\
      forall k, k < n -> out !! k = Some (match f (r + k) with Some v => (gate v, 1) | None => (gate 61440%Z, 0) end).
  Proof.
    induction n as [|n IH]; intros r Hc; cbn [gate_loop].
    - exists []. split_and!; try done. intros; lia.
    - rewrite (Hc r) by lia. cbn [mbind option_bind]. destruct (IH (S r)) as (out & E & L & G); [intros; apply Hc; lia|].
      rewrite E. cbn [mbind option_bind]. eexists. split; [done|]. split; [cbn; lia|].
      intros [|k] Hk.
      + by rewrite Nat.add_0_r.
      + cbn. rewrite <- Nat.add_succ_comm in *. apply G; lia.
  Qed.

  (** *** Value columns *)
  Lemma fold_insert_lookup {A} (g : nat -> A) is : forall (l : list A) i,
    foldl (fun l idx => <[idx := g idx]> l) l is !! i = if decide (i ∈ is /\ i < length l) then Some (g i) else l !! i.
  Proof.
    induction is as [|j is IH]; intros l i; cbn [foldl].
    - rewrite decide_False; [done|]. intros [H _]. by apply elem_of_nil in H.
    - rewrite IH, insert_length. repeat case_decide; try done.
      + destruct H0. set_solver.
      + destruct H0 as [Hin Hl]. assert (i = j) as -> by set_solver. by apply list_lookup_insert.
      + destruct (decide (j = i)) as [->|]; [|by rewrite list_lookup_insert_ne].
        rewrite list_insert_ge; [done|]. apply not_and_l in H0 as [Hn|]; [set_solver|lia].
  Qed.
  Lemma interpolate_lookup out s e start end_ i :
    interpolate lerp out s e start end_ !! i =
      if decide (start < i < end_ /\ i < length out) then Some (lerp s e (i - start) (end_ - start), 0) else out !! i.
  Proof.
    unfold interpolate. rewrite (fold_insert_lookup (fun idx => (lerp s e (idx - start) (end_ - start), 0))).
    assert (i ∈ seq (start + 1) (end_ - (start + 1)) <-> start < i < end_) by (rewrite elem_of_seq; lia).
    repeat case_decide; try done; tauto.
  Qed.
  Lemma interpolate_length out s e start end_ : length (interpolate lerp out s e start end_) = length out.
  Proof.
    unfold interpolate. generalize (seq (start + 1) (end_ - (start + 1))). intros is. revert out.
    induction is; intros out; cbn; [done|]. rewrite IHis. by rewrite insert_length.
  Qed.

  Definition done_to (f : nat -> option Z) (rows : nat) (out : list (V * nat)) (e : nat) : Prop :=
    (forall r v, r < e -> anchor f rows r = Some v -> out !! r = Some (v, 0)) /\
    (forall a r b s t, a < r < b -> b <= e ->
       anchor f rows a = Some s -> anchor f rows b = Some t -> (forall i, a < i < b -> anchor f rows i = None) ->
       out !! r = Some (lerp s t (r - a) (b - a), 0)).

  Lemma segment f rows out sv ev start e :
    done_to f rows out start -> start <= e -> e < length out -> (start < e -> anchor f rows start = Some sv) ->
    anchor f rows e = Some ev -> (forall i, start < i < e -> anchor f rows i = None) ->
    exists out1 out2, put1 out start (sv, 0) = Some out1 /\ put1 out1 e (ev, 1) = Some out2 /\
      let out' := if 1 <? e - start then interpolate lerp out2 sv ev start e else out2 in
      length out' = length out /\ done_to f rows out' e /\ out' !! e = Some (ev, 1).
  Proof.
    intros [D1 D2] Hse Hel As Ae Hn. unfold put1. destruct (Nat.ltb_spec start (length out)); [|lia].
    eexists _, _. split; [done|]. rewrite insert_length. destruct (Nat.ltb_spec e (length out)); [|lia]. split; [done|].
    match goal with |- context [if 1 <? _ then interpolate _ ?o _ _ _ _ else _] => set (out2 := o) end.
    assert (length out2 = length out) as L2 by (unfold out2; by rewrite !insert_length).
    assert (forall i, (if 1 <? e - start then interpolate lerp out2 sv ev start e else out2) !! i =
      if decide (start < i < e) then Some (lerp sv ev (i - start) (e - start), 0)
      else if decide (i = e) then Some (ev, 1) else if decide (i = start) then Some (sv, 0) else out !! i) as G.
    { assert (forall i, out2 !! i = if decide (i = e) then Some (ev, 1) else if decide (i = start) then Some (sv, 0) else out !! i) as G2.
      { intros i. unfold out2. case_decide; [subst i; apply list_lookup_insert; rewrite insert_length; lia|].
        rewrite list_lookup_insert_ne by lia. case_decide; [subst i; apply list_lookup_insert; lia|].
        by rewrite list_lookup_insert_ne by lia. }
      intros i. destruct (Nat.ltb_spec 1 (e - start)).
      - rewrite interpolate_lookup, L2, G2. repeat case_decide; try done; lia.
      - rewrite G2. repeat case_decide; try done; lia. }
    cbn zeta. split_and!.
    - destruct (1 <? e - start); [by rewrite interpolate_length|done].
    - split.
      + intros r v Hr Ar. rewrite G. repeat case_decide; try lia.
        * rewrite Hn in Ar by lia. done.
        * subst r. rewrite As in Ar by lia. by injection Ar as ->.
        * apply D1; [lia|done].
      + intros a r b s t Hr Hb Aa Ab HN. rewrite G. destruct (decide (start < r)) as [Hsr|Hsr].
        * (* the last segment *)
          assert (b = e) as ->.
          { destruct (decide (b = e)); [done|]. rewrite Hn in Ab by lia. done. }
          assert (a = start) as ->.
          { destruct (decide (a = start)); [done|]. destruct (decide (start < a)).
            - rewrite Hn in Aa by lia. done.
            - rewrite HN in As by lia. discriminate As. lia. }
          rewrite decide_True by lia. rewrite As in Aa by lia. congruence.
        * rewrite decide_False by lia. rewrite decide_False by lia.
          destruct (decide (r = start)) as [->|].
          { rewrite HN in As by lia. discriminate As. lia. }
          destruct (decide (b <= start)); [by eapply D2|].
          rewrite HN in As by lia. discriminate As. lia.
    - rewrite G. rewrite decide_False by lia. by rewrite decide_True.
  Qed.

  Lemma value_loop_spec f cells rows : forall fuel sv start end_ out,
    0 < rows -> rows <= length out -> (forall i, i < length out -> cells i = Some (f i)) ->
    start <= end_ -> end_ <= rows -> done_to f rows out start ->
    (start < end_ -> anchor f rows start = Some sv) -> (start = end_ -> start = 0 /\ sv = zero) ->
    (forall i, start < i < end_ -> f i = None) -> rows - end_ < fuel ->
    exists out', vloop fuel cells rows sv start end_ out = Some out' /\ length out' = length out /\
      plays_values zero val lerp f rows out'.
  Proof.
    induction fuel as [|fuel IH]; intros sv start end_ out Hr Hlen Hc Hse He D As H0 Hn Hf; [lia|]. cbn [value_loop].
    destruct (Nat.ltb_spec (length out) end_); [lia|]. destruct (Nat.eqb_spec end_ rows) as [->|Hne].
    - rewrite (Hc (rows - 1)) by lia. cbn [mbind option_bind].
      assert (anchor f rows (rows - 1) = Some (default zero (val <$> f (rows - 1)))) as Ae.
      { unfold S_Track.anchor. destruct (f (rows - 1)); [done|]. replace (rows - 1 + 1) with rows by lia. rewrite Nat.eqb_refl, orb_true_r. done. }
      destruct (segment f rows out sv (default zero (val <$> f (rows - 1))) start (rows - 1)) as (o1 & o2 & -> & E2 & P); try done; try lia.
      { intros ?. apply As. lia. }
      { intros i Hi. unfold S_Track.anchor. rewrite Hn by lia. destruct (Nat.eqb_spec i 0), (Nat.eqb_spec (i + 1) rows); try lia. done. }
      cbn [mbind option_bind]. rewrite E2. cbn [mbind option_bind].
      destruct P as (L & [P1 P2] & P3). eexists. split; [done|]. split; [done|]. split.
      + intros r v Hrr Ar. destruct (Nat.eqb_spec (r + 1) rows) as [|].
        * assert (r = rows - 1) as -> by lia. rewrite P3. congruence.
        * apply P1; [lia|done].
      + intros a r b s e ? ? ? ? ?. apply P2; try done. lia.
    - rewrite (Hc end_) by lia. cbn [mbind option_bind]. destruct (f end_) as [v|] eqn:Ef; cbn [fmap option_fmap option_map].
      + assert (anchor f rows end_ = Some (val v)) as Ae by (unfold S_Track.anchor; by rewrite Ef).
        destruct (segment f rows out sv (val v) start end_) as (o1 & o2 & -> & E2 & P); try done; try lia.
        { intros i Hi. unfold S_Track.anchor. rewrite Hn by lia. destruct (Nat.eqb_spec i 0), (Nat.eqb_spec (i + 1) rows); try lia. done. }
        cbn [mbind option_bind]. rewrite E2. cbn [mbind option_bind]. destruct P as (L & P & P3).
        destruct (IH (val v) end_ (end_ + 1) (if 1 <? end_ - start then interpolate lerp o2 sv (val v) start end_ else o2))
          as (out' & E' & L' & Q); try done; try lia.
        { rewrite L. done. }
        exists out'. split_and!; [done|lia|done].
      + destruct (IH sv start (end_ + 1) out) as (out' & E' & L' & Q); try done; try lia.
        { intros ?. destruct (decide (start = end_)) as [->|]; [|apply As; lia].
          destruct (H0 eq_refl) as [-> ->]. unfold S_Track.anchor. by rewrite Ef. }
        { intros i Hi. destruct (decide (i = end_)) as [->|]; [done|]. apply Hn. lia. }
        eauto.
  Qed.

  Lemma value_loop_long cells rows : forall fuel sv start end_ out,
    length out < rows -> end_ <= length out -> cells (length out) = None -> vloop fuel cells rows sv start end_ out = None.
  Proof.
    induction fuel as [|fuel IH]; intros sv start end_ out Hr He Hc; [done|]. cbn [value_loop].
    destruct (Nat.ltb_spec (length out) end_); [lia|]. destruct (Nat.eqb_spec end_ rows) as [->|Hne]; [lia|].
    destruct (decide (end_ = length out)) as [->|]; [by rewrite Hc|].
    destruct (cells end_) as [c|]; [|done]. cbn [mbind option_bind]. destruct c as [v|]; cbn [fmap option_fmap option_map].
    - unfold put1. destruct (start <? length out); [|done]. cbn [mbind option_bind]. rewrite insert_length.
      destruct (end_ <? length out); [|done]. cbn [mbind option_bind].
      assert (length (if 1 <? end_ - start then interpolate lerp (<[end_ := (val v, 1)]> (<[start := (sv, 0)]> out)) sv (val v) start end_
        else <[end_ := (val v, 1)]> (<[start := (sv, 0)]> out)) = length out) as L.
      { destruct (1 <? end_ - start); rewrite ?interpolate_length, !insert_length; done. }
      apply IH; rewrite L; done || lia.
    - apply IH; done || lia.
  Qed.

  Local Notation sync := (pat_sync zero val note gate lerp).
  Local Notation plays := (column_plays zero val note gate lerp).

  Lemma column_get2 (p : pattern V) r c : shaped p -> r < max_pattern_len -> c < max_cols -> get2 (pt_data p) r c = Some (column p c r).
  Proof. intros S Hr Hc. destruct (get2_some _ _ _ r c (sh_data _ S) Hr Hc) as [x Hx]. unfold column. by rewrite Hx. Qed.

  Lemma sync_spec p c p' : shaped p -> c < max_cols -> sync p c = Some p' ->
    shaped p' /\ pt_types p' = pt_types p /\ pt_data p' = pt_data p /\ pt_rows p' = pt_rows p /\ pt_dirty p' = pt_dirty p /\
    exists out t, pt_out p' !! c = Some out /\ length out = max_pattern_len /\ pt_types p !! c = Some t /\
      (0 < pt_rows p -> plays t (column p c) (pt_rows p) out).
  Proof.
    intros S Hc H. unfold pat_sync in H. destruct (sh_out _ S) as [Lo Fo].
    destruct (lookup_lt_is_Some_2 (pt_types p) c) as [t Ht]; [rewrite (sh_types _ S); lia|].
    destruct (pt_out p !! c) as [out|] eqn:Eo; [|done]. cbn [mbind option_bind] in H.
    pose proof (proj1 (Forall_lookup _ _) Fo _ _ Eo) as L. cbn in L.
    destruct (Nat.eqb_spec (pt_rows p) 0) as [E0|Hn0].
    { injection H as <-. split_and!; try done. exists out, t. split_and!; try done. lia. }
    rewrite Ht in H. cbn [mbind option_bind] in H.
    apply bind_Some in H as (o & Es & H). injection H as <-. cbn.
    assert (length o = max_pattern_len /\ plays t (column p c) (pt_rows p) o) as [Lo' P].
    { destruct t; cbn [column_plays].
      - destruct (hold_loop_spec note (fun r => get2 (pt_data p) r c) (column p c) (length out) zero 0) as (o2 & E2 & L2 & G).
        { intros i Hi. apply column_get2; [done|lia|done]. }
        { intros [v|]; cbn; [|done]. intros (r0 & ? & _). lia. }
        rewrite Es in E2. injection E2 as <-. split; [lia|]. intros r x Hr Hx. by apply (G r x); [lia|].
      - destruct (hold_loop_spec val (fun r => get2 (pt_data p) r c) (column p c) (length out) zero 0) as (o2 & E2 & L2 & G).
        { intros i Hi. apply column_get2; [done|lia|done]. }
        { intros [v|]; cbn; [|done]. intros (r0 & ? & _). lia. }
        rewrite Es in E2. injection E2 as <-. split; [lia|]. intros r x Hr Hx. by apply (G r x); [lia|].
      - destruct (decide (pt_rows p <= length out)) as [Hle|Hgt].
        + destruct (value_loop_spec (column p c) (fun r => get2 (pt_data p) r c) (pt_rows p) (length out + 2) zero 0 0 out)
            as (o2 & E2 & L2 & G); try done; try lia.
          { intros i Hi. apply column_get2; [done|lia|done]. }
          { split; intros; lia. }
          rewrite Es in E2. injection E2 as <-. split; [lia|done].
        + rewrite value_loop_long in Es; [done|lia|lia|]. unfold get2. rewrite lookup_ge_None_2; [done|]. destruct (sh_data _ S). lia.
      - destruct (gate_loop_spec (fun r => get2 (pt_data p) r c) (column p c) (length out) 0) as (o2 & E2 & L2 & G).
        { intros i Hi. apply column_get2; [done|lia|done]. }
        rewrite Es in E2. injection E2 as <-. split; [lia|]. intros r Hr. by apply (G r); lia. }
    split_and!; try done.
    - destruct S. constructor; cbn; try done. split; [by rewrite insert_length|]. by apply Forall_insert.
    - exists o, t. split_and!; try done. apply list_lookup_insert. lia.
  Qed.

  Lemma plays_ext t f g rows out : (forall r, f r = g r) -> plays t f rows out -> plays t g rows out.
  Proof.
    intros E. assert (forall r, anchor f rows r = anchor g rows r) as EA by (intros r; unfold S_Track.anchor; by rewrite E).
    assert (forall r x, last_given g r x -> last_given f r x) as EL.
    { intros r [v|]; cbn.
      - intros (r0 & ? & ? & H). exists r0. rewrite E. split_and!; try done. intros i Hi. rewrite E. by apply H.
      - intros H i Hi. rewrite E. by apply H. }
    destruct t; cbn [column_plays].
    1,2: intros P r x Hr Hx; rewrite <- (E r); by apply P, EL.
    - intros [P1 P2]. split.
      + intros r v Hr. rewrite <- EA. by apply P1.
      + intros a r b s e Hr Hb. rewrite <- !EA. intros ? ? Hn. apply P2; try done. intros i Hi. rewrite EA. by apply Hn.
    - intros P r Hr. rewrite <- E. by apply P.
  Qed.

  (** *** The history of updates *)
  Definition pend_col (q : list patmsg) (b : backend) (c : nat) : option (coltype * list (V * nat)) :=
    foldl (fun acc m => if pm_col m =? c then Some (pm_type m, pm_data m) else acc)
      (let* t := bk_types b !! c in let* d := bk_data b !! c in Some (t, d)) q.
  Definition pend_len (q : list (@patmsg V)) (b : @backend V) : nat := foldl (fun _ m => pm_len m) (bk_rows b) q.

  Record tinv (t : tracker) (sent : list nat) : Prop := {
    ti_shaped : shaped (tr_pat t);
    ti_sent : length sent = max_cols;
    ti_queue : Forall (fun m => pm_col m < max_cols /\ length (pm_data m) = max_pattern_len) (tr_queue t);
    ti_back : shape2 max_cols max_pattern_len (bk_data (tr_back t)) /\ length (bk_types (tr_back t)) = max_cols;
    ti_cols : forall c, c < max_cols -> pt_dirty (tr_pat t) !! c = Some false ->
      exists ty d R, pend_col (tr_queue t) (tr_back t) c = Some (ty, d) /\ pt_types (tr_pat t) !! c = Some ty /\
        sent !! c = Some R /\ (0 < R -> plays ty (column (tr_pat t) c) R d);
    ti_len : pend_len (tr_queue t) (tr_back t) = pt_rows (tr_pat t) \/ exists c, pt_dirty (tr_pat t) !! c = Some true;
  }.

  Lemma first_dirty_some d : forall i c, first_dirty d i = Some c -> exists k, c = i + k /\ d !! k = Some true.
  Proof.
    induction d as [|b d IH]; intros i c H; [done|]. cbn in H. destruct b.
    - injection H as <-. exists 0. split; [lia|done].
    - destruct (IH _ _ H) as (k & -> & Hk). exists (S k). split; [lia|done].
  Qed.
  Lemma first_dirty_none d : forall i, first_dirty d i = None -> forall k, d !! k <> Some true.
  Proof.
    induction d as [|b d IH]; intros i H k; [done|]. cbn in H. destruct b; [done|].
    destruct k; [done|]. cbn. by eapply IH.
  Qed.
  Lemma copy_onto_same {A} (dst src : list A) : length dst = length src -> copy_onto dst src = src.
  Proof. revert src. induction dst as [|x dst IH]; intros [|y src]; cbn; try done. intros [= H]. by rewrite IH. Qed.

  Lemma history_tinv t sent : history zero val note gate lerp t sent -> tinv t sent.
  Proof.
    induction 1 as [|t sent o t' Hh IH Hs|t sent t' col Hh IH Hq Hs Hd Hd'|t sent t' Hh IH Hs].
    - constructor; cbn.
      + apply new_shaped.
      + by rewrite replicate_length.
      + constructor.
      + split; [apply shape2_replicate|by rewrite replicate_length].
      + intros c Hc H. by apply lookup_replicate in H as [? _].
      + by left.
    - cbn [track_step] in Hs. destruct (pat_step (tr_pat t) o) as [p|] eqn:E; [|done]. injection Hs as <-.
      destruct IH. destruct (step_shaped _ _ _ ti_shaped0 E) as (S' & Eo & Dt & Df & Er). constructor; cbn; try done.
      + intros c Hc H. destruct (Df c Hc H) as [Ec Et].
        assert (pt_dirty (tr_pat t) !! c = Some false) as Hf.
        { destruct (lookup_lt_is_Some_2 (pt_dirty (tr_pat t)) c) as [b Hb]; [rewrite (sh_dirty _ ti_shaped0); lia|].
          destruct b; [|done]. rewrite (Dt _ Hb) in H. done. }
        destruct (ti_cols0 c Hc Hf) as (ty & d & R & ? & ? & ? & P). exists ty, d, R. split_and!; try done; [congruence|].
        intros HR. eapply plays_ext; [|by apply P]. intros r. by rewrite Ec.
      + destruct Er as [->|]; [|eauto]. destruct ti_len0 as [|(c & Hc)]; [by left|right; eauto].
    - destruct IH. unfold tracker_send in Hs.
      destruct (first_dirty (take max_cols (pt_dirty (tr_pat t))) 0) as [c|] eqn:Ef; [|done].
      destruct (first_dirty_some _ _ _ Ef) as (k & Ek & Hk). cbn in Ek. subst k.
      rewrite take_ge in Hk by (rewrite (sh_dirty _ ti_shaped0); lia). pose proof (lookup_lt_Some _ _ _ Hk) as Hc. rewrite (sh_dirty _ ti_shaped0) in Hc.
      match type of Hs with context [pat_sync _ _ _ _ _ ?q c] => set (p1 := q) in Hs end.
      assert (shaped p1) as S1. { destruct ti_shaped0. constructor; cbn; try done. by rewrite insert_length. }
      destruct (pat_sync zero val note gate lerp p1 c) as [p|] eqn:Es; [|done]. cbn [mbind option_bind] in Hs.
      destruct (sync_spec _ _ _ S1 Hc Es) as (S' & Et & Ed & Er & Edi & out & ty & Ho & Lo & Hty & P).
      destruct (Nat.ltb_spec (length (tr_queue t)) max_ringbuf_size); [|lia].
      rewrite Ho in Hs. cbn [mbind option_bind] in Hs. injection Hs as <-. cbn in *.
      assert (col = c) as ->.
      { destruct (decide (col = c)) as [|Hne]; [done|]. rewrite Edi in Hd'. cbn in Hd'. rewrite list_lookup_insert_ne in Hd' by done. congruence. }
      constructor; cbn; try done.
      + by rewrite insert_length.
      + apply Forall_app. split; [done|]. by apply Forall_singleton.
      + intros c' Hc' Hf. unfold pend_col. rewrite foldl_app. cbn. rewrite Et. cbn. destruct (Nat.eqb_spec c c') as [<-|Hne].
        * exists ty, out, (pt_rows (tr_pat t)). rewrite Hty. split_and!; try done.
          -- apply list_lookup_insert. lia.
          -- intros HR. unfold column. rewrite Ed. by apply P.
        * rewrite Edi in Hf. cbn in Hf. rewrite list_lookup_insert_ne in Hf by done.
          destruct (ti_cols0 c' Hc' Hf) as (ty' & d & R & ? & ? & ? & P'). exists ty', d, R. split_and!; try done.
          -- by rewrite list_lookup_insert_ne.
          -- unfold column. rewrite Ed. exact P'.
      + left. unfold pend_len. rewrite foldl_app. done.
    - destruct IH. cbn [track_step] in Hs. unfold tracker_recv in Hs.
      destruct (tr_queue t) as [|m q] eqn:Eq; [injection Hs as <-; constructor; rewrite ?Eq; done|].
      apply Forall_cons in ti_queue0 as [[Hm Lm] Hq]. destruct ti_back0 as [[Lb Fb] Lt].
      unfold put1 in Hs. rewrite Lt in Hs. destruct (Nat.ltb_spec (pm_col m) max_cols); [|lia]. cbn [mbind option_bind] in Hs.
      destruct (lookup_lt_is_Some_2 (bk_data (tr_back t)) (pm_col m)) as [old Eold]; [lia|].
      rewrite Eold in Hs. cbn [mbind option_bind] in Hs. injection Hs as <-.
      pose proof (proj1 (Forall_lookup _ _) Fb _ _ Eold) as Lold. cbn in Lold. rewrite copy_onto_same by lia.
      constructor; cbn; try done.
      + split; [split|].
        * by rewrite insert_length.
        * by apply Forall_insert.
        * by rewrite insert_length.
      + intros c Hc Hf. destruct (ti_cols0 c Hc Hf) as (ty & d & R & Hp & ? & ? & P). exists ty, d, R. split_and!; try done.
        rewrite <- Hp. unfold pend_col. cbn. f_equal. destruct (Nat.eqb_spec (pm_col m) c) as [<-|Hne].
        * rewrite !list_lookup_insert by lia. done.
        * by rewrite !list_lookup_insert_ne by done.
  Qed.
End out.
