(** Proofs about the pattern editor and the tracker *)
From Coq Require Import String Ascii.
From Verif Require Import Base M_Prog L_Conf M_Track S_Track.
Open Scope nat_scope.

Section grid2.
  Context {A : Type}.
  Definition shape2 (n m : nat) (l : list (list A)) : Prop := length l = n /\ Forall (fun row => length row = m) l.

  Lemma get2_some n m (l : list (list A)) r c : shape2 n m l -> r < n -> c < m -> exists x, get2 l r c = Some x.
  Proof.
    intros [Hl Hm] Hr Hc. destruct (lookup_lt_is_Some_2 l r) as [row Hrow]; [lia|].
    pose proof (proj1 (Forall_lookup _ _) Hm _ _ Hrow) as E. cbn in E.
    destruct (lookup_lt_is_Some_2 row c) as [x Hx]; [lia|]. exists x. unfold get2. by rewrite Hrow.
  Qed.
  Lemma get2_lt n m (l : list (list A)) r c x : shape2 n m l -> get2 l r c = Some x -> r < n /\ c < m.
  Proof.
    intros [Hl Hm] H. unfold get2 in H. destruct (l !! r) as [row|] eqn:E; [|done]. cbn in H.
    pose proof (lookup_lt_Some _ _ _ E). pose proof (proj1 (Forall_lookup _ _) Hm _ _ E) as E'. cbn in E'.
    apply lookup_lt_Some in H. lia.
  Qed.
  Lemma put2_spec n m (l : list (list A)) r c x : shape2 n m l -> r < n -> c < m ->
    exists l', put2 l r c x = Some l' /\ shape2 n m l' /\
      forall r' c', get2 l' r' c' = if decide (r' = r /\ c' = c) then Some x else get2 l r' c'.
  Proof.
    intros [Hl Hm] Hr Hc. destruct (lookup_lt_is_Some_2 l r) as [row Hrow]; [lia|].
    pose proof (proj1 (Forall_lookup _ _) Hm _ _ Hrow) as E. cbn in E.
    unfold put2. rewrite Hrow. cbn [mbind option_bind]. destruct (Nat.ltb_spec c (length row)); [|lia].
    eexists. split; [done|]. split.
    - split; [by rewrite insert_length|]. apply Forall_insert; [done|]. by rewrite insert_length.
    - intros r' c'. unfold get2. destruct (decide (r' = r)) as [->|Hne].
      + rewrite list_lookup_insert by lia. cbn [mbind option_bind]. rewrite Hrow. cbn [mbind option_bind].
        destruct (decide (c' = c)) as [->|Hn].
        * rewrite list_lookup_insert by lia. by rewrite decide_True.
        * rewrite list_lookup_insert_ne by done. rewrite decide_False by tauto. done.
      + rewrite list_lookup_insert_ne by done. rewrite decide_False by tauto. done.
  Qed.
  Lemma put2_inv n m (l l' : list (list A)) r c x : shape2 n m l -> put2 l r c x = Some l' ->
    r < n /\ c < m /\ shape2 n m l' /\
      forall r' c', get2 l' r' c' = if decide (r' = r /\ c' = c) then Some x else get2 l r' c'.
  Proof.
    intros Hs H. assert (r < n /\ c < m) as [Hr Hc].
    { pose proof Hs as [Hl Hm]. unfold put2 in H. destruct (l !! r) as [row|] eqn:E; [|done]. cbn [mbind option_bind] in H.
      pose proof (lookup_lt_Some _ _ _ E). pose proof (proj1 (Forall_lookup _ _) Hm _ _ E) as E'. cbn in E'.
      destruct (Nat.ltb_spec c (length row)); [|done]. lia. }
    destruct (put2_spec _ _ _ r c x Hs Hr Hc) as (l2 & E & ? & ?). rewrite H in E. injection E as <-. done.
  Qed.
  Lemma shape2_ext n m (l l' : list (list A)) : shape2 n m l -> shape2 n m l' ->
    (forall r c, r < n -> c < m -> get2 l r c = get2 l' r c) -> l = l'.
  Proof.
    intros [Hl Hm] [Hl' Hm'] H. apply list_eq. intros r. destruct (decide (r < n)) as [Hr|Hr].
    - destruct (lookup_lt_is_Some_2 l r) as [row E]; [lia|]. destruct (lookup_lt_is_Some_2 l' r) as [row' E']; [lia|].
      rewrite E, E'. f_equal.
      pose proof (proj1 (Forall_lookup _ _) Hm _ _ E) as L. pose proof (proj1 (Forall_lookup _ _) Hm' _ _ E') as L'. cbn in L, L'.
      apply list_eq. intros c. destruct (decide (c < m)) as [Hc|Hc].
      + specialize (H r c Hr Hc). unfold get2 in H. rewrite E, E' in H. exact H.
      + rewrite !lookup_ge_None_2 by lia. done.
    - rewrite !lookup_ge_None_2 by lia. done.
  Qed.
  Lemma shape2_replicate n m (x : A) : shape2 n m (replicate n (replicate m x)).
  Proof. split; [by rewrite replicate_length|]. apply Forall_replicate. by rewrite replicate_length. Qed.
  Lemma get2_replicate n m (x y : A) r c : get2 (replicate n (replicate m x)) r c = Some y -> y = x.
  Proof.
    unfold get2. intros H. destruct (replicate n (replicate m x) !! r) as [row|] eqn:E; [|done]. cbn in H.
    apply lookup_replicate in E as [-> _]. by apply lookup_replicate in H as [-> _].
  Qed.
End grid2.

Local Opaque max_pattern_len max_cols.
Lemma cols_pos : 0 < max_cols. Proof. vm_compute. lia. Qed.
Lemma len_pos : 0 < max_pattern_len. Proof. vm_compute. lia. Qed.

Section pat.
  Context {V : Type}.
  Implicit Types p q : pattern V.

  (** The dimensions of a pattern and the range of its cells *)
  Record shaped p : Prop := {
    sh_types : length (pt_types p) = max_cols;
    sh_data : shape2 max_pattern_len max_cols (pt_data p);
    sh_strings : shape2 max_pattern_len max_cols (pt_strings p);
    sh_dirty : length (pt_dirty p) = max_cols;
    sh_out : shape2 max_cols max_pattern_len (pt_out p);
    sh_cells : forall r c v, get2 (pt_data p) r c = Some (Some v) -> (0 <= v < 65536)%Z;
  }.

  Lemma row0 p : shaped p -> exists row, pt_data p !! 0 = Some row /\ length row = max_cols.
  Proof.
    intros S. destruct (sh_data _ S) as [Hl Hm]. pose proof len_pos.
    destruct (lookup_lt_is_Some_2 (pt_data p) 0) as [row E]; [lia|]. exists row. split; [done|].
    exact (proj1 (Forall_lookup _ _) Hm _ _ E).
  Qed.

  Lemma put_inside p r c x : shaped p -> r < max_pattern_len -> c < max_cols ->
    (forall v, x = Some v -> (0 <= v < 65536)%Z) ->
    exists p', pat_put p r c x = Some p' /\ shaped p' /\
      (forall r' c', get2 (pt_data p') r' c' = if decide (r' = r /\ c' = c) then Some x else get2 (pt_data p) r' c') /\
      (forall r' c', get2 (pt_strings p') r' c' = if decide (r' = r /\ c' = c) then Some None else get2 (pt_strings p) r' c') /\
      pt_types p' = pt_types p /\ pt_out p' = pt_out p /\ pt_cursor p' = pt_cursor p /\ pt_rows p' = pt_rows p /\ pt_step p' = pt_step p /\
      pt_dirty p' = <[c := true]> (pt_dirty p).
  Proof.
    intros S Hr Hc Hx. destruct (row0 _ S) as (row & E0 & L0). unfold pat_put.
    destruct (Nat.leb_spec (length (pt_data p)) r) as [H|_]; [destruct (sh_data _ S); lia|].
    rewrite E0. cbn [mbind option_bind]. destruct (Nat.leb_spec (length row) c); [lia|].
    destruct (put2_spec _ _ _ r c x (sh_data _ S) Hr Hc) as (d & Ed & Sd & Gd). rewrite Ed. cbn [mbind option_bind].
    destruct (put2_spec _ _ _ r c None (sh_strings _ S) Hr Hc) as (s & Es & Ss & Gs). rewrite Es. cbn [mbind option_bind].
    eexists. split; [done|]. split.
    - destruct S. constructor; cbn; try done.
      + unfold dirty_col. by rewrite insert_length.
      + intros r' c' v. rewrite Gd. case_decide; [|eauto]. intros [= ->]. by apply Hx.
    - split_and!; done.
  Qed.

  Lemma put_outside p r c x : shaped p -> ~ (r < max_pattern_len /\ c < max_cols) -> pat_put p r c x = Some p.
  Proof.
    intros S H. destruct (row0 _ S) as (row & E0 & L0). unfold pat_put. destruct (sh_data _ S).
    destruct (Nat.leb_spec (length (pt_data p)) r); [done|]. rewrite E0. cbn [mbind option_bind].
    destruct (Nat.leb_spec (length row) c); [done|]. lia.
  Qed.

  Lemma value_inside p r c x : shaped p -> get2 (pt_data p) r c = Some x -> pat_get_value p r c = Some (default 0%Z x).
  Proof.
    intros S H. destruct (get2_lt _ _ _ _ _ _ (sh_data _ S) H). destruct (row0 _ S) as (row & E0 & L0). destruct (sh_data _ S).
    unfold pat_get_value. destruct (Nat.leb_spec (length (pt_data p)) r); [lia|]. rewrite E0. cbn [mbind option_bind].
    destruct (Nat.leb_spec (length row) c); [lia|]. by rewrite H.
  Qed.
  Lemma value_outside p r c : shaped p -> ~ (r < max_pattern_len /\ c < max_cols) -> pat_get_value p r c = Some 0%Z.
  Proof.
    intros S H. destruct (row0 _ S) as (row & E0 & L0). destruct (sh_data _ S).
    unfold pat_get_value. destruct (Nat.leb_spec (length (pt_data p)) r); [done|]. rewrite E0. cbn [mbind option_bind].
    destruct (Nat.leb_spec (length row) c); [done|]. lia.
  Qed.

  Lemma get_cell_spec p r c : shaped p ->
    exists p' s, pat_get_cell p r c = Some (p', s) /\ shaped p' /\ pt_data p' = pt_data p /\
      pt_types p' = pt_types p /\ pt_out p' = pt_out p /\ pt_cursor p' = pt_cursor p /\ pt_rows p' = pt_rows p /\ pt_step p' = pt_step p /\
      pt_dirty p' = pt_dirty p /\
      (forall r' c' y, get2 (pt_strings p') r' c' = Some (Some y) ->
         get2 (pt_strings p) r' c' = Some (Some y) \/ exists v, get2 (pt_data p) r' c' = Some (Some v) /\ y = hex3 v) /\
      (~ (r < max_pattern_len /\ c < max_cols) -> s = None) /\
      (forall x, get2 (pt_data p) r c = Some x -> get2 (pt_strings p) r c = Some None -> s = hex3 <$> x) /\
      (forall y, get2 (pt_strings p) r c = Some (Some y) -> s = Some y).
  Proof.
    intros S. destruct (row0 _ S) as (row & E0 & L0). pose proof (sh_data _ S) as Sd. pose proof (sh_strings _ S) as Ss.
    unfold pat_get_cell. destruct (Nat.leb_spec (length (pt_data p)) r) as [Hr|Hr].
    { destruct Sd as [Hdl Hdm]. exists p, None. split_and!; try done; eauto.
      - intros x H. apply (get2_lt _ _ _ _ _ _ (sh_data _ S)) in H. lia.
      - intros y H. apply (get2_lt _ _ _ _ _ _ Ss) in H. lia. }
    rewrite E0. cbn [mbind option_bind]. destruct (Nat.leb_spec (length row) c) as [Hc|Hc].
    { exists p, None. split_and!; try done; eauto.
      - intros x H. apply (get2_lt _ _ _ _ _ _ (sh_data _ S)) in H. lia.
      - intros y H. apply (get2_lt _ _ _ _ _ _ Ss) in H. lia. }
    assert (r < max_pattern_len /\ c < max_cols) as [Hr' Hc'] by (destruct Sd; lia).
    destruct (get2_some _ _ _ r c Ss Hr' Hc') as [y Ey]. rewrite Ey. cbn [mbind option_bind]. destruct y as [y|].
    { exists p, (Some y). split_and!; try done; eauto; [tauto|]. intros y' [= <-]. done. }
    destruct (get2_some _ _ _ r c Sd Hr' Hc') as [x Ex]. rewrite Ex. cbn [mbind option_bind]. destruct x as [v|].
    - destruct (put2_spec _ _ _ r c (Some (hex3 v)) Ss Hr' Hc') as (ss & Es & Sss & Gs). rewrite Es. cbn [mbind option_bind].
      eexists _, _. split; [done|]. cbn. split_and!; try done.
      + destruct S. constructor; cbn; done.
      + intros r' c' y. rewrite Gs. case_decide as D; [|eauto]. destruct D as [-> ->]. intros [= <-]. right. eauto.
      + tauto.
      + intros x [= <-]. done.
    - exists p, None. split_and!; try done; eauto. intros x [= <-]. done.
  Qed.

  Lemma set_types_spec zs : forall i ts d, length ts = max_cols -> i + length zs <= max_cols ->
    exists ts' d', set_types i ts d zs = Some (ts', d') /\ length ts' = max_cols /\ length d' = length d /\
      (forall j z, zs !! j = Some z -> ts' !! (i + j) = Some (code_type z)) /\
      (forall j, j < i -> ts' !! j = ts !! j) /\
      (forall j, d' !! j = if decide (i <= j < i + length zs /\ j < length d) then Some true else d !! j).
  Proof.
    induction zs as [|z zs IH]; intros i ts d Ht Hz; cbn [set_types].
    - eexists _, _. split; [done|]. split_and!; try done. intros j. cbn. rewrite decide_False by lia. done.
    - cbn [length] in Hz. destruct (Nat.ltb_spec i (length ts)); [|lia].
      destruct (IH (S i) (<[i := code_type z]> ts) (dirty_col d i)) as (ts' & d' & E & L & Ld & G & K & D);
        [by rewrite insert_length|lia|].
      exists ts', d'. unfold dirty_col in Ld, D. rewrite insert_length in Ld, D. split_and!; try done.
      + intros [|j] z'; cbn.
        * intros [= <-]. rewrite Nat.add_0_r. rewrite K by lia. by rewrite list_lookup_insert by lia.
        * intros H'. rewrite <- Nat.add_succ_comm. by apply G.
      + intros j Hj. rewrite K by lia. by rewrite list_lookup_insert_ne by lia.
      + intros j. rewrite D. cbn [length]. repeat case_decide; try done; try lia.
        * assert (j = i) as -> by lia. by rewrite list_lookup_insert by lia.
        * destruct (decide (i = j)) as [->|]; [|by rewrite list_lookup_insert_ne].
          by rewrite list_insert_ge by lia.
  Qed.

  Lemma cell_of_range z v : cell_of z = Some v -> (0 <= v < 65536)%Z.
  Proof. unfold cell_of. destruct (Z.ltb_spec z 0); [done|]. intros [= <-]. apply Z.mod_pos_bound. lia. Qed.

  Lemma set_row_spec r zs : forall c data, shape2 max_pattern_len max_cols data -> r < max_pattern_len -> c + length zs <= max_cols ->
    exists data', set_row r c data zs = Some data' /\ shape2 max_pattern_len max_cols data' /\
      forall r' c', get2 data' r' c' =
        if decide (r' = r /\ c <= c') then match zs !! (c' - c) with Some z => Some (cell_of z) | None => get2 data r' c' end
        else get2 data r' c'.
  Proof.
    induction zs as [|z zs IH]; intros c data Sd Hr Hz; cbn [set_row].
    - eexists. split_and!; try done. intros r' c'. rewrite lookup_nil. by case_decide.
    - cbn [length] in Hz. destruct (put2_spec _ _ _ r c (cell_of z) Sd Hr) as (d & Ed & Sd' & Gd); [lia|].
      rewrite Ed. cbn [mbind option_bind]. destruct (IH (S c) d Sd' Hr) as (d' & E & S' & G); [lia|].
      exists d'. split_and!; try done. intros r' c'. rewrite G. rewrite !Gd. repeat case_decide; try done; try lia.
      all: try (destruct (c' - c) as [|k] eqn:Ek; [lia|]).
      + replace (c' - S c) with k by lia. done.
      + assert (c' = c) as -> by lia. rewrite Nat.sub_diag. done.
  Qed.
  Lemma set_row_inv r zs : forall c data data', shape2 max_pattern_len max_cols data -> set_row r c data zs = Some data' ->
    zs = [] \/ (r < max_pattern_len /\ c + length zs <= max_cols).
  Proof.
    induction zs as [|z zs IH]; intros c data data' Sd H; cbn [set_row] in H; [by left|]. right.
    destruct (put2 data r c (cell_of z)) as [d|] eqn:E; [|done]. cbn [mbind option_bind] in H.
    destruct (put2_inv _ _ _ _ _ _ _ Sd E) as (Hr & Hc & Sd' & _). destruct (IH _ _ _ Sd' H) as [->|[? ?]]; cbn [length]; lia.
  Qed.

  Lemma set_rows_data_shape rs : forall r data data', shape2 max_pattern_len max_cols data -> set_rows_data r data rs = Some data' ->
    shape2 max_pattern_len max_cols data' /\
    ((forall i c v, get2 data i c = Some (Some v) -> (0 <= v < 65536)%Z) ->
      forall i c v, get2 data' i c = Some (Some v) -> (0 <= v < 65536)%Z).
  Proof.
    induction rs as [|zs rs IH]; intros r data data' Sd H; cbn [set_rows_data] in H; [by injection H as <-|].
    destruct (set_row r 0 data zs) as [d|] eqn:E; [|done]. cbn [mbind option_bind] in H.
    destruct (set_row_inv _ _ _ _ _ Sd E) as [->|[Hr Hz]].
    - cbn in E. injection E as <-. by apply (IH _ _ _ Sd H).
    - destruct (set_row_spec r zs 0 data Sd Hr Hz) as (d2 & E2 & Sd2 & G2). rewrite E in E2. injection E2 as <-.
      destruct (IH _ _ _ Sd2 H) as [? HR]. split; [done|]. intros HD. apply HR. intros i c v. rewrite G2.
      case_decide; [|by apply HD]. destruct (zs !! (c - 0)); [|by apply HD]. intros [= Hc]. by eapply cell_of_range.
  Qed.
  Lemma set_rows_data_spec rs : forall r data, shape2 max_pattern_len max_cols data -> r + length rs <= max_pattern_len ->
    Forall (fun zs => length zs <= max_cols) rs ->
    exists data', set_rows_data r data rs = Some data' /\ shape2 max_pattern_len max_cols data' /\
      forall r' c', get2 data' r' c' =
        if decide (r <= r') then match get2 rs (r' - r) c' with Some z => Some (cell_of z) | None => get2 data r' c' end
        else get2 data r' c'.
  Proof.
    induction rs as [|zs rs IH]; intros r data Sd Hr Hl; cbn [set_rows_data].
    - eexists. split_and!; try done. intros r' c'. unfold get2 at 2. rewrite lookup_nil. cbn. by case_decide.
    - cbn [length] in Hr. apply Forall_cons in Hl as [Hz Hl].
      destruct (set_row_spec r zs 0 data Sd) as (d & Ed & Sd' & Gd); [lia|lia|].
      rewrite Ed. cbn [mbind option_bind]. destruct (IH (S r) d Sd') as (d' & E & S' & G); [lia|done|].
      exists d'. split_and!; try done. intros r' c'. rewrite G. rewrite !Gd. repeat case_decide; try done; try lia.
      all: try (destruct (r' - r) as [|k] eqn:Ek; [lia|]).
      + replace (r' - S r) with k by lia. done.
      + assert (r' = r) as -> by lia. rewrite Nat.sub_diag. rewrite Nat.sub_0_r. done.
  Qed.

  Lemma from_repr_shaped p r p' : shaped p -> length (pr_types r) = max_cols -> pat_from_repr p r = Some p' ->
    shaped p' /\ pt_out p' = pt_out p /\ (forall c, c < max_cols -> pt_dirty p' !! c = Some true).
  Proof.
    intros S L H. unfold pat_from_repr in H.
    destruct (set_types_spec (pr_types r) 0 _ (pt_dirty p) (sh_types _ S)) as (ts & d & E & Lt & Ld & _ & _ & D); [lia|].
    rewrite E in H. cbn [mbind option_bind] in H.
    destruct (set_rows_data 0 (pt_data p) (pr_data r)) as [data|] eqn:Ed; [|done]. cbn [mbind option_bind] in H.
    injection H as <-. destruct (set_rows_data_shape _ _ _ _ (sh_data _ S) Ed) as [Sd Hc].
    destruct S. cbn. split_and!; try done.
    - constructor; cbn; try done; [lia|]. by apply Hc.
    - intros c Hcc. rewrite D. rewrite decide_True; [done|]. lia.
  Qed.

  Lemma change_inv p r c offs p' : pat_change p r c offs = Some p' ->
    exists x, (0 <= x <= 4095)%Z /\ pat_put p r c (Some x) = Some p'.
  Proof.
    unfold pat_change. destruct (pat_get_value p r c) as [v|]; [|done]. cbn [mbind option_bind].
    destruct ((-32768 <=? i16_of v + offs) && (i16_of v + offs <=? 32767))%Z; [|done].
    intros H. eexists. split; [|exact H]. lia.
  Qed.

  (** Every editor call keeps the shape; a cell changes only together with the flag of its column *)
  Lemma step_shaped p o p' : shaped p -> pat_step p o = Some p' ->
    shaped p' /\ pt_out p' = pt_out p /\
    (forall c, pt_dirty p !! c = Some true -> pt_dirty p' !! c = Some true) /\
    (forall c, c < max_cols -> pt_dirty p' !! c = Some false -> (forall r, column p' c r = column p c r) /\ pt_types p' !! c = pt_types p !! c) /\
    (pt_rows p' = pt_rows p \/ pt_dirty p' !! 0 = Some true).
  Proof.
    intros S H. pose proof cols_pos as CP. pose proof len_pos as LP.
    assert (forall r c x, (forall v, x = Some v -> (0 <= v < 65536)%Z) -> pat_put p r c x = Some p' ->
      shaped p' /\ pt_out p' = pt_out p /\
      (forall c, pt_dirty p !! c = Some true -> pt_dirty p' !! c = Some true) /\
      (forall c, c < max_cols -> pt_dirty p' !! c = Some false -> (forall r, column p' c r = column p c r) /\ pt_types p' !! c = pt_types p !! c) /\
      (pt_rows p' = pt_rows p \/ pt_dirty p' !! 0 = Some true)) as Put.
    { intros r c x Hx E. destruct (decide (r < max_pattern_len /\ c < max_cols)) as [[Hr Hc]|Ho].
      - destruct (put_inside _ r c x S Hr Hc Hx) as (p2 & E2 & S2 & Gd & _ & Et & Eo & _ & Er & _ & Edi).
        rewrite E in E2. injection E2 as <-. split_and!; try done; [| |by left].
        + intros c' H'. rewrite Edi. destruct (decide (c = c')) as [->|]; [|by rewrite list_lookup_insert_ne].
          apply list_lookup_insert. destruct S. lia.
        + intros c' Hc' H'. rewrite Edi in H'. destruct (decide (c = c')) as [->|Hne].
          * rewrite list_lookup_insert in H' by (destruct S; lia). done.
          * rewrite Et. split; [|done]. intros r'. unfold column. rewrite Gd. rewrite decide_False; [done|]. intros [_ ->]. done.
      - rewrite put_outside in E by done. injection E as <-. split_and!; try done. by left. }
    destruct o as [r c v|r c|r c offs|r c|n|c t|r c|s|rp]; cbn [pat_step] in H.
    - eapply Put; [|exact H]. intros v' [= <-]. apply Z.mod_pos_bound. lia.
    - eapply Put; [|exact H]. done.
    - destruct (change_inv _ _ _ _ _ H) as (x & Hx & E). eapply Put; [|exact E]. intros v' [= <-]. lia.
    - destruct (get_cell_spec p r c S) as (p2 & s & E & S2 & Ed & Et & Eo & _ & Er & _ & Edi & _). rewrite E in H. cbn in H.
      injection H as <-. split_and!; try done; [| |by left].
      + intros c'. by rewrite Edi.
      + intros c' _ _. unfold column. by rewrite Ed, Et.
    - injection H as <-. cbn. pose proof (sh_dirty _ S) as LD. split_and!; try done.
      + destruct S. constructor; cbn; try done. unfold dirty_col. by rewrite insert_length.
      + intros c H'. unfold dirty_col. destruct (decide (0 = c)) as [<-|]; [|by rewrite list_lookup_insert_ne].
        apply list_lookup_insert. lia.
      + right. apply list_lookup_insert. lia.
    - injection H as <-. unfold pat_set_type. pose proof (sh_types _ S) as LT. pose proof (sh_dirty _ S) as LD.
      destruct (Nat.leb_spec (length (pt_types p)) c); [split_and!; try done; by left|]. cbn. split_and!; try done; [| | |by left].
      + destruct S. constructor; cbn; try done; [|unfold dirty_col]; by rewrite insert_length.
      + intros c' H'. unfold dirty_col. destruct (decide (c = c')) as [->|]; [|by rewrite list_lookup_insert_ne].
        apply list_lookup_insert. lia.
      + intros c' Hc' H'. unfold dirty_col in H'. destruct (decide (c = c')) as [->|].
        * rewrite list_lookup_insert in H' by lia. done.
        * split; [done|]. by rewrite list_lookup_insert_ne.
    - injection H as <-. cbn. destruct S. split_and!; try done. by left.
    - injection H as <-. cbn. destruct S. split_and!; try done. by left.
    - destruct (Nat.eqb_spec (length (pr_types rp)) max_cols) as [L|]; [|done].
      destruct (from_repr_shaped _ _ _ S L H) as (S2 & Eo & D). split_and!; try done.
      + intros c Hc. apply D. apply lookup_lt_Some in Hc. destruct S. lia.
      + intros c Hc. rewrite D by done. done.
      + right. by apply D.
  Qed.

  Lemma new_shaped (zero : V) n : shaped (pat_new zero n).
  Proof.
    constructor; cbn; try (by rewrite replicate_length); try apply shape2_replicate.
    intros r c v H. by apply get2_replicate in H.
  Qed.
  Lemma run_shaped os : forall p p', shaped p -> pat_run p os = Some p' -> shaped p'.
  Proof.
    induction os as [|o os IH]; intros p p' S H; cbn in H; [by injection H as <-|].
    destruct (pat_step p o) as [p1|] eqn:E; [|done]. cbn in H. eapply IH; [|exact H]. by eapply step_shaped.
  Qed.

  (** The cached texts are those of the current values *)
  Definition cache_ok p : Prop := forall r c y, get2 (pt_strings p) r c = Some (Some y) -> exists v, get2 (pt_data p) r c = Some (Some v) /\ y = hex3 v.
  Lemma step_cache p o p' : shaped p -> is_load o = false -> cache_ok p -> pat_step p o = Some p' -> cache_ok p'.
  Proof.
    intros S L C H.
    assert (forall r c x, (forall v, x = Some v -> (0 <= v < 65536)%Z) -> pat_put p r c x = Some p' -> cache_ok p') as Put.
    { intros r c x Hx E. destruct (decide (r < max_pattern_len /\ c < max_cols)) as [[Hr Hc]|Ho].
      - destruct (put_inside _ r c x S Hr Hc Hx) as (p2 & E2 & S2 & Gd & Gs & _).
        rewrite E in E2. injection E2 as <-. intros r' c' y. rewrite Gs, Gd. case_decide; [done|]. apply C.
      - rewrite put_outside in E by done. by injection E as <-. }
    destruct o as [r c v|r c|r c offs|r c|n|c t|r c|s|rp]; cbn [pat_step] in H; try done.
    - eapply Put; [|exact H]. intros v' [= <-]. apply Z.mod_pos_bound. lia.
    - eapply Put; [|exact H]. done.
    - destruct (change_inv _ _ _ _ _ H) as (x & Hx & E). eapply Put; [|exact E]. intros v' [= <-]. lia.
    - destruct (get_cell_spec p r c S) as (p2 & s & E & S2 & Ed & _ & _ & _ & _ & _ & _ & G & _). rewrite E in H. cbn in H.
      injection H as <-. intros r' c' y Hy. rewrite Ed. destruct (G _ _ _ Hy) as [?|?]; [by apply C|done].
    - by injection H as <-.
    - injection H as <-. unfold pat_set_type. by destruct (length (pt_types p) <=? c).
    - by injection H as <-.
    - by injection H as <-.
  Qed.
  Lemma run_cache os : forall p p', shaped p -> no_load os -> cache_ok p -> pat_run p os = Some p' -> cache_ok p'.
  Proof.
    induction os as [|o os IH]; intros p p' S N C H; cbn in H; [by injection H as <-|].
    apply Forall_cons in N as [N1 N]. destruct (pat_step p o) as [p1|] eqn:E; [|done]. cbn in H.
    eapply IH; [|exact N| |exact H]; [by eapply step_shaped|by eapply step_cache].
  Qed.
  Lemma new_cache (zero : V) n : cache_ok (pat_new zero n).
  Proof. intros r c y H. cbn in H. by apply get2_replicate in H. Qed.

  Lemma shown_spec p r c x : shaped p -> cache_ok p -> get2 (pt_data p) r c = Some x -> shown p r c = Some (hex3 <$> x).
  Proof.
    intros S C H. destruct (get_cell_spec p r c S) as (p2 & s & E & _ & _ & _ & _ & _ & _ & _ & _ & _ & _ & G1 & G2).
    unfold shown. rewrite E. cbn. f_equal. destruct (get2_lt _ _ _ _ _ _ (sh_data _ S) H) as [Hr Hc].
    destruct (get2_some _ _ _ r c (sh_strings _ S) Hr Hc) as [[y|] Ey].
    - rewrite (G2 _ Ey). destruct (C _ _ _ Ey) as (v & Ev & ->). rewrite H in Ev. by injection Ev as ->.
    - by apply G1.
  Qed.
  Lemma shown_outside p r c : shaped p -> ~ (r < max_pattern_len /\ c < max_cols) -> shown p r c = Some None.
  Proof.
    intros S H. destruct (get_cell_spec p r c S) as (p2 & s & E & _ & _ & _ & _ & _ & _ & _ & _ & _ & G & _).
    unfold shown. rewrite E. cbn. by rewrite G.
  Qed.
End pat.
