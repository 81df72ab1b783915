(** The wiring of the main area of a program, as functions. *)
From Coq Require Import Ascii Sorting.Sorted.
From stdpp Require Import strings pretty.
From Verif Require Import Base M_Block S_Block L_Block L_Block2 L_Block3 M_Comp S_Comp L_Comp L_Comp3.
Open Scope string_scope.
Open Scope list_scope.
Open Scope nat_scope.

Lemma port_rows_cons n c ps : port_rows (S n) (c :: ps) = (match c with Some _ => [0] | None => [] end) ++ (S <$> port_rows n ps).
Proof.
  unfold port_rows. cbn [seq]. rewrite filter_cons. unfold has_port at 1 2. cbn [lookup list_lookup].
  assert (filter (fun r => has_port (c :: ps) r = true) (seq 1 n) = S <$> filter (fun r => has_port ps r = true) (seq 0 n)) as ->.
  { rewrite <- fmap_S_seq. induction (seq 0 n) as [|r l IH]; [done|]. cbn [fmap list_fmap]. rewrite !filter_cons, IH.
    change (has_port (c :: ps) (S r)) with (has_port ps r). by destruct (decide _). }
  by destruct c.
Qed.
Lemma port_rows_nil n : port_rows n [] = [].
Proof. unfold port_rows. induction (seq 0 n) as [|r l IH]; [done|]. by rewrite filter_cons, decide_False by done. Qed.
Definition port_name (ps : list (option string)) (r : nat) : string := match ps !! r with Some (Some s) => s | _ => "" end.
Lemma port_names ps : forall n, length ps <= n -> port_name ps <$> port_rows n ps = omap id ps.
Proof.
  induction ps as [|c ps IH]; intros n Hn; [by rewrite port_rows_nil|]. destruct n as [|n]; cbn in Hn; [lia|].
  rewrite port_rows_cons, fmap_app, <- list_fmap_compose. change (port_name (c :: ps) ∘ S) with (port_name ps). rewrite IH by lia. by destruct c.
Qed.
Lemma ports_above_cons c ps r : ports_above (c :: ps) (S r) = (match c with Some _ => 1 | None => 0 end) + ports_above ps r.
Proof. unfold ports_above. by destruct c. Qed.
Lemma port_rows_above ps : forall n k r, port_rows n ps !! k = Some r -> ports_above ps r = k.
Proof.
  induction ps as [|c ps IH]; intros n k r; [by rewrite port_rows_nil|]. destruct n as [|n]; [done|]. rewrite port_rows_cons. intros H.
  apply lookup_app_Some in H as [H|[Hk H]].
  - destruct c; [|done]. destruct k; [|done]. by injection H as <-.
  - rewrite list_lookup_fmap in H. apply fmap_Some in H as (r' & H & ->). apply IH in H. rewrite ports_above_cons, H. destruct c; cbn in *; lia.
Qed.
Lemma omap_nodup_inj (ps : list (option string)) r r' s : NoDup (omap id ps) -> ps !! r = Some (Some s) -> ps !! r' = Some (Some s) -> r = r'.
Proof.
  revert r r'. induction ps as [|c ps IH]; intros r r' Hn Hr Hr'; [done|].
  assert (forall i, ps !! i = Some (Some s) -> s ∈ omap id ps) as Hin.
  { intros i Hi. apply elem_of_list_omap. exists (Some s). split; [by eapply elem_of_list_lookup_2|done]. }
  destruct r as [|r], r' as [|r']; cbn in Hr, Hr'; [done| | |].
  - injection Hr as ->. cbn in Hn. apply NoDup_cons in Hn as [Hn _]. by apply Hin in Hr'.
  - injection Hr' as ->. cbn in Hn. apply NoDup_cons in Hn as [Hn _]. by apply Hin in Hr.
  - f_equal. apply IH; [|done|done]. destruct c; cbn in Hn; [by apply NoDup_cons in Hn as [_ ?]|done].
Qed.

Lemma omap_id_cons (c : option string) ps : omap id (c :: ps) = match c with Some s => s :: omap id ps | None => omap id ps end.
Proof. by destruct c. Qed.

(** counting *)
Definition cnt (p : Z * Z) (l : list (Z * Z)) : nat := length (filter (fun q => q = p) l).
Lemma cnt_app p l l' : cnt p (l ++ l') = cnt p l + cnt p l'.
Proof. unfold cnt. by rewrite filter_app, app_length. Qed.
Lemma cnt_cons p q l : cnt p (q :: l) = (if decide (q = p) then 1 else 0) + cnt p l.
Proof. unfold cnt. rewrite filter_cons. by destruct (decide (q = p)). Qed.
Lemma cnt_notin p l : p ∉ l -> cnt p l = 0.
Proof.
  induction l as [|q l IH]; [done|]. rewrite cnt_cons, not_elem_of_cons. intros [H1 H2]. by rewrite decide_False, IH by congruence.
Qed.
Lemma cnt_in p l : p ∈ l -> 1 <= cnt p l.
Proof. induction 1 as [p l|p q l _ IH]; rewrite cnt_cons; [by rewrite decide_True by done; lia|lia]. Qed.
Lemma cnt_in_inv p l : 1 <= cnt p l -> p ∈ l.
Proof. intros H. destruct (decide (p ∈ l)) as [|Hn]; [done|]. rewrite (cnt_notin _ _ Hn) in H. lia. Qed.
Lemma cnt_omap_one {A} (g : A -> option (Z * Z)) (l : list A) p r : NoDup l -> r ∈ l -> g r = Some p -> (forall r', r' ∈ l -> g r' = Some p -> r' = r) -> cnt p (omap g l) = 1.
Proof.
  intros Hn Hr Hg Hu. induction l as [|x l IH]; [by apply elem_of_nil in Hr|]. apply NoDup_cons in Hn as [Hx Hn]. apply elem_of_cons in Hr as [->|Hr].
  - cbn [omap list_omap]. rewrite Hg, cnt_cons, decide_True by done. rewrite cnt_notin; [done|]. intros Hin. apply elem_of_list_omap in Hin as (y & Hy & Hgy).
    apply Hu in Hgy; [|by right]. by subst y.
  - cbn [omap list_omap]. assert (cnt p (omap g l) = 1) as IH' by (apply IH; [done|done|]; intros r' Hr'; apply Hu; by right).
    destruct (g x) as [q|] eqn:Hq; [|done]. rewrite cnt_cons, decide_False; [done|]. intros ->.
    apply Hu in Hq; [|by left]. by subst x.
Qed.

Definition multi (b : block) : Prop := 2 <= length (omap id (b_outputs b)).
Global Instance multi_dec b : Decision (multi b).
Proof. unfold multi. apply _. Defined.
Lemma multi_two b r r' s s' : b_outputs b !! r = Some (Some s) -> b_outputs b !! r' = Some (Some s') -> r <> r' -> multi b.
Proof.
  unfold multi. revert r r'. induction (b_outputs b) as [|c ps IH]; intros r r' Hr Hr' Hne; [done|].
  assert (forall i s, ps !! i = Some (Some s) -> 1 <= length (omap id ps)) as Hin.
  { intros i t Hi. assert (t ∈ omap id ps) as H by (apply elem_of_list_omap; exists (Some t); split; [by eapply elem_of_list_lookup_2|done]).
    destruct (omap id ps); [by apply elem_of_nil in H|cbn; lia]. }
  destruct r as [|r], r' as [|r']; cbn in Hr, Hr'; [done| | |].
  - injection Hr as ->. rewrite omap_id_cons. cbn [length]. apply Hin in Hr'. lia.
  - injection Hr' as ->. rewrite omap_id_cons. cbn [length]. apply Hin in Hr. lia.
  - specialize (IH r r' Hr Hr' ltac:(congruence)). rewrite omap_id_cons. destruct c; cbn [length]; lia.
Qed.
Lemma two_ports (ps : list (option string)) : 2 <= length (omap id ps) -> exists r r' s s', r <> r' /\ ps !! r = Some (Some s) /\ ps !! r' = Some (Some s').
Proof.
  induction ps as [|c ps IH]; [cbn; lia|]. rewrite omap_id_cons. destruct c as [s|].
  - intros H. cbn [length] in H. destruct (omap id ps) as [|s' l] eqn:E; [cbn in H; lia|].
    assert (s' ∈ omap id ps) as Hin by (rewrite E; by left). apply elem_of_list_omap in Hin as (c & Hc & Hs). cbn in Hs. subst c.
    apply elem_of_list_lookup in Hc as [i Hi]. exists 0, (S i), s, s'. done.
  - intros H. destruct (IH H) as (r & r' & s & s' & Hne & H1 & H2). exists (S r), (S r'), s, s'. split; [congruence|done].
Qed.
Lemma some_port (ps : list (option string)) : 1 <= length (omap id ps) -> exists r s, ps !! r = Some (Some s).
Proof.
  intros H. destruct (omap id ps) as [|s l] eqn:E; [cbn in H; lia|]. assert (s ∈ omap id ps) as Hin by (rewrite E; by left).
  apply elem_of_list_omap in Hin as (c & Hc & Hs). cbn in Hs. subst c. apply elem_of_list_lookup in Hc as [i Hi]. by exists i, s.
Qed.

Definition row_of (b : block) (name : string) : nat := default 0 (head (filter (fun r => b_inputs b !! r = Some (Some name)) (seq 0 (b_rows b)))).
Definition arg_rows (b : block) (ins : list string) : list nat :=
  match ins with
  | "" :: _ => port_rows (b_rows b) (b_inputs b)
  | _ => row_of b <$> ins
  end.

(** ** the rows of the arguments *)
Lemma ins_shape t ins outs : shape t ins outs -> ins_ok ins.
Proof.
  destruct 1; try done.
  - left. split; [constructor|set_solver].
  - right. by repeat constructor.
  - right. by repeat constructor.
  - right. by repeat constructor.
Qed.
Lemma row_of_spec b name r : NoDup (omap id (b_inputs b)) -> length (b_inputs b) <= b_rows b -> b_inputs b !! r = Some (Some name) -> row_of b name = r.
Proof.
  intros Hn Hl Hr. unfold row_of. set (l := filter _ _).
  assert (forall r', r' ∈ l -> r' = r) as Hall.
  { intros r' Hr'. apply elem_of_list_filter in Hr' as [Hr' _]. by eapply omap_nodup_inj. }
  assert (r ∈ l) as Hin. { apply elem_of_list_filter. split; [done|]. apply elem_of_seq. apply lookup_lt_Some in Hr. lia. }
  destruct l as [|r' l]; [by apply elem_of_nil in Hin|]. cbn. apply Hall. by left.
Qed.
Lemma all_empty_head ins : ins_ok ins -> (Forall (fun s => s = "") ins /\ exists l, ins = "" :: l) \/ (NoDup ins /\ "" ∉ ins).
Proof.
  intros [H|H]; [by right|]. destruct ins as [|s l]; [right; split; [constructor|set_solver]|]. left. split; [done|].
  inversion H as [|? ? Hs]. subst s. by exists l.
Qed.
Lemma arg_rows_named b ins : NoDup ins -> "" ∉ ins -> arg_rows b ins = row_of b <$> ins.
Proof. intros _ H. destruct ins as [|[|c s] l]; [done| |done]. exfalso. apply H. by left. Qed.
Lemma in_name_port b r : in_name b r = port_name (b_inputs b) r.
Proof. done. Qed.
Lemma named_rows b ins : ins_ok ins -> omap id (b_inputs b) ≡ₚ ins -> length (b_inputs b) <= b_rows b ->
  arg_rows b ins ≡ₚ port_rows (b_rows b) (b_inputs b) /\ (omap id (b_inputs b) = ins -> arg_rows b ins = port_rows (b_rows b) (b_inputs b)).
Proof.
  intros Hi Hp Hl. apply all_empty_head in Hi as [[_ [l ->]]|[Hn He]]; [done|]. rewrite (arg_rows_named _ _ Hn He).
  assert (row_of b <$> omap id (b_inputs b) = port_rows (b_rows b) (b_inputs b)) as E.
  { rewrite <- (port_names _ _ Hl), <- list_fmap_compose. rewrite <- (list_fmap_id (port_rows _ _)) at 2. apply Forall_fmap_ext_1.
    apply Forall_forall. intros r Hr. apply port_rows_elem in Hr as (Hr & s & Hs). cbn. unfold port_name. rewrite Hs. apply row_of_spec; [|done|done].
    by rewrite Hp. }
  split; [|intros <-; done]. rewrite <- E, Hp. done.
Qed.
Lemma input_row_iff ty b ins k r : t_inputs ty = Some <$> ins -> ins_ok ins -> omap id (b_inputs b) ≡ₚ ins -> length (b_inputs b) <= b_rows b ->
  input_row ty b k r <-> arg_rows b ins !! k = Some r.
Proof.
  intros Et Hi Hp Hl. unfold input_row. rewrite Et. pose proof (port_names _ _ Hl) as Hnames.
  assert (length (port_rows (b_rows b) (b_inputs b)) = length ins) as Hlen by (rewrite <- (fmap_length (port_name (b_inputs b))), Hnames; by rewrite Hp).
  apply all_empty_head in Hi as [[Hall [l ->]]|[Hn He]].
  - cbn [arg_rows]. split.
    + intros (Hr & name & H1 & H2 & H3). rewrite list_lookup_fmap in H1. apply fmap_Some in H1 as (name' & H1 & [= <-]).
      pose proof (Forall_lookup_1 _ _ _ _ Hall H1) as Hnm. cbn in Hnm.
      assert (r ∈ port_rows (b_rows b) (b_inputs b)) as Hin by (apply port_rows_elem; split; [done|by exists name]).
      apply elem_of_list_lookup in Hin as [k' Hk']. pose proof (port_rows_above _ _ _ _ Hk') as Hab. rewrite (H3 Hnm), Hab. done.
    + intros Hk. pose proof (port_rows_above _ _ _ _ Hk) as Hab. apply elem_of_list_lookup_2 in Hk as Hin. apply port_rows_elem in Hin as (Hr & s & Hs).
      split; [done|]. assert (s = "") as ->.
      { assert (s ∈ omap id (b_inputs b)) as Hin by (apply elem_of_list_omap; exists (Some s); split; [by eapply elem_of_list_lookup_2|done]).
        rewrite Hp in Hin. rewrite Forall_forall in Hall. exact (Hall _ Hin). }
      exists "". split_and!; [|done|done]. apply lookup_lt_Some in Hk. rewrite Hlen in Hk. apply lookup_lt_is_Some in Hk as [s Hk].
      rewrite list_lookup_fmap, Hk. pose proof (Forall_lookup_1 _ _ _ _ Hall Hk) as Hnm. cbn in Hnm |- *. by subst s.
  - rewrite (arg_rows_named _ _ Hn He), (list_lookup_fmap (row_of b)). split.
    + intros (Hr & name & H1 & H2 & _). rewrite list_lookup_fmap in H1. apply fmap_Some in H1 as (name' & H1 & [= <-]). rewrite H1. cbn. f_equal.
      apply row_of_spec; [by rewrite Hp|done|done].
    + intros Hk. apply fmap_Some in Hk as (name & Hk & ->). assert (name ∈ omap id (b_inputs b)) as Hin by (rewrite Hp; by eapply elem_of_list_lookup_2).
      apply elem_of_list_omap in Hin as (c & Hc & Hs). cbn in Hs. subst c. apply elem_of_list_lookup in Hc as [r Hr].
      rewrite (row_of_spec _ _ r); [|by rewrite Hp|done|done]. split; [apply lookup_lt_Some in Hr; lia|]. exists name. rewrite list_lookup_fmap, Hk. split_and!; [done|done|].
      intros ->. exfalso. apply He. by eapply elem_of_list_lookup_2.
Qed.

Section wiring.
  Context (types : string -> option btype) (f : bfun) (a : area) (Ha : f_areas f !! 0 = Some a) (Hok : area_ok a).
  Context (Hty : forall o b, a_blocks a !! o = Some b -> typed types b) (Hsh : type_shape types).
  Context (Hif : forall o b, a_blocks a !! o = Some b -> b_typ b <> "if").

  Lemma block_at o : bf_block_at f 0 o = a_blocks a !! o.
  Proof. unfold bf_block_at. by rewrite Ha. Qed.

  Lemma block_facts o b : a_blocks a !! o = Some b -> exists ty ins outs, types (b_typ b) = Some ty /\ t_inputs ty = Some <$> ins /\ t_outputs ty = Some <$> outs /\
    shape (b_typ b) ins outs /\ omap id (b_inputs b) ≡ₚ ins /\ omap id (b_outputs b) ≡ₚ outs /\ length (b_inputs b) <= b_rows b /\
    length (b_outputs b) <= b_rows b /\ 1 <= b_id b /\ block_subs b = [].
  Proof.
    intros Hb. destruct (Hty _ _ Hb) as (Hid & ty & Ht & Hr & Hi & Ho & Li & Lo & Hsub). destruct (Hsh _ _ Ht (Hif _ _ Hb)) as (Har & ins & outs & Ei & Eo & Hs).
    assert (forall l : list string, omap id (Some <$> l) = l) as Hom by (induction l as [|x l IH]; cbn; [done|by f_equal]).
    exists ty, ins, outs. rewrite Ei, Hom in Hi. rewrite Eo, Hom in Ho. split_and!; try done. by apply Hsub.
  Qed.

  Lemma out_port_iff o r : out_port f o r <-> exists b s, a_blocks a !! o = Some b /\ b_outputs b !! r = Some (Some s).
  Proof.
    unfold out_port. rewrite block_at. split.
    - intros (b & s & Hb & _ & Hs). by exists b, s.
    - intros (b & s & Hb & Hs). exists b, s. split_and!; [done| |done]. destruct (block_facts _ _ Hb) as (?&?&?&?&?&?&?&?&?&?&Hl&_).
      apply lookup_lt_Some in Hs. lia.
  Qed.
  Lemma in_port_iff o r : in_port f o r <-> exists b s, a_blocks a !! o = Some b /\ b_inputs b !! r = Some (Some s).
  Proof.
    unfold in_port. rewrite block_at. split.
    - intros (b & s & Hb & _ & Hs). by exists b, s.
    - intros (b & s & Hb & Hs). exists b, s. split_and!; [done| |done]. destruct (block_facts _ _ Hb) as (?&?&?&?&?&?&?&?&?&Hl&_).
      apply lookup_lt_Some in Hs. lia.
  Qed.
  Lemma in_rows o b r : a_blocks a !! o = Some b -> r ∈ port_rows (b_rows b) (b_inputs b) <-> in_port f o r.
  Proof.
    intros Hb. rewrite port_rows_elem. unfold in_port. rewrite block_at. split.
    - intros (Hr & s & Hs). by exists b, s.
    - intros (b' & s & Hb' & Hr & Hs). rewrite Hb in Hb'. injection Hb' as <-. split; [done|by exists s].
  Qed.

  (** *** the output at the left of an input *)
  Definition left (o : Z * Z) (r : nat) : option (Z * Z * nat) := find_port_at a (o.1 - 1) (o.2 + Z.of_nat r) true.
  Lemma left_iff o r p r' : left o r = Some (p, r') <-> out_port f p r' /\ right_of o r p r'.
  Proof.
    unfold left, find_port_at. rewrite out_port_iff. unfold right_of. split.
    - intros H. apply bind_Some in H as ([b q] & Hr & H). apply ref_at_ok in Hr as [Hb Hc]; [|done]. cbn [negb] in H.
      destruct (has_port (b_outputs b) (Z.to_nat (o.2 + Z.of_nat r - q.2))) eqn:Hp; [|done]. injection H as <- <-.
      apply has_port_true in Hp as [s Hs]. destruct Hc as [Hc1 Hc2]. cbn in Hc1, Hc2. split; [by exists b, s|]. lia.
    - intros ((b & s & Hb & Hs) & H1 & H2).
      assert (ref_at a (o.1 - 1) (o.2 + Z.of_nat r) = Some (b, p)) as ->.
      { apply ref_at_ok; [done|]. split; [done|]. unfold covers. cbn. destruct (block_facts _ _ Hb) as (?&?&?&?&?&?&?&?&?&?&Hl&_). apply lookup_lt_Some in Hs. lia. }
      cbn [mbind option_bind negb]. replace (Z.to_nat (o.2 + Z.of_nat r - p.2)) with r' by lia.
      assert (has_port (b_outputs b) r' = true) as -> by (apply has_port_true; by exists s). done.
  Qed.
  Lemma left_right o r o' r' p k : left o r = Some (p, k) -> left o' r' = Some (p, k) -> in_port f o r -> in_port f o' r' -> o = o' /\ r = r'.
  Proof.
    rewrite !left_iff, !in_port_iff. unfold right_of. intros (_ & H1 & H2) (_ & H3 & H4) (b & s & Hb & Hs) (b' & s' & Hb' & Hs').
    destruct (block_facts _ _ Hb) as (?&?&?&?&?&?&?&?&?&Hl&_). destruct (block_facts _ _ Hb') as (?&?&?&?&?&?&?&?&?&Hl'&_).
    apply lookup_lt_Some in Hs, Hs'. assert (o = o') as ->; [|split; [done|lia]].
    assert (ref_at a o.1 (o.2 + Z.of_nat r) = Some (b, o)) as E1 by (apply ref_at_ok; [done|]; split; [done|]; unfold covers; cbn; lia).
    assert (ref_at a o.1 (o.2 + Z.of_nat r) = Some (b', o')) as E2 by (apply ref_at_ok; [done|]; split; [done|]; unfold covers; cbn; lia).
    rewrite E1 in E2. by injection E2.
  Qed.
  Definition feeders (o : Z * Z) (b : block) : list (Z * Z) := omap (fun r => fst <$> left o r) (port_rows (b_rows b) (b_inputs b)).
  Lemma feeds_left p o : feeds f 0 p o <-> exists r r', in_port f o r /\ left o r = Some (p, r').
  Proof.
    unfold feeds. split.
    - intros (b1 & b2 & y & Hb1 & Hb2 & Hx & (r1 & s1 & Hr1 & Hs1 & Hy1) & (r2 & s2 & Hr2 & Hs2 & Hy2)). exists r2, r1. split; [by exists b2, s2|].
      apply left_iff. split; [by exists b1, s1|]. split; lia.
    - intros (r & r' & (b & s & Hb & Hr & Hs) & Hl). apply left_iff in Hl as ((b' & s' & Hb' & Hr' & Hs') & H1 & H2).
      exists b', b, (o.2 + Z.of_nat r)%Z. split_and!; [done|done|lia| |]; [exists r', s'|exists r, s]; done.
  Qed.
  Lemma feeders_elem o b p : a_blocks a !! o = Some b -> p ∈ feeders o b <-> feeds f 0 p o.
  Proof.
    intros Hb. rewrite feeds_left. unfold feeders. rewrite elem_of_list_omap. split.
    - intros (r & Hr & Hl). apply fmap_Some in Hl as ([p' r'] & Hl & ->). exists r, r'. split; [by eapply in_rows|done].
    - intros (r & r' & Hr & Hl). exists r. split; [by apply (in_rows o b)|]. by rewrite Hl.
  Qed.
  Lemma feeds_col p o : feeds f 0 p o -> o.1 = (p.1 + 1)%Z.
  Proof. intros (?&?&?&?&?&?&_). done. Qed.
  Lemma feeds_block p o : feeds f 0 p o -> is_Some (a_blocks a !! p) /\ is_Some (a_blocks a !! o).
  Proof. intros (?&?&?&H1&H2&_). rewrite block_at in H1, H2. split; by eexists. Qed.
  Lemma left_same p r r' bp : a_blocks a !! p = Some bp -> ~ multi bp -> out_port f p r -> out_port f p r' -> r = r'.
  Proof.
    rewrite !out_port_iff. intros Hb Hm (b & s & Hb1 & Hs) (b' & s' & Hb' & Hs'). simplify_eq. destruct (decide (r = r')) as [|Hne]; [done|].
    exfalso. apply Hm. exact (multi_two _ _ _ _ _ Hs Hs' Hne).
  Qed.
  Lemma consumer_unique p q q' bp : a_blocks a !! p = Some bp -> ~ multi bp -> feeds f 0 p q -> feeds f 0 p q' -> q = q'.
  Proof.
    rewrite !feeds_left. intros Hb Hm (r & k & Hr & Hl) (r' & k' & Hr' & Hl'). assert (k = k') as ->.
    { apply left_iff in Hl as [Hl _], Hl' as [Hl' _]. by eapply left_same. }
    by destruct (left_right _ _ _ _ _ _ Hl Hl' Hr Hr') as [? _].
  Qed.
  Lemma feeders_once p o b bp : a_blocks a !! o = Some b -> a_blocks a !! p = Some bp -> ~ multi bp -> feeds f 0 p o -> cnt p (feeders o b) = 1.
  Proof.
    intros Hb Hp Hm Hf. apply feeds_left in Hf as (r & k & Hr & Hl). eapply (cnt_omap_one _ _ _ r).
    - apply port_rows_nodup.
    - by apply (in_rows o b).
    - by rewrite Hl.
    - intros r' Hr' Hl'. apply fmap_Some in Hl' as ([p' k'] & Hl' & ->). cbn in *. apply (in_rows o b) in Hr'; [|done]. assert (k = k') as ->.
      { apply left_iff in Hl as [Hl _], Hl' as [Hl' _]. by eapply left_same. }
      by destruct (left_right _ _ _ _ _ _ Hl' Hl Hr' Hr) as [_ ?].
  Qed.
  Lemma splitter_iff o b : a_blocks a !! o = Some b -> splitter f o <-> multi b.
  Proof.
    intros Hb. unfold splitter. split.
    - intros (r & r' & Hne & H1 & H2). apply out_port_iff in H1 as (b1 & s1 & Hb1 & Hs1), H2 as (b2 & s2 & Hb2 & Hs2). simplify_eq.
      exact (multi_two _ _ _ _ _ Hs1 Hs2 Hne).
    - intros Hm. destruct (two_ports _ Hm) as (r & r' & s & s' & Hne & H1 & H2). exists r, r'. split; [done|]. split; apply out_port_iff; by exists b; eexists.
  Qed.

  (** *** sinks *)
  Definition owner (s : Z * Z * option nat) : Z * Z := match s.2 with None => s.1 | Some r => (s.1.1, (s.1.2 - Z.of_nat r)%Z) end.
  Lemma right_iff o r q r' : find_port_at a (o.1 + 1) (o.2 + Z.of_nat r) false = Some (q, r') <-> in_port f q r' /\ right_of q r' o r.
  Proof.
    rewrite (find_port_ok _ _ _ _ _ _ Hok). unfold in_port, right_of. rewrite block_at. split.
    - intros (b & l & Hb & H1 & H2 & H3 & H4). split; [by exists b, l|]. lia.
    - intros ((b & l & Hb & H3 & H4) & H1 & H2). exists b, l. split_and!; done.
  Qed.
  Lemma right_none o r : find_port_at a (o.1 + 1) (o.2 + Z.of_nat r) false = None <-> forall o' r', in_port f o' r' -> ~ right_of o' r' o r.
  Proof.
    split.
    - intros H o' r' H1 H2. assert (find_port_at a (o.1 + 1) (o.2 + Z.of_nat r) false = Some (o', r')) as E by (by apply right_iff). by rewrite E in H.
    - intros H. apply eq_None_not_Some. intros [[q r'] E]. apply right_iff in E as [E1 E2]. by destruct (H _ _ E1).
  Qed.
  Lemma out_rows o b r : a_blocks a !! o = Some b -> r ∈ port_rows (b_rows b) (b_outputs b) <-> out_port f o r.
  Proof.
    intros Hb. rewrite port_rows_elem. unfold out_port. rewrite block_at. split.
    - intros (Hr & s & Hs). by exists b, s.
    - intros (b' & s & Hb' & Hr & Hs). rewrite Hb in Hb'. injection Hb' as <-. split; [done|by exists s].
  Qed.
  Lemma no_rows o b : a_blocks a !! o = Some b -> port_rows (b_rows b) (b_outputs b) = [] <-> omap id (b_outputs b) = [].
  Proof.
    intros Hb. destruct (block_facts _ _ Hb) as (?&?&?&?&?&?&?&?&?&?&Hl&_). rewrite <- (port_names _ _ Hl). split; [by intros ->|]. intros Hx. by apply fmap_nil_inv in Hx.
  Qed.
  Lemma sink_block o b s : a_blocks a !! o = Some b -> s ∈ block_sinks a o b <->
    (omap id (b_outputs b) = [] /\ s = (o, None)) \/ exists r, open_output f o r /\ s = (o.1, (o.2 + Z.of_nat r)%Z, Some r).
  Proof.
    intros Hb. unfold block_sinks, open_output. pose proof (no_rows o b Hb) as Hn. pose proof (out_rows o b) as Hr. destruct (port_rows (b_rows b) (b_outputs b)) as [|r0 rs] eqn:E.
    - rewrite elem_of_list_singleton. split.
      + intros ->. left. split; [by apply Hn|]. by destruct o.
      + intros [[_ ->]|(r & [Ho _] & _)]; [by destruct o|]. apply (Hr r Hb) in Ho. by apply elem_of_nil in Ho.
    - rewrite elem_of_list_omap. split.
      + intros (r & Hin & Hs). right. exists r. destruct (find_port_at a (o.1 + 1) (o.2 + Z.of_nat r) false) eqn:Ef; [done|]. injection Hs as <-.
        split; [|done]. split; [by apply (Hr r Hb)|]. by apply right_none.
      + intros [[H _]|(r & [Ho Hf] & ->)]; [by apply Hn in H|]. exists r. split; [by apply (Hr r Hb)|]. apply right_none in Hf. by rewrite Hf.
  Qed.
  Lemma sink_insert_perm s l : sink_insert s l ≡ₚ s :: l.
  Proof. induction l as [|t l IH]; cbn; [done|]. destruct (sink_leb s t); [done|]. rewrite IH. constructor. Qed.
  Lemma collect_perm : collect_sinks a ≡ₚ mjoin ((fun p : Z * Z * block => block_sinks a p.1 p.2) <$> map_to_list (a_blocks a)).
  Proof. unfold collect_sinks. induction (mjoin _) as [|s l IH]; cbn; [done|]. by rewrite sink_insert_perm, IH. Qed.
  Lemma sink_elem s : s ∈ collect_sinks a <-> exists o b, a_blocks a !! o = Some b /\ s ∈ block_sinks a o b.
  Proof.
    rewrite collect_perm, elem_of_list_join. split.
    - intros (l & Hs & Hl). apply elem_of_list_fmap in Hl as ([o b] & -> & Hl). apply elem_of_map_to_list in Hl. by exists o, b.
    - intros (o & b & Hb & Hs). exists (block_sinks a o b). split; [done|]. apply elem_of_list_fmap. exists (o, b). split; [done|by apply elem_of_map_to_list].
  Qed.
  Lemma block_owner o b s : a_blocks a !! o = Some b -> s ∈ block_sinks a o b -> owner s = o.
  Proof. intros Hb Hs. apply (sink_block _ _ _ Hb) in Hs as [[_ ->]|(r & _ & ->)]; unfold owner; cbn [fst snd]; [done|]. destruct o. cbn. f_equal. lia. Qed.
  Lemma sink_owner s : s ∈ collect_sinks a -> exists b, a_blocks a !! owner s = Some b /\ s ∈ block_sinks a (owner s) b.
  Proof. intros Hs. apply sink_elem in Hs as (o & b & Hb & Hs). rewrite (block_owner _ _ _ Hb Hs). by exists b. Qed.
  Lemma cnt_perm p l l' : l ≡ₚ l' -> cnt p l = cnt p l'.
  Proof. intros H. unfold cnt. by rewrite H. Qed.
  Lemma sink_count p b : a_blocks a !! p = Some b -> cnt p (owner <$> rev (collect_sinks a)) = length (block_sinks a p b).
  Proof.
    intros Hb. rewrite (cnt_perm p _ (owner <$> mjoin ((fun q : Z * Z * block => block_sinks a q.1 q.2) <$> ((p, b) :: map_to_list (delete p (a_blocks a)))))).
    2:{ apply fmap_Permutation. rewrite <- Permutation_rev, collect_perm. by rewrite map_to_list_delete. }
    cbn [fmap list_fmap mjoin list_join fst snd]. rewrite fmap_app, cnt_app. assert (forall l, (forall s, s ∈ l -> owner s = p) -> cnt p (owner <$> l) = length l) as Hall.
    { induction l as [|s l IH]; [done|]. intros H. cbn [fmap list_fmap]. rewrite cnt_cons, (H s), decide_True by (by left || done). cbn. f_equal. apply IH. intros t Ht. apply H. by right. }
    rewrite Hall by (intros s; by apply block_owner). rewrite cnt_notin; [lia|]. intros Hin. apply elem_of_list_fmap in Hin as (s & Ho & Hs).
    apply elem_of_list_join in Hs as (l & Hs & Hl). apply elem_of_list_fmap in Hl as ([o b'] & -> & Hl). apply elem_of_map_to_list in Hl. apply lookup_delete_Some in Hl as [Hne Hl].
    rewrite (block_owner _ _ _ Hl Hs) in Ho. done.
  Qed.
  (** exactly one sink for a block without a consumer, none for another, unless it has several outputs *)
  Lemma sink_one p b : a_blocks a !! p = Some b -> ~ multi b ->
    (exists q, feeds f 0 p q /\ length (block_sinks a p b) = 0) \/ ((forall q, ~ feeds f 0 p q) /\ length (block_sinks a p b) = 1).
  Proof.
    intros Hb Hm. destruct (block_facts _ _ Hb) as (?&?&?&?&?&?&?&?&?&?&Hl&_). unfold block_sinks. pose proof (fun r => out_rows p b r Hb) as Hr.
    assert (length (port_rows (b_rows b) (b_outputs b)) < 2) as Hlen by (rewrite <- (fmap_length (port_name (b_outputs b))), (port_names _ _ Hl); unfold multi in Hm; lia).
    destruct (port_rows (b_rows b) (b_outputs b)) as [|r [|]]; [| |cbn in Hlen; lia].
    - right. split; [|done]. intros q Hq. apply feeds_left in Hq as (k & k' & _ & Hq). apply left_iff in Hq as [Hq _]. apply Hr in Hq. by apply elem_of_nil in Hq.
    - cbn [omap list_omap]. destruct (find_port_at a (p.1 + 1) (p.2 + Z.of_nat r) false) as [[q k]|] eqn:E.
      + left. exists q. split; [|done]. apply right_iff in E as [E1 E2]. apply feeds_left. exists k, r. split; [done|]. apply left_iff. split; [|done]. apply Hr. by left.
      + right. split; [|done]. intros q Hq. apply feeds_left in Hq as (k & k' & Hi & Hq). apply left_iff in Hq as [Ho Hq]. pose proof Ho as Ho'. apply Hr, elem_of_list_singleton in Ho' as ->.
        apply right_none with (r' := k) (o' := q) in E; done.
  Qed.
  Lemma multi_case p b : a_blocks a !! p = Some b -> multi b -> (exists q, feeds f 0 p q) \/ exists s, s ∈ collect_sinks a /\ owner s = p.
  Proof.
    intros Hb Hm. destruct (two_ports _ Hm) as (r & _ & nm & _ & _ & Hr & _). assert (out_port f p r) as Ho by (apply out_port_iff; by exists b, nm).
    destruct (find_port_at a (p.1 + 1) (p.2 + Z.of_nat r) false) as [[q k]|] eqn:E.
    - left. exists q. apply right_iff in E as [E1 E2]. apply feeds_left. exists k, r. split; [done|]. by apply left_iff.
    - right. exists (p.1, (p.2 + Z.of_nat r)%Z, Some r). assert ((p.1, (p.2 + Z.of_nat r)%Z, Some r) ∈ block_sinks a p b) as Hs.
      { apply (sink_block _ _ _ Hb). right. exists r. split; [|done]. split; [done|]. by apply right_none. }
      split; [apply sink_elem; by exists p, b|by apply (block_owner p b)].
  Qed.
  (** their order *)
  Definition sink_le (s t : Z * Z * option nat) : Prop := read_le s.1 t.1.
  Lemma sink_insert_sorted s l : StronglySorted (fun s t => sink_le t s) l -> StronglySorted (fun s t => sink_le t s) (sink_insert s l).
  Proof.
    induction 1 as [|t l Hl IH Ht]; cbn [sink_insert]; [by repeat constructor|]. destruct (sink_leb s t) eqn:E.
    - assert (sink_le t s) as Hle. { unfold sink_le, read_le, sink_leb in *. apply orb_true_iff in E as [E|E]; [left; lia|]. apply andb_true_iff in E as [E1 E2]. right. lia. }
      constructor; [by constructor|]. constructor; [done|]. eapply Forall_impl; [exact Ht|]. intros u Hu. cbn in *. unfold sink_le, read_le in *. lia.
    - constructor; [done|]. rewrite sink_insert_perm. constructor; [|done]. unfold sink_le, read_le, sink_leb in *. apply orb_false_iff in E as [E1 E2]. apply andb_false_iff in E2. lia.
  Qed.
  Lemma collect_sorted : StronglySorted (fun s t => sink_le t s) (collect_sinks a).
  Proof. unfold collect_sinks. induction (mjoin _) as [|s l IH]; cbn; [constructor|]. by apply sink_insert_sorted. Qed.

  (** *** values *)
  Context {V : Type} (zero : V) (val : Z * Z -> nat -> V).
  Definition inval (o : Z * Z) (r : nat) : V := match left o r with Some (p, r') => val p r' | None => zero end.
  Lemma input_value_iff o r v : input_value zero f val o r v <-> v = inval o r.
  Proof.
    unfold input_value, inval. destruct (left o r) as [[p r']|] eqn:E.
    - split.
      + intros [(o' & r1 & H1 & H2 & ->)|[H _]].
        * assert (left o r = Some (o', r1)) as E' by (by apply left_iff). rewrite E in E'. by injection E' as -> ->.
        * apply left_iff in E as [E1 E2]. by destruct (H _ _ E1).
      + intros ->. apply left_iff in E as [E1 E2]. left. by exists p, r'.
    - split.
      + intros [(o' & r1 & H1 & H2 & ->)|[_ ->]]; [|done]. assert (left o r = Some (o', r1)) as E' by (by apply left_iff). by rewrite E in E'.
      + intros ->. right. split; [|done]. intros o' r1 H1 H2. assert (left o r = Some (o', r1)) as E' by (by apply left_iff). by rewrite E in E'.
  Qed.
  Lemma args_of_iff o b ty ins vs : a_blocks a !! o = Some b -> t_inputs ty = Some <$> ins -> ins_ok ins -> omap id (b_inputs b) ≡ₚ ins -> length (b_inputs b) <= b_rows b ->
    args_of zero f val o b ty vs <-> vs = inval o <$> arg_rows b ins.
  Proof.
    intros Hb Et Hi Hp Hl. unfold args_of.
    assert (length (arg_rows b ins) = length ins) as Hlen.
    { destruct (named_rows b ins Hi Hp Hl) as [H _]. rewrite H. rewrite <- (fmap_length (port_name (b_inputs b))), (port_names _ _ Hl). by rewrite Hp. }
    split.
    - intros [H1 H2]. apply list_eq. intros k. rewrite list_lookup_fmap. rewrite Et, fmap_length, <- Hlen in H1.
      destruct (vs !! k) as [v|] eqn:Hk.
      + destruct (H2 _ _ Hk) as (r & Hr & Hv). apply (input_row_iff ty b ins k r Et Hi Hp Hl) in Hr. rewrite Hr. cbn. f_equal. by apply input_value_iff.
      + apply lookup_ge_None in Hk. rewrite (proj2 (lookup_ge_None (arg_rows b ins) k)); [done|lia].
    - intros ->. rewrite fmap_length, Et, fmap_length. split; [done|]. intros k v Hk. rewrite list_lookup_fmap in Hk. apply fmap_Some in Hk as (r & Hr & ->).
      exists r. split; [by apply (input_row_iff ty b ins k r Et Hi Hp Hl)|]. by apply input_value_iff.
  Qed.
End wiring.
