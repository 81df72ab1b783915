(** Reading back what was written. *)
From Coq Require Import Sorting.Sorted.
From stdpp Require Import strings.
From Verif Require Import Base M_Atom M_Json M_Nodes M_Track M_Block M_Repr S_Repr.
Open Scope string_scope.
Open Scope list_scope.
Open Scope nat_scope.

Lemma as_i64_int z : i64_fits z -> as_i64 (JInt z) = Some z.
Proof.
  unfold i64_fits. intros H. cbn [as_i64]. destruct (Z.leb_spec (- 2 ^ 63) z); [|lia]. destruct (Z.ltb_spec z (2 ^ 63)); [|lia]. done.
Qed.
Lemma size_i64 n : size_fits n -> i64_fits (Z.of_nat n).
Proof. unfold size_fits, i64_fits. lia. Qed.
Lemma to_usize_nat n : size_fits n -> to_usize (Z.of_nat n) = n.
Proof. unfold size_fits, to_usize. intros H. rewrite Z.mod_small by lia. lia. Qed.
Lemma usize_of_nat n d : size_fits n -> usize_of (jnat n) d = n.
Proof. intros H. unfold usize_of, jnat. rewrite as_i64_int by (by apply size_i64). by apply to_usize_nat. Qed.
Lemma to_i64_id z : i64_fits z -> to_i64 z = z.
Proof. unfold i64_fits, to_i64. intros H. rewrite Z.mod_small by lia. lia. Qed.
Lemma to_i32_id z : i32_fits z -> to_i32 z = z.
Proof. unfold i32_fits, to_i32. intros H. rewrite Z.mod_small by lia. lia. Qed.
Lemma usize_of_i64 n d : size_fits n -> usize_of (JInt (to_i64 (Z.of_nat n))) d = n.
Proof. intros H. rewrite to_i64_id by (by apply size_i64). by apply usize_of_nat. Qed.

Ltac jcbn := cbn [jkey jget obj_get String.eqb Ascii.eqb Bool.eqb jidx lookup list_lookup default from_option id elems as_bool as_str fst snd
    b_id b_rows b_contains b_expanded b_typ b_lbl b_inputs b_outputs b_color].

Lemma ports_read (l : list (option string)) : as_str <$> (port_json <$> l) = l.
Proof. rewrite <- list_fmap_compose. rewrite <- (list_fmap_id l) at 2. apply list_fmap_ext. by intros _ [s|] _. Qed.

Lemma block_round b : block_fits b -> block_read (block_json b) = b.
Proof.
  intros (Hi & Hr & Hc & Hn). destruct b as [i r [c0 c1] e t l ins outs col]. cbn in Hi, Hr, Hc, Hn.
  unfold block_read, block_json. jcbn.
  rewrite !usize_of_i64, usize_of_nat, !ports_read by done. f_equal.
  assert (forall o : option nat, (forall n, o = Some n -> size_fits n) ->
    match as_i64 match o with Some n => jnat n | None => JNull end with Some z => Some (to_usize z) | None => None end = o) as H.
  { intros [n|] Ho; [|done]. cbn [jnat]. unfold jnat. rewrite as_i64_int by (by apply size_i64, Ho). by rewrite to_usize_nat by (by apply Ho). }
  cbn. rewrite !H; [done| |]; intros n ->; apply Hn; auto.
Qed.

Lemma insert_fold (l : list (Z * Z * block)) : forall m : gmap (Z * Z) block, NoDup l.*1 ->
  foldl (fun (m : gmap (Z * Z) block) (p : Z * Z * block) => <[p.1 := p.2]> m) m l = list_to_map l ∪ m.
Proof.
  induction l as [|[p b] l IH]; intros m Hnd; cbn [foldl fmap list_fmap fst snd] in *; [by rewrite list_to_map_nil, (left_id_L ∅ (∪))|].
  apply NoDup_cons in Hnd as [Hp Hnd]. rewrite IH by done. rewrite <- insert_union_r by (by apply not_elem_of_list_to_map). by rewrite insert_union_l.
Qed.
Lemma area_round ord a : any_order ord -> area_fits a -> a_origin a = origin_map (a_blocks a) -> area_read (area_json ord a) = a.
Proof.
  intros Hord (H1 & H2 & Hb) Ho. unfold area_read, area_json.
  jcbn.
  set (bs := foldl _ _ _).
  assert (bs = a_blocks a) as ->.
  { unfold bs. rewrite <- (list_to_map_to_list (a_blocks a)).
    assert (NoDup (ord a).*1) as Hnd by (rewrite (Hord a); apply NoDup_fst_map_to_list).
    rewrite <- (list_to_map_proper (ord a)) by (done || apply Hord).
    rewrite <- (right_id_L ∅ (∪) (list_to_map (ord a))), <- insert_fold by done.
    assert (forall p b, (p, b) ∈ ord a -> a_blocks a !! p = Some b) as Hin.
    { intros p b Hpb. rewrite (Hord a) in Hpb. by apply elem_of_map_to_list. }
    clear - Hin Hb. revert Hin. generalize (∅ : gmap (Z * Z) block) as m. induction (ord a) as [|[[x y] b] l IH]; intros m Hin; [done|].
    cbn [fmap list_fmap foldl]. jcbn.
    destruct (Hb (x, y) b) as (Hx & Hy & Hf); [apply Hin; left|]. cbn [fst snd] in *.
    rewrite !as_i64_int by done. jcbn. rewrite block_round by done. apply IH. intros p b' Hpb. apply Hin. by right. }
  cbn. rewrite !usize_of_i64 by done. destruct a as [bl og [w h] sh hd]. cbn in *. by rewrite Ho.
Qed.
Lemma snap_round ord s : any_order ord -> snap_fits s -> snap_read (snap_json ord s) = s.
Proof.
  intros Hord (Hi & Ha). unfold snap_read, snap_json. jcbn.
  rewrite usize_of_nat by done. destruct s as [as_ i]. cbn in *. f_equal. rewrite <- list_fmap_compose.
  induction Ha as [|a l [H1 H2] _ IH]; [done|]. cbn [fmap list_fmap compose]. by rewrite area_round, IH.
Qed.

(** ** The matrix *)
From Verif Require Import P_Nodes S_Nodes.

Lemma read_all_ok {A} (f : json -> rd A) (g : A -> json) (l : list A) : (forall x, x ∈ l -> f (g x) = ok x) -> read_all f (g <$> l) = ok l.
Proof.
  induction l as [|x l IH]; intros H; [done|]. cbn [fmap list_fmap read_all]. rewrite H by left. cbn [try ok].
  rewrite IH; [done|]. intros y Hy. apply H. by right.
Qed.

Lemma node_id_round n l : known_node n -> read_node_id (JArr (JStr (node_name n) :: jnat (nid_inst n) :: l)) 0 1 = ok n.
Proof.
  intros (Hk & Hi). unfold read_node_id. jcbn. rewrite (proj1 C28_kinds n Hk). destruct (decide _) as [E|_].
  { destruct n as [k i]. unfold known in Hk. cbn in Hk. injection E as ->. lia. }
  unfold jnat. rewrite as_i64_int by (unfold i64_fits; lia). jcbn. unfold to_u8. rewrite Z.mod_small by lia. rewrite Nat2Z.id.
  destruct n as [[|k] i]; [unfold known in Hk; cbn in Hk; lia|]. unfold to_instance. cbn [nid_kind nid_inst] in *. by rewrite Nat.mod_small by lia.
Qed.

Lemma port_round find name count p : count <= 255 -> (forall i, i < count -> exists s, name i = Some s /\ find s = Some i) -> port_in count p ->
  port_idx find (port_value name p) = p.
Proof.
  intros Hc Hn [->|Hp]; [done|]. unfold port_value. destruct (Z.eqb_spec p (-1)) as [->|_]; [lia|].
  unfold to_u8. rewrite Z.mod_small by lia. destruct (Hn (Z.to_nat p)) as (s & -> & E); [lia|].
  unfold port_idx. cbn [as_i64 as_str]. cbn [default from_option id]. change (to_i16 (-2)) with (-2)%Z. cbn [Z.ltb Z.compare].
  change (-2 <? -2)%Z with false. cbn match. rewrite E. lia.
Qed.

Lemma cell_round c : cell_fits c -> cell_read (cell_json c) = ok c.
Proof.
  intros (Hn & Hx & Hy & Hi & Ho). unfold cell_read, cell_json. rewrite node_id_round by done. cbn [try ok]. jcbn. unfold three. jcbn.
  rewrite !usize_of_nat by done. destruct (C28_inputs _ (proj1 Hn)) as (I1 & I2 & _ & _ & I5 & _). destruct (C28_outputs _ (proj1 Hn)) as (O1 & O2 & _ & O4).
  assert (forall p, port_in (in_count (cr_node c)) p -> port_idx (node_inp (cr_node c)) (port_value (inp_name_by_idx (cr_node c)) p) = p) as Hin.
  { intros p Hp. eapply port_round; [|..|exact Hp]; [lia|]. intros i Hlt. destruct (proj2 (I2 i)) as [s Es]; [lia|]. exists s. split; [done|]. by apply I1. }
  assert (forall p, port_in (out_count (cr_node c)) p -> port_idx (node_out (cr_node c)) (port_value (out_name_by_idx (cr_node c)) p) = p) as Hout.
  { intros p Hp. eapply port_round; [|..|exact Hp]; [lia|]. intros i Hlt. destruct (proj2 (O2 i)) as [s Es]; [lia|]. exists s. split; [done|]. by apply O1. }
  destruct Hi as (A1 & A2 & A3), Ho as (B1 & B2 & B3).
  rewrite !Hin, !Hout by done. destruct c as [n x y [[? ?] ?] [[? ?] ?]]. done.
Qed.

Lemma overwrite_all {A} (new : list A) : forall old, length old = length new -> overwrite old new = Some new.
Proof. induction new as [|x new IH]; intros [|y old] H; cbn in *; try done. by rewrite IH by lia. Qed.
Lemma fmap_id_on {A} (f : A -> A) (l : list A) : Forall (fun x => f x = x) l -> f <$> l = l.
Proof. induction 1 as [|x l E _ IH]; [done|]. cbn. by rewrite E, IH. Qed.
Lemma read_rows_all (new : list (list Z)) : forall old, length old = length new -> Forall (fun r => length r = 6) old ->
  Forall (fun r => length r = 6 /\ Forall i32_fits r) new -> read_rows old ((fun r : list Z => JArr (JInt <$> r)) <$> new) = Some new.
Proof.
  induction new as [|r new IH]; intros [|o old] Hl Ho Hn; try done.
  apply Forall_cons in Hn as [[Hr1 Hr2] Hn]. apply Forall_cons in Ho as [Ho1 Ho].
  cbn [fmap list_fmap read_rows]. fold ((fun r : list Z => JArr (JInt <$> r)) <$> new). cbn [length] in Hl.
  rewrite (IH old) by (done || lia). rewrite <- list_fmap_compose, fmap_id_on.
  { rewrite overwrite_all by lia. by destruct (JInt <$> r). }
  eapply Forall_impl; [exact Hr2|]. intros z Hz. cbn [compose]. rewrite as_i64_int by (unfold i32_fits, i64_fits in *; lia). by apply to_i32_id.
Qed.
Lemma pattern_round p : pattern_fits p -> pattern_read (pattern_json p) = Some p.
Proof.
  intros (H1 & H2 & H3 & H4 & H5 & H6 & H7 & H8). unfold pattern_read, pattern_json. jcbn.
  rewrite <- list_fmap_compose, fmap_id_on.
  { rewrite overwrite_all by (by rewrite replicate_length). cbn [mbind option_bind].
    rewrite read_rows_all by (done || (try rewrite replicate_length; done) || (by apply Forall_replicate)). cbn [mbind option_bind].
    rewrite !usize_of_nat by done. destruct p as [? ? ? ? [? ?]]. done. }
  eapply Forall_impl; [exact H2|]. intros z Hz. cbn beta in Hz. cbn [compose]. rewrite as_i64_int by (unfold i64_fits; lia). jcbn. unfold to_u8. by rewrite Z.mod_small by lia.
Qed.

Section atoms.
Context (i2f : Z -> f32).
Lemma jf32_read v : finite v -> as_f32 i2f (jf32 v) = Some v.
Proof. unfold finite, jf32. by intros ->. Qed.

Definition aj (a : satom) : json := default JNull (atom_json a).
Lemma atom_round a : atom_fits a -> exists j, atom_json a = Some j /\ atom_read i2f j = ok a.
Proof.
  destruct a as [s|v|s d|i|v]; cbn [atom_fits]; intros H; unfold atom_json.
  - eexists; split; [done|]. done.
  - destruct H as [Hl Hv]. rewrite Hl. eexists; split; [done|]. do 8 (destruct v as [|? v]; [done|]). destruct v; [|done]. cbn [take fmap list_fmap].
    repeat (apply Forall_cons in Hv as [? Hv]). unfold atom_read. jcbn. cbn [seq mapM mbind option_bind]. jcbn. cbn. rewrite !jf32_read by done. done.
  - subst d. eexists; split; done.
  - eexists; split; [done|]. unfold atom_read. jcbn. rewrite as_i64_int by done. done.
  - eexists; split; [done|]. unfold atom_read. jcbn. rewrite jf32_read by done. done.
Qed.
Lemma atom_aj a : atom_fits a -> atom_json a = Some (aj a) /\ atom_read i2f (aj a) = ok a.
Proof. intros (j & E & R)%atom_round. unfold aj. by rewrite E. Qed.

Lemma known_param_find p : known_param p -> inp_param (pa_node p) (pa_name p) = Some p.
Proof. intros [[Hk _] H]. apply (proj1 (C28_params _ Hk)). done. Qed.
Lemma param_round e : param_fits e -> param_read i2f (param_json e) = ok e.
Proof.
  intros (Hp & Hv & Hm). unfold param_read, param_json, pid_json. cbn [app]. rewrite node_id_round by apply Hp. cbn [try ok]. jcbn.
  rewrite known_param_find by done. rewrite jf32_read by done. jcbn. destruct e as [[p v] [m|]]; cbn in *; [|done]. by rewrite jf32_read by auto.
Qed.
Lemma atom_entry_round p a : known_param p -> atom_fits a -> atom_entry_read i2f (JArr (pid_json p ++ [aj a])) = ok (Some (p, a)).
Proof.
  intros Hp Ha. unfold atom_entry_read, pid_json. cbn [app]. rewrite node_id_round by apply Hp. cbn [try ok]. jcbn.
  rewrite known_param_find by done. by rewrite (proj2 (atom_aj a Ha)).
Qed.
Lemma prop_round k a : atom_fits a -> prop_read i2f (JArr [JStr k; aj a]) = ok (k, a).
Proof. intros Ha. unfold prop_read. jcbn. by rewrite (proj2 (atom_aj a Ha)). Qed.
End atoms.

(** ** Sorting *)
Section sort.
  Context {A : Type} (le : A -> A -> bool).
  Lemma sort_ins_perm x (l : list A) : sort_ins le x l ≡ₚ x :: l.
  Proof. induction l as [|y l IH]; cbn; [done|]. destruct (le x y); [done|]. rewrite IH. apply Permutation_swap. Qed.
  Lemma sort_perm (l : list A) : sort le l ≡ₚ l.
  Proof. induction l as [|x l IH]; cbn; [done|]. by rewrite sort_ins_perm, IH. Qed.
  Definition leP (x y : A) : Prop := le x y = true.
  Context (tot : forall x y, le x y = false -> le y x = true).
  Lemma sort_ins_sorted x (l : list A) : Sorted leP l -> Sorted leP (sort_ins le x l).
  Proof.
    induction 1 as [|y l Hl IH Hy]; cbn; [by repeat constructor|]. destruct (le x y) eqn:E.
    - constructor; [by constructor|]. by constructor.
    - constructor; [done|]. destruct l as [|z l]; cbn; [constructor; by apply tot|]. destruct (le x z); constructor; [by apply tot|]. by inversion Hy.
  Qed.
  Lemma sort_sorted (l : list A) : Sorted leP (sort le l).
  Proof. induction l as [|x l IH]; cbn; [constructor|]. by apply sort_ins_sorted. Qed.
  Lemma sort_fix (l : list A) : Sorted leP l -> sort le l = l.
  Proof.
    induction 1 as [|y l Hl IH Hy]; [done|]. change (sort le (y :: l)) with (sort_ins le y (sort le l)). rewrite IH. destruct l as [|z l]; [done|]. inversion Hy as [|? ? E]. cbn. by rewrite E.
  Qed.
  Lemma sort_idem (l : list A) : sort le (sort le l) = sort le l.
  Proof. apply sort_fix, sort_sorted. Qed.
End sort.
Lemma str_leb_tot a b : str_leb a b = false -> str_leb b a = true.
Proof. unfold str_leb. rewrite (String.compare_antisym a b). by destruct (String.compare b a). Qed.
Lemma lex_opp c d : CompOpp (lex c d) = lex (CompOpp c) (CompOpp d).
Proof. by destruct c. Qed.
Lemma pid_cmp_opp p q : pid_cmp q p = CompOpp (pid_cmp p q).
Proof.
  unfold pid_cmp. rewrite !lex_opp, <- String.compare_antisym, <- !Nat.compare_antisym. done.
Qed.
Lemma pid_leb_tot p q : pid_leb p q = false -> pid_leb q p = true.
Proof. unfold pid_leb. rewrite (pid_cmp_opp p q). by destruct (pid_cmp p q). Qed.

Lemma repr_sort_idem r : repr_sort (repr_sort r) = repr_sort r.
Proof.
  unfold repr_sort. cbn [mr_cells mr_params mr_atoms mr_patterns mr_props mr_blocks mr_version].
  rewrite !sort_idem; [done| | |]; intros x y; (apply str_leb_tot || apply pid_leb_tot).
Qed.
Lemma repr_sort_same r : same_repr r (repr_sort r).
Proof. unfold same_repr, repr_sort. cbn. rewrite !sort_perm. done. Qed.
Lemma same_repr_fits r r' : same_repr r r' -> repr_fits r -> repr_fits r'.
Proof.
  intros (E1 & E2 & E3 & E4 & E5 & E6 & E7). unfold repr_fits. by rewrite E1, E2, E3, E4, E5, E6, E7.
Qed.

Section round.
Context (i2f : Z -> f32) (ord : area -> list (Z * Z * block)).
Lemma mapM_total {A B} (f : A -> option B) (g : A -> B) (l : list A) : (forall x, x ∈ l -> f x = Some (g x)) -> mapM f l = Some (g <$> l).
Proof.
  induction l as [|x l IH]; intros H; [done|]. cbn. rewrite H by left. cbn. rewrite IH; [done|]. intros y Hy. apply H. by right.
Qed.

Lemma repr_round r : any_order ord -> repr_fits r -> (mr_version r <= 2)%Z ->
  exists j, repr_json ord r = Some j /\ repr_read i2f j = ok (repr_sort r).
Proof.
  intros Hord Hr Hv. pose proof (same_repr_fits _ _ (repr_sort_same r) Hr) as Hs. change (mr_version r) with (mr_version (repr_sort r)) in Hv.
  unfold repr_json. set (s := repr_sort r) in *. clearbody s. destruct Hs as (H1 & H2 & H3 & H4 & H5 & H6 & H7). 
  rewrite Forall_forall in H1. rewrite Forall_forall in H2. rewrite Forall_forall in H3. rewrite Forall_forall in H4. rewrite Forall_forall in H5.
  rewrite Forall_forall in H6.
  set (ga := fun e : paramid * satom => JArr (pid_json e.1 ++ [aj e.2])).
  set (gp := fun e : string * satom => JArr [JStr e.1; aj e.2]).
  rewrite (mapM_total _ ga) by (intros e He; unfold ga; by rewrite (proj1 (atom_aj i2f _ (proj2 (H3 e He))))). cbn [mbind option_bind].
  rewrite (mapM_total _ gp) by (intros e He; unfold gp; by rewrite (proj1 (atom_aj i2f _ (H4 e He)))). cbn [mbind option_bind].
  eexists; split; [done|]. unfold repr_read. jcbn. rewrite as_i64_int by done. jcbn.
  destruct (Z.ltb_spec 2 (mr_version s)); [lia|].
  rewrite read_all_ok by (intros c Hc; by apply cell_round, H1). cbn [try ok].
  rewrite read_all_ok by (intros c Hc; by apply param_round, H2). cbn [try ok].
  assert (ga <$> mr_atoms s = (fun o => match o with Some e => ga e | None => JNull end) <$> (Some <$> mr_atoms s)) as -> by (by rewrite <- list_fmap_compose).
  rewrite read_all_ok.
  2: { intros o (e & -> & He)%elem_of_list_fmap. unfold ga. destruct (H3 e He). rewrite atom_entry_round by done. by destruct e. }
  cbn [try ok]. rewrite read_all_ok by (intros [k a] He; by apply prop_round, (H4 _ He)). cbn [try ok].
  rewrite read_all_ok.
  2: { intros [p|] Hp; [|done]. cbn [is_obj pattern_json]. fold (pattern_json p). change (is_obj (pattern_json p)) with true. cbn match. rewrite pattern_round; [done|]. by apply (H5 _ Hp). }
  cbn [try ok]. rewrite read_all_ok.
  2: { intros [p|] Hp; [|done]. change (is_obj (snap_json ord p)) with true. cbn match. rewrite snap_round; [done|done|]. by apply (H6 _ Hp). }
  cbn [try ok]. replace (omap id (Some <$> mr_atoms s)) with (mr_atoms s); [by destruct s|].
  clear. induction (mr_atoms s) as [|e l IH]; [done|]. cbn. by rewrite <- IH.
Qed.
End round.
