(** Facts about the model of block programs. *)
From stdpp Require Import strings.
From Verif Require Import Base M_Block S_Block.
Open Scope string_scope.
Open Scope list_scope.
Open Scope nat_scope.

(** ** The origin map *)
Definition apart (bs : gmap (Z * Z) block) : Prop := forall o1 o2 b1 b2 c,
  bs !! o1 = Some b1 -> bs !! o2 = Some b2 -> covers o1 b1 c -> covers o2 b2 c -> o1 = o2.
Definition rows_ok (bs : gmap (Z * Z) block) : Prop := forall o b, bs !! o = Some b -> 1 <= b_rows b.

Lemma origin_cells_elem bs c o : (c, o) ∈ origin_cells bs <-> exists b, bs !! o = Some b /\ covers o b c.
Proof.
  unfold origin_cells. rewrite elem_of_list_join. setoid_rewrite elem_of_list_fmap. split.
  - intros (l & Hc & [o' b] & -> & Hb). apply elem_of_list_fmap in Hc as (r & E & Hr). cbn [fst snd] in *.
    apply elem_of_seq in Hr. injection E as -> ->. exists b. split; [by apply elem_of_map_to_list|].
    split; cbn [fst snd]; lia.
  - intros (b & Hb & E & H). eexists. split; [|exists (o, b); split; [reflexivity|by apply elem_of_map_to_list]].
    apply elem_of_list_fmap. exists (Z.to_nat (c.2 - o.2)). cbn [fst snd]. split; [|apply elem_of_seq; lia].
    destruct c as [cx cy]. cbn [fst snd] in *. subst cx. do 2 f_equal. lia.
Qed.

Lemma origin_map_lookup bs c o : apart bs -> origin_map bs !! c = Some o <-> exists b, bs !! o = Some b /\ covers o b c.
Proof.
  intros Ha. rewrite <- origin_cells_elem. split.
  - apply elem_of_list_to_map_2.
  - intros H. apply elem_of_list_to_map_1'; [|done]. intros o' H'.
    apply origin_cells_elem in H as (b & Hb & Hc), H' as (b' & Hb' & Hc'). by eapply Ha.
Qed.

Definition area_ok (a : area) : Prop := apart (a_blocks a) /\ rows_ok (a_blocks a) /\ a_origin a = origin_map (a_blocks a).

Lemma ref_at_ok a x y b o : area_ok a -> ref_at a x y = Some (b, o) <-> a_blocks a !! o = Some b /\ covers o b (x, y).
Proof.
  intros (Ha & Hr & Ho). unfold ref_at. rewrite Ho. split.
  - intros H. apply bind_Some in H as (o' & E & H). apply bind_Some in H as (b' & E' & [= <- <-]).
    apply origin_map_lookup in E as (b1 & E1 & Hc); [|done]. rewrite E' in E1. injection E1 as <-. done.
  - intros [Hb Hc]. assert (origin_map (a_blocks a) !! (x, y) = Some o) as -> by (apply origin_map_lookup; [done|eauto]).
    cbn [mbind option_bind]. by rewrite Hb.
Qed.

Lemma covers_self o b : 1 <= b_rows b -> covers o b o.
Proof. intros. split; [done|lia]. Qed.
Lemma space_at_ok a x y rows : area_ok a -> space_at a x y rows = true <->
  forall o b c, a_blocks a !! o = Some b -> covers o b c -> c.1 = x -> (y <= c.2 < y + Z.of_nat rows)%Z -> False.
Proof.
  intros (Ha & Hr & Ho). unfold space_at. rewrite forallb_forall, Ho. split.
  - intros H o b c Hb Hc Hx Hy. specialize (H (Z.to_nat (c.2 - y))).
    assert (In (Z.to_nat (c.2 - y)) (seq 0 rows)) as Hin by (apply in_seq; lia). apply H in Hin.
    replace (y + Z.of_nat (Z.to_nat (c.2 - y)))%Z with c.2 in Hin by lia.
    assert (origin_map (a_blocks a) !! (x, c.2) = Some o) as E.
    { apply origin_map_lookup; [done|]. exists b. split; [done|]. destruct Hc as [H1 H2]. split; cbn [fst snd]; [congruence|done]. }
    rewrite E in Hin. done.
  - intros H r Hr'. apply in_seq in Hr'. destruct (origin_map _ !! _) as [o|] eqn:E; [|done].
    apply origin_map_lookup in E as (b & Hb & Hc); [|done]. exfalso. eapply H; [done|done|done|cbn [snd]; lia].
Qed.

Lemma area_ok_with a bs : apart bs -> rows_ok bs -> area_ok (a_with_blocks a bs).
Proof. intros. unfold area_ok, a_with_blocks. cbn [a_blocks a_origin]. done. Qed.

(** ** Loads: lists of blocks with positions *)
Definition meets (p q : block * (Z * Z)) : Prop := exists c, covers p.2 p.1 c /\ covers q.2 q.1 c.
Definition load_ok (l : list (block * (Z * Z))) : Prop :=
  NoDup l.*2 /\ (forall p q, p ∈ l -> q ∈ l -> meets p q -> p.2 = q.2) /\ (forall p, p ∈ l -> 1 <= b_rows p.1).
Definition clear_of (bs : gmap (Z * Z) block) (p : block * (Z * Z)) : Prop :=
  forall o b c, bs !! o = Some b -> covers o b c -> covers p.2 p.1 c -> False.

Lemma load_ok_perm l l' : l ≡ₚ l' -> load_ok l -> load_ok l'.
Proof. unfold load_ok. intros E. rewrite E. by setoid_rewrite E. Qed.

Lemma load_insert_perm p l : load_insert p l ≡ₚ p :: l.
Proof.
  induction l as [|q l IH]; cbn [load_insert]; [done|]. destruct (pos_leb _ _); [done|]. rewrite IH. apply Permutation_swap.
Qed.
Lemma load_sort_perm l : load_sort l ≡ₚ l.
Proof. unfold load_sort. induction l as [|p l IH]; cbn [foldr]; [done|]. by rewrite load_insert_perm, IH. Qed.

Lemma insert_apart bs o b : apart bs -> clear_of bs (b, o) -> apart (<[o := b]> bs).
Proof.
  intros Ha Hc o1 o2 b1 b2 c H1 H2 C1 C2.
  apply lookup_insert_Some in H1 as [[<- <-]|[N1 H1]], H2 as [[<- <-]|[N2 H2]]; [done| | |by eapply Ha].
  - exfalso. by eapply Hc.
  - exfalso. by eapply Hc.
Qed.
Lemma insert_rows bs o b : rows_ok bs -> 1 <= b_rows b -> rows_ok (<[o := b]> bs).
Proof. intros Hr Hb o' b' H. apply lookup_insert_Some in H as [[<- <-]|[_ H]]; [done|by eapply Hr]. Qed.
Lemma delete_apart bs o : apart bs -> apart (delete o bs).
Proof. intros Ha o1 o2 b1 b2 c H1 H2. apply lookup_delete_Some in H1 as [_ H1], H2 as [_ H2]. by eapply Ha. Qed.
Lemma delete_rows bs o : rows_ok bs -> rows_ok (delete o bs).
Proof. intros Hr o' b' H. apply lookup_delete_Some in H as [_ H]. by eapply Hr. Qed.

Definition put_load (bs : gmap (Z * Z) block) (l : list (block * (Z * Z))) := foldl (fun bs (p : block * (Z * Z)) => <[p.2 := p.1]> bs) bs l.
Lemma put_load_ok l : forall bs, apart bs -> rows_ok bs -> load_ok l -> (forall p, p ∈ l -> clear_of bs p) ->
  apart (put_load bs l) /\ rows_ok (put_load bs l).
Proof.
  induction l as [|p l IH]; intros bs Ha Hr (Hn & Hm & Hl) Hc; [done|]. cbn [put_load foldl].
  rewrite fmap_cons in Hn. apply NoDup_cons in Hn as [Hn1 Hn2].
  apply IH.
  - apply insert_apart; [done|]. rewrite <- surjective_pairing. apply Hc. left.
  - apply insert_rows; [done|]. apply Hl. left.
  - split_and!; [done| |].
    + intros q r Hq Hr'. apply Hm; by right.
    + intros q Hq. apply Hl. by right.
  - intros q Hq o b c Hb C1 C2. apply lookup_insert_Some in Hb as [[<- <-]|[_ Hb]].
    + apply Hn1. apply elem_of_list_fmap. exists q. split; [|done]. apply Hm; [left|by right|]. by exists c.
    + eapply Hc; [by right|done|done|done].
Qed.
Lemma put_load_lookup l : forall bs o b, NoDup l.*2 ->
  put_load bs l !! o = Some b <-> (b, o) ∈ l \/ (o ∉ l.*2 /\ bs !! o = Some b).
Proof.
  induction l as [|p l IH]; intros bs o b Hn; cbn [put_load foldl].
  { split; [intros H; right; split; [apply not_elem_of_nil|done]|]. intros [H|[_ H]]; [by apply elem_of_nil in H|done]. }
  rewrite fmap_cons in Hn. apply NoDup_cons in Hn as [Hn1 Hn2]. fold (put_load (<[p.2:=p.1]> bs) l). rewrite IH by done.
  rewrite fmap_cons, elem_of_cons, not_elem_of_cons. destruct p as [pb po]; cbn [fst snd] in *. split.
  - intros [H|[H1 H2]]; [by left; right|]. apply lookup_insert_Some in H2 as [[<- <-]|[H3 H2]]; [by left; left|].
    right. split; [split; [congruence|done]|done].
  - intros [[[= -> ->]|H]|[[H1 H2] H3]].
    + right. split; [done|]. by rewrite lookup_insert.
    + by left.
    + right. split; [done|]. rewrite lookup_insert_ne; [done|congruence].
Qed.

(** ** Chains *)
Definition feeds_in (bs : gmap (Z * Z) block) (o1 o2 : Z * Z) : Prop := exists b1 b2 y,
  bs !! o1 = Some b1 /\ bs !! o2 = Some b2 /\ o2.1 = (o1.1 + 1)%Z /\
  port_on (b_rows b1) (b_outputs b1) o1.2 y /\ port_on (b_rows b2) (b_inputs b2) o2.2 y.
Definition conn_in (bs : gmap (Z * Z) block) (o1 o2 : Z * Z) : Prop := feeds_in bs o1 o2 \/ feeds_in bs o2 o1.

Lemma has_port_true ps r : has_port ps r = true <-> exists l, ps !! r = Some (Some l).
Proof.
  unfold has_port. destruct (ps !! r) as [[l|]|]; [split; [by exists l|done]| |]; (split; [done|intros [l H]; congruence]).
Qed.
Lemma port_rows_elem rows ps r : r ∈ port_rows rows ps <-> r < rows /\ exists l, ps !! r = Some (Some l).
Proof.
  unfold port_rows. rewrite elem_of_list_filter, elem_of_seq, <- has_port_true. split; [intros [? ?]|intros [? ?]]; split; lia || done.
Qed.
Lemma find_port_ok a x y out o r : area_ok a -> find_port_at a x y out = Some (o, r) <->
  exists b l, a_blocks a !! o = Some b /\ o.1 = x /\ y = (o.2 + Z.of_nat r)%Z /\ r < b_rows b /\
              (if out then b_outputs b else b_inputs b) !! r = Some (Some l).
Proof.
  intros Hok. unfold find_port_at. split.
  - intros H. apply bind_Some in H as ([b o'] & E & H). apply ref_at_ok in E as [Hb [H1 H2]]; [|done]. cbn [fst snd] in *.
    destruct (has_port _ _) eqn:Hp; [|done]. injection H as <- <-. apply has_port_true in Hp as [l Hl].
    exists b, l. split_and!; [done|done|lia|lia|done].
  - intros (b & l & Hb & Hx & Hy & Hr & Hp).
    assert (ref_at a x y = Some (b, o)) as E by (apply ref_at_ok; [done|]; split; [done|]; split; cbn [fst snd]; [done|lia]).
    rewrite E. cbn [mbind option_bind]. replace (Z.to_nat (y - o.2)) with r by lia.
    assert (has_port (if out then b_outputs b else b_inputs b) r = true) as -> by (apply has_port_true; eauto). done.
Qed.

Lemma neighbours_elem a b o q : area_ok a -> a_blocks a !! o = Some b -> q ∈ neighbours a b o <-> conn_in (a_blocks a) o q.
Proof.
  intros Hok Hb. unfold neighbours. rewrite elem_of_list_omap. split.
  - intros ([[x y] out] & Hc & Hf). cbn [fst snd] in *. apply fmap_Some in Hf as ([q' r] & Hf & ->). cbn [fst].
    apply find_port_ok in Hf as (b' & l & Hb' & Hx & Hy & Hr & Hp); [|done].
    unfold port_cells in Hc. apply elem_of_app in Hc as [Hc|Hc]; apply elem_of_list_fmap in Hc as (r' & E & Hr'); injection E as -> -> ->;
      apply port_rows_elem in Hr' as (Hlt & l' & Hl').
    + right. exists b', b, (o.2 + Z.of_nat r')%Z. split_and!; [done|done|lia| |].
      * exists r, l. split_and!; [done|done|lia].
      * exists r', l'. split_and!; [done|done|lia].
    + left. exists b, b', (o.2 + Z.of_nat r')%Z. split_and!; [done|done|lia| |].
      * exists r', l'. split_and!; [done|done|lia].
      * exists r, l. split_and!; [done|done|lia].
  - intros [(b1 & b2 & y & E1 & E2 & Hx & (r1 & l1 & R1 & P1 & Y1) & (r2 & l2 & R2 & P2 & Y2))
           |(b1 & b2 & y & E1 & E2 & Hx & (r1 & l1 & R1 & P1 & Y1) & (r2 & l2 & R2 & P2 & Y2))].
    + rewrite Hb in E1. injection E1 as <-. exists ((o.1 + 1)%Z, (o.2 + Z.of_nat r1)%Z, false). split.
      * unfold port_cells. apply elem_of_app. right. apply elem_of_list_fmap. exists r1. split; [done|]. apply port_rows_elem. eauto.
      * cbn [fst snd]. assert (find_port_at a (o.1 + 1) (o.2 + Z.of_nat r1) false = Some (q, r2)) as ->; [|done].
        apply find_port_ok; [done|]. exists b2, l2. split_and!; [done|done|lia|done|done].
    + rewrite Hb in E2. injection E2 as <-. exists ((o.1 - 1)%Z, (o.2 + Z.of_nat r2)%Z, true). split.
      * unfold port_cells. apply elem_of_app. left. apply elem_of_list_fmap. exists r2. split; [done|]. apply port_rows_elem. eauto.
      * cbn [fst snd]. assert (find_port_at a (o.1 - 1) (o.2 + Z.of_nat r2) true = Some (q, r1)) as ->; [|done].
        apply find_port_ok; [done|]. exists b1, l1. split_and!; [done|lia|lia|done|done].
Qed.
Lemma conn_dom bs o q : conn_in bs o q -> is_Some (bs !! q) /\ is_Some (bs !! o).
Proof. intros [(b1 & b2 & y & E1 & E2 & _)|(b1 & b2 & y & E1 & E2 & _)]; split; eauto. Qed.
Lemma conn_sym bs o q : conn_in bs o q -> conn_in bs q o.
Proof. intros [?|?]; [by right|by left]. Qed.

Lemma ref_at_origin a o b : area_ok a -> a_blocks a !! o = Some b -> ref_at a o.1 o.2 = Some (b, o).
Proof.
  intros Hok Hb. apply ref_at_ok; [done|]. split; [done|]. rewrite <- surjective_pairing. apply covers_self.
  destruct Hok as (_ & Hr & _). by eapply Hr.
Qed.

Lemma chain_loop_ok a o : area_ok a -> forall fuel dq s r,
  (forall p, p ∈ dq \/ p ∈ s -> is_Some (a_blocks a !! p) /\ rtc (conn_in (a_blocks a)) o p) ->
  (forall p q, p ∈ s -> conn_in (a_blocks a) p q -> q ∈ s \/ q ∈ dq) ->
  (o ∈ s \/ o ∈ dq) ->
  chain_loop fuel a dq s = Some r ->
  forall p, p ∈ r <-> rtc (conn_in (a_blocks a)) o p.
Proof.
  intros Hok. induction fuel as [|fuel IH]; intros dq s r Hin Hcl Ho H; cbn [chain_loop] in H; [done|].
  destruct dq as [|d dq].
  { injection H as <-. destruct Ho as [Ho|Ho]; [|by apply elem_of_nil in Ho].
    intros p. split; [intros Hp; apply Hin; by right|]. intros Hp. revert Ho. clear Hin IH. induction Hp as [|x y z Hxy Hyz IHr]; [done|].
    intros Hx. apply IHr. destruct (Hcl _ _ Hx Hxy) as [Hq|Hq]; [done|by apply elem_of_nil in Hq]. }
  destruct (Hin d) as [[b Hb] Hr]; [left; left|]. rewrite (ref_at_origin _ _ _ Hok Hb) in H.
  case_bool_decide as Hd.
  - eapply IH; [| | |exact H].
    + intros p [Hp|Hp]; apply Hin; [left; by right|by right].
    + intros p q Hp Hpq. destruct (Hcl _ _ Hp Hpq) as [Hq|Hq]; [by left|]. apply elem_of_cons in Hq as [E|Hq]; [subst; by left|by right].
    + destruct Ho as [Ho|Ho]; [by left|]. apply elem_of_cons in Ho as [E|Ho]; [subst; by left|by right].
  - eapply IH; [| | |exact H].
    + intros p [Hp|Hp].
      * apply elem_of_app in Hp as [Hp|Hp]; [apply Hin; left; by right|]. apply neighbours_elem in Hp; [|done|done].
        split; [by apply conn_dom in Hp as [? _]|]. eapply rtc_r; [done|done].
      * apply elem_of_union in Hp as [Hp|Hp]; [apply elem_of_singleton in Hp as ->; split; [by eexists|done]|apply Hin; by right].
    + intros p q Hp Hpq. rewrite elem_of_union, elem_of_app, elem_of_singleton. apply elem_of_union in Hp as [Hp|Hp].
      * apply elem_of_singleton in Hp as ->. right. right. by apply neighbours_elem.
      * destruct (Hcl _ _ Hp Hpq) as [Hq|Hq]; [by left; right|]. apply elem_of_cons in Hq as [E|Hq]; [subst; left; by left|right; by left].
    + rewrite elem_of_union, elem_of_app, elem_of_singleton. destruct Ho as [Ho|Ho]; [left; by right|].
      apply elem_of_cons in Ho as [E|Ho]; [left; by left|right; by left].
Qed.

(** enough fuel *)
Definition pending (l : list (Z * Z * block)) (s : gset (Z * Z)) : nat :=
  sum_list ((fun p : (Z * Z) * block => if bool_decide (p.1 ∈ s) then 0 else 2 * b_rows p.2) <$> l).
Lemma pending_visit (l : list ((Z * Z) * block)) s o b : NoDup l.*1 -> (o, b) ∈ l -> o ∉ s -> pending l s = pending l ({[o]} ∪ s) + 2 * b_rows b.
Proof.
  unfold pending. induction l as [|[o' b'] l IH]; intros Hn Hin Hs; [by apply elem_of_nil in Hin|].
  rewrite fmap_cons in Hn. apply NoDup_cons in Hn as [Hn1 Hn2]. rewrite !fmap_cons. cbn [fst snd sum_list_with sum_list] in *.
  apply elem_of_cons in Hin as [[= -> ->]|Hin].
  - rewrite bool_decide_eq_false_2 by done. rewrite bool_decide_eq_true_2 by set_solver.
    assert (((λ p : Z * Z * block, if bool_decide (p.1 ∈ s) then 0 else 2 * b_rows p.2) <$> l) =
            ((λ p : Z * Z * block, if bool_decide (p.1 ∈ {[o']} ∪ s) then 0 else 2 * b_rows p.2) <$> l)) as ->; [|cbn; lia].
    apply list_fmap_ext. intros i [o2 b2] H2. cbn [fst snd]. assert (o2 <> o').
    { intros ->. apply Hn1. apply elem_of_list_fmap. exists (o', b2). split; [done|]. by eapply elem_of_list_lookup_2. }
    assert (bool_decide (o2 ∈ s) = bool_decide (o2 ∈ {[o']} ∪ s)) as -> by (apply bool_decide_ext; set_solver). done.
  - rewrite (IH Hn2 Hin Hs). assert (o' <> o).
    { intros ->. apply Hn1. apply elem_of_list_fmap. by exists (o, b). }
    assert (bool_decide (o' ∈ s) = bool_decide (o' ∈ {[o]} ∪ s)) as -> by (apply bool_decide_ext; set_solver). cbn. lia.
Qed.
Lemma port_rows_length rows ps : length (port_rows rows ps) <= rows.
Proof. unfold port_rows. rewrite <- (seq_length rows 0) at 2. apply filter_length. Qed.
Lemma omap_length {A B} (g : A -> option B) (l : list A) : length (omap g l) <= length l.
Proof. induction l as [|x l IH]; [done|]. cbn. destruct (g x); cbn; lia. Qed.
Lemma neighbours_length a b o : length (neighbours a b o) <= 2 * b_rows b.
Proof.
  unfold neighbours. etransitivity; [apply omap_length|]. unfold port_cells. rewrite app_length, !fmap_length.
  pose proof (port_rows_length (b_rows b) (b_inputs b)). pose proof (port_rows_length (b_rows b) (b_outputs b)). lia.
Qed.
Lemma chain_loop_total a : area_ok a -> forall fuel dq s, length dq + pending (map_to_list (a_blocks a)) s < fuel ->
  is_Some (chain_loop fuel a dq s).
Proof.
  intros Hok. induction fuel as [|fuel IH]; intros dq s Hf; [lia|]. cbn [chain_loop]. destruct dq as [|d dq]; [by eexists|].
  cbn [length] in Hf. destruct (ref_at a d.1 d.2) as [[b o]|] eqn:E; [|apply IH; lia].
  case_bool_decide as Hd; [apply IH; lia|]. apply IH. rewrite app_length. pose proof (neighbours_length a b o).
  apply ref_at_ok in E as [Hb _]; [|done]. rewrite (pending_visit _ s o b) in Hf; [lia| |by apply elem_of_map_to_list|done].
  apply NoDup_fst_map_to_list.
Qed.
Lemma chain_at_ok a x y : area_ok a ->
  exists r, chain_at a x y = Some r /\
    match r with
    | None => forall o b, a_blocks a !! o = Some b -> ~ covers o b (x, y)
    | Some s => exists o b, a_blocks a !! o = Some b /\ covers o b (x, y) /\ forall p, p ∈ s <-> rtc (conn_in (a_blocks a)) o p
    end.
Proof.
  intros Hok. unfold chain_at. destruct (ref_at a x y) as [[b o]|] eqn:E.
  - destruct (chain_loop_total a Hok (chain_fuel a) [o] ∅) as [s Hs].
    { unfold chain_fuel, pending. cbn [length].
      rewrite (list_fmap_ext (λ p : Z * Z * block, if bool_decide (p.1 ∈ (∅ : gset (Z * Z))) then 0 else 2 * b_rows p.2)
                             (λ p : Z * Z * block, 2 * b_rows p.2)); [lia|].
      intros i p _. rewrite bool_decide_eq_false_2; [done|set_solver]. }
    rewrite Hs. cbn [mbind option_bind]. eexists. split; [done|]. apply ref_at_ok in E as [Hb Hc]; [|done].
    exists o, b. split_and!; [done|done|]. eapply chain_loop_ok; [done| | | |exact Hs].
    + intros p [Hp|Hp]; [|set_solver]. apply elem_of_list_singleton in Hp as ->. split; [by eexists|constructor].
    + intros p q Hp. set_solver.
    + right. by apply elem_of_list_singleton.
  - eexists. split; [done|]. intros o b Hb Hc. assert (ref_at a x y = Some (b, o)) by (by apply ref_at_ok). congruence.
Qed.

(** ** Counting ids *)
Definition lcnt (l : list (block * (Z * Z))) (n : nat) : nat := length (filter (fun p : block * (Z * Z) => b_id p.1 = n) l).
Definition bcnt (bs : gmap (Z * Z) block) (n : nat) : nat := length (filter (fun p : (Z * Z) * block => b_id p.2 = n) (map_to_list bs)).
Definition one (b : block) (n : nat) : nat := if decide (b_id b = n) then 1 else 0.
Definition fcnt (fs : list area) (n : nat) : nat := sum_list ((fun a => bcnt (a_blocks a) n) <$> fs).

Lemma lcnt_cons p l n : lcnt (p :: l) n = one p.1 n + lcnt l n.
Proof. unfold lcnt, one. rewrite filter_cons. destruct (decide _); done. Qed.
Lemma lcnt_app l l' n : lcnt (l ++ l') n = lcnt l n + lcnt l' n.
Proof. unfold lcnt. by rewrite filter_app, app_length. Qed.
Lemma lcnt_perm l l' n : l ≡ₚ l' -> lcnt l n = lcnt l' n.
Proof. intros E. unfold lcnt. apply Permutation_length. by apply filter_Permutation. Qed.
Lemma lcnt_fmap (g : block * (Z * Z) -> block * (Z * Z)) l n : (forall p, b_id (g p).1 = b_id p.1) -> lcnt (g <$> l) n = lcnt l n.
Proof.
  intros Hg. induction l as [|p l IH]; [done|]. rewrite fmap_cons, !lcnt_cons, IH. unfold one. by rewrite Hg.
Qed.
Lemma bcnt_empty n : bcnt ∅ n = 0.
Proof. unfold bcnt. by rewrite map_to_list_empty. Qed.
Lemma bcnt_insert bs o b n : bs !! o = None -> bcnt (<[o := b]> bs) n = one b n + bcnt bs n.
Proof.
  intros H. unfold bcnt, one.
  assert (filter (λ p : Z * Z * block, b_id p.2 = n) (map_to_list (<[o:=b]> bs)) ≡ₚ
          filter (λ p : Z * Z * block, b_id p.2 = n) ((o, b) :: map_to_list bs)) as E
    by (apply filter_Permutation; by apply map_to_list_insert).
  rewrite E, filter_cons. cbn [snd]. destruct (decide (b_id b = n)); done.
Qed.
Lemma bcnt_delete bs o b n : bs !! o = Some b -> bcnt bs n = one b n + bcnt (delete o bs) n.
Proof. intros H. rewrite <- (insert_delete bs o b H) at 1. apply bcnt_insert, lookup_delete. Qed.
Lemma bcnt_replace bs o b b' n : bs !! o = Some b -> b_id b' = b_id b -> bcnt (<[o := b']> bs) n = bcnt bs n.
Proof.
  intros H E. rewrite <- insert_delete_insert. rewrite bcnt_insert by apply lookup_delete.
  rewrite (bcnt_delete bs o b n H). unfold one. by rewrite E.
Qed.
Lemma bcnt_put l n : forall bs, NoDup l.*2 -> (forall p, p ∈ l -> bs !! p.2 = None) -> bcnt (put_load bs l) n = lcnt l n + bcnt bs n.
Proof.
  induction l as [|p l IH]; intros bs Hn Hb; [done|]. rewrite fmap_cons in Hn. apply NoDup_cons in Hn as [Hn1 Hn2].
  cbn [put_load foldl]. fold (put_load (<[p.2:=p.1]> bs) l). rewrite IH.
  - rewrite bcnt_insert, lcnt_cons; [lia|]. apply Hb. left.
  - done.
  - intros q Hq. rewrite lookup_insert_ne; [apply Hb; by right|]. intros E. apply Hn1. rewrite E. apply elem_of_list_fmap. by exists q.
Qed.
Lemma bcnt_pos bs o b : bs !! o = Some b -> 0 < bcnt bs (b_id b).
Proof. intros H. rewrite (bcnt_delete _ _ _ _ H). unfold one. destruct (decide _); [lia|done]. Qed.
Lemma bcnt_two bs o1 o2 b1 b2 : bs !! o1 = Some b1 -> bs !! o2 = Some b2 -> b_id b1 = b_id b2 -> o1 <> o2 -> 1 < bcnt bs (b_id b1).
Proof.
  intros H1 H2 E N. rewrite (bcnt_delete _ _ _ _ H1), (bcnt_delete (delete o1 bs) o2 b2) by (by rewrite lookup_delete_ne).
  unfold one. rewrite decide_True by done. rewrite decide_True by done. lia.
Qed.
Lemma fcnt_cons a fs n : fcnt (a :: fs) n = bcnt (a_blocks a) n + fcnt fs n.
Proof. done. Qed.
Lemma fcnt_insert fs i a a' n : fs !! i = Some a -> fcnt (<[i := a']> fs) n + bcnt (a_blocks a) n = fcnt fs n + bcnt (a_blocks a') n.
Proof.
  revert i. induction fs as [|c fs IH]; intros [|i] H; cbn [lookup list_lookup] in H; [done|done| |].
  - injection H as ->. cbn [insert list_insert]. rewrite !fcnt_cons. lia.
  - specialize (IH _ H). change (<[S i := a']> (c :: fs)) with (c :: <[i := a']> fs). rewrite !fcnt_cons. lia.
Qed.
Lemma fcnt_app fs fs' n : fcnt (fs ++ fs') n = fcnt fs n + fcnt fs' n.
Proof. induction fs as [|a fs IH]; [done|]. cbn [app]. rewrite !fcnt_cons, IH. lia. Qed.
Lemma fcnt_ge fs i a n : fs !! i = Some a -> bcnt (a_blocks a) n <= fcnt fs n.
Proof.
  revert i. induction fs as [|c fs IH]; intros [|i] H; cbn [lookup list_lookup] in H; [done|done| |]; rewrite fcnt_cons.
  - injection H as ->. lia.
  - specialize (IH _ H). lia.
Qed.
Lemma fcnt_two fs i j a a' n : fs !! i = Some a -> fs !! j = Some a' -> i <> j -> bcnt (a_blocks a) n + bcnt (a_blocks a') n <= fcnt fs n.
Proof.
  revert i j. induction fs as [|c fs IH]; intros [|i] [|j] H H' N; cbn [lookup list_lookup] in *; try done; rewrite fcnt_cons.
  - injection H as ->. pose proof (fcnt_ge _ _ _ n H'). lia.
  - injection H' as ->. pose proof (fcnt_ge _ _ _ n H). lia.
  - assert (i <> j) as N' by congruence. specialize (IH _ _ H H' N'). lia.
Qed.

(** ** Taking a chain out of an area *)
Lemma area_remove_ok a o b : area_ok a -> a_blocks a !! o = Some b ->
  area_remove_at a o.1 o.2 = Some (a_with_blocks a (delete o (a_blocks a)), (b, o)).
Proof.
  intros Hok Hb. pose proof (ref_at_origin _ _ _ Hok Hb) as H. unfold ref_at in H. unfold area_remove_at.
  apply bind_Some in H as (o' & E & H). apply bind_Some in H as (b' & E' & [= -> ->]). rewrite E. cbn [mbind option_bind]. by rewrite E'.
Qed.
Lemma area_remove_inv a x y a' b o : area_ok a -> area_remove_at a x y = Some (a', (b, o)) ->
  a_blocks a !! o = Some b /\ covers o b (x, y) /\ a' = a_with_blocks a (delete o (a_blocks a)).
Proof.
  intros Hok H. assert (ref_at a x y = Some (b, o)) as E.
  { unfold area_remove_at in H. unfold ref_at. apply bind_Some in H as (o' & -> & H). apply bind_Some in H as (b' & E & [= <- <- <-]).
    cbn [mbind option_bind]. by rewrite E. }
  apply ref_at_ok in E as [Hb Hc]; [|done]. split; [done|]. split; [done|].
  unfold area_remove_at in H. apply bind_Some in H as (o' & E & H). apply bind_Some in H as (b' & E' & [= <- <- <-]). done.
Qed.

Definition rm_step (st : area * list (block * (Z * Z))) (p : Z * Z) : area * list (block * (Z * Z)) :=
  match area_remove_at st.1 p.1 p.2 with Some (a, q) => (a, st.2 ++ [q]) | None => st end.
Lemma rm_fold ps : forall a l, area_ok a -> NoDup ps -> (forall p, p ∈ ps -> is_Some (a_blocks a !! p)) ->
  exists a' l', foldl rm_step (a, l) ps = (a', l ++ l') /\ area_ok a' /\ a_size a' = a_size a /\ a_shrink a' = a_shrink a /\ a_header a' = a_header a /\
    (forall o b, a_blocks a' !! o = Some b <-> o ∉ ps /\ a_blocks a !! o = Some b) /\
    l'.*2 = ps /\ (forall b o, (b, o) ∈ l' -> a_blocks a !! o = Some b) /\
    (forall n, bcnt (a_blocks a) n = lcnt l' n + bcnt (a_blocks a') n).
Proof.
  induction ps as [|p ps IH]; intros a l Hok Hn Hd; cbn [foldl].
  { exists a, []. rewrite app_nil_r. split_and!; try done.
    - intros o b. split; [intros H; split; [apply not_elem_of_nil|done]|by intros [_ H]].
    - intros b o H. by apply elem_of_nil in H. }
  apply NoDup_cons in Hn as [Hn1 Hn2]. destruct (Hd p) as [b Hb]; [left|].
  assert (rm_step (a, l) p = (a_with_blocks a (delete p (a_blocks a)), l ++ [(b, p)])) as ->.
  { unfold rm_step. cbn [fst snd]. by rewrite (area_remove_ok _ _ _ Hok Hb). }
  destruct (IH (a_with_blocks a (delete p (a_blocks a))) (l ++ [(b, p)])) as (a' & l' & -> & Hok' & Hz & Hs & Hh & Hbl & Hl & Hlb & Hc).
  - destruct Hok as (H1 & H2 & H3). apply area_ok_with; [by apply delete_apart|by apply delete_rows].
  - done.
  - intros q Hq. cbn [a_with_blocks a_blocks]. rewrite lookup_delete_ne; [apply Hd; by right|]. intros ->. done.
  - cbn [a_with_blocks a_blocks a_size a_shrink a_header] in *. exists a', ((b, p) :: l'). split_and!; try done.
    + by rewrite <- app_assoc.
    + intros o b'. rewrite Hbl, lookup_delete_Some, not_elem_of_cons. split; [intros (? & ? & ?); split_and!; congruence || done|].
      intros ((? & ?) & ?). split_and!; congruence || done.
    + rewrite fmap_cons. by rewrite Hl.
    + intros b' o H. apply elem_of_cons in H as [[= -> ->]|H]; [done|]. apply Hlb in H. by apply lookup_delete_Some in H as [_ H].
    + intros n. rewrite lcnt_cons, (bcnt_delete _ _ _ _ Hb), Hc. cbn [fst]. lia.
Qed.
Lemma remove_load_ok a s : area_ok a -> (forall p, p ∈ s -> is_Some (a_blocks a !! p)) ->
  exists a' l, remove_load a s = (a', l) /\ area_ok a' /\ a_size a' = a_size a /\ a_shrink a' = a_shrink a /\ a_header a' = a_header a /\
    (forall o b, a_blocks a' !! o = Some b <-> o ∉ s /\ a_blocks a !! o = Some b) /\
    load_ok l /\ (forall b o, (b, o) ∈ l <-> o ∈ s /\ a_blocks a !! o = Some b) /\
    (forall n, bcnt (a_blocks a) n = lcnt l n + bcnt (a_blocks a') n).
Proof.
  intros Hok Hs. destruct (rm_fold (elements s) a [] Hok) as (a' & l & E & Hok' & Hz & Hsh & Hh & Hbl & Hl & Hlb & Hc).
  - apply NoDup_elements.
  - intros p Hp. apply Hs. by apply elem_of_elements.
  - exists a', (load_sort l). cbn [app] in E. split_and!; try done.
    + unfold remove_load. fold rm_step. by rewrite E.
    + intros o b. by rewrite Hbl, elem_of_elements.
    + eapply load_ok_perm; [symmetry; apply load_sort_perm|]. split; [rewrite Hl; apply NoDup_elements|]. split.
      * intros [b1 o1] [b2 o2] H1 H2 (c & C1 & C2). apply Hlb in H1, H2. destruct Hok as (Ha & _). cbn [fst snd] in *. by eapply Ha.
      * intros [b o] H. apply Hlb in H. destruct Hok as (_ & Hr & _). by eapply Hr.
    + intros b o. rewrite load_sort_perm. split.
      * intros H. split; [|by apply Hlb]. apply elem_of_elements. rewrite <- Hl. apply elem_of_list_fmap. by exists (b, o).
      * intros [H1 H2]. apply elem_of_elements in H1. rewrite <- Hl in H1. apply elem_of_list_fmap in H1 as ([b' o'] & -> & H).
        pose proof (Hlb _ _ H) as H3. cbn [snd] in *. rewrite H2 in H3. by injection H3 as ->.
    + intros n. rewrite Hc. f_equal. apply lcnt_perm. symmetry. apply load_sort_perm.
Qed.

(** Putting a load into an area with space for it. *)
Lemma place_ok a l : area_ok a -> load_ok l -> has_space a l 0 0 = true ->
  area_ok (set_blocks_from a l) /\ (forall n, bcnt (a_blocks (set_blocks_from a l)) n = lcnt l n + bcnt (a_blocks a) n).
Proof.
  intros Hok Hl Hs. unfold has_space in Hs. rewrite forallb_forall in Hs.
  assert (forall p, p ∈ l -> clear_of (a_blocks a) p) as Hc.
  { intros p Hp o b c Hb C1 [C2 C3]. apply elem_of_list_In in Hp. specialize (Hs _ Hp). rewrite !Z.add_0_r in Hs.
    eapply space_at_ok; [done|exact Hs|done|done|done|done]. }
  destruct Hok as (Ha & Hr & Ho). unfold set_blocks_from. fold (put_load (a_blocks a) l).
  destruct (put_load_ok l (a_blocks a)) as [H1 H2]; [done|done|done|done|]. split.
  - by apply area_ok_with.
  - intros n. cbn [a_with_blocks a_blocks]. apply bcnt_put; [by destruct Hl|]. intros p Hp.
    destruct (a_blocks a !! p.2) as [b|] eqn:E; [|done]. exfalso. eapply (Hc p Hp p.2 b p.2); [done| |].
    + apply covers_self. by eapply Hr.
    + apply covers_self. destruct Hl as (_ & _ & Hl). by apply Hl.
Qed.
