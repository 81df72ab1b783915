(** C70: after the sizes were recalculated, all areas that are shown are large enough for what is in them *)
From stdpp Require Import strings.
From Verif Require Import Base M_Block M_Size S_Block S_Edit S_Size L_Block L_Block2 L_Block3 P_Block P_Edit.
Open Scope string_scope.
Open Scope list_scope.
Open Scope nat_scope.

(** *** The size that is made for one area *)
Definition cell_le (W H : nat) (p : Z * Z) : Prop := Z.to_nat p.1 + 1 <= W /\ Z.to_nat p.2 + 1 <= H.
Definition block_le (sub : nat -> nat * nat) (W H : nat) (p : Z * Z) (b : block) : Prop :=
  (forall s, (b_contains b).1 = Some s -> Z.to_nat p.1 + (sub s).1 + 1 <= W /\ Z.to_nat p.2 + ((sub s).2 + 1) + 1 <= H) /\
  (forall s, (b_contains b).2 = Some s -> Z.to_nat p.1 + (sub s).1 + 1 <= W /\
     Z.to_nat p.2 + ((sub s).2 + from_option (fun s1 => 1 + ((sub s1).2 + 1)) 1 (b_contains b).1) + 1 <= H).
Lemma cells_fold W H (l : list ((Z * Z) * (Z * Z))) : forall m, let r := foldl (fun (m : nat * nat) (p : (Z * Z) * (Z * Z)) =>
    (Nat.max m.1 (Z.to_nat p.1.1 + 1), Nat.max m.2 (Z.to_nat p.1.2 + 1))) m l in
  (r.1 <= W /\ r.2 <= H) <-> (m.1 <= W /\ m.2 <= H) /\ forall p, p ∈ l -> cell_le W H p.1.
Proof.
  induction l as [|q l IH]; intros m; cbn [foldl].
  - split; [intros ?; split; [done|]; by intros p ?%elem_of_nil|by intros [? _]].
  - cbn zeta in IH |- *. rewrite IH. cbn [fst snd]. unfold cell_le. setoid_rewrite elem_of_cons. split.
    + intros [? Hl]. split; [lia|]. intros p [->|Hp]; [lia|by apply Hl].
    + intros [? Hl]. specialize (Hl q (or_introl eq_refl)) as Hq. split; [lia|]. intros p Hp. apply Hl. by right.
Qed.
Definition bstep (sub : nat -> nat * nat) (m : nat * nat) (p : (Z * Z) * block) : nat * nat :=
  let x := Z.to_nat p.1.1 in let y := Z.to_nat p.1.2 in
  let '(m, ph) := match (b_contains p.2).1 with
                  | Some s => let '(sw, sh) := sub s in let sh := sh + 1 in ((Nat.max m.1 (x + sw + 1), Nat.max m.2 (y + sh + 1)), 1 + sh)
                  | None => (m, 1)
                  end in
  match (b_contains p.2).2 with
  | Some s => let '(sw, sh) := sub s in let sh := sh + ph in (Nat.max m.1 (x + sw + 1), Nat.max m.2 (y + sh + 1))
  | None => m
  end.
Lemma bstep_le sub W H m p : ((bstep sub m p).1 <= W /\ (bstep sub m p).2 <= H) <-> (m.1 <= W /\ m.2 <= H) /\ block_le sub W H p.1 p.2.
Proof.
  unfold bstep, block_le. destruct (b_contains p.2) as [[c|] [d|]]; cbn [fst snd from_option].
  - destruct (sub c) as [w1 h1] eqn:E1, (sub d) as [w2 h2] eqn:E2. cbn [fst snd]. split.
    + intros [? ?]. split; [lia|]. split; intros s [= <-]; [rewrite E1|rewrite E2]; cbn [fst snd]; lia.
    + intros (? & H1 & H2). specialize (H1 _ eq_refl). specialize (H2 _ eq_refl). rewrite E1 in H1. rewrite E2 in H2. cbn [fst snd] in *. lia.
  - destruct (sub c) as [w1 h1] eqn:E1. cbn [fst snd]. split.
    + intros [? ?]. split; [lia|]. split; intros s [= <-]. rewrite E1. cbn [fst snd]. lia.
    + intros (? & H1 & _). specialize (H1 _ eq_refl). rewrite E1 in H1. cbn [fst snd] in *. lia.
  - destruct (sub d) as [w2 h2] eqn:E2. cbn [fst snd]. split.
    + intros [? ?]. split; [lia|]. split; intros s [= <-]. rewrite E2. cbn [fst snd]. lia.
    + intros (? & _ & H2). specialize (H2 _ eq_refl). rewrite E2 in H2. cbn [fst snd] in *. lia.
  - split; [intros ?; split; [done|]; split; by intros s [=]|by intros [? _]].
Qed.
Lemma blocks_fold sub W H l : forall m, ((foldl (bstep sub) m l).1 <= W /\ (foldl (bstep sub) m l).2 <= H) <->
  (m.1 <= W /\ m.2 <= H) /\ forall p, p ∈ l -> block_le sub W H p.1 p.2.
Proof.
  induction l as [|q l IH]; intros m; cbn [foldl].
  - split; [intros ?; split; [done|]; by intros p ?%elem_of_nil|by intros [? _]].
  - rewrite IH, bstep_le. setoid_rewrite elem_of_cons. split.
    + intros [[? ?] Hl]. split; [done|]. intros p [->|Hp]; [done|by apply Hl].
    + intros [? Hl]. split; [split; [done|apply Hl; by left]|]. intros p Hp. apply Hl. by right.
Qed.
Lemma resolve_le a sub W H : ((resolve_size a sub).1 <= W /\ (resolve_size a sub).2 <= H) <->
  1 <= W /\ 1 <= H /\ (forall c o, a_origin a !! c = Some o -> cell_le W H c) /\ (forall p b, a_blocks a !! p = Some b -> block_le sub W H p b) /\
  (a_shrink a = false -> (a_size a).1 <= W /\ (a_size a).2 <= H).
Proof.
  unfold resolve_size. fold (bstep sub).
  destruct (foldl (fun (m : nat * nat) (p : (Z * Z) * (Z * Z)) => (Nat.max m.1 (Z.to_nat p.1.1 + 1), Nat.max m.2 (Z.to_nat p.1.2 + 1))) (1, 1) (map_to_list (a_origin a))) as [w0 h0] eqn:E0.
  pose proof (cells_fold W H (map_to_list (a_origin a)) (1, 1)) as Hc. cbn zeta in Hc. rewrite E0 in Hc. cbn [fst snd] in Hc.
  pose proof (blocks_fold sub W H (map_to_list (a_blocks a)) (w0, h0)) as Hb. destruct (foldl (bstep sub) (w0, h0) (map_to_list (a_blocks a))) as [w h]. cbn [fst snd] in Hb.
  assert ((w <= W /\ h <= H) <-> 1 <= W /\ 1 <= H /\ (forall c o, a_origin a !! c = Some o -> cell_le W H c) /\ (forall p b, a_blocks a !! p = Some b -> block_le sub W H p b)) as Hwh.
  { rewrite Hb, Hc. split.
    - intros [[? Hx] Hy]. split_and!; [lia|lia| |].
      + intros c o Ho. apply (Hx (c, o)). by apply elem_of_map_to_list.
      + intros p b Hp. apply (Hy (p, b)). by apply elem_of_map_to_list.
    - intros (? & ? & Hx & Hy). split; [split; [lia|]|].
      + intros [c o] Ho%elem_of_map_to_list. by eapply Hx.
      + intros [p b] Hp%elem_of_map_to_list. by eapply Hy. }
  destruct (a_shrink a) eqn:Es; cbn [fst snd].
  - rewrite Hwh. split; [intros (? & ? & ? & ?)|intros (? & ? & ? & ? & _)]; split_and!; done.
  - split.
    + intros [? ?]. destruct (proj1 Hwh ltac:(lia)) as (? & ? & ? & ?). split_and!; try done; intros; lia.
    + intros (? & ? & ? & ? & Hs). specialize (Hs eq_refl). destruct (proj2 Hwh ltac:(done)). lia.
Qed.
Lemma pair_le_eq (p q : nat * nat) : (forall W H, (p.1 <= W /\ p.2 <= H) <-> (q.1 <= W /\ q.2 <= H)) -> p = q.
Proof.
  intros Hpq. destruct (proj1 (Hpq p.1 p.2) ltac:(lia)), (proj2 (Hpq q.1 q.2) ltac:(lia)). destruct p, q; cbn [fst snd] in *. f_equal; lia.
Qed.
Lemma resolve_ext a sub sub' : (forall s, s ∈ sub_areas a -> sub s = sub' s) -> resolve_size a sub = resolve_size a sub'.
Proof.
  intros Hs. apply pair_le_eq. intros W H. rewrite !resolve_le.
  assert (forall p b, a_blocks a !! p = Some b -> block_le sub W H p b <-> block_le sub' W H p b) as Hb.
  { intros p b Hb. assert (forall s, s ∈ block_subs b -> sub s = sub' s) as Hs' by (intros s Hx; apply Hs, sub_areas_elem; eauto).
    unfold block_subs in Hs'. unfold block_le. destruct (b_contains b) as [[c|] [d|]]; cbn [fst snd from_option opt_list app] in *.
    - pose proof (Hs' c ltac:(left)) as E1. pose proof (Hs' d ltac:(right; left)) as E2. split; intros [H1 H2]; (split; intros s [= <-]).
      + rewrite <- E1. by apply H1. + rewrite <- E1, <- E2. by apply H2. + rewrite E1. by apply H1. + rewrite E1, E2. by apply H2.
    - pose proof (Hs' c ltac:(left)) as E1. split; intros [H1 H2]; (split; intros s [= <-]).
      + rewrite <- E1. by apply H1. + rewrite E1. by apply H1.
    - pose proof (Hs' d ltac:(left)) as E2. split; intros [H1 H2]; (split; intros s [= <-]).
      + rewrite <- E2. by apply H2. + rewrite E2. by apply H2.
    - split; intros _; (split; by intros s [=]). }
  split; intros (? & ? & ? & Hx & ?); (split_and!; try done); intros p b Hp; (apply (Hb p b Hp), Hx; done).
Qed.
Lemma resolve_again a sub : let a' := Area (a_blocks a) (a_origin a) (resolve_size a sub) (a_shrink a) (a_header a) in resolve_size a' sub = resolve_size a sub.
Proof.
  apply pair_le_eq. intros W H. rewrite resolve_le. cbn [a_blocks a_origin a_shrink a_size]. split.
  - intros (? & ? & Hc & Hb & Hs). destruct (a_shrink a) eqn:E; [apply resolve_le; split_and!; try done; by rewrite E|]. by apply Hs.
  - intros Hr. pose proof (proj1 (resolve_le a sub W H) Hr) as (? & ? & ? & ? & ?). split_and!; try done.
Qed.

(** *** From the root down *)
Section sizes.
  Context (fs0 : list area).
  Hypothesis Hlt : forall i s, edge fs0 i s -> s < length fs0.
  Hypothesis Hone : forall i i' s, edge fs0 i s -> edge fs0 i' s -> i = i'.
  Hypothesis Hroot : forall i, ~ edge fs0 i 0.
  Lemma edge_subs i a s : fs0 !! i = Some a -> edge fs0 i s <-> s ∈ sub_areas a.
  Proof using. intros Ha. rewrite sub_areas_elem. split; [intros (a' & o & b & Ha' & Hb & Hs); rewrite Ha in Ha'; injection Ha' as <-; eauto|]. intros (o & b & Hb & Hs). by exists a, o, b. Qed.

  Lemma parents_fold (i : nat) (subs : list nat) : forall (ps : list nat) (s : nat), foldl (fun (ps : list nat) (s : nat) => <[s := i]> ps) ps subs !! s = if decide (s ∈ subs /\ s < length ps) then Some i else ps !! s.
  Proof using.
    induction subs as [|t subs IH]; intros ps s; cbn [foldl].
    - rewrite decide_False; [done|]. by intros [?%elem_of_nil _].
    - rewrite IH, insert_length. destruct (decide (s ∈ subs /\ s < length ps)) as [[? ?]|Hn].
      + rewrite decide_True; [done|]. split; [by right|done].
      + destruct (decide (s ∈ t :: subs /\ s < length ps)) as [[Hs Hl]|Hn'].
        * apply elem_of_cons in Hs as [->|Hs]; [by rewrite list_lookup_insert|]. by destruct Hn.
        * destruct (decide (s = t)) as [->|Hne]; [|by rewrite list_lookup_insert_ne]. destruct (decide (t < length ps)) as [Hl|Hl]; [destruct Hn'; split; [by left|done]|].
          by rewrite list_insert_ge by lia.
  Qed.
  Lemma parents_length (i : nat) (subs : list nat) : forall (ps : list nat), length (foldl (fun (ps : list nat) (s : nat) => <[s := i]> ps) ps subs) = length ps.
  Proof using. induction subs as [|t subs IH]; intros ps; cbn [foldl]; [done|]. by rewrite IH, insert_length. Qed.

  Definition seen (D work ls ps : list nat) : Prop := forall i, i ∈ D -> exists a, fs0 !! i = Some a /\
    (sub_areas a = [] -> i ∈ ls) /\ forall s, s ∈ sub_areas a -> ps !! s = Some i /\ (s ∈ D \/ s ∈ work).
  Lemma down_spec : forall fuel work ps ss ls ps' ss' ls' D, length ps = length fs0 -> length ss = length fs0 -> seen D work ls ps ->
    recalc_down fuel fs0 work ps ss ls = Some (ps', ss', ls') ->
    exists D', (forall i, i ∈ D \/ i ∈ work -> i ∈ D') /\ seen D' [] ls' ps' /\ length ps' = length fs0 /\ length ss' = length fs0.
  Proof using Hlt Hone.
    induction fuel as [|fuel IH]; intros work ps ss ls ps' ss' ls' D Hps Hss Hseen H; [done|]. cbn [recalc_down] in H. destruct work as [|i work].
    - injection H as <- <- <-. exists D. split_and!; try done. intros j [?|?%elem_of_nil]; done.
    - apply bind_Some in H as (a & Ha & H). destruct (sub_areas a) as [|s0 subs] eqn:Es.
      + apply (IH _ _ _ _ _ _ _ (i :: D)) in H as (D' & H1 & H2 & H3 & H4); [|done|by rewrite insert_length|].
        * exists D'. split_and!; try done. intros j [Hj|[->|Hj]%elem_of_cons]; apply H1; [left; by right|left; by left|by right].
        * intros j [->|Hj]%elem_of_cons.
          -- exists a. split; [done|]. split; [intros _; by left|]. rewrite Es. by intros s ?%elem_of_nil.
          -- destruct (Hseen j Hj) as (b & Hb & Hl & Hs). exists b. split; [done|]. split; [intros ?; right; by apply Hl|]. intros s Hx. destruct (Hs s Hx) as [? Hd]. split; [done|].
             destruct Hd as [?|[->|?]%elem_of_cons]; [left; by right|left; by left|by right].
      + destruct (forallb _ (s0 :: subs)); [|done]. rewrite <- Es in H.
        apply (IH _ _ _ _ _ _ _ (i :: D)) in H as (D' & H1 & H2 & H3 & H4); [|by rewrite parents_length|by rewrite insert_length|].
        * exists D'. split_and!; try done. intros j [Hj|[->|Hj]%elem_of_cons]; apply H1; [left; by right|left; by left|right; apply elem_of_app; by right].
        * intros j [->|Hj]%elem_of_cons.
          -- exists a. split; [done|]. split; [by rewrite Es|]. intros s Hs. split.
             ++ rewrite parents_fold, decide_True; [done|]. split; [done|]. rewrite Hps. apply (Hlt i). by apply (edge_subs i a).
             ++ right. apply elem_of_app. left. apply elem_of_list_In, in_rev. rewrite rev_involutive. by apply elem_of_list_In.
          -- destruct (Hseen j Hj) as (b & Hb & Hl & Hs). exists b. split; [done|]. split; [done|]. intros s Hx. destruct (Hs s Hx) as [Hp Hd]. split.
             ++ rewrite parents_fold. destruct (decide _) as [[Hin _]|]; [|done]. f_equal. apply (Hone i j s); [by apply (edge_subs i a)|by apply (edge_subs j b)].
             ++ destruct Hd as [?|[->|?]%elem_of_cons]; [left; by right|left; by left|right; apply elem_of_app; by right].
  Qed.

  (** *** From the leaves up *)
  Definition sizef (ss : list (nat * nat)) (j : nat) : nat * nat := default (0, 0) (ss !! j).
  Definition settled (fs : list area) (ss : list (nat * nat)) (i : nat) : Prop := forall a, fs !! i = Some a -> a_size a = resolve_size a (sizef ss).
  Definition upinv (R V : nat -> Prop) (fs : list area) (work : list nat) (ss : list (nat * nat)) : Prop :=
    Forall2 same_blocks fs0 fs /\ length ss = length fs0 /\
    (forall i a, V i -> fs !! i = Some a -> ss !! i = Some (a_size a)) /\
    (forall i, R i -> i ∈ work \/ (V i /\ settled fs ss i) \/ exists c, edge fs0 i c /\ ~ V c).
  Lemma up_spec (R : nat -> Prop) (ps : list nat) : (forall k i, R k -> edge fs0 k i -> ps !! i = Some k /\ R i) -> (forall i, ~ edge fs0 i i) ->
    forall fuel V fs work ss fs', upinv R V fs work ss -> recalc_up fuel fs work ps ss = Some fs' -> exists V' ss', upinv R V' fs' [] ss'.
  Proof using Hlt Hroot.
    intros HR Hirr. induction fuel as [|fuel IH]; intros V fs work ss fs' Hinv H; [done|]. cbn [recalc_up] in H. destruct work as [|i work].
    - injection H as <-. by exists V, ss.
    - apply bind_Some in H as (a & Ha & H). destruct Hinv as (Hsame & Hls & Hv & Hr). eapply (IH (fun j => j = i \/ V j)); [|exact H]. clear H IH.
      fold (sizef ss). set (sz := resolve_size a (sizef ss)). set (a' := Area (a_blocks a) (a_origin a) sz (a_shrink a) (a_header a)).
      assert (Hi : i < length fs) by (by eapply lookup_lt_Some). assert (Hlen : length fs = length fs0) by (symmetry; by eapply Forall2_length).
      assert (Hoth : forall k b, k <> i -> fs !! k = Some b -> ~ edge fs0 k i -> resolve_size b (sizef (<[i:=sz]> ss)) = resolve_size b (sizef ss)).
      { intros k b Hk Hb Hn. apply resolve_ext. intros s Hs. unfold sizef. rewrite list_lookup_insert_ne; [done|]. intros <-. apply Hn.
        destruct (same_lookup _ _ Hsame _ _ Hb) as (b0 & Hb0 & Eb & _). apply (edge_subs k b0 i Hb0). apply sub_areas_elem. apply sub_areas_elem in Hs. by rewrite Eb in Hs. }
      split_and!.
      + apply Forall2_same_length_lookup. rewrite insert_length. split; [done|]. intros j b b' Hb Hb'.
        apply list_lookup_insert_Some in Hb' as [(<- & <- & _)|(_ & Hb')].
        * destruct (same_lookup _ _ Hsame _ _ Ha) as (b0 & Hb0 & Eb). rewrite Hb in Hb0. injection Hb0 as <-. exact Eb.
        * destruct (same_lookup _ _ Hsame _ _ Hb') as (b0 & Hb0 & Eb). rewrite Hb in Hb0. by injection Hb0 as <-.
      + by rewrite insert_length.
      + intros j b Hj Hb. apply list_lookup_insert_Some in Hb as [(<- & <- & _)|(Hne & Hb)].
        * rewrite list_lookup_insert by lia. done.
        * rewrite list_lookup_insert_ne by done. apply Hv; [|done]. destruct Hj as [->|?]; done.
      + intros k Hk. destruct (decide (k = i)) as [->|Hki].
        * right. left. split; [by left|]. intros b Hb. rewrite list_lookup_insert in Hb by done. injection Hb as <-. cbn [a_size a'].
          transitivity (resolve_size a' (sizef ss)); [symmetry; apply resolve_again|]. apply resolve_ext. intros s Hs. unfold sizef. rewrite list_lookup_insert_ne; [done|]. intros <-.
          apply (Hirr i). destruct (same_lookup _ _ Hsame _ _ Ha) as (b0 & Hb0 & Eb & _). apply (edge_subs i b0 i Hb0). apply sub_areas_elem. apply sub_areas_elem in Hs.
          cbn [a_blocks a'] in Hs. by rewrite Eb in Hs.
        * assert (edge fs0 k i -> k ∈ (if 0 <? i then work ++ [default 0 (ps !! i)] else work)) as Hpush.
          { intros He. destruct (HR k i Hk He) as [-> _]. destruct (Nat.ltb_spec 0 i) as [H0|H0]; [apply elem_of_app; right; by left|].
            assert (i = 0) as -> by lia. by destruct (Hroot k). }
          assert (k ∈ work -> k ∈ (if 0 <? i then work ++ [default 0 (ps !! i)] else work)) as Hkeep by (intros ?; destruct (0 <? i); [apply elem_of_app; by left|done]).
          assert (Decision (edge fs0 k i)) as Hdec.
          { destruct (fs0 !! k) as [b|] eqn:Hb; [|right; intros (b & ? & ? & Hb' & _); congruence].
            destruct (decide (i ∈ sub_areas b)); [left|right]; rewrite (edge_subs k b); done. }
          destruct Hdec as [He|He]; [left; by apply Hpush|].
          destruct (Hr k Hk) as [[->|Hw]%elem_of_cons|[[HV Hset]|(c & Hc & HVc)]]; [done|left; by apply Hkeep| |].
          -- right. left. split; [by right|]. intros b Hb. rewrite list_lookup_insert_ne in Hb by done. rewrite (Hoth k b Hki Hb He). by apply Hset.
          -- right. right. exists c. split; [done|]. intros [->|?]; done.
  Qed.
End sizes.

Lemma lies_edge f i s : lies_in f i s <-> edge (f_areas f) i s.
Proof.
  unfold lies_in, edge, bf_block_at. split.
  - intros (p & b & Hb & Hs). apply bind_Some in Hb as (a & Ha & Hb). exists a, p, b. by rewrite subs_inside.
  - intros (a & p & b & Ha & Hb & Hs). exists p, b. rewrite Ha. by rewrite subs_inside in Hs.
Qed.
Lemma recalc_settled fuel f f' : tree_ok (f_areas f) -> owned_once f -> recalculate fuel f = Some f' ->
  forall id, shown f id -> exists a', f_areas f' !! id = Some a' /\ a_size a' = resolve_size a' (bf_area_size f').
Proof.
  intros (rank & Hrank) [Hown Hnor] H. unfold recalculate in H. apply bind_Some in H as ([[ps ss] ls] & Hd & H). apply bind_Some in H as (fs' & Hu & [= <-]).
  set (fs0 := f_areas f) in *.
  assert (Hlt : forall i s, edge fs0 i s -> s < length fs0) by (intros i s He; by destruct (Hrank i s He)).
  assert (Hone : forall i i' s, edge fs0 i s -> edge fs0 i' s -> i = i').
  { intros i i' s (p & b & Hb & Hs)%lies_edge (p' & b' & Hb' & Hs')%lies_edge. by destruct (Hown i i' p p' b b' s). }
  assert (Hroot : forall i, ~ edge fs0 i 0) by (intros i He; by apply (Hnor i), lies_edge).
  destruct (down_spec fs0 Hlt Hone _ _ _ _ _ _ _ _ [] (replicate_length _ _) (replicate_length _ _) ltac:(by intros i ?%elem_of_nil) Hd) as (D & HD & Hseen & Hps & Hss).
  assert (HDc : forall id, shown f id -> id ∈ D).
  { assert (forall i j, rtc (lies_in f) i j -> i ∈ D -> j ∈ D) as Hgo.
    { induction 1 as [|i k j He _ IH]; [done|]. intros Hi. apply IH. apply lies_edge in He. destruct (Hseen i Hi) as (a & Ha & _ & Hs).
      apply (edge_subs fs0 i a k Ha) in He. destruct (Hs k He) as [_ [?|?%elem_of_nil]]; done. }
    intros id Hid. apply (Hgo 0 id Hid). apply HD. right. by left. }
  destruct (up_spec fs0 Hlt Hroot (fun i => i ∈ D) ps) with (fuel := fuel) (V := fun _ : nat => False) (fs := fs0) (work := ls) (ss := ss) (fs' := fs')
    as (V & ss' & Hsame & Hls & Hv & Hr).
  - intros k i Hk He. destruct (Hseen k Hk) as (a & Ha & _ & Hs). apply (edge_subs fs0 k a i Ha) in He. destruct (Hs i He) as [? [?|?%elem_of_nil]]; done.
  - intros i He. destruct (Hrank i i He). lia.
  - split_and!; [apply same_refl|done|done|]. intros i Hi. destruct (Hseen i Hi) as (a & Ha & Hl & Hs). destruct (sub_areas a) as [|c subs] eqn:Es; [left; by apply Hl|].
    right. right. exists c. split; [|by intros []]. apply (edge_subs fs0 i a c Ha). rewrite Es. by left.
  - exact Hu.
  - assert (Hall : forall n i, rank i < n -> i ∈ D -> V i /\ settled fs' ss' i).
    { induction n as [|n IH]; intros i Hn Hi; [lia|]. destruct (Hr i Hi) as [?%elem_of_nil|[?|(c & Hc & HVc)]]; [done|done|]. exfalso. apply HVc.
      destruct (Hrank i c Hc). apply (IH c); [lia|]. destruct (Hseen i Hi) as (a & Ha & _ & Hs). apply (edge_subs fs0 i a c Ha) in Hc. destruct (Hs c Hc) as [_ [?|?%elem_of_nil]]; done. }
    intros id Hid. apply HDc in Hid. destruct (Hall (S (rank id)) id ltac:(lia) Hid) as [HV Hset]. destruct (Hseen id Hid) as (a & Ha & _ & Hs).
    destruct (fs' !! id) as [a'|] eqn:Ha'; [|apply lookup_ge_None in Ha'; apply Forall2_length in Hsame; apply lookup_lt_Some in Ha; lia].
    exists a'. cbn [f_areas]. split; [done|]. rewrite (Hset a' Ha'). apply resolve_ext. intros s Hsub.
    destruct (same_lookup _ _ Hsame _ _ Ha') as (a0 & Ha0 & Eb & _). rewrite Ha in Ha0. injection Ha0 as <-.
    assert (s ∈ sub_areas a) as Hsub0 by (apply sub_areas_elem; apply sub_areas_elem in Hsub; by rewrite Eb in Hsub).
    destruct (Hs s Hsub0) as [_ [HsD|?%elem_of_nil]]; [|done]. destruct (Hall (S (rank s)) s ltac:(lia) HsD) as [HVs _].
    destruct (Hseen s HsD) as (as0 & Has & _). destruct (fs' !! s) as [as'|] eqn:Has'; [|apply lookup_ge_None in Has'; apply Forall2_length in Hsame; apply lookup_lt_Some in Has; lia].
    unfold sizef, bf_area_size. cbn [f_areas]. rewrite Has', (Hv s as' HVs Has'). done.
Qed.

Lemma room_le x y w h W H : room_for x y w h W H <-> Z.to_nat x + w + 1 <= W /\ Z.to_nat y + h + 1 <= H.
Proof. unfold room_for. lia. Qed.
Lemma holds_le f id a W H : f_areas f !! id = Some a -> area_ok a -> holds f id W H <->
  1 <= W /\ 1 <= H /\ (forall c o, a_origin a !! c = Some o -> cell_le W H c) /\ (forall p b, a_blocks a !! p = Some b -> block_le (bf_area_size f) W H p b).
Proof.
  intros Ha (Hap & Hrow & Hor). assert (Hat : forall p, bf_block_at f id p = a_blocks a !! p) by (intros p; unfold bf_block_at; by rewrite Ha).
  unfold holds. rewrite Hor. split.
  - intros (? & ? & Hb). split_and!; try done.
    + intros c o Ho. apply origin_map_lookup in Ho as (b & Hb' & Hc1 & Hc2); [|done]. rewrite <- Hat in Hb'. destruct (Hb _ _ Hb') as (Hr & _).
      specialize (Hr (Z.to_nat (c.2 - o.2)) ltac:(lia)). rewrite room_le in Hr. replace (o.2 + Z.of_nat (Z.to_nat (c.2 - o.2)))%Z with c.2 in Hr by lia. unfold cell_le. rewrite Hc1. lia.
    + intros p b Hp. rewrite <- Hat in Hp. destruct (Hb _ _ Hp) as (_ & L1 & L2). split; intros s Hs.
      * specialize (L1 s Hs). rewrite room_le in L1. lia.
      * specialize (L2 s Hs). rewrite room_le in L2. destruct (b_contains b).1; cbn [from_option] in *; lia.
  - intros (? & ? & Hc & Hb). split_and!; try done. intros p b Hp. rewrite Hat in Hp. split_and!.
    + intros r Hr. rewrite room_le. destruct (Hc (p.1, (p.2 + Z.of_nat r)%Z) p); [|cbn [fst snd] in *; lia].
      apply origin_map_lookup; [done|]. exists b. split; [done|]. split; cbn [fst snd]; [done|lia].
    + intros s Hs. rewrite room_le. destruct (Hb _ _ Hp) as [L1 _]. specialize (L1 s Hs). lia.
    + intros s Hs. rewrite room_le. destruct (Hb _ _ Hp) as [_ L2]. specialize (L2 s Hs). destruct (b_contains b).1; cbn [from_option] in *; lia.
Qed.

Lemma up_grows : forall fuel fs work ps ss fs', recalc_up fuel fs work ps ss = Some fs' -> forall i a a', fs !! i = Some a -> fs' !! i = Some a' -> a_shrink a = false ->
  (a_size a).1 <= (a_size a').1 /\ (a_size a).2 <= (a_size a').2.
Proof.
  induction fuel as [|fuel IH]; intros fs work ps ss fs' H i a a' Ha Ha' Hs; [done|]. cbn [recalc_up] in H. destruct work as [|j work].
  - injection H as <-. rewrite Ha in Ha'. by injection Ha' as <-.
  - apply bind_Some in H as (aj & Haj & H). destruct (decide (i = j)) as [->|Hne].
    + rewrite Ha in Haj. injection Haj as <-. eapply IH in H; [|rewrite list_lookup_insert; [done|by eapply lookup_lt_Some]|exact Ha'|done]. cbn [a_size] in H.
      set (sub := fun j => default (0, 0) (ss !! j)) in H. destruct (proj1 (resolve_le a sub _ _) (conj (le_n _) (le_n _))) as (_ & _ & _ & _ & Hg). specialize (Hg Hs). lia.
    + eapply IH in H; [done| |exact Ha'|done]. by rewrite list_lookup_insert_ne.
Qed.

(** *** No area gets larger than it has to *)
Definition le2 (p q : nat * nat) : Prop := p.1 <= q.1 /\ p.2 <= q.2.
Lemma block_le_mono sub sub' W H p b : (forall s, s ∈ block_subs b -> le2 (sub' s) (sub s)) -> block_le sub W H p b -> block_le sub' W H p b.
Proof.
  unfold block_le, block_subs, le2. intros Hs [H1 H2]. destruct (b_contains b) as [[c|] [d|]]; cbn [fst snd from_option opt_list app] in *; split; intros s [= <-].
  - specialize (H1 _ eq_refl). pose proof (Hs c ltac:(left)). lia.
  - specialize (H2 _ eq_refl). pose proof (Hs c ltac:(left)). pose proof (Hs d ltac:(right; left)). lia.
  - specialize (H1 _ eq_refl). pose proof (Hs c ltac:(left)). lia.
  - specialize (H2 _ eq_refl). pose proof (Hs d ltac:(left)). lia.
Qed.
(** an area with other size and smaller areas inside *)
Lemma resolve_under a a' sub sub' q : same_blocks a a' -> (forall s, s ∈ sub_areas a -> le2 (sub' s) (sub s)) ->
  le2 (resolve_size a sub) q -> (a_shrink a = false -> le2 (a_size a') q) -> le2 (resolve_size a' sub') q.
Proof.
  intros (E1 & E2 & E3 & _) Hs Hq Hz. apply resolve_le in Hq as (? & ? & Hc & Hb & _). apply resolve_le. rewrite E1, E2, E3. split_and!; try done.
  intros p b Hp. eapply block_le_mono; [|by apply Hb]. intros s Hx. apply Hs, sub_areas_elem. eauto.
Qed.
Section least.
  Context (fs0 : list area) (S : nat -> Prop) (T : nat -> nat * nat).
  Hypothesis Hpre : forall i a, S i -> fs0 !! i = Some a -> le2 (resolve_size a T) (T i).
  Hypothesis Hclosed : forall i s, S i -> edge fs0 i s -> S s.
  Hypothesis Hroot : S 0.
  Lemma down_least : forall fuel work ps ss ls ps' ss' ls', Forall S work -> Forall S ps -> Forall S ls -> (forall j z, ss !! j = Some z -> le2 z (T j)) ->
    recalc_down fuel fs0 work ps ss ls = Some (ps', ss', ls') -> Forall S ps' /\ Forall S ls' /\ (forall j z, ss' !! j = Some z -> le2 z (T j)).
  Proof using Hpre Hclosed.
    induction fuel as [|fuel IH]; intros work ps ss ls ps' ss' ls' Hw Hp Hl Hs H; [done|]. cbn [recalc_down] in H. destruct work as [|i work].
    - by injection H as <- <- <-.
    - apply bind_Some in H as (a & Ha & H). apply Forall_cons in Hw as [Hi Hw].
      assert (Hs' : forall j z, <[i := resolve_size a (fun _ => (0, 0))]> ss !! j = Some z -> le2 z (T j)).
      { intros j z [(<- & <- & _)|(_ & Hz)]%list_lookup_insert_Some; [|by apply Hs].
        eapply (resolve_under a a T); [by split_and!|intros; split; cbn; lia|by apply Hpre|].
        intros Hsh. apply (Hpre i a Hi) in Ha. apply resolve_le in Ha as (_ & _ & _ & _ & Hz). by apply Hz. }
      assert (Hsub : forall s, s ∈ sub_areas a -> S s) by (intros s Hx; apply (Hclosed i s Hi); by apply (edge_subs fs0 i a s Ha)).
      destruct (sub_areas a) as [|s0 subs] eqn:Es; [eapply IH; [..|exact H]; try done; by constructor|].
      destruct (forallb _ _); [|done]. rewrite <- Es in *. eapply IH; [..|exact H]; try done.
      + apply Forall_app. split; [|done]. apply Forall_forall. intros s Hx. apply Hsub. apply elem_of_list_In, in_rev, elem_of_list_In. done.
      + apply Forall_lookup. intros j z. rewrite parents_fold. destruct (decide _); [by intros [= <-]|]. intros Hz. exact (Forall_lookup_1 _ _ _ _ Hp Hz).
  Qed.
  Lemma up_least : forall fuel fs work ps ss fs', Forall S work -> Forall S ps -> Forall2 same_blocks fs0 fs -> (forall j z, ss !! j = Some z -> le2 z (T j)) ->
    (forall i a, S i -> fs !! i = Some a -> a_shrink a = false -> le2 (a_size a) (T i)) ->
    recalc_up fuel fs work ps ss = Some fs' -> forall i a, S i -> fs' !! i = Some a -> a_shrink a = false -> le2 (a_size a) (T i).
  Proof using Hpre Hroot.
    induction fuel as [|fuel IH]; intros fs work ps ss fs' Hw Hp Hsame Hs Hz H; [done|]. cbn [recalc_up] in H. destruct work as [|i work].
    - by injection H as <-.
    - apply bind_Some in H as (a & Ha & H). apply Forall_cons in Hw as [Hi Hw].
      destruct (same_lookup _ _ Hsame _ _ Ha) as (a0 & Ha0 & Eb).
      set (sz := resolve_size a (fun j => default (0, 0) (ss !! j))) in *.
      assert (Hsz : le2 sz (T i)).
      { eapply (resolve_under a0 a T); [done| |by apply Hpre|].
        - intros s _. destruct (ss !! s) as [z|] eqn:E; [by apply Hs|]. split; cbn; lia.
        - intros Hsh. apply Hz; [done..|]. destruct Eb as (_ & _ & -> & _). done. }
      eapply IH; [..|exact H].
      + destruct (0 <? i); [|done]. apply Forall_app. split; [done|]. constructor; [|done]. destruct (ps !! i) as [k|] eqn:E; [by eapply Forall_lookup_1|done].
      + done.
      + apply Forall2_same_length_lookup. rewrite insert_length. split; [by eapply Forall2_length|]. intros j b b' Hb Hb'.
        apply list_lookup_insert_Some in Hb' as [(<- & <- & _)|(_ & Hb')].
        * rewrite Hb in Ha0. injection Ha0 as <-. exact Eb.
        * destruct (same_lookup _ _ Hsame _ _ Hb') as (b0 & Hb0 & Eb'). rewrite Hb in Hb0. by injection Hb0 as <-.
      + intros j z [(<- & <- & _)|(_ & Hj)]%list_lookup_insert_Some; [done|by apply Hs].
      + intros j b Hj [(<- & <- & _)|(_ & Hb)]%list_lookup_insert_Some Hsh; [done|by apply (Hz j b)].
  Qed.
End least.

Lemma recalc_sizes fuel f f' : fun_ok f -> tree_ok (f_areas f) -> owned_once f -> recalculate fuel f = Some f' ->
  (forall id p, bf_block_at f' id p = bf_block_at f id p) /\
  forall id w h, shown f id -> bf_area_size f' id = (w, h) -> holds f' id w h /\
    (shrinks f id -> forall W H, holds f' id W H -> w <= W /\ h <= H) /\
    (~ shrinks f id -> ((bf_area_size f id).1 <= w /\ (bf_area_size f id).2 <= h) /\
       forall W H, holds f' id W H -> w <= Nat.max (bf_area_size f id).1 W /\ h <= Nat.max (bf_area_size f id).2 H).
Proof.
  intros Hf Ht Hown Hrec. destruct (recalc_ok _ _ _ Hrec) as (Hsame & _ & _). split.
  { intros id p. unfold bf_block_at. destruct (f_areas f' !! id) as [a'|] eqn:Ha'.
    - destruct (same_lookup _ _ Hsame _ _ Ha') as (a & -> & E & _). cbn [mbind option_bind]. by rewrite E.
    - apply lookup_ge_None in Ha'. rewrite <- (Forall2_length _ _ _ Hsame) in Ha'. by rewrite (lookup_ge_None_2 (f_areas f)). }
  intros id w h Hid Hsz. destruct (recalc_settled fuel f f' Ht Hown Hrec id Hid) as (a' & Ha' & Hset).
  destruct (same_lookup _ _ Hsame _ _ Ha') as (a & Ha & E1 & E2 & E3 & E4).
  assert (area_ok a') as Hok by (destruct Hf as (Hf & _); specialize (Hf _ _ Ha); unfold area_ok in *; by rewrite E1, E2).
  unfold bf_area_size in Hsz at 1. rewrite Ha' in Hsz. cbn [from_option] in Hsz. rewrite Hset in Hsz.
  split; [|split].
  - apply (holds_le f' id a' w h Ha' Hok). destruct (proj1 (resolve_le a' (bf_area_size f') w h)) as (? & ? & ? & ? & _); [by rewrite Hsz|]. done.
  - intros (a0 & Ha0 & Hsh) W H HWH. rewrite Ha in Ha0. injection Ha0 as <-. apply (holds_le f' id a' W H Ha' Hok) in HWH as (? & ? & ? & ?).
    destruct (proj2 (resolve_le a' (bf_area_size f') W H)) as [X Y]; [split_and!; try done; congruence|]. rewrite Hsz in X, Y. done.
  - intros Hns. pose proof (recalc_settled fuel f f' Ht Hown Hrec) as Hall. unfold recalculate in Hrec. apply bind_Some in Hrec as ([[ps ss] ls] & Hd & H). apply bind_Some in H as (fs' & Hu & Hf').
    injection Hf' as <-.
    assert (a_shrink a = false) as Hshr.
    { destruct (a_shrink a) eqn:Esh; [|done]. exfalso. apply Hns. by exists a. }
    cbn [f_areas] in *. set (f' := BFun fs' (f_next f) (f_gen f)) in *.
    assert (Hid0 : bf_area_size f id = a_size a) by (unfold bf_area_size; by rewrite Ha). rewrite Hid0.
    assert (Hfin : forall i b, fs' !! i = Some b -> bf_area_size f' i = a_size b) by (intros i b Hb; unfold bf_area_size; cbn [f_areas f']; by rewrite Hb).
    assert (Hw : a_size a' = (w, h)) by congruence.
    split; [pose proof (up_grows _ _ _ _ _ _ Hu id a a' Ha Ha' Hshr) as Hg; by rewrite Hw in Hg|].
    intros W H HWH. apply (holds_le f' id a' W H Ha' Hok) in HWH as (HW & HH & Hc & Hb).
    set (T := fun i => if decide (i = id) then (Nat.min w (Nat.max (a_size a).1 W), Nat.min h (Nat.max (a_size a).2 H)) else bf_area_size f' i).
    assert (HT : forall i, le2 (T i) (bf_area_size f' i)).
    { intros i. unfold T. destruct (decide (i = id)) as [->|]; [|split; lia]. rewrite (Hfin _ _ Ha'), Hw. split; cbn; lia. }
    assert (Hpre : forall i b, shown f i -> f_areas f !! i = Some b -> le2 (resolve_size b T) (T i)).
    { intros i b Hi Hbi. destruct (Hall i Hi) as (b' & Hb' & Hsb). destruct (same_lookup _ _ Hsame _ _ Hb') as (b0 & Hb0 & F1 & F2 & F3 & F4).
      rewrite Hbi in Hb0. injection Hb0 as <-. cbn [f_areas f'] in Hb'.
      assert (Hle : le2 (resolve_size b T) (a_size b')).
      { eapply (resolve_under b' b (bf_area_size f')); [by split_and!|intros; apply HT|rewrite <- Hsb; split; lia|].
        intros Hsh. rewrite F3 in Hsh. by eapply up_grows. }
      unfold T at 2. destruct (decide (i = id)) as [->|]; [|by rewrite (Hfin _ _ Hb')].
      rewrite Ha' in Hb'. injection Hb' as <-. rewrite Ha in Hbi. injection Hbi as <-. rewrite Hw in Hle.
      assert (Hle' : le2 (resolve_size a T) (Nat.max (a_size a).1 W, Nat.max (a_size a).2 H)).
      { apply resolve_le. cbn [fst snd]. split_and!; [lia|lia| | |intros; lia].
        - intros c o Ho. rewrite <- E2 in Ho. destruct (Hc _ _ Ho). split; lia.
        - intros p q Hp. rewrite <- E1 in Hp. eapply (block_le_mono (bf_area_size f')); [intros; apply HT|].
          destruct (Hb _ _ Hp) as [B1 B2]. split; intros s Hs; [specialize (B1 s Hs)|specialize (B2 s Hs)]; lia. }
      unfold le2 in *. cbn [fst snd] in *. lia. }
    assert (Hcl : forall i s, shown f i -> edge (f_areas f) i s -> shown f s).
    { intros i s Hi He. eapply rtc_r; [exact Hi|]. by apply lies_edge. }
    assert (H0 : shown f 0) by constructor.
    destruct (down_least (f_areas f) (shown f) T Hpre Hcl fuel [0] (replicate (length (f_areas f)) 0) (replicate (length (f_areas f)) (0, 0)) [] ps ss ls) as (P1 & P2 & P3); [by constructor|by apply Forall_replicate|done| |done|].
    { intros j z [-> _]%lookup_replicate. split; cbn; lia. }
    assert (Hend : le2 (a_size a') (T id)).
    { eapply (up_least (f_areas f) (shown f) T Hpre H0 fuel (f_areas f) ls ps ss fs'); try done; [apply same_refl| |congruence].
      intros i b Hi Hbi Hsh. specialize (Hpre i b Hi Hbi). apply resolve_le in Hpre as (_ & _ & _ & _ & Hz). by apply Hz. }
    rewrite Hw in Hend. unfold T in Hend. rewrite decide_True in Hend by done. unfold le2 in Hend. cbn [fst snd] in Hend. lia.
Qed.

(** *** Each area stays in one block *)
Lemma own_map (R : nat * (Z * Z) -> nat * (Z * Z) -> Prop) f f' : (forall u v w, R u w -> R v w -> u = v) ->
  (forall i p b, bf_block_at f' i p = Some b -> inside b = [] \/ exists j q b0, bf_block_at f j q = Some b0 /\ inside b = inside b0 /\ R (i, p) (j, q)) ->
  owned_once f -> owned_once f'.
Proof.
  intros HR Hm [H1 H2]. split.
  - intros i i' p p' b b' s Hb Hb' Hs Hs'. destruct (Hm _ _ _ Hb) as [E|(j & q & c & Hc & E & Hr)]; [rewrite E in Hs; by apply elem_of_nil in Hs|].
    destruct (Hm _ _ _ Hb') as [E'|(j' & q' & c' & Hc' & E' & Hr')]; [rewrite E' in Hs'; by apply elem_of_nil in Hs'|].
    rewrite E in Hs. rewrite E' in Hs'. destruct (H1 _ _ _ _ _ _ s Hc Hc' Hs Hs') as [-> ->]. by injection (HR _ _ _ Hr Hr').
  - intros i (p & b & Hb & Hs). destruct (Hm _ _ _ Hb) as [E|(j & q & c & Hc & E & Hr)]; [rewrite E in Hs; by apply elem_of_nil in Hs|].
    apply (H2 j). exists q, c. by rewrite <- E.
Qed.
Lemma own_sub f f' : (forall i p b, bf_block_at f' i p = Some b -> bf_block_at f i p = Some b) -> owned_once f -> owned_once f'.
Proof. intros H. apply (own_map eq); [congruence|]. intros i p b Hb. right. exists i, p, b. split; [by apply H|done]. Qed.
Lemma own_add f f' id o b : inv f -> only_at id o (Some b) f f' -> (forall s, s ∈ inside b -> length (f_areas f) <= s) -> owned_once f -> owned_once f'.
Proof.
  intros (_ & (rank & Ht) & Hlen) Hat Hnew [H1 H2].
  assert (forall i p c s, bf_block_at f i p = Some c -> s ∈ inside c -> s < length (f_areas f)) as Hold.
  { intros i p c s Hc Hs. destruct (Ht i s) as [? _]; [|done]. apply lies_edge. by exists p, c. }
  split.
  - intros i i' p p' c c' s Hc Hc' Hs Hs'. rewrite Hat in Hc, Hc'.
    destruct (decide (i = id /\ p = o)) as [[-> ->]|Hn], (decide (i' = id /\ p' = o)) as [[-> ->]|Hn'].
    + done.
    + injection Hc as <-. specialize (Hold _ _ _ _ Hc' Hs'). specialize (Hnew _ Hs). lia.
    + injection Hc' as <-. specialize (Hold _ _ _ _ Hc Hs). specialize (Hnew _ Hs'). lia.
    + by eapply H1.
  - intros i (p & c & Hc & Hs). rewrite Hat in Hc. destruct (decide _) as [_|_] in Hc.
    + injection Hc as <-. specialize (Hnew _ Hs). lia.
    + apply (H2 i). by exists p, c.
Qed.
Lemma plain_thin types f o : plain types f o -> thin_filler types f o.
Proof. destruct o as [| | | | | |id x y [t|]| | | |]; try done. cbn. intros H ty Hty. by apply H. Qed.
Lemma plain_edited types st : edited types (plain types) st -> edited types (thin_filler types) st.
Proof. induction 1 as [|st o fuel st' e Hed IH Hok Hs]; [constructor|]. eapply edited_step; [done|by apply plain_thin|done]. Qed.
Lemma shift_contains b r out b' : b_shift b r out = Some b' -> inside b' = inside b.
Proof.
  unfold b_shift. destruct (b_rows b <=? 1); [by intros [= <-]|]. destruct out; intros H; apply bind_Some in H as (v & _ & [= <-]); done.
Qed.
Lemma same_reads f f' : Forall2 same_blocks (f_areas f) (f_areas f') -> forall i p b, bf_block_at f' i p = Some b -> bf_block_at f i p = Some b.
Proof.
  intros Hs i p b Hb. unfold bf_block_at in *. apply bind_Some in Hb as (a' & Ha' & Hb). destruct (same_lookup _ _ Hs _ _ Ha') as (a & -> & E & _).
  cbn [mbind option_bind]. by rewrite <- E.
Qed.

Lemma own_step types fuel st o st' e : types_ok types -> edited types (plain types) st -> plain types st.1 o -> bf_step types fuel st o = Some (st', e) ->
  owned_once st.1 -> Forall (fun s => owned_once (snap_fun s)) st.2 -> owned_once st'.1 /\ Forall (fun s => owned_once (snap_fun s)) st'.2.
Proof.
  intros Hty Hed Hpl Hs Hown Hsn. pose proof (plain_edited _ _ Hed) as Hed'. destruct (edited_inv _ _ Hty Hed) as [Hinv _]. pose proof Hinv as (Hf & _).
  assert (Hsn' : (forall k, o <> BLoad k) -> o <> BSave -> st'.2 = st.2).
  { intros H1 H2. destruct st as [f sn], o; cbn [bf_step snd] in *; try done;
      try (destruct (bf_instanciate _ _ _ _ _ _ _)); try (destruct (bf_remove _ _ _ _)); try (destruct (bf_clone _ _ _ _ _ _ _ _));
      try (apply bind_Some in Hs as (r & _ & Hs); try destruct r as [? ?]); try (by injection Hs as <- _). by destruct (H1 k). }
  destruct e as [e|].
  { (* failing calls *)
    assert ((forall k, o <> BLoad k) /\ o <> BSave) as [Hn1 Hn2].
    { destruct st as [f sn], o; split; try done; cbn [bf_step] in Hs; try done. destruct (sn !! k); [|done]. by apply bind_Some in Hs as (r & _ & Hs). }
    rewrite (Hsn' Hn1 Hn2). split; [|done]. clear Hsn Hsn'.
    assert (existing_target st.1 o \/ exists id x y id2 x2 y2, o = BMove id x y id2 x2 y2 /\ length (f_areas st.1) <= id2) as [Hex|(id & x & y & id2 & x2 & y2 & -> & Hl)].
    { destruct o as [| |id x y id2 x2 y2| | | | | | | |]; try (by left). destruct (decide (id2 < length (f_areas st.1))); [by left|]. right. eexists _, _, _, _, _, _. split; [done|lia]. }
    - eapply own_sub; [|exact Hown]. intros i p b Hb. by rewrite (proj1 (C33_reads types st o fuel st' e Hty Hed' (plain_thin _ _ _ Hpl) Hex Hs i p)) in Hb.
    - eapply own_sub; [|exact Hown]. destruct st as [f sn]. cbn [bf_step fst] in *. apply bind_Some in Hs as ([f1 e1] & E & Hs). injection Hs as <- ->. cbn [fst].
      unfold bf_move in E. apply bind_Some in E as (circ & _ & E). destruct circ; [by injection E as <- _|].
      destruct (f_areas f !! id) as [a|] eqn:Ha; [|by injection E as <- _]. destruct (area_remove_at a x y) as [[a' [b o]]|] eqn:Hr; [|by injection E as <- _].
      assert (area_ok a) as Hok by (destruct Hf as (H' & _); by eapply H'). apply area_remove_inv in Hr as (Hb & Hc & ->); [|done].
      cbn [f_with_area f_areas] in E. rewrite (lookup_ge_None_2 (<[_:=_]> _) id2) in E by (by rewrite insert_length). injection E as <- _.
      intros i p c Hc'. unfold bf_block_at in *. cbn [f_with_area f_areas] in Hc'. apply bind_Some in Hc' as (a1 & Ha1 & Hc').
      apply list_lookup_insert_Some in Ha1 as [(<- & <- & _)|(_ & ->)]; [|done]. rewrite Ha. cbn [mbind option_bind a_with_blocks a_blocks] in *.
      by apply lookup_delete_Some in Hc' as [_ ?]. }
  destruct o as [id x y t i|id x y|id x y id2 x2 y2|id x y id2 x2 y2|id x y r out|id x y rm|id x y fl|id x y id2 x2 y2| | |k]; try (rewrite Hsn' by done; split; [|done]; clear Hsn Hsn').
  - destruct (C69_instanciate types fuel st st' Hty Hed' _ _ _ _ _ Hs) as (ty & b & _ & _ & _ & [_ Hnew] & _ & Hat).
    eapply own_add; [exact Hinv|exact Hat| |exact Hown]. intros s Hin. by apply Hnew.
  - destruct (C69_remove types fuel st st' Hty Hed' _ _ _ Hs) as (o & _ & Hat). eapply own_sub; [|exact Hown]. intros i p b Hb. rewrite Hat in Hb. by destruct (decide _) in Hb.
  - destruct (C69_move types fuel st st' Hty Hed' _ _ _ _ _ _ Hs) as (o & b & _ & Hb & Hat).
    eapply (own_map (fun u w => (u = (id2, (x2, dest_y y o.2 y2)) /\ w = (id, o)) \/ (u = w /\ w <> (id, o)))); [| |exact Hown].
    { intros u v w [[-> ->]|[-> ?]] [[-> ?]|[-> ?]]; congruence. }
    intros i p c Hc. rewrite Hat in Hc. right. destruct (decide (i = id2 /\ _)) as [[-> ->]|_] in Hc.
    + injection Hc as <-. exists id, o, b. split_and!; try done. by left.
    + destruct (decide (i = id /\ p = o)) as [_|Hn] in Hc; [done|]. exists i, p, c. split_and!; try done. right. split; [done|]. intros [= -> ->]. by apply Hn.
  - destruct (C69_clone types fuel st st' Hty Hed' _ _ _ _ _ _ Hs) as (o & b & b' & _ & _ & _ & _ & [_ Hnew] & _ & Hat).
    eapply own_add; [exact Hinv|exact Hat| |exact Hown]. intros s Hin. by apply Hnew.
  - eapply (own_map eq); [congruence| |exact Hown]. destruct st as [f sn]. cbn [bf_step fst] in *. apply bind_Some in Hs as (f1 & E & Hs). injection Hs as <-. cbn [fst].
    intros i p c Hc. right. unfold bf_shift in E. destruct (let* a := f_areas f !! id in let* r := ref_at a x y in Some (a, r)) as [[a [b o]]|] eqn:Er; [|injection E as <-; eauto 10].
    apply bind_Some in Er as (a0 & Ha & Er). apply bind_Some in Er as ([b0 o0] & Er & [= -> -> ->]). apply bind_Some in E as (b' & Eb & [= <-]).
    unfold bf_block_at in Hc. cbn [f_bump f_with_area f_areas] in Hc. apply bind_Some in Hc as (a1 & Ha1 & Hc).
    apply list_lookup_insert_Some in Ha1 as [(<- & <- & _)|(_ & Ha1)].
    + cbn [a_blocks] in Hc. unfold bf_block_at.
      assert (area_ok a) as Hok by (destruct Hf as (H' & _); by eapply H'). apply ref_at_ok in Er as [Hb _]; [|done].
      apply lookup_insert_Some in Hc as [[<- <-]|[_ Hc]].
      * exists id, o, b. rewrite Ha. split; [done|]. split; [|done]. by eapply shift_contains.
      * exists id, p, c. by rewrite Ha.
    + exists i, p, c. split; [|done]. unfold bf_block_at. by rewrite Ha1.
  - eapply own_sub; [|exact Hown]. destruct st as [f sn]. cbn [bf_step fst] in *. apply bind_Some in Hs as ([f1 l] & E & Hs). injection Hs as <-. cbn [fst].
    apply retrieve_cases in E as [[Ea _]|(a & a' & Ha & _ & _ & Hsub & ->)]; [| |done].
    + intros i p b Hb. by rewrite (read_areas f f1 Ea) in Hb.
    + intros i p b Hb. unfold bf_block_at in *. cbn [f_with_area f_areas] in Hb. apply bind_Some in Hb as (a1 & Ha1 & Hb).
      apply list_lookup_insert_Some in Ha1 as [(<- & <- & _)|(_ & ->)]; [|done]. rewrite Ha. cbn [mbind option_bind]. by apply Hsub.
  - destruct (C69_split types fuel st st' Hty Hed' _ _ _ _ (plain_thin _ _ _ Hpl) Hs) as (l & _ & _ & _ & _ & Hin & Hoth).
    eapply (own_map (fun u w => (u.1 = id /\ w.1 = id /\ w.2 ∈ l /\ u.2 = ((if (x <? w.2.1)%Z then w.2.1 + 1 else w.2.1)%Z, w.2.2)) \/ (u = w /\ ~ (w.1 = id /\ w.2 ∈ l)))); [| |exact Hown].
    { intros [u1 u2] [v1 v2] [w1 w2]. cbn [fst snd]. intros [(-> & -> & Hw & ->)|[[= -> ->] Hn]] [(-> & ? & ? & ->)|[[= -> ->] Hn']]; try done; by destruct Hn || by destruct Hn'. }
    intros i p b Hb. destruct (decide (i = id)) as [->|Hne].
    + destruct (Hin p b Hb) as [(q & Hq & Hb0 & ->)|[[Hp Hb0]|(t & ty & -> & Ht & _ & _ & Hlen & _)]].
      * right. exists id, q, b. split_and!; try done. left. done.
      * right. exists id, p, b. split_and!; try done. right. split; [done|]. by intros [_ ?].
      * left. apply nil_length_inv. rewrite Hlen. cbn in Hpl. destruct (Hpl ty Ht) as [_ E]. unfold type_areas. by rewrite E.
    + right. exists i, p, b. rewrite Hoth in Hb by done. split_and!; try done. right. split; [done|]. by intros [? _].
  - destruct (C69_move_chain types fuel st st' Hty Hed' _ _ _ _ _ _ Hs) as (l & wx & wy & k & ox & oy & _ & _ & _ & _ & _ & _ & Hat).
    eapply (own_map (fun u w => (u.1 = id2 /\ w.1 = id /\ w.2 ∈ l /\ w.2 = ((u.2.1 - (wx + ox))%Z, (u.2.2 - (wy + oy))%Z)) \/ (u = w /\ ~ (w.1 = id /\ w.2 ∈ l)))); [| |exact Hown].
    { intros [u1 [u2 u3]] [v1 [v2 v3]] [w1 w2]. cbn [fst snd]. intros [(-> & -> & Hw & E)|[[= -> <-] Hn]] [(-> & ? & ? & E')|[[= -> <-] Hn']]; try done; try (by destruct Hn); try (by destruct Hn'); [|congruence].
      rewrite E in E'. injection E' as E1 E2. f_equal. f_equal; lia. }
    intros i p b Hb. rewrite Hat in Hb. cbn zeta in Hb. right. destruct (decide (i = id2 /\ _)) as [[-> Hq]|_] in Hb.
    + eexists id, _, b. split; [exact Hb|]. split; [done|]. left. done.
    + destruct (decide (i = id /\ p ∈ l)) as [_|Hn] in Hb; [done|]. exists i, p, b. split_and!; try done. by right.
  - eapply own_sub; [|exact Hown]. destruct st as [f sn]. cbn [bf_step fst] in *. apply bind_Some in Hs as (f1 & E & Hs). injection Hs as <-. cbn [fst].
    apply recalc_ok in E as (E & _). by apply same_reads.
  - destruct st as [f sn]. cbn [bf_step fst snd] in *. injection Hs as <-. cbn [fst snd]. split; [done|]. apply Forall_app. split; [done|]. constructor; [|constructor].
    eapply own_sub; [|exact Hown]. done.
  - destruct st as [f sn]. cbn [bf_step fst snd] in *. destruct (sn !! k) as [s|] eqn:Hk; [|by injection Hs as <-]. apply bind_Some in Hs as (f1 & E & Hs). injection Hs as <-. cbn [fst snd].
    split; [|done]. pose proof (Forall_lookup_1 _ _ _ _ Hsn Hk) as Hso. eapply own_sub; [|exact Hso]. unfold bf_load in E. apply bind_Some in E as (f2 & E & [= <-]).
    apply recalc_ok in E as (E & _). intros i p b Hb. by apply (same_reads (snap_fun s) f2 E) in Hb.
Qed.

(** Whatever edits were made, each area is inside at most one block. *)
Lemma owned_all types st : types_ok types -> edited types (plain types) st -> owned_once st.1 /\ Forall (fun s => owned_once (snap_fun s)) st.2.
Proof.
  intros Hty. induction 1 as [|st o fuel st' e Hed [IH1 IH2] Hok Hs].
  - split; [|constructor]. cbn [fst]. assert (forall i p b, bf_block_at bfun_new i p = Some b -> False) as Hn.
    { intros [|i] p b Hb; unfold bf_block_at, bfun_new in Hb; cbn in Hb; [by rewrite lookup_empty in Hb|done]. }
    split; [intros i i' p p' b b' s Hb; by destruct (Hn _ _ _ Hb)|]. intros i (p & b & Hb & _). by destruct (Hn _ _ _ Hb).
  - by eapply own_step.
Qed.
Theorem C70_owned (types : string -> option btype) (st : bfun * list bsnap) : types_ok types -> edited types (plain types) st -> owned_once st.1.
Proof. intros Hty Hed. by destruct (owned_all types st Hty Hed). Qed.
Print Assumptions C70_owned.

(** After recalculating all areas that are shown have room for what is in them. Areas that shrink are no larger than that, others do not get smaller, nor larger than needed.
    The blocks stay as they are. *)
Theorem C70_recalculated (types : string -> option btype) (fuel : nat) (st st' : bfun * list bsnap) (e : option berr) :
  types_ok types -> edited types (plain types) st -> bf_step types fuel st BRecalc = Some (st', e) ->
  (forall id p, bf_block_at st'.1 id p = bf_block_at st.1 id p) /\
  forall id w h, shown st.1 id -> bf_area_size st'.1 id = (w, h) -> holds st'.1 id w h /\
    (shrinks st.1 id -> forall W H, holds st'.1 id W H -> w <= W /\ h <= H) /\
    (~ shrinks st.1 id -> ((bf_area_size st.1 id).1 <= w /\ (bf_area_size st.1 id).2 <= h) /\
       forall W H, holds st'.1 id W H -> w <= Nat.max (bf_area_size st.1 id).1 W /\ h <= Nat.max (bf_area_size st.1 id).2 H).
Proof.
  intros Hty Hed Hs. destruct (edited_inv _ _ Hty Hed) as [(Hf & Ht & _) _]. pose proof (C70_owned _ _ Hty Hed) as Hown. destruct st as [f sn]. cbn [bf_step fst] in *.
  apply bind_Some in Hs as (f' & Hrec & Hs). injection Hs as <- _. cbn [fst]. by eapply recalc_sizes.
Qed.
Print Assumptions C70_recalculated.

(** Loading a snapshot gives the blocks that were saved, in areas with room for them. *)
Theorem C70_loaded (types : string -> option btype) (fuel : nat) (st st' : bfun * list bsnap) (e : option berr) (k : nat) (s : bsnap) :
  types_ok types -> edited types (plain types) st -> st.2 !! k = Some s -> bf_step types fuel st (BLoad k) = Some (st', e) ->
  (forall id p, bf_block_at st'.1 id p = bf_block_at (saved s) id p) /\
  forall id w h, shown (saved s) id -> bf_area_size st'.1 id = (w, h) -> holds st'.1 id w h /\
    (shrinks (saved s) id -> forall W H, holds st'.1 id W H -> w <= W /\ h <= H).
Proof.
  intros Hty Hed Hk Hs. destruct (edited_inv _ _ Hty Hed) as [_ Hsn]. destruct (owned_all _ _ Hty Hed) as [_ Hso]. destruct st as [f sn]. cbn [bf_step fst snd] in *. rewrite Hk in Hs.
  apply bind_Some in Hs as (f1 & E & Hs). injection Hs as <- _. cbn [fst]. pose proof (Forall_lookup_1 _ _ _ _ Hsn Hk) as (Hf & Ht & _). pose proof (Forall_lookup_1 _ _ _ _ Hso Hk) as Hown. cbn beta in *.
  unfold bf_load in E. apply bind_Some in E as (f2 & E & [= <-]).
  assert (recalculate fuel (snap_fun s) = Some (BFun (f_areas f2) (f_next f2) 0)) as Hrec.
  { unfold recalculate in *. cbn [snap_fun f_areas f_next f_gen] in *. apply bind_Some in E as ([[ps ss] ls] & -> & E). cbn [mbind option_bind].
    apply bind_Some in E as (fs & Eu & E). rewrite Eu. injection E as <-. done. }
  destruct (recalc_sizes _ _ _ Hf Ht Hown Hrec) as [H1 H2]. split; [exact H1|]. intros id w h Hid Hw. destruct (H2 id w h Hid Hw) as (H3 & H4 & _). done.
Qed.
Print Assumptions C70_loaded.

(** An "if" with two areas, the first of which holds a block of two rows at (2, 1) and a further "if": all are shown, and the sizes follow. *)
Definition ex_size_ops : list bop := [BInst 0 20 5 "if" None; BInst 1 2 1 "two" None; BInst 1 0 4 "if" None; BInst 3 3 3 "->" None].
Example C70_case : exists st es, ex_run (bfun_new, []) ex_size_ops = Some (st, es) /\ (es = [None; None; None; None] /\
  match bf_step ex_types 100 st BRecalc with
  | Some (st', None) => bf_area_size st'.1 <$> [0; 1; 2; 3; 4] = [(26, 21); (5, 12); (1, 1); (4, 4); (1, 1)]
  | _ => False
  end).
Proof. apply ex_run_witness. vm_compute. done. Qed.
Example C70_case_edited st es : ex_run (bfun_new, []) ex_size_ops = Some (st, es) -> edited ex_types (plain ex_types) st.
Proof. intros E. eapply ex_run_edited; [constructor| |exact E]. ops_ok. Qed.
Example C70_case_shown : exists st es, ex_run (bfun_new, []) ex_size_ops = Some (st, es) /\ (shown st.1 3 /\ shrinks st.1 3 /\ ~ shrinks st.1 0).
Proof.
  apply ex_run_witness. vm_compute ex_run. split; [|split].
  - eapply (rtc_l _ 0 1); [exists (20, 5)%Z; eexists; split; [reflexivity|left]|]. eapply (rtc_l _ 1 3); [exists (0, 4)%Z; eexists; split; [reflexivity|left]|]. apply rtc_refl.
  - eexists. split; reflexivity.
  - intros (a & Ha & Hs). cbn in Ha. apply (inj Some) in Ha. subst a. discriminate Hs.
Qed.
