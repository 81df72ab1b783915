(** C69: what block edits do when they succeed *)
From stdpp Require Import strings.
From Verif Require Import Base M_Block S_Block S_Edit L_Block L_Block2 L_Block3 L_Block4 P_Block.
Open Scope string_scope.
Open Scope list_scope.
Open Scope nat_scope.

Lemma fresh f b : fun_ok f -> f_next f < b_id b -> new_id f b.
Proof.
  intros (_ & _ & H0) Hb id p b' H Heq. unfold bf_block_at in H. destruct (f_areas f !! id) as [a|] eqn:Ha; [|done]. cbn [mbind option_bind] in H.
  pose proof (bcnt_pos _ _ _ H). pose proof (fcnt_ge _ _ _ (b_id b') Ha). specialize (H0 (b_id b')). lia.
Qed.
Lemma subs_inside b : block_subs b = inside b.
Proof. unfold block_subs, inside. by destruct (b_contains b) as [[] []]. Qed.

Lemma create_areas_spec f b : exists k c, create_areas f b = (BFun (f_areas f ++ replicate k shrink_area) (f_next f) (f_gen f), b_with_contains b c) /\
  (forall f', length (f_areas f') = length (f_areas f) + k -> new_areas f f' (b_with_contains b c)) /\ length (inside (b_with_contains b c)) = length (inside b).
Proof.
  unfold create_areas, inside, new_areas. destruct (b_contains b) as [[c0|] [c1|]] eqn:E; cbn [fst snd from_option app length].
  - exists 2, (Some (length (f_areas f)), Some (length (f_areas f ++ [shrink_area]))). split; [by rewrite <- app_assoc|]. split; [|done].
    intros f' Hl. unfold inside. cbn [b_with_contains b_contains fst snd from_option app]. rewrite app_length. cbn [length]. split.
    + repeat constructor; rewrite ?elem_of_cons; [|by intros ?%elem_of_nil]. intros [?|?%elem_of_nil]; [lia|done].
    + intros s. rewrite !elem_of_cons. intros [->|[->|?%elem_of_nil]]; [lia|lia|done].
  - exists 1, (Some (length (f_areas f)), None). split; [done|]. split; [|done]. intros f' Hl. unfold inside. cbn [b_with_contains b_contains fst snd from_option app].
    split; [repeat constructor; by intros ?%elem_of_nil|]. intros s. rewrite !elem_of_cons. intros [->|?%elem_of_nil]; [lia|done].
  - exists 1, (None, Some (length (f_areas f))). split; [done|]. split; [|done]. intros f' Hl. unfold inside. cbn [b_with_contains b_contains fst snd from_option app].
    split; [repeat constructor; by intros ?%elem_of_nil|]. intros s. rewrite !elem_of_cons. intros [->|?%elem_of_nil]; [lia|done].
  - exists 0, (None, None). split; [by rewrite app_nil_r|]. split; [|done]. intros f' Hl. unfold inside. cbn [b_with_contains b_contains fst snd from_option app].
    split; [constructor|]. by intros s ?%elem_of_nil.
Qed.

Lemma touch_count ty b : length (inside (touch_contains ty b)) = type_areas ty.
Proof. unfold touch_contains, type_areas, inside. destruct (t_areas ty) as [|[|[|n]]]; done. Qed.

Lemma read_grow f k id p next gen : bf_block_at (BFun (f_areas f ++ replicate k shrink_area) next gen) id p = bf_block_at f id p.
Proof.
  unfold bf_block_at. cbn [f_areas]. destruct (decide (id < length (f_areas f))) as [Hl|Hl].
  - by rewrite lookup_app_l.
  - rewrite lookup_app_r by lia. rewrite (lookup_ge_None_2 (f_areas f)) by lia. cbn [mbind option_bind].
    destruct (replicate k shrink_area !! (id - length (f_areas f))) as [a|] eqn:E; [|done]. apply lookup_replicate in E as [-> _]. done.
Qed.
Lemma read_set fs next gen id a x y b : fs !! id = Some a ->
  only_at id (x, y) (Some b) (BFun fs next gen) (BFun (<[id := set_block_at a x y b]> fs) next gen).
Proof.
  intros Ha id' p'. unfold bf_block_at. cbn [f_areas]. destruct (decide (id' = id)) as [->|Hne].
  - rewrite list_lookup_insert by (by eapply lookup_lt_Some). rewrite Ha. cbn [mbind option_bind set_block_at a_with_blocks a_blocks].
    destruct (decide (id = id /\ p' = (x, y))) as [[_ ->]|Hp]; [by rewrite lookup_insert|]. rewrite lookup_insert_ne; [done|]. intros <-. by apply Hp.
  - rewrite list_lookup_insert_ne by done. rewrite decide_False; [done|]. by intros [? _].
Qed.
Lemma read_areas f f' : f_areas f' = f_areas f -> forall id p, bf_block_at f' id p = bf_block_at f id p.
Proof. intros H id p. unfold bf_block_at. by rewrite H. Qed.

Section edits.
  Context (types : string -> option btype) (fuel : nat) (st : bfun * list bsnap) (st' : bfun * list bsnap).
  Hypothesis (Hty : types_ok types) (Hed : edited types (thin_filler types) st).
  Notation f := (st.1).
  Notation f' := (st'.1).

  Lemma edits_ok : fun_ok f.
  Proof using Hty Hed. by destruct (edited_fun_ok _ _ Hty Hed). Qed.
  Lemma area_ok_of id a : f_areas f !! id = Some a -> area_ok a.
  Proof using Hty Hed. intros Ha. destruct edits_ok as (H & _). by eapply H. Qed.
  Lemma origin_of id a x y o b : f_areas f !! id = Some a -> a_blocks a !! o = Some b -> covers o b (x, y) -> bf_origin_at f id (x, y) = Some o.
  Proof using Hty Hed.
    intros Ha Hb Hc. destruct (fun_ok_spec f edits_ok) as (_ & Hres & _). apply Hres. exists b. split; [|done].
    unfold bf_block_at. by rewrite Ha.
  Qed.

  (** A new block is put where it was asked for, as its type says, with a new id and with new areas; nothing else changes. *)
  Theorem C69_instanciate id x y t lbl : bf_step types fuel st (BInst id x y t lbl) = Some (st', None) ->
    exists ty b, types t = Some ty /\ made_of ty lbl b /\ new_id f b /\ new_areas f f' b /\ length (inside b) = type_areas ty /\
      only_at id (x, y) (Some b) f f'.
  Proof using Hty Hed.
    intros H. destruct st as [f0 sn] eqn:Est. unfold bf_step in H. destruct (bf_instanciate types f0 id x y t lbl) as [f1 e] eqn:E.
    injection H as H1 H2. subst st' e. cbn [fst]. assert (fun_ok f0) as Hf by (rewrite <- Est in *; pose proof edits_ok as H; by rewrite Est in H).
    unfold bf_instanciate in E. destruct (f_areas f0 !! id) as [a|] eqn:Ha; [|by injection E]. destruct (types t) as [ty|] eqn:Et; [|by injection E].
    destruct (space_at a x y (t_rows ty)) eqn:Hs; cbn [negb] in E; [|by injection E].
    destruct (create_areas_spec (BFun (f_areas f0) (S (f_next f0)) (f_gen f0)) (instanciate_block ty lbl (S (f_next f0)))) as (k & c & Ec & Hn & Hl).
    rewrite Ec in E. cbn [f_bump f_areas f_next f_gen] in E, Hn.
    assert ((f_areas f0 ++ replicate k shrink_area) !! id = Some a) as Ha' by (by apply lookup_app_l_Some). rewrite Ha' in E. injection E as <-.
    eexists ty, _. split; [done|]. split; [|split; [|split; [|split]]].
    5:{ intros id' p'. unfold f_with_area. cbn [f_areas f_next f_gen]. rewrite (read_set _ _ _ _ _ _ _ _ Ha' id' p'). destruct (decide _); [done|]. apply read_grow. }
    - repeat split.
    - apply fresh; [done|]. cbn. lia.
    - specialize (Hn (f_with_area (BFun (f_areas f0 ++ replicate k shrink_area) (S (f_next f0)) (S (f_gen f0))) id (set_block_at a x y (b_with_contains (instanciate_block ty lbl (S (f_next f0))) c)))).
      apply Hn. cbn [f_with_area f_areas]. by rewrite insert_length, app_length, replicate_length.
    - rewrite Hl. apply touch_count.
  Qed.

  (** The block that covers the cell is removed, nothing else. *)
  Theorem C69_remove id x y : bf_step types fuel st (BRemove id x y) = Some (st', None) ->
    exists o, bf_origin_at f id (x, y) = Some o /\ only_at id o None f f'.
  Proof using Hty Hed.
    intros H. destruct st as [f0 sn] eqn:Est. unfold bf_step in H. destruct (bf_remove f0 id x y) as [f1 e] eqn:E.
    injection H as H1 H2. subst st' e. rewrite <- Est in *. pose proof edits_ok as Hf. pose proof origin_of as Ho. rewrite Est in *. cbn [fst] in *.
    destruct (remove_cases f0 id x y f1 None Hf E) as [[_ [? ?]]|(a & o & b & Ha & Hb & Hc & _ & ->)]; [done|].
    exists o. split; [by eapply Ho|]. intros id' p'. unfold bf_block_at. cbn [f_bump f_with_area f_areas]. destruct (decide (id' = id)) as [->|Hne].
    - rewrite list_lookup_insert by (by eapply lookup_lt_Some). rewrite Ha. cbn [mbind option_bind a_with_blocks a_blocks].
      destruct (decide (id = id /\ p' = o)) as [[_ ->]|Hp]; [by rewrite lookup_delete|]. rewrite lookup_delete_ne; [done|]. intros <-. by apply Hp.
    - rewrite list_lookup_insert_ne by done. rewrite decide_False; [done|]. by intros [? _].
  Qed.

  (** The block that covers the cell is moved to the target as it is; nothing else changes. *)
  Theorem C69_move id x y id2 x2 y2 : bf_step types fuel st (BMove id x y id2 x2 y2) = Some (st', None) ->
    exists o b, bf_origin_at f id (x, y) = Some o /\ bf_block_at f id o = Some b /\
      forall id' p', bf_block_at f' id' p' =
        if decide (id' = id2 /\ p' = (x2, dest_y y o.2 y2)) then Some b else if decide (id' = id /\ p' = o) then None else bf_block_at f id' p'.
  Proof using Hty Hed.
    intros H. destruct st as [f0 sn] eqn:Est. unfold bf_step in H. apply bind_Some in H as ([f1 e] & E & H).
    injection H as H1 H2. subst st' e. rewrite <- Est in *. pose proof edits_ok as Hf. pose proof origin_of as Ho. rewrite Est in *. cbn [fst] in *.
    unfold bf_move in E. apply bind_Some in E as (circ & _ & E). destruct circ; [by injection E|].
    destruct (f_areas f0 !! id) as [a|] eqn:Ha; [|by injection E].
    assert (area_ok a) as Hok by (destruct Hf as (H' & _); by eapply H').
    destruct (area_remove_at a x y) as [[a' [b o]]|] eqn:Hr; [|by injection E].
    apply area_remove_inv in Hr as (Hb & Hc & ->); [|done]. cbn [f_with_area f_areas f_next f_gen f_bump] in E.
    destruct (<[id := a_with_blocks a (delete o (a_blocks a))]> (f_areas f0) !! id2) as [a2|] eqn:Ha2; [|by injection E].
    destruct (space_at a2 x2 (grab_y y o.2 y2) (b_rows b)) eqn:Hs; [|by injection E]. injection E as <-.
    exists o, b. split; [by eapply Ho|]. split; [unfold bf_block_at; by rewrite Ha|].
    intros id' p'. unfold f_bump, f_with_area. cbn [f_areas f_next f_gen]. rewrite (read_set _ _ _ _ _ _ _ _ Ha2 id' p'). change (dest_y y o.2 y2) with (grab_y y o.2 y2).
    destruct (decide (id' = id2 /\ _)); [done|]. unfold bf_block_at. cbn [f_areas]. destruct (decide (id' = id)) as [->|Hne].
    - rewrite list_lookup_insert by (by eapply lookup_lt_Some). rewrite Ha. cbn [mbind option_bind a_with_blocks a_blocks].
      destruct (decide (id = id /\ p' = o)) as [[_ ->]|Hp]; [by rewrite lookup_delete|]. rewrite lookup_delete_ne; [done|]. intros <-. by apply Hp.
    - rewrite list_lookup_insert_ne by done. rewrite (decide_False (P := id' = id /\ p' = o)); [done|]. by intros [? _].
  Qed.

  (** A copy of the block that covers the cell is put at the target, with a new id and with new, empty areas; nothing else changes. *)
  Theorem C69_clone id x y id2 x2 y2 : bf_step types fuel st (BClone id x y id2 x2 y2) = Some (st', None) ->
    exists o b b', bf_origin_at f id (x, y) = Some o /\ bf_block_at f id o = Some b /\ copy_of b b' /\ new_id f b' /\ new_areas f f' b' /\
      length (inside b') = (match types (b_typ b) with Some ty => type_areas ty | None => length (inside b) end) /\
      only_at id2 (x2, dest_y y o.2 y2) (Some b') f f'.
  Proof using Hty Hed.
    intros H. destruct st as [f0 sn] eqn:Est. unfold bf_step in H. destruct (bf_clone types f0 id x y id2 x2 y2) as [f1 e] eqn:E.
    injection H as H1 H2. subst st' e. rewrite <- Est in *. pose proof edits_ok as Hf. pose proof origin_of as Ho. rewrite Est in *. cbn [fst] in *.
    unfold bf_clone in E. destruct (f_areas f0 !! id) as [a|] eqn:Ha; [|by injection E].
    destruct (ref_at a x y) as [[b o]|] eqn:Hr; [|by injection E].
    assert (area_ok a) as Hok by (destruct Hf as (H' & _); by eapply H'). apply ref_at_ok in Hr as [Hb Hc]; [|done].
    cbn [b_with_id b_typ] in E.
    set (b1 := match types (b_typ b) with Some t => touch_contains t (b_with_id b (S (f_next f0))) | None => b_with_id b (S (f_next f0)) end) in E.
    assert (copy_of b b1 /\ b_id b1 = S (f_next f0) /\ length (inside b1) = (match types (b_typ b) with Some ty => type_areas ty | None => length (inside b) end)) as (Hcp & Hi1 & Hl1).
    { unfold b1. destruct (types (b_typ b)) as [ty|]; (split; [repeat split|split; [done|]]); [apply touch_count|done]. }
    destruct (create_areas_spec (BFun (f_areas f0) (S (f_next f0)) (f_gen f0)) b1) as (k & c & Ec & Hn & Hl).
    rewrite Ec in E. cbn [f_areas f_next f_gen] in E, Hn.
    destruct ((f_areas f0 ++ replicate k shrink_area) !! id2) as [a2|] eqn:Ha2; [|by injection E].
    destruct (space_at a2 x2 (grab_y y o.2 y2) (b_rows (b_with_contains b1 c))) eqn:Hs; [|by injection E]. injection E as <-.
    exists o, b, (b_with_contains b1 c). split; [by eapply Ho|]. split; [unfold bf_block_at; by rewrite Ha|].
    split; [by destruct Hcp as (?&?&?&?&?&?&?); repeat split|]. split; [apply fresh; [done|]; cbn [b_with_contains b_id]; lia|].
    split; [|split; [by rewrite Hl|]].
    - specialize (Hn (f_bump (f_with_area (BFun (f_areas f0 ++ replicate k shrink_area) (S (f_next f0)) (f_gen f0)) id2 (set_block_at a2 x2 (grab_y y o.2 y2) (b_with_contains b1 c))))).
      apply Hn. cbn [f_bump f_with_area f_areas]. by rewrite insert_length, app_length, replicate_length.
    - intros id' p'. unfold f_bump, f_with_area. cbn [f_areas f_next f_gen].
      rewrite (read_set _ _ _ _ _ _ _ _ Ha2 id' p'). change (dest_y y o.2 y2) with (grab_y y o.2 y2). destruct (decide _); [done|]. apply read_grow.
  Qed.
  (** *** Chains *)
  Lemma chain_load id a x y s a' l : f_areas f !! id = Some a -> chain_at a x y = Some (Some s) -> remove_load a s = (a', l) ->
    area_ok a' /\ load_ok l /\ chain_of f id x y l.*2 /\
    (forall o b, a_blocks a' !! o = Some b <-> o ∉ l.*2 /\ a_blocks a !! o = Some b) /\
    (forall b o, (b, o) ∈ l <-> o ∈ l.*2 /\ a_blocks a !! o = Some b).
  Proof using Hty Hed.
    intros Ha Hs Hr. pose proof (area_ok_of id a Ha) as Hok.
    destruct (remove_load_ok a s Hok) as (a1 & l1 & E & Hok' & _ & _ & _ & Hbl & Hlok & Hl & _); [by eapply chain_dom|].
    rewrite Hr in E. injection E as <- <-.
    assert (forall p, p ∈ l.*2 <-> p ∈ s) as Hdom.
    { intros p. rewrite elem_of_list_fmap. split.
      - intros ([b' p'] & -> & Hb'). cbn. by apply Hl in Hb' as [? _].
      - intros Hp. destruct (chain_dom a x y s Hok Hs p Hp) as [b' Hb']. exists (b', p). split; [done|]. by apply Hl. }
    split; [done|]. split; [done|]. split; [|split].
    - destruct (chain_at_ok a x y Hok) as (r & Er & Hx). rewrite Hs in Er. injection Er as <-. destruct Hx as (o & b & Hb & Hc & Hrtc).
      exists o. split; [by eapply origin_of|]. split; [by destruct Hlok|]. intros p. by rewrite Hdom, Hrtc, (connected_rtc f id a Ha).
    - intros o b. by rewrite Hbl, Hdom.
    - intros b o. by rewrite Hl, Hdom.
  Qed.

  Lemma has_space_iff a L dx dy : area_ok a -> has_space a L dx dy = true <->
    forall b p q b' c, (b, p) ∈ L -> a_blocks a !! q = Some b' -> covers ((p.1 + dx)%Z, (p.2 + dy)%Z) b c -> covers q b' c -> False.
  Proof.
    intros Hok. unfold has_space. rewrite forallb_forall. split.
    - intros H b p q b' c Hp Hq [Hc1 Hc2] Hc'. apply elem_of_list_In, H in Hp. cbn [fst snd] in *.
      eapply (proj1 (space_at_ok a _ _ _ Hok)) in Hp; [done|exact Hq|exact Hc'|done|done].
    - intros H [b p] Hp%elem_of_list_In. cbn [fst snd]. apply space_at_ok; [done|]. intros o b' c Ho Hc Hx Hy. eapply H; [done|done| |done]. done.
  Qed.
  Lemma try_fit_first a L : forall offs L', try_fit a L offs = Some L' -> exists k o, offs !! k = Some o /\ L' = load_move L o.1 o.2 /\ has_space a L o.1 o.2 = true /\
    forall j o', j < k -> offs !! j = Some o' -> has_space a L o'.1 o'.2 = false.
  Proof.
    induction offs as [|o offs IH]; intros L' H; [done|]. cbn [try_fit] in H. destruct (has_space a L o.1 o.2) eqn:E.
    - injection H as <-. exists 0, o. split_and!; try done. intros j o' Hj. lia.
    - destruct (IH _ H) as (k & o1 & H1 & H2 & H3 & H4). exists (S k), o1. split_and!; try done.
      intros [|j] o' Hj Ho; [by injection Ho as <-|]. apply (H4 j); [lia|done].
  Qed.
  Lemma tries_eq : fit_offsets = tries.
  Proof. done. Qed.
  Lemma load_move_elem L dx dy b p : (b, p) ∈ load_move L dx dy <-> (b, ((p.1 - dx)%Z, (p.2 - dy)%Z)) ∈ L.
  Proof.
    unfold load_move. rewrite elem_of_list_fmap. split.
    - intros ([b0 [u v]] & [= -> ->] & H). cbn [fst snd]. by rewrite !Z.add_simpl_r.
    - intros H. eexists. split; [|exact H]. cbn [fst snd]. rewrite !Z.sub_add. by destruct p.
  Qed.
  Lemma min_fold (g : block * (Z * Z) -> Z) L : forall m0, (foldl (fun m p => Z.min m (g p)) m0 L <= m0)%Z /\
    (forall p, p ∈ L -> foldl (fun m p => Z.min m (g p)) m0 L <= g p)%Z /\
    (foldl (fun m p => Z.min m (g p)) m0 L = m0 \/ exists p, p ∈ L /\ foldl (fun m p => Z.min m (g p)) m0 L = g p).
  Proof.
    induction L as [|q L IH]; intros m0; cbn [foldl].
    - split_and!; [lia|by intros p ?%elem_of_nil|by left].
    - destruct (IH (Z.min m0 (g q))) as (H1 & H2 & H3). split_and!.
      + lia.
      + intros p [->|Hp]%elem_of_cons; [lia|by apply H2].
      + destruct H3 as [H3|(p & Hp & H3)]; [|right; exists p; split; [by right|done]].
        destruct (Z.min_spec m0 (g q)) as [[_ E]|[_ E]]; rewrite E in *; [by left|]. right. exists q. split; [by left|done].
  Qed.
  Lemma min_least (g : Z * Z -> Z) (L : list (block * (Z * Z))) z m0 : least (g <$> L.*2) z -> (z <= m0)%Z -> foldl (fun m (p : block * (Z * Z)) => Z.min m (g p.2)) m0 L = z.
  Proof.
    intros [Hin Hle] Hz. destruct (min_fold (fun p => g p.2) L m0) as (H1 & H2 & H3).
    apply elem_of_list_fmap in Hin as (q & -> & Hq). apply elem_of_list_fmap in Hq as (bq & -> & Hq). specialize (H2 _ Hq).
    destruct H3 as [H3|(p & Hp & H3)]; [rewrite H3 in *; lia|]. rewrite H3 in *.
    assert (g bq.2 <= g p.2)%Z; [|lia]. apply Hle. apply elem_of_list_fmap. exists p.2. split; [done|]. apply elem_of_list_fmap. by exists p.
  Qed.

  (** What is read after a load [L], which is [l] moved, was put into the area [id2] of [g] *)
  Lemma read_put (g : bfun) id2 a2 (l L : list (block * (Z * Z))) dx dy next gen : f_areas g !! id2 = Some a2 -> NoDup L.*2 ->
    (forall b p, (b, p) ∈ L <-> (b, ((p.1 - dx)%Z, (p.2 - dy)%Z)) ∈ l) -> forall id' p,
    bf_block_at (BFun (<[id2 := set_blocks_from a2 L]> (f_areas g)) next gen) id' p =
      if decide (id' = id2 /\ ((p.1 - dx)%Z, (p.2 - dy)%Z) ∈ l.*2) then a_blocks (set_blocks_from a2 L) !! p else bf_block_at g id' p.
  Proof.
    intros Ha Hnd HL id' p. unfold bf_block_at. cbn [f_areas]. destruct (decide (id' = id2)) as [->|Hne].
    - rewrite list_lookup_insert by (by eapply lookup_lt_Some). rewrite Ha. cbn [mbind option_bind]. destruct (decide _) as [|Hn]; [done|].
      apply option_eq. intros b. cbn [set_blocks_from a_with_blocks a_blocks]. fold (put_load (a_blocks a2) L). rewrite put_load_lookup by done.
      assert (p ∉ L.*2) as Hp.
      { intros H. apply elem_of_list_fmap in H as ([b0 p0] & -> & H). apply HL in H. cbn [snd] in Hn. apply Hn. split; [done|]. apply elem_of_list_fmap. eexists. split; [|exact H]. done. }
      split; [|by right]. intros [H|[_ H]]; [|done]. exfalso. apply Hp. apply elem_of_list_fmap. by exists (b, p).
    - rewrite list_lookup_insert_ne by done. rewrite decide_False; [done|]. by intros [? _].
  Qed.
  Lemma put_at a2 (l L : list (block * (Z * Z))) dx dy b p : NoDup L.*2 ->
    (forall b p, (b, p) ∈ L <-> (b, ((p.1 - dx)%Z, (p.2 - dy)%Z)) ∈ l) -> (b, ((p.1 - dx)%Z, (p.2 - dy)%Z)) ∈ l -> a_blocks (set_blocks_from a2 L) !! p = Some b.
  Proof.
    intros Hnd HL Hb. cbn [set_blocks_from a_with_blocks a_blocks]. fold (put_load (a_blocks a2) L). apply put_load_lookup; [done|]. left. by apply HL.
  Qed.

  (** All blocks of the chain at the cell are moved, as they are, by the same offset to the target area; nothing else changes. The offset is the first
      of the tries around the wanted one at which they meet no other block. Wanted is the offset from the cell to the target; in another area less of it,
      so that no block comes to lie left of column 0 or above row 0. *)
  Theorem C69_move_chain id x y id2 x2 y2 : bf_step types fuel st (BMoveChain id x y id2 x2 y2) = Some (st', None) ->
    exists l wx wy k ox oy, chain_of f id x y l /\
      (id2 = id -> wx = x2 - x /\ wy = y2 - y)%Z /\
      (id2 <> id -> (forall mx, least (fst <$> l) mx -> mx <= 100000000 -> wx = Z.max (x2 - x) (- mx)) /\
                    (forall my, least (snd <$> l) my -> my <= 100000000 -> wy = Z.max (y2 - y) (- my)))%Z /\
      tries !! k = Some (ox, oy) /\ fits f id l id2 (wx + ox) (wy + oy) /\
      (forall j o, j < k -> tries !! j = Some o -> ~ fits f id l id2 (wx + o.1) (wy + o.2)) /\
      forall id' p, bf_block_at f' id' p =
        let q := ((p.1 - (wx + ox))%Z, (p.2 - (wy + oy))%Z) in
        if decide (id' = id2 /\ q ∈ l) then bf_block_at f id q else if decide (id' = id /\ p ∈ l) then None else bf_block_at f id' p.
  Proof using Hty Hed.
    intros H. assert (exists f1, bf_move_chain fuel f id x y id2 x2 y2 = Some (f1, None) /\ f' = f1) as (f1 & E & ->).
    { destruct st as [f0 sn]. unfold bf_step in H. apply bind_Some in H as ([f1 e] & E & H). injection H as <- ->. by exists f1. }
    clear H. unfold bf_move_chain in E. destruct (f_areas f !! id) as [a|] eqn:Ha; [|by injection E].
    apply bind_Some in E as ([s|] & Hs & E); [|by injection E]. destruct (remove_load a s) as [a' l] eqn:Hr.
    destruct (chain_load id a x y s a' l Ha Hs Hr) as (Hok' & Hlok & Hch & Hbl & Hl). pose proof (area_ok_of id a Ha) as Hok.
    assert (Hat : forall p, bf_block_at f id p = a_blocks a !! p) by (intros p; unfold bf_block_at; by rewrite Ha).
    cbn [f_bump f_areas f_next f_gen] in E. destruct (Nat.eqb_spec id2 id) as [->|Hne].
    - destruct (try_fit a' (load_move l (x2 - x) (y2 - y)) fit_offsets) as [L|] eqn:Hfit; [|by injection E]. injection E as <-.
      apply try_fit_first in Hfit as (k & [ox oy] & Hk & -> & Hsp & Hfirst). cbn [fst snd] in *.
      assert (Hfits : forall o, has_space a' (load_move l (x2 - x) (y2 - y)) o.1 o.2 = true <-> fits f id l.*2 id ((x2 - x) + o.1) ((y2 - y) + o.2)).
      { intros o. rewrite has_space_iff by done. split.
        - intros HH p b q b' c Hp Hb Hq Hn Hc Hc'. rewrite Hat in Hb, Hq. apply (HH b ((p.1 + (x2 - x))%Z, (p.2 + (y2 - y))%Z) q b' c); [| | |done].
          + apply load_move_elem. cbn [fst snd]. rewrite !Z.add_simpl_r. destruct p. by apply Hl.
          + apply Hbl. split; [|done]. intros ?. by apply Hn.
          + cbn [fst snd]. by rewrite <- !Z.add_assoc.
        - intros HH b p q b' c Hp Hq Hc Hc'. apply load_move_elem, Hl in Hp as [Hp Hb]. apply Hbl in Hq as [Hq Hb'].
          apply (HH _ b q b' c Hp); [by rewrite Hat|by rewrite Hat|by intros [_ ?]| |done]. cbn [fst snd].
          replace (p.1 - (x2 - x) + (x2 - x + o.1))%Z with (p.1 + o.1)%Z by lia. by replace (p.2 - (y2 - y) + (y2 - y + o.2))%Z with (p.2 + o.2)%Z by lia. }
      exists l.*2, (x2 - x)%Z, (y2 - y)%Z, k, ox, oy. split; [done|]. split; [done|]. split; [done|]. split; [by rewrite <- tries_eq|].
      split; [by apply (Hfits (ox, oy))|]. split.
      { intros j o Hj Ho Hf. rewrite <- tries_eq in Ho. apply Hfits in Hf. by rewrite (Hfirst j o Hj Ho) in Hf. }
      intros id' p. set (L := load_move (load_move l (x2 - x) (y2 - y)) ox oy).
      assert (HL : forall b p, (b, p) ∈ L <-> (b, ((p.1 - (x2 - x + ox))%Z, (p.2 - (y2 - y + oy))%Z)) ∈ l).
      { intros b q. unfold L. rewrite !load_move_elem. cbn [fst snd].
        by replace (q.1 - ox - (x2 - x))%Z with (q.1 - (x2 - x + ox))%Z by lia; replace (q.2 - oy - (y2 - y))%Z with (q.2 - (y2 - y + oy))%Z by lia. }
      assert (HndL : NoDup L.*2) by (by destruct (load_move_ok _ ox oy (load_move_ok _ (x2 - x) (y2 - y) Hlok))).
      unfold f_bump, f_with_area. cbn [f_areas f_next f_gen].
      replace (<[id:=set_blocks_from a' L]> (f_areas f)) with (<[id:=set_blocks_from a' L]> (f_areas (BFun (<[id:=a']> (f_areas f)) (f_next f) (f_gen f))))
        by (cbn [f_areas]; by rewrite list_insert_insert).
      rewrite (read_put _ id a' l L (x2 - x + ox) (y2 - y + oy)); [|cbn [f_areas]; rewrite list_lookup_insert; [done|by eapply lookup_lt_Some]|done|done].
      cbn zeta. destruct (decide (id' = id /\ _ ∈ l.*2)) as [[-> Hq]|Hq].
      + rewrite Hat. apply elem_of_list_fmap in Hq as ([b q] & Eq & Hq). cbn [snd] in Eq. rewrite Eq.
        rewrite (proj2 (proj1 (Hl b q) Hq)). eapply put_at; [done|exact HL|]. by rewrite Eq.
      + unfold bf_block_at at 1. cbn [f_areas]. destruct (decide (id' = id)) as [->|Hn].
        * rewrite list_lookup_insert by (by eapply lookup_lt_Some). cbn [mbind option_bind]. destruct (decide (id = id /\ p ∈ l.*2)) as [[_ Hp]|Hp].
          -- destruct (a_blocks a' !! p) as [b|] eqn:Eb; [|done]. by apply Hbl in Eb as [? _].
          -- apply option_eq. intros b. rewrite Hbl, Hat. split; [by intros [_ ?]|]. intros ?. split; [|done]. intros ?. by apply Hp.
        * rewrite list_lookup_insert_ne by done. rewrite decide_False; [done|]. by intros [? _].
    - apply bind_Some in E as (circ & _ & E). destruct circ; [by injection E|].
      unfold load_normalize in E.
      set (mx := foldl (fun m (p : block * (Z * Z)) => Z.min m p.2.1) 100000000%Z l) in E. set (my := foldl (fun m (p : block * (Z * Z)) => Z.min m p.2.2) 100000000%Z l) in E.
      cbn [fst snd] in E. destruct (f_areas f !! id2) as [a2|] eqn:Ha2; [|by injection E]. pose proof (area_ok_of id2 a2 Ha2) as Hok2.
      set (X := Z.max (mx - x + x2) 0) in E. set (Y := Z.max (my - y + y2) 0) in E.
      set (L0 := load_move (load_sort (load_move l (- mx) (- my))) X Y) in E.
      assert (HL0 : forall b p, (b, p) ∈ L0 <-> (b, ((p.1 - (X - mx))%Z, (p.2 - (Y - my))%Z)) ∈ l).
      { intros b q. unfold L0. rewrite load_move_elem, load_sort_elem, load_move_elem. cbn [fst snd].
        by replace (q.1 - X - - mx)%Z with (q.1 - (X - mx))%Z by lia; replace (q.2 - Y - - my)%Z with (q.2 - (Y - my))%Z by lia. }
      assert (HlL0 : load_ok L0) by (by apply load_move_ok, load_sort_ok, load_move_ok).
      destruct (try_fit a2 L0 fit_offsets) as [L|] eqn:Hfit; [|by injection E]. injection E as <-.
      apply try_fit_first in Hfit as (k & [ox oy] & Hk & -> & Hsp & Hfirst). cbn [fst snd] in *.
      assert (Hat2 : forall p, bf_block_at f id2 p = a_blocks a2 !! p) by (intros p; unfold bf_block_at; by rewrite Ha2).
      assert (Hfits : forall o, has_space a2 L0 o.1 o.2 = true <-> fits f id l.*2 id2 ((X - mx) + o.1) ((Y - my) + o.2)).
      { intros o. rewrite has_space_iff by done. split.
        - intros HH p b q b' c Hp Hb Hq Hn Hc Hc'. rewrite Hat in Hb. rewrite Hat2 in Hq. apply (HH b ((p.1 + (X - mx))%Z, (p.2 + (Y - my))%Z) q b' c); [|done| |done].
          + apply HL0. cbn [fst snd]. rewrite !Z.add_simpl_r. destruct p. by apply Hl.
          + cbn [fst snd]. by rewrite <- !Z.add_assoc.
        - intros HH b p q b' c Hp Hq Hc Hc'. apply HL0, Hl in Hp as [Hp Hb].
          apply (HH _ b q b' c Hp); [by rewrite Hat|by rewrite Hat2|by intros [? _]| |done]. cbn [fst snd].
          replace (p.1 - (X - mx) + (X - mx + o.1))%Z with (p.1 + o.1)%Z by lia. by replace (p.2 - (Y - my) + (Y - my + o.2))%Z with (p.2 + o.2)%Z by lia. }
      exists l.*2, (X - mx)%Z, (Y - my)%Z, k, ox, oy. split; [done|]. split; [done|]. split.
      { intros _. split.
        - intros z Hz Hle. rewrite <- (min_least fst l z 100000000 Hz Hle). fold mx. unfold X. lia.
        - intros z Hz Hle. rewrite <- (min_least snd l z 100000000 Hz Hle). fold my. unfold Y. lia. }
      split; [by rewrite <- tries_eq|]. split; [by apply (Hfits (ox, oy))|]. split.
      { intros j o Hj Ho Hf. rewrite <- tries_eq in Ho. apply Hfits in Hf. by rewrite (Hfirst j o Hj Ho) in Hf. }
      intros id' p. set (L := load_move L0 ox oy).
      assert (HL : forall b p, (b, p) ∈ L <-> (b, ((p.1 - (X - mx + ox))%Z, (p.2 - (Y - my + oy))%Z)) ∈ l).
      { intros b q. unfold L. rewrite load_move_elem, HL0. cbn [fst snd].
        by replace (q.1 - ox - (X - mx))%Z with (q.1 - (X - mx + ox))%Z by lia; replace (q.2 - oy - (Y - my))%Z with (q.2 - (Y - my + oy))%Z by lia. }
      assert (HndL : NoDup L.*2) by (by destruct (load_move_ok _ ox oy HlL0)).
      unfold f_bump, f_with_area. cbn [f_areas f_next f_gen].
      change (<[id:=a']> (f_areas f)) with (f_areas (BFun (<[id:=a']> (f_areas f)) (f_next f) (f_gen f))).
      rewrite (read_put _ id2 a2 l L (X - mx + ox) (Y - my + oy)); [|cbn [f_areas]; by rewrite list_lookup_insert_ne|done|done].
      cbn zeta. destruct (decide (id' = id2 /\ _ ∈ l.*2)) as [[-> Hq]|Hq].
      + rewrite Hat. apply elem_of_list_fmap in Hq as ([b q] & Eq & Hq). cbn [snd] in Eq. rewrite Eq.
        rewrite (proj2 (proj1 (Hl b q) Hq)). eapply put_at; [done|exact HL|]. by rewrite Eq.
      + unfold bf_block_at at 1. cbn [f_areas]. destruct (decide (id' = id)) as [->|Hn].
        * rewrite list_lookup_insert by (by eapply lookup_lt_Some). cbn [mbind option_bind]. destruct (decide (id = id /\ p ∈ l.*2)) as [[_ Hp]|Hp].
          -- destruct (a_blocks a' !! p) as [b|] eqn:Eb; [|done]. by apply Hbl in Eb as [? _].
          -- apply option_eq. intros b. rewrite Hbl, Hat. split; [by intros [_ ?]|]. intros ?. split; [|done]. intros ?. by apply Hp.
        * rewrite list_lookup_insert_ne by done. rewrite decide_False; [done|]. by intros [? _].
  Qed.
  (** *** Splitting a chain *)
  Lemma inputs_joined id a (l : list (block * (Z * Z))) x c : f_areas f !! id = Some a -> (forall b o, (b, o) ∈ l <-> o ∈ l.*2 /\ a_blocks a !! o = Some b) ->
    c ∈ connected_inputs l x <-> c.1 = (x + 1)%Z /\ joined f id l.*2 x c.2.
  Proof.
    intros Ha Hl. assert (Hat : forall p, bf_block_at f id p = a_blocks a !! p) by (intros p; unfold bf_block_at; by rewrite Ha).
    unfold connected_inputs. rewrite elem_of_list_join. split.
    - intros (cs & Hc & Hcs). apply elem_of_list_fmap in Hcs as ([b2 o2] & -> & Hp). apply elem_of_list_filter in Hp as [Hx2 Hp].
      apply elem_of_list_fmap in Hc as (r & -> & Hr). apply elem_of_list_filter in Hr as [Ho Hr]. cbn [fst snd] in *.
      apply port_rows_elem in Hr as (Hr & lb & Hlb). apply elem_of_list_join in Ho as (ys & Hy & Hys). apply elem_of_list_fmap in Hys as ([b1 o1] & -> & Hq).
      apply elem_of_list_filter in Hq as [Hx1 Hq]. cbn [fst snd] in *. apply elem_of_list_fmap in Hy as (r1 & E & Hr1). apply port_rows_elem in Hr1 as (Hr1 & lb1 & Hlb1).
      split; [done|]. apply Hl in Hp as [Hp Hb2], Hq as [Hq Hb1]. exists o1, o2, b1, b2. rewrite !Hat. split_and!; try done.
      + by exists r1, lb1.
      + by exists r, lb.
    - intros (Hx & o1 & o2 & b1 & b2 & H1 & H2 & Hb1 & Hb2 & Hx1 & Hx2 & (r1 & lb1 & Hr1 & Hlb1 & Hy1) & (r & lb & Hr & Hlb & Hy)). rewrite Hat in Hb1, Hb2.
      eexists. split; [|apply elem_of_list_fmap; exists (b2, o2); split; [done|apply elem_of_list_filter; split; [done|by apply Hl]]].
      cbn [fst snd]. apply elem_of_list_fmap. exists r. split; [destruct c; cbn [fst snd] in *; congruence|]. apply elem_of_list_filter. split; [|apply port_rows_elem; eauto].
      apply elem_of_list_join. eexists. split; [|apply elem_of_list_fmap; exists (b1, o1); split; [done|apply elem_of_list_filter; split; [done|by apply Hl]]].
      cbn [fst snd]. apply elem_of_list_fmap. exists r1. split; [congruence|]. apply port_rows_elem; eauto.
  Qed.

  (** The blocks of the chain right of the column move one column to the right, and each connection that is cut gets a filler, except for the one in the
      row of the cell. Nothing else changes. *)
  Theorem C69_split id x y fl : thin_filler types f (BSplit id x y fl) -> bf_step types fuel st (BSplit id x y fl) = Some (st', None) ->
    exists l, chain_of f id x y l /\
      (forall q b, q ∈ l -> bf_block_at f id q = Some b -> bf_block_at f' id ((if (x <? q.1)%Z then q.1 + 1 else q.1)%Z, q.2) = Some b) /\
      (forall p b, p ∉ l -> bf_block_at f id p = Some b -> bf_block_at f' id p = Some b) /\
      (forall t ty yy, fl = Some t -> types t = Some ty -> joined f id l x yy -> yy <> y ->
         exists b, bf_block_at f' id ((x + 1)%Z, yy) = Some b /\ made_of ty None b /\ new_id f b) /\
      (forall p b, bf_block_at f' id p = Some b ->
         (exists q, q ∈ l /\ bf_block_at f id q = Some b /\ p = ((if (x <? q.1)%Z then q.1 + 1 else q.1)%Z, q.2)) \/
         (p ∉ l /\ bf_block_at f id p = Some b) \/
         (exists t ty, fl = Some t /\ types t = Some ty /\ made_of ty None b /\ new_id f b /\ length (inside b) = type_areas ty /\
            p.1 = (x + 1)%Z /\ joined f id l x p.2 /\ p.2 <> y)) /\
      (forall id' p, id' <> id -> bf_block_at f' id' p = bf_block_at f id' p).
  Proof using Hty Hed.
    intros Hthin H. assert (exists f1, bf_split types f id x y fl = Some (f1, None) /\ f' = f1) as (f1 & E & ->).
    { destruct st as [f0 sn]. unfold bf_step in H. apply bind_Some in H as ([f1 e] & E & H). injection H as <- ->. by exists f1. }
    clear H. unfold bf_split in E. destruct (f_areas f !! id) as [a|] eqn:Ha; [|by injection E].
    apply bind_Some in E as ([s|] & Hs & E); [|by injection E]. destruct (remove_load a s) as [a' l] eqn:Hr.
    destruct (chain_load id a x y s a' l Ha Hs Hr) as (Hok' & Hlok & Hch & Hbl & Hl). pose proof (area_ok_of id a Ha) as Hok.
    assert (Hat : forall p, bf_block_at f id p = a_blocks a !! p) by (intros p; unfold bf_block_at; by rewrite Ha).
    destruct (match fl with None => Some None | Some t => match types t with Some t => Some (Some t) | None => None end end) as [ot|] eqn:Hot; [|by injection E].
    destruct (split_load l x y ot (f_next f)) as [n L] eqn:HL. destruct (has_space a' L 0 0) eqn:Hsp; [|by injection E]. injection E as <-.
    assert (forall ty, ot = Some ty -> t_rows ty = 1) as Hrow.
    { intros ty ->. destruct fl as [t|]; [|done]. destruct (types t) as [ty'|] eqn:Et; [|done]. injection Hot as ->. cbn in Hthin. by apply Hthin. }
    destruct (split_load_ok l x y ot (f_next f) n L Hlok Hrow HL) as (HLok & Hn & Hcnt & _). assert (HnL : NoDup L.*2) by (by destruct HLok).
    assert (exists fs, L ≡ₚ ((fun p : block * (Z * Z) => (p.1, (if (x <? p.2.1)%Z then (p.2.1 + 1)%Z else p.2.1, p.2.2))) <$> l) ++ fs /\
      (forall b p, (b, p) ∈ fs -> exists ty, ot = Some ty /\ made_of ty None b /\ f_next f < b_id b /\ length (inside b) = type_areas ty) /\
      (forall p, p ∈ fs.*2 <-> is_Some ot /\ p.1 = (x + 1)%Z /\ joined f id l.*2 x p.2 /\ p.2 <> y)) as (fs & HLp & Hfs & Hfp).
    { unfold split_load in HL. destruct ot as [ty|].
      - fold (fill_step ty y) in HL.
        destruct (fill_fold ty y (connected_inputs l x) (f_next f) ((fun p : block * (Z * Z) => (p.1, (if (x <? p.2.1)%Z then (p.2.1 + 1)%Z else p.2.1, p.2.2))) <$> l))
          as (fs & E1 & E2 & E3 & E4).
        rewrite E1 in HL. injection HL as <- <-. exists fs. split; [apply load_sort_perm|]. split.
        + intros b p Hb. exists ty. split; [done|]. pose proof (E3 _ Hb) as (i & Ei). cbn [fst] in Ei. split; [by rewrite Ei|]. split; [|rewrite Ei; apply touch_count].
          specialize (E4 (b_id b)). destruct (decide _) as [Hd|Hd] in E4; [by destruct Hd|]. exfalso.
          unfold lcnt in E4. apply length_zero_iff_nil in E4. assert ((b, p) ∈ filter (fun p : block * (Z * Z) => b_id p.1 = b_id b) fs) as Hin by (apply elem_of_list_filter; done).
          rewrite E4 in Hin. by apply elem_of_nil in Hin.
        + intros p. rewrite E2, elem_of_list_filter, (inputs_joined id a l x p Ha Hl). split; [intros (? & ? & ?)|intros (_ & ? & ? & ?)]; split_and!; try done.
      - injection HL as <- <-. exists []. split; [rewrite app_nil_r; apply load_sort_perm|]. split.
        + by intros b p ?%elem_of_nil.
        + intros p. split; [by intros ?%elem_of_nil|]. by intros [[] _]. }
    assert (Hcov : forall p b, (b, p) ∈ L -> a_blocks a' !! p = None).
    { intros p b Hb. destruct (a_blocks a' !! p) as [b'|] eqn:Eb; [|done]. exfalso.
      eapply (proj1 (has_space_iff a' L 0 0 Hok') Hsp b p p b' p Hb Eb).
      - rewrite !Z.add_0_r. destruct HLok as (_ & _ & Hr1). specialize (Hr1 _ Hb). cbn [fst] in Hr1. split; cbn [fst snd]; [done|lia].
      - destruct Hok' as (_ & Hr1 & _). specialize (Hr1 _ _ Eb). split; [done|lia]. }
    assert (Hrd : forall p b, bf_block_at (f_with_area (f_bump (BFun (f_areas f) n (f_gen f))) id (set_blocks_from a' L)) id p = Some b <->
      (b, p) ∈ L \/ (p ∉ l.*2 /\ a_blocks a !! p = Some b)).
    { intros p b. unfold bf_block_at, f_with_area, f_bump. cbn [f_areas]. rewrite list_lookup_insert by (by eapply lookup_lt_Some). cbn [mbind option_bind].
      cbn [set_blocks_from a_with_blocks a_blocks]. fold (put_load (a_blocks a') L). rewrite put_load_lookup by done. rewrite Hbl.
      split; [intros [?|[_ ?]]; [by left|by right]|]. intros [?|Hp]; [by left|]. right. split; [|done]. intros HpL. apply elem_of_list_fmap in HpL as ([b1 p1] & Ep & HpL). cbn [snd] in Ep. subst p1.
      apply Hcov in HpL. apply Hbl in Hp. congruence. }
    exists l.*2. split; [done|]. split; [|split; [|split; [|split]]].
    - intros q b Hq Hb. rewrite Hat in Hb. apply Hrd. left. rewrite HLp. apply elem_of_app. left. apply elem_of_list_fmap. exists (b, q). split; [done|]. by apply Hl.
    - intros p b Hp Hb. rewrite Hat in Hb. apply Hrd. by right.
    - intros t ty yy -> Et Hj Hy. rewrite Et in Hot. injection Hot as <-.
      assert (((x + 1)%Z, yy) ∈ fs.*2) as Hin by (by apply Hfp). apply elem_of_list_fmap in Hin as ([b p] & Ep & Hin). cbn [snd] in Ep. subst p.
      destruct (Hfs _ _ Hin) as (ty' & E' & Hm & Hid & _). injection E' as <-. exists b. split_and!; [|done|].
      + apply Hrd. left. rewrite HLp. apply elem_of_app. by right.
      + by apply fresh; [apply edits_ok|].
    - intros p b Hb. apply Hrd in Hb as [Hb|Hb].
      + rewrite HLp in Hb. apply elem_of_app in Hb as [Hb|Hb].
        * left. apply elem_of_list_fmap in Hb as ([b' q] & E & Hq). cbn [fst snd] in E. injection E as -> ->. apply Hl in Hq as [Hq Hb]. exists q. by rewrite Hat.
        * right. right. assert (p ∈ fs.*2) as Hp by (apply elem_of_list_fmap; by exists (b, p)). apply Hfp in Hp as (_ & Hp).
          destruct (Hfs _ _ Hb) as (ty & -> & Hm & Hid & Hin). destruct fl as [t|]; [|done]. destruct (types t) as [ty'|] eqn:Et; [|done]. injection Hot as ->.
          exists t, ty. split_and!; try done; try apply Hp. by apply fresh; [apply edits_ok|].
      + right. left. by rewrite Hat.
    - intros id' p Hne. unfold bf_block_at, f_with_area, f_bump. cbn [f_areas]. by rewrite list_lookup_insert_ne.
  Qed.
End edits.
Print Assumptions C69_instanciate.
Print Assumptions C69_remove.
Print Assumptions C69_move.
Print Assumptions C69_clone.
Print Assumptions C69_move_chain.
Print Assumptions C69_split.

(** In a program that can be reached by edits each of these succeeds: the "sum" is moved to the other side, the "if" is cloned together with its areas, the
    chain is moved up as far as it can go, and a connection that is cut gets a filler. *)
Definition ex_edit_ops : list bop := [BInst 0 1 1 "two" None; BInst 0 2 1 "sum" None; BInst 0 5 5 "if" None; BInst 1 0 0 "->" None].
Definition ex_does (o : bop) (P : bfun -> Prop) : Prop := exists st es st', ex_run (bfun_new, []) ex_edit_ops = Some (st, es) /\
  edited ex_types (thin_filler ex_types) st /\ thin_filler ex_types st.1 o /\ bf_step ex_types 100 st o = Some (st', None) /\ P st'.1.
Lemma ex_does_ok o P : (forall f, thin_filler ex_types f o) ->
  match ex_run (bfun_new, []) ex_edit_ops with Some (st, es) => match bf_step ex_types 100 st o with Some (st', None) => P st'.1 | _ => False end | None => False end ->
  ex_does o P.
Proof.
  intros Ho H. destruct (ex_run (bfun_new, []) ex_edit_ops) as [[st es]|] eqn:E; [|done]. destruct (bf_step ex_types 100 st o) as [[st' [e|]]|] eqn:E'; try done.
  exists st, es, st'. split_and!; try done. eapply ex_run_edited; [constructor| |exact E]. ops_ok.
Qed.
Example C69_case_inst : ex_does (BInst 0 3 1 "->" (Some "x")) (fun f => b_lbl <$> bf_block_at f 0 (3, 1)%Z = Some "x").
Proof. apply ex_does_ok; [done|]. vm_compute. done. Qed.
Example C69_case_remove : ex_does (BRemove 0 2 2) (fun f => bf_block_at f 0 (2, 1)%Z = None).
Proof. apply ex_does_ok; [done|]. vm_compute. done. Qed.
Example C69_case_move : ex_does (BMove 0 1 2 0 8 4) (fun f => b_typ <$> bf_block_at f 0 (8, 3)%Z = Some "two").
Proof. apply ex_does_ok; [done|]. vm_compute. done. Qed.
Example C69_case_clone : ex_does (BClone 0 5 5 0 8 4) (fun f => b_contains <$> bf_block_at f 0 (8, 4)%Z = Some (Some 3, Some 4)).
Proof. apply ex_does_ok; [done|]. vm_compute. done. Qed.
Example C69_case_chain : ex_does (BMoveChain 0 2 2 2 0 0) (fun f => b_typ <$> bf_block_at f 2 (0, 0)%Z = Some "two" /\ b_typ <$> bf_block_at f 2 (1, 0)%Z = Some "sum").
Proof. apply ex_does_ok; [done|]. vm_compute. done. Qed.
Example C69_case_split : ex_does (BSplit 0 1 1 (Some "->")) (fun f => b_typ <$> bf_block_at f 0 (2, 2)%Z = Some "->" /\ b_typ <$> bf_block_at f 0 (3, 1)%Z = Some "sum").
Proof. apply ex_does_ok; [intros f ty Hty; vm_compute in Hty; by injection Hty as <-|]. vm_compute. done. Qed.
