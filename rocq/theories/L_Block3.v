(** The searches through areas come to an end, and no call of the block editor panics. *)
From stdpp Require Import strings.
From Verif Require Import Base M_Block S_Block L_Block L_Block2.
Open Scope string_scope.
Open Scope list_scope.
Open Scope nat_scope.

Fixpoint wt (fs : list area) (n i : nat) : nat :=
  match n with
  | 0 => 1
  | S n => 1 + sum_list (wt fs n <$> match fs !! i with Some a => sub_areas a | None => [] end)
  end.
Lemma sum_le (g h : nat -> nat) l : (forall i, i ∈ l -> g i <= h i) -> sum_list (g <$> l) <= sum_list (h <$> l).
Proof.
  induction l as [|x l IH]; intros H; [done|]. rewrite !fmap_cons.
  change (g x + sum_list (g <$> l) <= h x + sum_list (h <$> l)).
  specialize (H x) as Hx. specialize (Hx ltac:(left)). assert (sum_list (g <$> l) <= sum_list (h <$> l)); [|lia].
  apply IH. intros i Hi. apply H. by right.
Qed.
Lemma wt_mono fs n : forall m i, n <= m -> wt fs n i <= wt fs m i.
Proof.
  induction n as [|n IH]; intros [|m] i H; cbn [wt]; [lia|lia|lia|]. apply le_n_S, sum_le. intros j _. apply IH. lia.
Qed.
Lemma tree_weight fs : tree_ok fs -> exists w : nat -> nat, forall i a, fs !! i = Some a ->
  1 + sum_list (w <$> sub_areas a) <= w i /\ (forall s, s ∈ sub_areas a -> s < length fs).
Proof.
  intros (rank & Ht). exists (fun i => wt fs (rank i) i). intros i a Ha.
  assert (forall s, s ∈ sub_areas a -> s < length fs /\ rank s < rank i) as H.
  { intros s Hs. apply Ht. apply sub_areas_elem in Hs as (o & b & Hb & Hs). by exists a, o, b. }
  split; [|intros s Hs; by apply H]. destruct (rank i) as [|n] eqn:E; cbn [wt].
  - destruct (sub_areas a) as [|s l]; [cbn; lia|]. destruct (H s ltac:(left)). lia.
  - rewrite Ha. apply le_n_S, sum_le. intros s Hs. apply wt_mono. apply H in Hs. lia.
Qed.
Lemma sum_app l l' : sum_list (l ++ l') = sum_list l + sum_list l'.
Proof. induction l as [|x l IH]; [done|]. change (x + sum_list (l ++ l') = x + sum_list l + sum_list l'). lia. Qed.

Lemma all_subs_total fs w : (forall i a, fs !! i = Some a -> 1 + sum_list (w <$> sub_areas a) <= w i /\ (forall s, s ∈ sub_areas a -> s < length fs)) ->
  forall fuel dq, (forall i, i ∈ dq -> i < length fs) -> sum_list (w <$> dq) < fuel -> is_Some (all_subs fuel fs dq).
Proof.
  intros Hw. induction fuel as [|fuel IH]; intros dq Hdq Hf; [lia|]. cbn [all_subs]. destruct dq as [|d dq]; [by eexists|].
  destruct (lookup_lt_is_Some_2 fs d) as [a Ha]; [apply Hdq; left|]. rewrite Ha. cbn [mbind option_bind].
  destruct (Hw _ _ Ha) as [H1 H2]. change (w d + sum_list (w <$> dq) < S fuel) in Hf.
  destruct (IH (dq ++ sub_areas a)) as [l ->].
  - intros i Hi. apply elem_of_app in Hi as [Hi|Hi]; [apply Hdq; by right|by apply H2].
  - rewrite fmap_app, sum_app. lia.
  - by eexists.
Qed.
Lemma block_subs_lt fs i a o b : tree_ok fs -> fs !! i = Some a -> a_blocks a !! o = Some b -> forall s, s ∈ block_subs b -> s < length fs.
Proof. intros (rank & Ht) Ha Hb s Hs. destruct (Ht i s); [by exists a, o, b|done]. Qed.

(** sizes *)
Definition parents_ok (fs : list area) (ps : list nat) : Prop :=
  length ps = length fs /\ forall i p, ps !! i = Some p -> p < length fs /\ (p = 0 \/ edge fs p i).
Lemma foldl_parents fs i subs : i < length fs -> (forall s, s ∈ subs -> edge fs i s) -> forall ps, parents_ok fs ps ->
  parents_ok fs (foldl (fun ps s => <[s := i]> ps) ps subs).
Proof.
  intros Hi. induction subs as [|s subs IH]; intros Hs ps Hps; [done|]. cbn [foldl]. apply IH.
  - intros t Ht. apply Hs. by right.
  - destruct Hps as [Hl Hp]. split; [by rewrite insert_length|]. intros j p H. apply list_lookup_insert_Some in H as [(<- & <- & _)|(_ & H)].
    + split; [done|]. right. apply Hs. left.
    + by apply Hp.
Qed.
Lemma recalc_down_total fs w : (forall i a, fs !! i = Some a -> 1 + sum_list (w <$> sub_areas a) <= w i /\ (forall s, s ∈ sub_areas a -> s < length fs)) ->
  forall fuel work ps ss ls, (forall i, i ∈ work -> i < length fs) -> (forall i, i ∈ ls -> i < length fs) -> parents_ok fs ps ->
    sum_list (w <$> work) < fuel ->
    exists ps' ss' ls', recalc_down fuel fs work ps ss ls = Some (ps', ss', ls') /\ parents_ok fs ps' /\ (forall i, i ∈ ls' -> i < length fs).
Proof.
  intros Hw. induction fuel as [|fuel IH]; intros work ps ss ls Hwk Hls Hps Hf; [lia|]. cbn [recalc_down]. destruct work as [|i work].
  { eexists _, _, _. split; [done|]. done. }
  destruct (lookup_lt_is_Some_2 fs i) as [a Ha]; [apply Hwk; left|]. rewrite Ha. cbn [mbind option_bind].
  destruct (Hw _ _ Ha) as [H1 H2]. change (w i + sum_list (w <$> work) < S fuel) in Hf.
  assert (forall s, s ∈ sub_areas a -> edge fs i s) as Hedge.
  { intros s Hs. apply sub_areas_elem in Hs as (o & b & Hb & Hs). by exists a, o, b. }
  destruct (sub_areas a) as [|s0 subs] eqn:Es.
  - apply IH; [|  |done|].
    + intros j Hj. apply Hwk. by right.
    + intros j Hj. apply elem_of_cons in Hj as [->|Hj]; [by eapply lookup_lt_Some|by apply Hls].
    + lia.
  - rewrite <- Es in *. assert (forallb (fun s => s <? length fs) (sub_areas a) = true) as ->.
    { apply forallb_forall. intros s Hs. apply Nat.ltb_lt, H2. by apply elem_of_list_In. }
    apply IH; [|done| |].
    + intros j Hj. apply elem_of_app in Hj as [Hj|Hj]; [|apply Hwk; by right]. apply H2. apply elem_of_list_In, in_rev. by apply elem_of_list_In.
    + apply foldl_parents; [by eapply lookup_lt_Some|done|done].
    + rewrite fmap_app, sum_app. assert (sum_list (w <$> rev (sub_areas a)) = sum_list (w <$> sub_areas a)) as ->; [|lia].
      clear. induction (sub_areas a) as [|x l IH]; [done|]. cbn [rev]. rewrite fmap_app, sum_app, IH. cbn. lia.
Qed.
Lemma recalc_up_total fs0 m : (forall i p, i <> 0 -> i < length fs0 -> p < length fs0 -> p = 0 \/ edge fs0 p i -> m p < m i) -> (forall i, 1 <= m i) ->
  forall fuel fs work ps ss, length fs = length fs0 -> parents_ok fs0 ps -> (forall i, i ∈ work -> i < length fs0) ->
    sum_list (m <$> work) < fuel -> is_Some (recalc_up fuel fs work ps ss).
Proof.
  intros Hm Hm1. induction fuel as [|fuel IH]; intros fs work ps ss Hlen Hps Hwk Hf; [lia|]. cbn [recalc_up].
  destruct work as [|i work]; [by eexists|]. assert (i < length fs0) as Hi by (apply Hwk; left).
  destruct (lookup_lt_is_Some_2 fs i) as [a Ha]; [lia|]. rewrite Ha. cbn [mbind option_bind].
  change (m i + sum_list (m <$> work) < S fuel) in Hf. pose proof (Hm1 i).
  apply IH; [by rewrite insert_length|done| |]; destruct (Nat.ltb_spec 0 i) as [Hpos|Hpos].
  - intros j Hj. apply elem_of_app in Hj as [Hj|Hj]; [apply Hwk; by right|]. apply elem_of_list_singleton in Hj as ->.
    destruct Hps as [Hl Hp]. destruct (lookup_lt_is_Some_2 ps i) as [p Ep]; [lia|]. rewrite Ep. cbn [default]. by apply Hp in Ep as [? _].
  - intros j Hj. apply Hwk. by right.
  - rewrite fmap_app, sum_app. cbn [fmap list_fmap sum_list sum_list_with]. destruct Hps as [Hl Hp].
    destruct (lookup_lt_is_Some_2 ps i) as [p Ep]; [lia|]. rewrite Ep. cbn [default]. apply Hp in Ep as [Hp1 Hp2].
    assert (m p < m i) by (apply Hm; [lia|done|done|done]). cbn. lia.
  - lia.
Qed.
Lemma recalculate_total f : tree_ok (f_areas f) -> 0 < length (f_areas f) -> exists n, forall fuel, n <= fuel -> is_Some (recalculate fuel f).
Proof.
  intros Ht Hlen. destruct (tree_weight _ Ht) as [w Hw]. destruct Ht as (rank & Ht).
  destruct (list_bound rank (seq 0 (length (f_areas f)))) as [K HK].
  set (m := fun i => if decide (i = 0) then 1 else 2 + (K - rank i)).
  assert (forall i p, i <> 0 -> i < length (f_areas f) -> p < length (f_areas f) -> p = 0 \/ edge (f_areas f) p i -> m p < m i) as Hm.
  { intros i p Hi Hil Hpl Hor. unfold m. rewrite (decide_False (P := i = 0)) by done. destruct (decide (p = 0)) as [->|Hp]; [lia|].
    destruct Hor as [?|Hor]; [done|]. apply Ht in Hor as [_ Hr]. assert (rank p < K) by (apply HK, elem_of_seq; lia). lia. }
  assert (forall fuel, w 0 < fuel -> exists ps' ss' ls',
     recalc_down fuel (f_areas f) [0] (replicate (length (f_areas f)) 0) (replicate (length (f_areas f)) (0, 0)) [] = Some (ps', ss', ls') /\
     parents_ok (f_areas f) ps' /\ (forall i, i ∈ ls' -> i < length (f_areas f))) as Hdown.
  { intros fuel Hf. eapply recalc_down_total; [exact Hw| | | |].
    - intros i Hi. apply elem_of_list_singleton in Hi as ->. done.
    - intros i Hi. by apply elem_of_nil in Hi.
    - split; [apply replicate_length|]. intros i p Hp. apply lookup_replicate in Hp as [-> _]. split; [done|by left].
    - cbn. lia. }
  destruct (Hdown (S (w 0)) ltac:(lia)) as (ps & ss & ls & E & Hps & Hls).
  exists (S (w 0) + S (sum_list (m <$> ls))). intros fuel Hfuel. unfold recalculate.
  assert (forall f1 f2 fs wk p s l r, f1 <= f2 -> recalc_down f1 fs wk p s l = Some r -> recalc_down f2 fs wk p s l = Some r) as Hmono.
  { clear. induction f1 as [|f1 IH]; intros [|f2] fs wk p s l r Hle; cbn [recalc_down]; [done|done|lia|]. destruct wk as [|i wk]; [done|].
    intros H. apply bind_Some in H as (a & -> & H). cbn [mbind option_bind]. destruct (sub_areas a); [eapply IH; [|exact H]; lia|].
    destruct (forallb _ _); [|done]. eapply IH; [|exact H]; lia. }
  rewrite (Hmono (S (w 0)) fuel _ _ _ _ _ _ ltac:(lia) E). cbn [mbind option_bind].
  destruct (recalc_up_total (f_areas f) m Hm ltac:(intros i; unfold m; destruct (decide _); lia) fuel (f_areas f) ls ps ss eq_refl Hps Hls ltac:(lia)) as [fs ->].
  by eexists.
Qed.

Lemma shift_total b r (out : bool) : r < Nat.max (b_rows b) (length (if out then b_outputs b else b_inputs b)) -> is_Some (b_shift b r out).
Proof.
  intros H. unfold b_shift. destruct (Nat.leb_spec (b_rows b) 1) as [Hr|Hr]; [by eexists|].
  assert (forall v, r < Nat.max (b_rows b) (length v) -> is_Some (shift_list (b_rows b) v r)) as Hs.
  { intros v Hv. unfold shift_list. set (v' := if length v <? b_rows b then v ++ replicate (b_rows b - length v) None else v).
    destruct (lookup_lt_is_Some_2 v' r) as [e He].
    - unfold v'. destruct (Nat.ltb_spec (length v) (b_rows b)); [rewrite app_length, replicate_length; lia|lia].
    - rewrite He. by eexists. }
  destruct out; apply Hs in H as [v ->]; by eexists.
Qed.

Lemma load_contains_total fs l id2 : tree_ok fs -> (forall p s, p ∈ l -> s ∈ block_subs p.1 -> s < length fs) ->
  exists n, forall fuel, n <= fuel -> is_Some (load_contains fuel fs l id2).
Proof.
  intros Ht Hl. destruct (tree_weight _ Ht) as [w Hw]. exists (S (sum_list ((fun p : block * (Z * Z) => sum_list (w <$> block_subs p.1)) <$> l))).
  intros fuel Hfuel. unfold load_contains.
  assert (is_Some (mapM (fun p : block * (Z * Z) => all_sub_areas_of fuel fs p.1) l)) as [ls ->]; [|by eexists].
  induction l as [|p l IH]; [by eexists|]. cbn [mapM]. rewrite fmap_cons in Hfuel.
  change (S (sum_list (w <$> block_subs p.1) + sum_list ((fun p : block * (Z * Z) => sum_list (w <$> block_subs p.1)) <$> l)) <= fuel) in Hfuel.
  destruct (all_subs_total fs w Hw fuel (block_subs p.1)) as [D HD].
  - intros i Hi. eapply Hl; [left|done].
  - lia.
  - change (all_sub_areas_of fuel fs p.1) with (all_subs fuel fs (block_subs p.1)). rewrite HD. cbn [mbind option_bind]. destruct IH as [ls ->].
    + intros q s Hq. apply Hl. by right.
    + lia.
    + by eexists.
Qed.

Lemma step_total types st o : inv st.1 -> snaps_ok st.2 -> shift_in_range st.1 o ->
  exists n, forall fuel, n <= fuel -> is_Some (bf_step types fuel st o).
Proof.
  intros (Hf & Ht & Hlen) Hsn Hsh. destruct st as [f sn]. cbn [fst snd] in *. destruct o; cbn [bf_step].
  - exists 0. intros fuel _. destruct (bf_instanciate _ _ _ _ _ _ _). by eexists.
  - exists 0. intros fuel _. destruct (bf_remove _ _ _ _). by eexists.
  - destruct (tree_weight _ Ht) as [w Hw].
    destruct (f_areas f !! id) as [a|] eqn:Ha.
    + assert (area_ok a) as Hok by (destruct Hf as (H' & _); by eapply H').
      destruct (ref_at a x y) as [[b o]|] eqn:Hr.
      * apply ref_at_ok in Hr as Hr'; [|done]. destruct Hr' as [Hb _].
        exists (S (sum_list (w <$> block_subs b))). intros fuel Hfuel. unfold bf_move. rewrite Ha. cbn [mbind option_bind]. rewrite Hr.
        destruct (all_subs_total _ w Hw fuel (block_subs b)) as [D HD]; [by eapply block_subs_lt|lia|].
        unfold all_sub_areas_of. rewrite HD. cbn [mbind option_bind]. destruct (bool_decide _); [by eexists|].
        destruct (area_remove_at a x y) as [[a' [b' o']]|]; [|by eexists]. cbn [f_with_area f_areas f_bump]. destruct (_ !! id2); [|by eexists]. destruct (space_at _ _ _ _); by eexists.
      * exists 0. intros fuel _. unfold bf_move. rewrite Ha. cbn [mbind option_bind]. rewrite Hr. cbn [mbind option_bind].
        destruct (area_remove_at a x y) as [[a' [b' o']]|]; [|by eexists]. cbn [f_with_area f_areas f_bump]. destruct (_ !! id2); [|by eexists]. destruct (space_at _ _ _ _); by eexists.
    + exists 0. intros fuel _. unfold bf_move. rewrite Ha. cbn [mbind option_bind]. by eexists.
  - exists 0. intros fuel _. destruct (bf_clone _ _ _ _ _ _ _ _). by eexists.
  - exists 0. intros fuel _. unfold bf_shift. destruct (f_areas f !! id) as [a|] eqn:Ha; cbn [mbind option_bind]; [|by eexists].
    destruct (ref_at a x y) as [[b o]|] eqn:Hr; cbn [mbind option_bind]; [|by eexists].
    cbn [shift_in_range] in Hsh. unfold bf_origin_at, bf_block_at in Hsh. rewrite Ha in Hsh. cbn [mbind option_bind] in Hsh.
    unfold ref_at in Hr. apply bind_Some in Hr as (o' & Ho & Hr). apply bind_Some in Hr as (b' & Hb & [= <- <-]).
    destruct (shift_total b' row output (Hsh _ _ Ho Hb)) as [b1 ->]. by eexists.
  - exists 0. intros fuel _. unfold bf_retrieve. destruct (f_areas f !! id) as [a|] eqn:Ha; cbn [mbind option_bind]; [|by eexists].
    assert (area_ok a) as Hok by (destruct Hf as (H' & _); by eapply H'). destruct (chain_at_ok a x y Hok) as (r & -> & _). cbn [mbind option_bind].
    destruct r as [s|]; [|by eexists]. destruct remove; [destruct (remove_load a s)|destruct (clone_load a s (f_next f))]; by eexists.
  - exists 0. intros fuel _. unfold bf_split. destruct (f_areas f !! id) as [a|] eqn:Ha; cbn [mbind option_bind]; [|by eexists].
    assert (area_ok a) as Hok by (destruct Hf as (H' & _); by eapply H'). destruct (chain_at_ok a x y Hok) as (r & -> & _). cbn [mbind option_bind].
    destruct r as [s|]; [|by eexists]. destruct (remove_load a s). destruct (match filler with Some t => _ | None => _ end); [|by eexists].
    destruct (split_load _ _ _ _ _). destruct (has_space _ _ _ _); by eexists.
  - unfold bf_move_chain. destruct (f_areas f !! id) as [a|] eqn:Ha; cbn [mbind option_bind]; [|exists 0; intros fuel _; by eexists].
    assert (area_ok a) as Hok by (destruct Hf as (H' & _); by eapply H'). destruct (chain_at_ok a x y Hok) as (r & Hch & _). rewrite Hch. cbn [mbind option_bind].
    destruct r as [s|]; [|exists 0; intros fuel _; by eexists].
    destruct (remove_load_ok a s Hok) as (a' & l & E & _ & _ & _ & _ & _ & _ & Hl & _); [by eapply chain_dom|]. rewrite E.
    destruct (id2 =? id); [exists 0; intros fuel _; destruct (try_fit _ _ _); by eexists|].
    destruct (load_contains_total (f_areas f) l id2 Ht) as [n Hn].
    { intros [b o] s' Hp. apply Hl in Hp as [_ Hb]. by eapply block_subs_lt. }
    exists n. intros fuel Hfuel. cbn [f_bump f_areas]. destruct (Hn fuel Hfuel) as [circ ->]. cbn [mbind option_bind]. destruct circ; [by eexists|].
    destruct (load_normalize l). destruct (f_areas f !! id2); [|by eexists]. destruct (try_fit _ _ _); by eexists.
  - destruct (recalculate_total f Ht Hlen) as [n Hn]. exists n. intros fuel Hfuel. destruct (Hn _ Hfuel) as [f' ->]. by eexists.
  - exists 0. intros fuel _. by eexists.
  - destruct (sn !! k) as [s|] eqn:Hk; [|exists 0; intros fuel _; by eexists].
    destruct (Forall_lookup_1 _ _ _ _ Hsn Hk) as (_ & Hs1 & Hs2).
    destruct (recalculate_total (BFun (sn_areas s) (sn_id s) (f_gen f)) Hs1 Hs2) as [n Hn]. exists n. intros fuel Hfuel. unfold bf_load.
    destruct (Hn _ Hfuel) as [f' ->]. by eexists.
Qed.

Lemma edited_fun_ok types st : types_ok types -> edited types (thin_filler types) st -> fun_ok st.1 /\ Forall (fun s => fun_ok (snap_fun s)) st.2.
Proof.
  intros Hty. induction 1 as [|st o fuel st' e Hed [IH1 IH2] Hok Hs]; [split; [apply new_inv|constructor]|]. by eapply step_fun_ok.
Qed.
Lemma edited_inv types st : types_ok types -> edited types (plain types) st -> inv st.1 /\ snaps_ok st.2.
Proof.
  intros Hty. induction 1 as [|st o fuel st' e Hed [IH1 IH2] Hok Hs]; [split; [apply new_inv|constructor]|]. by eapply step_inv.
Qed.
