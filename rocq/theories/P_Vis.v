(** Properties of the visual filters: C30 *)
From Verif Require Import Base M_Vis S_Vis.
Open Scope nat_scope.

Lemma peaks_foldl buf : let '(neg, pos) := vis_peaks buf in peaks buf neg pos.
Proof.
  unfold vis_peaks. induction buf as [|v buf IH] using rev_ind.
  - cbn. split_and!; try lia; try (by left); intros v Hv; by apply elem_of_nil in Hv.
  - rewrite foldl_app. cbn [foldl]. destruct (foldl _ _ buf) as [neg pos]. destruct IH as (P1 & P2 & P3 & N1 & N2 & N3).
    unfold peaks. cbn [fst snd]. destruct v as [v|]; cbn [fmax_abs].
    + destruct (Z.leb_spec 0 v) as [Hv|Hv].
      * assert (Z.max pos (Z.abs v) = pos \/ Z.max pos (Z.abs v) = v) as Hm by lia.
        split_and!; try lia.
        -- intros w [Hw|Hw%elem_of_list_singleton]%elem_of_app; [specialize (P2 w Hw); lia|]. injection Hw as ->. lia.
        -- destruct Hm as [->| ->]; [|right; set_solver]. destruct P3; [by left|right; set_solver].
        -- intros w [Hw|Hw%elem_of_list_singleton]%elem_of_app; [specialize (N2 w Hw); lia|]. injection Hw as ->. lia.
        -- destruct N3; [by left|right; set_solver].
      * assert (Z.max neg (Z.abs v) = neg \/ - Z.max neg (Z.abs v) = v)%Z as Hm by lia.
        split_and!; try lia.
        -- intros w [Hw|Hw%elem_of_list_singleton]%elem_of_app; [specialize (P2 w Hw); lia|]. injection Hw as ->. lia.
        -- destruct P3; [by left|right; set_solver].
        -- intros w [Hw|Hw%elem_of_list_singleton]%elem_of_app; [specialize (N2 w Hw); lia|]. injection Hw as ->. lia.
        -- destruct Hm as [->| ->]; [|right; set_solver]. destruct N3; [by left|right; set_solver].
    + split_and!; try lia.
      * intros w [Hw|Hw%elem_of_list_singleton]%elem_of_app; [by apply P2|done].
      * destruct P3; [by left|right; set_solver].
      * intros w [Hw|Hw%elem_of_list_singleton]%elem_of_app; [by apply N2|done].
      * destruct N3; [by left|right; set_solver].
Qed.

(** Zeros do not count *)
Lemma peaks_equiv l l' neg pos : (forall v, v <> 0%Z -> Some v ∈ l <-> Some v ∈ l') -> peaks l neg pos -> peaks l' neg pos.
Proof.
  intros H (P1 & P2 & P3 & N1 & N2 & N3). split_and!; try done.
  - intros v Hv. destruct (decide (v = 0%Z)) as [->|Hn]; [done|]. apply P2, H; done.
  - destruct P3 as [?|P3]; [by left|]. destruct (decide (pos = 0%Z)); [by left|]. right. by apply H.
  - intros v Hv. destruct (decide (v = 0%Z)) as [->|Hn]; [done|]. apply N2, H; done.
  - destruct N3 as [?|N3]; [by left|]. destruct (decide (neg = 0%Z)); [by left|]. right. apply H; [lia|done].
Qed.

(** Sample number [k] (from 1 on) lies at position [k mod 10] *)
Record vinv (r : bool) (acc : list fv) (s : vis) : Prop := {
  vi_r : vs_recalc s = r;
  vi_len : length (vs_buf s) = 10;
  vi_ptr : vs_ptr s = length acc mod 10;
  vi_in : forall k x, acc !! k = Some x -> length acc <= k + 10 -> vs_buf s !! (S k mod 10) = Some x;
  vi_out : forall j x, vs_buf s !! j = Some x -> x = Some 0%Z \/ exists k, acc !! k = Some x /\ length acc <= k + 10 /\ S k mod 10 = j;
  vi_last : let '(neg, pos) := vs_out s in peaks (window acc) neg pos;
}.

Lemma mod10_neq a b : a < b -> b < a + 10 -> a mod 10 <> b mod 10.
Proof.
  intros H1 H2 E. pose proof (Nat.div_mod a 10 ltac:(lia)). pose proof (Nat.div_mod b 10 ltac:(lia)). lia.
Qed.

Lemma window_elem acc x : x ∈ window acc <-> exists k, acc !! k = Some x /\ length acc <= k + 10.
Proof.
  unfold window. rewrite elem_of_list_lookup. split.
  - intros [k Hk]. rewrite lookup_drop in Hk. eexists. split; [done|]. lia.
  - intros (k & Hk & Hl). exists (k - (length acc - 10)). rewrite lookup_drop. rewrite <- Hk. f_equal. apply lookup_lt_Some in Hk. lia.
Qed.

Lemma vinv_new : vinv false [] vis_new.
Proof.
  split; try done.
  - intros j x Hx. apply lookup_replicate in Hx as [-> _]. by left.
  - cbn. split_and!; try lia; try (by left); intros v Hv; by apply elem_of_nil in Hv.
Qed.

Lemma get_inv r acc s r' x : vinv r acc s ->
  vinv r' (if eqb r r' then acc else acc ++ [x]) (vis_get s r' x).1 /\
  let '(neg, pos) := (vis_get s r' x).2 in peaks (window (if eqb r r' then acc else acc ++ [x])) neg pos.
Proof.
  intros [H1 H2 H3 H4 H5 H6]. unfold vis_get. rewrite H1. destruct (eqb r r') eqn:Er.
  - apply eqb_prop in Er. subst r'. cbn. split; [|done]. done.
  - cbn [fst snd]. rewrite H2, H3. rewrite Nat.add_mod_idemp_l by lia. replace (length acc + 1) with (S (length acc)) by lia.
    set (p := S (length acc) mod 10). assert (p < 10) as Hp by (apply Nat.mod_upper_bound; lia).
    assert (forall k y, (acc ++ [x]) !! k = Some y -> length (acc ++ [x]) <= k + 10 -> <[p := x]> (vs_buf s) !! (S k mod 10) = Some y) as Hin.
    { intros k y Hk Hl. rewrite app_length in Hl. cbn [length] in Hl. apply lookup_app_Some in Hk as [Hk|[Hk1 Hk2]].
      - pose proof (lookup_lt_Some _ _ _ Hk). rewrite list_lookup_insert_ne; [apply H4; [done|lia]|].
        apply not_eq_sym, mod10_neq; lia.
      - apply list_lookup_singleton_Some in Hk2 as [E <-]. replace (S k) with (S (length acc)) by lia. apply list_lookup_insert. lia. }
    assert (forall j y, <[p := x]> (vs_buf s) !! j = Some y -> y = Some 0%Z \/ exists k, (acc ++ [x]) !! k = Some y /\ length (acc ++ [x]) <= k + 10 /\ S k mod 10 = j) as Hout.
    { intros j y Hj. rewrite app_length. cbn [length]. destruct (decide (j = p)) as [->|Hn].
      - rewrite (list_lookup_insert (vs_buf s) p x) in Hj by lia. injection Hj as <-. right. exists (length acc). split; [|split; [lia|done]].
        by rewrite lookup_app_r, Nat.sub_diag by lia.
      - rewrite list_lookup_insert_ne in Hj by done. destruct (H5 j y Hj) as [?|(k & Hk & Hl & Ej)]; [by left|]. right. exists k.
        pose proof (lookup_lt_Some _ _ _ Hk). split; [by rewrite lookup_app_l|]. split; [|done].
        destruct (decide (length acc = k + 10)) as [e|ne]; [|lia]. exfalso. apply Hn. subst j.
        unfold p. rewrite e. replace (S (k + 10)) with (S k + 1 * 10) by lia. by rewrite Nat.mod_add. }
    assert (let '(neg, pos) := vis_peaks (<[p := x]> (vs_buf s)) in peaks (window (acc ++ [x])) neg pos) as Hpk.
    { pose proof (peaks_foldl (<[p := x]> (vs_buf s))) as Hp0. destruct (vis_peaks _) as [neg pos]. eapply peaks_equiv; [|exact Hp0].
      intros v Hv. rewrite window_elem, elem_of_list_lookup. split.
      - intros [j Hj]. destruct (Hout j _ Hj) as [E|(k & Hk & Hl & _)]; [injection E as ->; done|]. by exists k.
      - intros (k & Hk & Hl). eexists. by apply Hin. }
    split; [|done]. split; cbn [vs_recalc vs_buf vs_ptr vs_out]; try done.
    + by rewrite insert_length.
    + rewrite app_length. cbn [length]. f_equal. lia.
Qed.

Lemma last_call r (c : bool * fv) cs : default r (fst <$> last (c :: cs)) = default c.1 (fst <$> last cs).
Proof.
  revert r c. induction cs as [|c' cs IH]; intros r c; [done|]. change (last (c :: c' :: cs)) with (last (c' :: cs)).
  by rewrite (IH r c'), (IH c.1 c').
Qed.

(** The filter of a key after a history *)
Lemma run_inv k : forall ops r0 acc s, 
  vinv r0 acc (default vis_new (ff_map s !! k)) ->
  vinv (default r0 (fst <$> last (calls k (ff_recalc s) ops))) (acc ++ sampled r0 (calls k (ff_recalc s) ops))
    (default vis_new (ff_map (foldl (fun s o => (ff_step s o).1) s ops) !! k)).
Proof.
  induction ops as [|[|k' x] ops IH]; intros r0 acc s Hv; cbn [foldl calls].
  - cbn. by rewrite app_nil_r.
  - apply (IH r0 acc (FFilter (ff_map s) (negb (ff_recalc s)))). done.
  - cbn [ff_step]. destruct (vis_get (default vis_new (ff_map s !! k')) (ff_recalc s) x) as [v out] eqn:Eg. cbn [fst].
    destruct (decide (k' = k)) as [->|Hn].
    + destruct (get_inv r0 acc _ (ff_recalc s) x Hv) as [Hv' _]. rewrite Eg in Hv'. cbn [fst] in Hv'.
      specialize (IH (ff_recalc s) (if eqb r0 (ff_recalc s) then acc else acc ++ [x]) (FFilter (<[k := v]> (ff_map s)) (ff_recalc s))).
      cbn [ff_map ff_recalc] in IH. rewrite lookup_insert in IH. specialize (IH Hv'). cbn [sampled].
      destruct (eqb r0 (ff_recalc s)) eqn:Er.
      * rewrite last_call. exact IH.
      * rewrite <- app_assoc in IH. rewrite last_call. exact IH.
    + apply (IH r0 acc (FFilter (<[k' := v]> (ff_map s)) (ff_recalc s))). cbn [ff_map]. by rewrite lookup_insert_ne.
Qed.

Lemma calls_app k : forall ops r ops', exists r', calls k r (ops ++ ops') = calls k r ops ++ calls k r' ops' /\
  forall s, ff_recalc s = r -> ff_recalc (foldl (fun s o => (ff_step s o).1) s ops) = r'.
Proof.
  induction ops as [|[|k' x] ops IH]; intros r ops'; cbn [app calls foldl].
  - exists r. done.
  - destruct (IH (negb r) ops') as (r' & E & H). exists r'. split; [done|]. intros s Hs. apply H. cbn. by rewrite Hs.
  - destruct (IH r ops') as (r' & E & H). exists r'. split; [case_decide; rewrite E; done|]. intros s Hs. apply H.
    cbn. destruct (vis_get _ _ _). done.
Qed.

Lemma sampled_app r cs c : sampled r (cs ++ [c]) = sampled r cs ++ (if eqb (default r (fst <$> last cs)) c.1 then [] else [c.2]).
Proof.
  revert r. induction cs as [|[r' x] cs IH]; intros r.
  - destruct c as [r' x]. cbn. by destruct (eqb r r').
  - cbn [app sampled]. assert (default r' (fst <$> last cs) = default r (fst <$> last ((r', x) :: cs))) as <- by by rewrite last_call.
    rewrite !IH. by destruct (eqb r r').
Qed.

(** C30: after any history of triggers and calls for any number of keys, a call returns the largest negative and
    the largest positive excursion of the last 10 values that were sampled for its key, the new one included. *)
Theorem C30_peaks ops k x : exists neg pos, (ff_step (ff_run ops) (FGet k x)).2 = Some (neg, pos) /\
  peaks (window (sampled false (calls k true (ops ++ [FGet k x])))) neg pos.
Proof.
  destruct (calls_app k ops true [FGet k x]) as (r' & Ec & Hr). specialize (Hr ff_new eq_refl). fold (ff_run ops) in Hr.
  pose proof (run_inv k ops false [] ff_new vinv_new) as Hv. fold (ff_run ops) in Hv. cbn [app ff_recalc ff_new] in Hv.
  destruct (get_inv _ _ _ r' x Hv) as [_ Hp]. cbn [ff_step]. rewrite Hr. destruct (vis_get _ r' x) as [v [neg pos]]. cbn [snd] in Hp.
  exists neg, pos. split; [done|]. rewrite Ec. cbn [calls]. rewrite decide_True by done. rewrite sampled_app. cbn [fst snd].
  destruct (eqb _ r'); [by rewrite app_nil_r|done].
Qed.
Print Assumptions C30_peaks.

(** C30: a key that is called once between two triggers, and for the first time before the first one, has all its values sampled. *)
Theorem C30_all_sampled k ops : (forall i c, calls k true ops !! i = Some c -> c.1 = Nat.even i) ->
  sampled false (calls k true ops) = snd <$> calls k true ops.
Proof.
  generalize (calls k true ops). intros cs H.
  assert (forall cs b, (forall i c, cs !! i = Some c -> c.1 = xorb b (Nat.even i)) -> sampled b cs = snd <$> cs) as G.
  { clear. induction cs as [|[r x] cs IH]; intros b H; [done|]. pose proof (H 0 _ eq_refl) as H0. cbn in H0. subst r.
    cbn [sampled fmap list_fmap snd]. assert (forall i c, cs !! i = Some c -> c.1 = xorb (negb b) (Nat.even i)) as H'.
    { intros i c Hc. rewrite (H (S i) c Hc), Nat.even_succ, <- Nat.negb_even. by destruct b, (Nat.even i). }
    cbn [Nat.even]. destruct b; cbn [xorb eqb negb] in *; f_equal; by apply IH. }
  apply G. intros i c Hc. rewrite (H i c Hc). by destruct (Nat.even i).
Qed.
Print Assumptions C30_all_sampled.

Definition led (i : nat) : fkey := (NId 3 i, None).
Definition vis_demo : list fop :=
  [FGet (led 0) (Some (-87)%Z); FGet (led 1) (Some 50%Z); FTrigger; FGet (led 0) None; FGet (led 0) (Some 99%Z); FTrigger; FGet (led 0) (Some 75%Z); FTrigger].
Example C30_example :
  (ff_step (ff_run vis_demo) (FGet (led 0) (Some 5%Z))).2 = Some (87, 75)%Z /\
  sampled false (calls (led 0) true (vis_demo ++ [FGet (led 0) (Some 5%Z)])) = [Some (-87)%Z; None; Some 75%Z; Some 5%Z].
Proof. vm_compute. split; reflexivity. Qed.
Example C30_all_sampled_example : let ops := [FGet (led 0) (Some 3%Z); FTrigger; FGet (led 1) None; FGet (led 0) (Some (-4)%Z); FTrigger] in
  (forall i c, calls (led 0) true ops !! i = Some c -> c.1 = Nat.even i) /\ length (calls (led 0) true ops) = 2.
Proof. split; [|done]. intros [|[|i]] c H; [injection H as <-|injection H as <-|done]; done. Qed.

(** C30, refuted for other rhythms: the values are ignored when an even number of triggers came since the last call of the
    key, and the first value of a key when an odd number of triggers came before. *)
Theorem C30_missed_refuted : exists ops,
  ops = [FGet (led 0) (Some 1%Z); FTrigger; FTrigger] /\ (ff_step (ff_run ops) (FGet (led 0) (Some 9%Z))).2 = Some (0, 1)%Z.
Proof. eexists. split; [done|]. vm_compute. reflexivity. Qed.
Print Assumptions C30_missed_refuted.
Theorem C30_first_refuted : (ff_step (ff_run [FTrigger]) (FGet (led 0) (Some 9%Z))).2 = Some (0, 0)%Z.
Proof. vm_compute. reflexivity. Qed.
Print Assumptions C30_first_refuted.
