(** Shifting ports. *)
From stdpp Require Import strings.
From Verif Require Import Base M_Block S_Block.
Open Scope string_scope.
Open Scope list_scope.
Open Scope nat_scope.

Definition ins_at {A} (p : nat) (e : A) (l : list A) : list A := take p l ++ e :: drop p l.
Lemma ins_lookup {A} p (e : A) l : p <= length l -> ins_at p e l !! p = Some e.
Proof. intros H. unfold ins_at. rewrite lookup_app_r; rewrite take_length_le by done; [|done]. by rewrite Nat.sub_diag. Qed.
Lemma ins_delete {A} p (e : A) l : p <= length l -> delete p (ins_at p e l) = l.
Proof.
  intros H. unfold ins_at. replace p with (length (take p l)) at 1 by (by apply take_length_le). rewrite delete_middle. apply take_drop.
Qed.
Lemma delete_ins {A} p (e : A) w : w !! p = Some e -> ins_at p e (delete p w) = w.
Proof.
  intros H. unfold ins_at. assert (p < length w) by (by eapply lookup_lt_Some).
  rewrite delete_take_drop. rewrite take_app_le by (rewrite take_length; lia). rewrite take_take, Nat.min_id.
  rewrite drop_app_ge by (rewrite take_length; lia). rewrite take_length_le by lia. rewrite Nat.sub_diag, drop_0. by apply take_drop_middle.
Qed.
Lemma ins_length {A} p (e : A) l : length (ins_at p e l) = S (length l).
Proof. unfold ins_at. rewrite app_length. cbn [length]. rewrite take_length, drop_length. lia. Qed.
Lemma ins_perm {A} p (e : A) l : ins_at p e l ≡ₚ e :: l.
Proof. unfold ins_at. rewrite <- Permutation_middle. by rewrite take_drop. Qed.

Lemma padded_length rows ps : length (padded rows ps) = Nat.max rows (length ps).
Proof. unfold padded. rewrite app_length, replicate_length. lia. Qed.
Lemma padded_id rows ps : rows <= length ps -> padded rows ps = ps.
Proof. intros H. unfold padded. replace (rows - length ps) with 0 by lia. apply app_nil_r. Qed.
Lemma shift_list_eq rows v idx e : padded rows v !! idx = Some e ->
  shift_list rows v idx = Some (ins_at (S idx mod length (padded rows v)) e (delete idx (padded rows v))).
Proof.
  intros H. unfold shift_list.
  assert ((if length v <? rows then v ++ replicate (rows - length v) None else v) = padded rows v) as ->.
  { destruct (Nat.ltb_spec (length v) rows); [done|]. by rewrite padded_id. }
  rewrite H. done.
Qed.
Lemma b_shift_eq b idx out e : 2 <= b_rows b -> padded (b_rows b) (side b out) !! idx = Some e ->
  b_shift b idx out = Some (with_side b out (ins_at (S idx mod length (padded (b_rows b) (side b out))) e (delete idx (padded (b_rows b) (side b out))))).
Proof.
  intros Hr He. unfold b_shift. destruct (Nat.leb_spec (b_rows b) 1); [lia|]. destruct out; cbn [side] in *;
    rewrite (shift_list_eq _ _ _ _ He); done.
Qed.
Lemma with_side_side b out ps : side (with_side b out ps) out = ps.
Proof. by destruct out. Qed.
Lemma with_side_twice b out ps qs : with_side (with_side b out ps) out qs = with_side b out qs.
Proof. by destruct out. Qed.

(** one shift of a block whose port list is an insertion *)
Lemma shift_ins b out p e rest : 2 <= b_rows b -> b_rows b <= S (length rest) -> p <= length rest ->
  b_shift (with_side b out (ins_at p e rest)) p out = Some (with_side b out (ins_at (S p mod S (length rest)) e rest)).
Proof.
  intros Hr Hl Hp.
  assert (padded (b_rows b) (side (with_side b out (ins_at p e rest)) out) = ins_at p e rest) as E.
  { rewrite with_side_side. apply padded_id. by rewrite ins_length. }
  pose proof (b_shift_eq (with_side b out (ins_at p e rest)) p out e) as H. cbn [with_side b_rows] in H. rewrite E in H.
  rewrite H; [|done|by apply ins_lookup]. rewrite ins_delete, ins_length, with_side_twice by done. done.
Qed.
Lemma shift_on_ins b out e rest k : 2 <= b_rows b -> b_rows b <= S (length rest) -> forall p, p <= length rest ->
  shift_on k (S (length rest)) p out (with_side b out (ins_at p e rest)) =
  Some (with_side b out (ins_at ((p + k) mod S (length rest)) e rest)).
Proof.
  intros Hr Hl. induction k as [|k IH]; intros p Hp; cbn [shift_on].
  - rewrite Nat.add_0_r, Nat.mod_small by lia. done.
  - rewrite shift_ins by done. rewrite IH by (pose proof (Nat.mod_upper_bound (S p) (S (length rest))); lia).
    f_equal. f_equal. f_equal. rewrite Nat.add_mod_idemp_l by lia. f_equal. lia.
Qed.

Lemma shift_on_round b out idx : 2 <= b_rows b -> idx < length (padded (b_rows b) (side b out)) ->
  shift_on (length (padded (b_rows b) (side b out))) (length (padded (b_rows b) (side b out))) idx out b =
  Some (with_side b out (padded (b_rows b) (side b out))).
Proof.
  intros Hr Hi. set (w := padded (b_rows b) (side b out)) in *. destruct (lookup_lt_is_Some_2 w idx Hi) as [e He].
  assert (b_rows b <= length w) as Hw by (unfold w; rewrite padded_length; lia).
  assert (length w = S (length (delete idx w))) as Hl by (rewrite length_delete by (by eexists); lia).
  assert (shift_on (length w) (length w) idx out b = shift_on (S (length (delete idx w))) (S (length (delete idx w))) idx out b) as -> by congruence.
  cbn [shift_on]. rewrite (b_shift_eq b idx out e) by done. fold w. rewrite Hl.
  pose proof (Nat.mod_upper_bound (S idx) (S (length (delete idx w)))) as Hm. rewrite shift_on_ins by lia.
  rewrite Nat.add_mod_idemp_l by lia. replace (S idx + length (delete idx w)) with (idx + 1 * S (length (delete idx w))) by lia.
  rewrite Nat.mod_add, Nat.mod_small by lia. by rewrite delete_ins.
Qed.

Lemma shift_last_step b out u x : 2 <= b_rows b -> b_rows b <= S (length u) ->
  b_shift (with_side b out (u ++ [x])) (length u) out = Some (with_side b out (x :: u)).
Proof.
  intros Hr Hl. pose proof (shift_ins b out (length u) x u Hr Hl ltac:(lia)) as H. rewrite Nat.mod_same in H by lia. cbn [ins_at] in H.
  unfold ins_at in H. rewrite firstn_all, drop_all in H. cbn [take drop app] in H. done.
Qed.
Lemma shift_last_round b out : forall k w1 w2, length w2 = k -> 2 <= b_rows b -> b_rows b <= length (w1 ++ w2) ->
  shift_at k (pred (length (w1 ++ w2))) out (with_side b out (w1 ++ w2)) = Some (with_side b out (w2 ++ w1)).
Proof.
  intros k w1 w2 Hk Hr. revert w1 w2 Hk. induction k as [|k IH]; intros w1 w2 Hk Hl.
  - destruct w2; [|done]. cbn [shift_at]. by rewrite app_nil_r.
  - destruct w2 as [|x w2 _] using rev_ind; [done|]. rewrite app_length in Hk. cbn [length] in Hk. cbn [shift_at].
    rewrite !app_length in *. cbn [length] in *. rewrite app_assoc.
    replace (pred (length w1 + (length w2 + 1))) with (length (w1 ++ w2)) by (rewrite app_length; lia).
    rewrite shift_last_step; [|done|rewrite app_length; lia].
    specialize (IH (x :: w1) w2 ltac:(lia)). cbn [app length] in IH. rewrite app_length in *.
    rewrite <- app_assoc. cbn [app]. rewrite <- IH by lia. done.
Qed.
Lemma shift_swap b out u x y v : 2 <= b_rows b -> b_rows b <= length (u ++ x :: y :: v) ->
  b_shift (with_side b out (u ++ x :: y :: v)) (length u) out = Some (with_side b out (u ++ y :: x :: v)).
Proof.
  intros Hr Hl. rewrite app_length in Hl. cbn [length] in Hl.
  pose proof (shift_ins b out (length u) x (u ++ y :: v)) as H. rewrite app_length in H. cbn [length] in H.
  assert (ins_at (length u) x (u ++ y :: v) = u ++ x :: y :: v) as E.
  { unfold ins_at. by rewrite take_app, drop_app. }
  rewrite E in H. rewrite H by lia. rewrite Nat.mod_small by lia. f_equal. f_equal. unfold ins_at.
  replace (S (length u)) with (length (u ++ [y])) by (rewrite app_length; cbn; lia).
  replace (u ++ y :: v) with ((u ++ [y]) ++ v) by (by rewrite <- app_assoc). rewrite take_app, drop_app. by rewrite <- app_assoc.
Qed.
Lemma shift_pad b out idx : 2 <= b_rows b -> b_shift (with_side b out (padded (b_rows b) (side b out))) idx out = b_shift b idx out.
Proof.
  intros Hr. set (w := padded (b_rows b) (side b out)).
  assert (padded (b_rows b) (side (with_side b out w) out) = w) as E.
  { rewrite with_side_side. apply padded_id. unfold w. rewrite padded_length. lia. }
  destruct (w !! idx) as [e|] eqn:He.
  - rewrite (b_shift_eq b idx out e) by done. pose proof (b_shift_eq (with_side b out w) idx out e) as H. cbn [with_side b_rows] in H.
    rewrite E in H. rewrite H by done. by rewrite with_side_twice.
  - assert (forall v, padded (b_rows b) v = w -> shift_list (b_rows b) v idx = None) as Hn.
    { intros v Hv. unfold shift_list.
      assert ((if length v <? b_rows b then v ++ replicate (b_rows b - length v) None else v) = w) as ->.
      { rewrite <- Hv. destruct (Nat.ltb_spec (length v) (b_rows b)); [done|]. by rewrite padded_id. }
      by rewrite He. }
    unfold b_shift. cbn [with_side b_rows]. destruct (Nat.leb_spec (b_rows b) 1); [lia|].
    destruct out; cbn [side with_side b_inputs b_outputs] in *; by rewrite !Hn.
Qed.
Lemma with_side_id b out : with_side b out (side b out) = b.
Proof. by destruct b, out. Qed.
