From Verif Require Import Base M_Dir S_Dir.
From Coq Require Import ZifyBool ZifyNat.
Ltac Zify.zify_post_hook ::= Z.div_mod_to_equations.
Open Scope Z_scope.

Lemma mod2_even x : Z.of_nat x mod 2 = if Nat.even x then 0 else 1.
Proof.
  destruct (Nat.even x) eqn:He.
  - apply Nat.even_spec in He as [k ->]. lia.
  - assert (Nat.odd x = true) as Ho by (by rewrite <- Nat.negb_even, He).
    apply Nat.odd_spec in Ho as [k ->]. lia.
Qed.

Lemma offs_pos_neighbour d p q :
  d <> C -> (dir_offs_pos d p = Some q <-> neighbour p d q).
Proof.
  intros Hd. destruct p as [x y], q as [x' y']. unfold dir_offs_pos, neighbour, center. cbn [fst snd].
  rewrite !mod2_even.
  destruct d; cbn [dir_as_offs displacement fst snd]; try done;
    case_decide as Hc; (split; [intros Heq; try (injection Heq as <- <-)|intros (_ & H1 & H2)]);
    try done; try (split; [done|]).
  all: try (rewrite <- !mod2_even; destruct (Nat.even x) eqn:He;
            [apply Nat.even_spec in He as [k ->]|
             assert (Nat.odd x = true) as Ho by (by rewrite <- Nat.negb_even, He);
             apply Nat.odd_spec in Ho as [k ->]]; lia).
  all: try (rewrite <- !mod2_even in *; destruct (Nat.even x) eqn:He;
            [apply Nat.even_spec in He as [k ->]|
             assert (Nat.odd x = true) as Ho by (by rewrite <- Nat.negb_even, He);
             apply Nat.odd_spec in Ho as [k ->]]; try (f_equal; f_equal; lia); exfalso; apply Hc; lia).
Qed.

Lemma is_at_neighbour d p q : d <> C -> is_at d p q = true <-> neighbour p d q.
Proof.
  intros Hd. rewrite <- offs_pos_neighbour by done.
  destruct p as [x y], q as [x' y']. unfold is_at, dir_offs_pos. cbn [fst snd].
  destruct (dir_as_offs d x) as [ox oy]. rewrite bool_decide_eq_true.
  case_decide.
  - split; [intros [H1 H2]; f_equal; f_equal; lia|]. intros [= <- <-]. lia.
  - split; [lia|done].
Qed.

Lemma neighbour_unique p d1 d2 q : neighbour p d1 q -> neighbour p d2 q -> d1 = d2.
Proof.
  intros (Hn1 & H1 & H2) (Hn2 & H3 & H4).
  destruct d1, d2; cbn [displacement fst snd] in *; try done; lia.
Qed.

Lemma neighbour_flip p d q : neighbour p d q <-> (d <> C /\ neighbour q (dir_flip d) p).
Proof.
  unfold neighbour. destruct d; cbn [dir_flip displacement fst snd]; (split; [intros (? & ? & ?)|intros (? & ? & ? & ?)]);
    try done; repeat split; try done; lia.
Qed.

Lemma flip_flip d : d <> C -> dir_flip (dir_flip d) = d.
Proof. by destruct d. Qed.

Lemma flip_not_C d : dir_flip d <> C.
Proof. by destruct d. Qed.

Lemma step_back d p q : d <> C -> dir_offs_pos d p = Some q -> dir_offs_pos (dir_flip d) q = Some p.
Proof.
  intros Hd H. apply offs_pos_neighbour in H; [|done].
  apply offs_pos_neighbour; [apply flip_not_C|]. by destruct (proj1 (neighbour_flip _ _ _) H).
Qed.

Lemma adjacent_iff a b d : dir_are_adjacent a b = Some d <-> neighbour a d b.
Proof.
  unfold dir_are_adjacent.
  assert (Hdec : forall d', d' <> C -> is_at d' a b = false -> ~ neighbour a d' b).
  { intros d' Hd' Hf Hn. apply is_at_neighbour in Hn; [|done]. congruence. }
  assert (Hin : forall d', d' <> C -> is_at d' a b = true -> neighbour a d' b).
  { intros d' Hd' Ht. by apply is_at_neighbour. }
  assert (Hyes : forall d', d' <> C -> is_at d' a b = true -> (Some d' = Some d <-> neighbour a d b)).
  { intros d' Hd' Ht. split; [intros [= <-]; by apply Hin|]. intros Hn. f_equal.
    eapply neighbour_unique; [|done]. by apply Hin. }
  destruct (is_at T a b) eqn:H1; [refine (Hyes T _ H1); done|].
  destruct (is_at TL a b) eqn:H2; [refine (Hyes TL _ H2); done|].
  destruct (is_at BL a b) eqn:H3; [refine (Hyes BL _ H3); done|].
  destruct (is_at TR a b) eqn:H4; [refine (Hyes TR _ H4); done|].
  destruct (is_at BR a b) eqn:H5; [refine (Hyes BR _ H5); done|].
  destruct (is_at B a b) eqn:H6; [refine (Hyes B _ H6); done|].
  split; [done|]. intros Hn. exfalso.
  destruct d; try (refine (Hdec _ _ _ Hn); done). by destruct Hn.
Qed.

Lemma adjacent_sym a b d :
  dir_are_adjacent a b = Some d -> dir_are_adjacent b a = Some (dir_flip d).
Proof.
  rewrite !adjacent_iff. intros H. by destruct (proj1 (neighbour_flip _ _ _) H).
Qed.

(** ** Greedy paths *)
Definition step_ok (a b : nat * nat) (acc : Z * celldir * (nat * nat)) (es : list nat) : Prop :=
  let '(md, mdir, mpos) := acc in
  (md = 99999 /\ mdir = C \/
   (md < 99999 /\ mdir <> C /\ dir_offs_pos mdir a = Some mpos /\ md = dist2 mpos b)) /\
  forall e q, e ∈ es -> dir_offs_pos (dir_from e) a = Some q -> md <= dist2 q b.

Lemma pick_fold a b es : forall done acc,
  Forall (fun e => (e < 6)%nat) es ->
  step_ok a b acc done ->
  step_ok a b (foldl (fun '(md, mdir, mpos) e =>
           let dir := dir_from e in
           match dir_offs_pos dir a with
           | Some np => let dist := dist2 np b in
                        if bool_decide (dist < md) then (dist, dir, np) else (md, mdir, mpos)
           | None => (md, mdir, mpos)
           end) acc es) (done ++ es).
Proof.
  induction es as [|e es IH]; intros dn [[md mdir] mpos] Hall Hok.
  - by rewrite app_nil_r.
  - inversion Hall as [|? ? He Hes]; subst. cbn [foldl].
    replace (dn ++ e :: es) with ((dn ++ [e]) ++ es) by (by rewrite <- app_assoc).
    apply IH; [done|].
    assert (Hnc : dir_from e <> C) by (do 6 (destruct e as [|e]; [done|]); lia).
    destruct Hok as [Hst Hmin].
    destruct (dir_offs_pos (dir_from e) a) as [np|] eqn:Hnp.
    + case_bool_decide as Hlt.
      * split.
        -- right. split; [|done]. destruct Hst as [[-> _]|(? & _)]; lia.
        -- intros e' q Hin Hq. apply elem_of_app in Hin as [Hin|Hin].
           ++ specialize (Hmin e' q Hin Hq). lia.
           ++ apply elem_of_list_singleton in Hin as ->. assert (q = np) as -> by congruence. lia.
      * split; [done|]. intros e' q Hin Hq. apply elem_of_app in Hin as [Hin|Hin].
        -- by eapply Hmin.
        -- apply elem_of_list_singleton in Hin as ->. assert (q = np) as -> by congruence. lia.
    + split; [done|]. intros e' q Hin Hq. apply elem_of_app in Hin as [Hin|Hin].
      * by eapply Hmin.
      * apply elem_of_list_singleton in Hin as ->. congruence.
Qed.

Lemma path_pick_ok a b : step_ok a b (path_pick a b) (seq 0 6).
Proof.
  unfold path_pick. apply (pick_fold a b (seq 0 6) []).
  - cbn. repeat constructor.
  - split; [by left|]. intros e q Hin. by apply elem_of_nil in Hin.
Qed.

Definition l1 (a b : nat * nat) : Z :=
  Z.abs (Z.of_nat b.1 - Z.of_nat a.1) + Z.abs (Z.of_nat b.2 - Z.of_nat a.2).

Lemma dir_from_as_edge d : dir_from (dir_as_edge d) = d.
Proof. by destruct d. Qed.

Lemma even_cases x : (exists k, x = (2 * k)%nat /\ Nat.even x = true) \/ (exists k, x = (2 * k + 1)%nat /\ Nat.even x = false).
Proof.
  destruct (Nat.even x) eqn:He.
  - left. apply Nat.even_spec in He as [k ->]. eauto.
  - right. assert (Nat.odd x = true) as Ho by (by rewrite <- Nat.negb_even, He).
    apply Nat.odd_spec in Ho as [k ->]. eauto.
Qed.

(** the cell right, left, above or below that brings us closer is a neighbour *)
Lemma straight_step a b : a <> b -> exists d q, d <> C /\ dir_offs_pos d a = Some q /\
  ((Z.of_nat b.1 > Z.of_nat a.1 /\ q.1 = S a.1 /\ q.2 = a.2) \/
   (Z.of_nat b.1 < Z.of_nat a.1 /\ S q.1 = a.1 /\ q.2 = a.2) \/
   (b.1 = a.1 /\ q.1 = a.1 /\ ((Z.of_nat b.2 > Z.of_nat a.2 /\ q.2 = S a.2) \/
                                (Z.of_nat b.2 < Z.of_nat a.2 /\ S q.2 = a.2)))).
Proof.
  destruct a as [ax ay], b as [bx by_]. intros Hne. cbn [fst snd].
  destruct (Z.lt_trichotomy (Z.of_nat bx) (Z.of_nat ax)) as [Hlt|[Heq|Hgt]].
  - destruct (even_cases ax) as [(k & -> & He)|(k & -> & He)].
    + exists BL. eexists. split; [done|]. unfold dir_offs_pos. cbn [fst snd dir_as_offs]. rewrite He.
      split; [rewrite decide_True by lia; done|]. right; left. cbn [fst snd]. lia.
    + exists TL. eexists. split; [done|]. unfold dir_offs_pos. cbn [fst snd dir_as_offs]. rewrite He.
      split; [rewrite decide_True by lia; done|]. right; left. cbn [fst snd]. lia.
  - assert (by_ <> ay) by (intros ->; apply Hne; f_equal; lia).
    destruct (decide (Z.of_nat by_ > Z.of_nat ay)).
    + exists B. eexists. split; [done|]. unfold dir_offs_pos. cbn [fst snd dir_as_offs].
      split; [rewrite decide_True by lia; done|]. right; right. cbn [fst snd]. lia.
    + exists T. eexists. split; [done|]. unfold dir_offs_pos. cbn [fst snd dir_as_offs].
      split; [rewrite decide_True by lia; done|]. right; right. cbn [fst snd]. lia.
  - destruct (even_cases ax) as [(k & -> & He)|(k & -> & He)].
    + exists BR. eexists. split; [done|]. unfold dir_offs_pos. cbn [fst snd dir_as_offs]. rewrite He.
      split; [rewrite decide_True by lia; done|]. left. cbn [fst snd]. lia.
    + exists TR. eexists. split; [done|]. unfold dir_offs_pos. cbn [fst snd dir_as_offs]. rewrite He.
      split; [rewrite decide_True by lia; done|]. left. cbn [fst snd]. lia.
Qed.

Lemma path_pick_progress a b md mdir mpos :
  a <> b -> dist2 a b <= 99999 -> path_pick a b = (md, mdir, mpos) ->
  md < 99999 /\ neighbour a mdir mpos /\ dist2 mpos b < dist2 a b /\ l1 mpos b < l1 a b.
Proof.
  intros Hne Hd Hp. pose proof (path_pick_ok a b) as Hok. rewrite Hp in Hok.
  destruct Hok as [Hst Hmin].
  destruct (straight_step a b Hne) as (d & q & Hdc & Hq & Hcases).
  assert (Hle : md <= dist2 q b).
  { apply (Hmin (dir_as_edge d)); [|by rewrite dir_from_as_edge].
    apply elem_of_seq. destruct d; cbn; try lia. done. }
  assert (Hlt : dist2 q b < dist2 a b).
  { unfold dist2. destruct a as [ax ay], b as [bx by_], q as [qx qy]; cbn [fst snd] in *. nia. }
  destruct Hst as [[-> _]|(Hmd & Hmc & Hmo & ->)]; [lia|].
  split; [done|]. split; [by apply offs_pos_neighbour|].
  split; [lia|].
  (* the L1 distance decreases *)
  destruct a as [ax ay], b as [bx by_], q as [qx qy], mpos as [mx my]; cbn [fst snd] in *.
  assert (Hm : exists ux uy, Z.of_nat mx = Z.of_nat ax + ux /\ Z.of_nat my = Z.of_nat ay + uy /\
             -1 <= ux <= 1 /\ -1 <= uy <= 1).
  { unfold dir_offs_pos in Hmo. cbn [fst snd] in Hmo.
    destruct (dir_as_offs mdir ax) as [ux uy] eqn:Hu. case_decide; [|done]. injection Hmo as <- <-.
    exists ux, uy. unfold dir_as_offs in Hu.
    destruct (Nat.even ax), mdir; injection Hu as <- <-; lia. }
  destruct Hm as (ux & uy & Hmx & Hmy & Hux & Huy).
  assert (Hmir : (ux = -1 \/ (ux = 1 /\ Z.of_nat bx < Z.of_nat ax)) ->
     exists q', Z.of_nat (fst q') = Z.of_nat ax - ux /\ snd q' = my /\ dist2 (mx, my) (bx, by_) <= dist2 q' (bx, by_)).
  { intros Hux'.
    exists (Z.to_nat (Z.of_nat ax - ux), my). cbn [fst snd]. split; [lia|]. split; [done|].
    unfold dir_offs_pos in Hmo. cbn [fst snd] in Hmo.
    apply (Hmin (dir_as_edge (match mdir with TR => TL | TL => TR | BR => BL | BL => BR | d => d end))).
    - apply elem_of_seq. destruct mdir; cbn; try lia. done.
    - rewrite dir_from_as_edge. unfold dir_offs_pos. cbn [fst snd].
      destruct mdir; cbn [dir_as_offs fst snd] in *; destruct (Nat.even ax);
        repeat (case_decide; [|try done]); try (injection Hmo as H1 H2; subst mx my); try (f_equal; f_equal; lia); lia. }
  unfold dist2, l1 in *. cbn [fst snd] in *.
  set (dx := Z.of_nat bx - Z.of_nat ax) in *. set (dy := Z.of_nat by_ - Z.of_nat ay) in *.
  replace (Z.of_nat bx - Z.of_nat mx) with (dx - ux) in * by lia.
  replace (Z.of_nat by_ - Z.of_nat my) with (dy - uy) in * by lia.
  assert (Hside : ~ (ux = -1 /\ dx > 0) /\ ~ (ux = 1 /\ dx < 0)).
  { split; intros [Hu1 Hu2]; specialize (Hmir ltac:(lia)) as (q' & Hq1 & Hq2 & Hq3).
    - assert (Hc : (dx - ux) * (dx - ux) <= (Z.of_nat bx - Z.of_nat (fst q')) * (Z.of_nat bx - Z.of_nat (fst q'))).
      { rewrite Hq2 in Hq3. replace (Z.of_nat by_ - Z.of_nat my) with (dy - uy) in Hq3 by lia. lia. }
      replace (Z.of_nat bx - Z.of_nat (fst q')) with (dx - 1) in Hc by lia. clear -Hc Hu1 Hu2. subst ux. nia.
    - assert (Hc : (dx - ux) * (dx - ux) <= (Z.of_nat bx - Z.of_nat (fst q')) * (Z.of_nat bx - Z.of_nat (fst q'))).
      { rewrite Hq2 in Hq3. replace (Z.of_nat by_ - Z.of_nat my) with (dy - uy) in Hq3 by lia. lia. }
      replace (Z.of_nat bx - Z.of_nat (fst q')) with (dx + 1) in Hc by lia. clear -Hc Hu1 Hu2. subst ux. nia. }
  assert (Hle2 : - 2 * ux * dx - 2 * uy * dy + ux * ux + uy * uy <= 
     (if decide (dx > 0) then - 2 * dx + 1 else if decide (dx < 0) then 2 * dx + 1 else
      if decide (dy > 0) then -2 * dy + 1 else 2 * dy + 1)).
  { destruct Hcases as [(H1 & H2 & H3)|[(H1 & H2 & H3)|(H1 & H2 & [[H3 H4]|[H3 H4]])]].
    - replace (Z.of_nat bx - Z.of_nat qx) with (dx - 1) in Hle by lia.
      replace (Z.of_nat by_ - Z.of_nat qy) with dy in Hle by lia.
      rewrite decide_True by lia. clearbody dx dy. clear -Hle. nia.
    - replace (Z.of_nat bx - Z.of_nat qx) with (dx + 1) in Hle by lia.
      replace (Z.of_nat by_ - Z.of_nat qy) with dy in Hle by lia.
      rewrite decide_False by lia. rewrite decide_True by lia. clearbody dx dy. clear -Hle. nia.
    - replace (Z.of_nat bx - Z.of_nat qx) with dx in Hle by lia.
      replace (Z.of_nat by_ - Z.of_nat qy) with (dy - 1) in Hle by lia.
      rewrite decide_False by lia. rewrite decide_False by lia. rewrite decide_True by lia.
      clearbody dx dy. clear -Hle. nia.
    - replace (Z.of_nat bx - Z.of_nat qx) with dx in Hle by lia.
      replace (Z.of_nat by_ - Z.of_nat qy) with (dy + 1) in Hle by lia.
      rewrite decide_False by lia. rewrite decide_False by lia. rewrite decide_False by lia.
      clearbody dx dy. clear -Hle. nia. }
  clear Hle Hlt Hmin Hd Hmir.
  assert (dx <> 0 \/ dy <> 0) by lia. clear Hcases.
  assert (ux = -1 \/ ux = 0 \/ ux = 1) as [->|[->| ->]] by lia;
  assert (uy = -1 \/ uy = 0 \/ uy = 1) as [->|[->| ->]] by lia;
  repeat case_decide; lia.
Qed.

Lemma path_loop_ok k : forall a b,
  dist2 a b <= 99999 -> l1 a b <= Z.of_nat k ->
  walk a (path_loop k a b) b /\ Z.of_nat (length (path_loop k a b)) <= l1 a b.
Proof.
  induction k as [|k IH]; intros a b Hd Hl.
  - assert (a = b) as ->.
    { destruct a as [ax ay], b as [bx by_]; unfold l1 in Hl; cbn [fst snd] in Hl. f_equal; lia. }
    cbn [path_loop length]. split; [constructor|]. unfold l1. lia.
  - cbn [path_loop]. case_decide as Heq.
    + subst. cbn [length]. split; [constructor|]. unfold l1. lia.
    + destruct (path_pick a b) as [[md mdir] mpos] eqn:Hp.
      destruct (path_pick_progress a b md mdir mpos Heq Hd Hp) as (Hmd & Hn & Hd2 & Hl2).
      rewrite bool_decide_true by done.
      destruct (IH mpos b) as [Hw Hlen]; [lia|lia|].
      split; [by econstructor|]. cbn [length]. lia.
Qed.

Lemma path_from_to_ok a b :
  dist2 a b <= 99999 -> walk a (path_from_to a b) b /\ Z.of_nat (length (path_from_to a b)) <= l1 a b.
Proof.
  intros Hd. apply path_loop_ok; [done|].
  destruct a as [ax ay], b as [bx by_]; unfold l1, dist2 in *; cbn [fst snd] in *.
  assert (Hb : forall u v, u * u + v * v <= 99999 -> Z.abs u <= 317).
  { intros u v Huv. pose proof (Z.square_nonneg v). assert (u * u < 318 * 318) by lia.
    destruct (Z.abs_spec u) as [[_ ->]|[_ ->]]; nia. }
  pose proof (Hb _ _ Hd). rewrite Z.add_comm in Hd. pose proof (Hb _ _ Hd). lia.
Qed.

Lemma l1_bound a b : dist2 a b <= 99999 -> l1 a b <= 634.
Proof.
  intros Hd. destruct a as [ax ay], b as [bx by_]; unfold l1, dist2 in *; cbn [fst snd] in *.
  assert (Hb : forall u v, u * u + v * v <= 99999 -> Z.abs u <= 317).
  { intros u v Huv. pose proof (Z.square_nonneg v). assert (u * u < 318 * 318) by lia.
    destruct (Z.abs_spec u) as [[_ ->]|[_ ->]]; nia. }
  pose proof (Hb _ _ Hd). rewrite Z.add_comm in Hd. pose proof (Hb _ _ Hd). lia.
Qed.

Lemma path_exact a b :
  (a = b \/ (exists d q, neighbour a d q /\ dist2 q b < 99999) -> walk a (path_from_to a b) b) /\
  (a <> b -> (forall d q, neighbour a d q -> 99999 <= dist2 q b) -> path_from_to a b = []).
Proof.
  unfold path_from_to. assert (exists k, 1024%nat = S k /\ 634 <= Z.of_nat k) as (k & -> & Hk) by (exists 1023%nat; split; [done|lia]). cbn [path_loop]. destruct (decide (a = b)) as [->|Hne]; [by split; [intros _; constructor|]|].
  pose proof (path_pick_ok a b) as Hok. destruct (path_pick a b) as [[md mdir] mpos]. destruct Hok as [Hst Hmin]. split.
  - intros [?|(d & q & Hn & Hd)]; [done|]. pose proof Hn as (Hdc & _). apply offs_pos_neighbour in Hn; [|done].
    assert (Hle : md <= dist2 q b).
    { apply (Hmin (dir_as_edge d)); [|by rewrite dir_from_as_edge]. apply elem_of_seq. destruct d; cbn; try lia. done. }
    destruct Hst as [[-> _]|(Hmd & Hmc & Hmo & ->)]; [lia|]. rewrite bool_decide_true by done. econstructor; [by apply offs_pos_neighbour|].
    apply path_loop_ok; [lia|]. pose proof (l1_bound mpos b). lia.
  - intros _ Hall. destruct Hst as [[-> _]|(Hmd & Hmc & Hmo & ->)]; [by rewrite bool_decide_false by lia|].
    apply offs_pos_neighbour in Hmo; [|done]. apply Hall in Hmo. lia.
Qed.
