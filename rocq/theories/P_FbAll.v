(** C27: the feedback delay in every history *)
From Verif Require Import Base M_Prog M_Fb S_Fb.
Open Scope nat_scope.

Section fb.
  Context {V : Type} (zero : V) (mul : V -> V -> V).
  Context (d readers : nat) (Hd : 2 <= d).

  (** the state after the samples [xs] were written and [rd i] samples were read by reader [i] *)
  Definition after (xs : list V) (rd : nat -> nat) (s : fb V) : Prop :=
    length (fb_buf s) = 3 * d /\
    fb_wp s = (match xs with [] => d | _ => length xs mod d end) /\
    length (fb_rps s) = readers /\
    (forall i, i < readers -> fb_rps s !! i = Some (rd i mod d)) /\
    forall c, c < d -> exists x, fb_buf s !! c = Some x /\ newest zero d xs c x.

  Lemma after_new : after [] (fun _ => 0) (fb_new zero d readers).
  Proof.
    unfold fb_new. split; [cbn; apply replicate_length|]. split; [done|]. split; [cbn; apply replicate_length|]. split.
    - intros i Hi. cbn [fb_rps]. rewrite lookup_replicate_2 by done. by rewrite Nat.mod_0_l by lia.
    - intros c Hc. exists zero. cbn [fb_buf]. rewrite lookup_replicate_2 by lia. split; [done|]. right. split; [done|]. cbn. lia.
  Qed.

  Lemma newest_other xs c x y : length xs mod d <> c mod d \/ xs = [] -> newest zero d xs c x -> newest zero d (xs ++ [y]) c x.
  Proof.
    intros Hne [(j & J1 & J2 & J3 & J4)|[-> J]].
    - left. exists j. split; [done|]. pose proof (lookup_lt_Some _ _ _ J2) as Hl. split; [by rewrite lookup_app_l by done|]. split; [done|].
      intros j' Hj'. rewrite app_length in Hj'. cbn in Hj'. destruct (decide (j' = length xs)) as [->|Hn].
      + destruct Hne as [Hne| ->]; [done|done].
      + apply J4. lia.
    - right. split; [done|]. intros j Hj. rewrite app_length in Hj. cbn in Hj. destruct (decide (j = length xs)) as [->|Hn].
      + destruct Hne as [Hne| ->]; [done|]. cbn in Hj. lia.
      + apply J. lia.
  Qed.

  Lemma write_after xs rd s y : after xs rd s -> exists s', fb_write d s y = Some s' /\ after (xs ++ [y]) rd s'.
  Proof.
    intros (A1 & A2 & A3 & A4 & A5). assert (fb_wp s < 3 * d) as Hw.
    { rewrite A2. destruct xs; [lia|]. pose proof (Nat.mod_upper_bound (length (v :: xs)) d ltac:(lia)). lia. }
    unfold fb_write. rewrite A1, (proj2 (Nat.ltb_lt _ _) Hw). eexists. split; [reflexivity|]. split; [cbn; by rewrite insert_length|].
    split.
    { cbn [fb_wp]. rewrite A2, app_length. cbn [length]. destruct xs as [|v xs].
      - cbn [app length]. replace (d + 1) with (1 + 1 * d) by lia. by rewrite Nat.mod_add by lia.
      - change ((v :: xs) ++ [y]) with (v :: (xs ++ [y])). cbv iota. by rewrite Nat.add_mod_idemp_l by lia. }
    split; [done|]. split; [done|]. intros c Hc. destruct (A5 c Hc) as (x & Hx & Hn). cbn [fb_buf].
    destruct (decide (c = fb_wp s)) as [->|Hne].
    - exists y. rewrite list_lookup_insert by lia. split; [done|]. left. exists (length xs).
      assert (xs <> []) as Hxs. { intros ->. lia. }
      split; [destruct xs; [done|cbn; lia]|]. split; [rewrite lookup_app_r, Nat.sub_diag by lia; done|]. split.
      + rewrite A2. destruct xs; [done|]. by rewrite Nat.mod_mod by lia.
      + intros j' Hj'. rewrite app_length in Hj'. cbn in Hj'. lia.
    - exists x. rewrite list_lookup_insert_ne by done. split; [done|]. apply newest_other; [|done].
      destruct xs as [|v xs]; [by right|left]. rewrite (Nat.mod_small c d Hc). intros E. apply Hne. rewrite A2. by rewrite E.
  Qed.
  Lemma writes_after ys : forall xs rd s, after xs rd s -> exists s', foldm (fb_write d) s ys = Some s' /\ after (xs ++ ys) rd s'.
  Proof.
    induction ys as [|y ys IH]; intros xs rd s HA; [exists s; by rewrite app_nil_r|]. destruct (write_after xs rd s y HA) as (s1 & E1 & A1).
    destruct (IH _ _ _ A1) as (s2 & E2 & A2). exists s2. cbn [foldm]. rewrite E1. cbn [mbind option_bind]. split; [done|]. by rewrite <- app_assoc in A2.
  Qed.

  Lemma read_after xs rd s i : i < readers -> after xs rd s -> exists s' x, fb_read d s i = Some (s', x) /\ newest zero d xs (rd i) x /\
    after xs (fun j => if decide (j = i) then S (rd i) else rd j) s'.
  Proof.
    intros Hi (A1 & A2 & A3 & A4 & A5). unfold fb_read. rewrite (A4 i Hi). cbn [mbind option_bind].
    assert (rd i mod d < d) as Hm by (apply Nat.mod_upper_bound; lia). destruct (A5 _ Hm) as (x & Hx & Hn). rewrite Hx. cbn [mbind option_bind].
    eexists _, x. split; [reflexivity|]. split; [unfold newest in *; by rewrite Nat.mod_mod in Hn by lia|].
    split; [done|]. split; [done|]. split; [cbn; by rewrite insert_length|]. split; [|done]. intros j Hj. cbn [fb_rps]. destruct (decide (j = i)) as [->|Hne].
    - rewrite list_lookup_insert by lia. f_equal. rewrite Nat.add_mod_idemp_l by lia. by rewrite Nat.add_1_r.
    - rewrite list_lookup_insert_ne by done. by apply A4.
  Qed.
  Lemma after_ext xs rd rd' s : (forall i, rd i = rd' i) -> after xs rd s -> after xs rd' s.
  Proof. intros E (A1 & A2 & A3 & A4 & A5). split; [done|]. do 2 (split; [done|]). split; [|done]. intros i Hi. rewrite <- E. by apply A4. Qed.
  Lemma reads_after vols : forall xs rd s i, i < readers -> after xs rd s -> exists s' out, fbrd_loop mul d s i vols = Some (s', out) /\
    length out = length vols /\ (forall m v, vols !! m = Some v -> exists x, out !! m = Some (mul x v) /\ newest zero d xs (rd i + m) x) /\
    after xs (fun j => if decide (j = i) then rd i + length vols else rd j) s'.
  Proof.
    induction vols as [|v vols IH]; intros xs rd s i Hi HA; cbn [fbrd_loop].
    - exists s, []. do 3 (split; [done|]). eapply after_ext; [|exact HA]. intros j. destruct (decide (j = i)) as [->|]; [cbn; lia|done].
    - destruct (read_after xs rd s i Hi HA) as (s1 & x & E1 & N1 & A1). destruct (IH xs _ s1 i Hi A1) as (s2 & out & E2 & L2 & G2 & A2).
      rewrite E1. cbn [mbind option_bind]. rewrite E2. cbn [mbind option_bind]. exists s2, (mul x v :: out). split; [done|]. split; [cbn; lia|]. split.
      + intros [|m] w Hm; cbn in Hm; [injection Hm as <-; exists x; rewrite Nat.add_0_r; done|]. destruct (G2 m w Hm) as (x' & X1 & X2).
        exists x'. split; [done|]. destruct (decide (i = i)); [|done]. by rewrite Nat.add_succ_r.
      + eapply after_ext; [|exact A2]. intros j. cbn beta. destruct (decide (j = i)) as [->|]; [|done]. destruct (decide (i = i)); [cbn; lia|done].
  Qed.

  Lemma run_after ops : forall xs rd s, after xs rd s -> Forall (fun op => match op with FbWr _ => True | FbRd i _ => i < readers end) ops ->
    exists s' outs, fb_run mul d s ops = Some (s', outs) /\ length outs = length (filter is_read ops) /\
      after (xs ++ written ops) (fun i => rd i + reads i ops) s'.
  Proof.
    induction ops as [|op ops IH]; intros xs rd s HA HF; cbn [fb_run].
    - exists s, []. do 2 (split; [done|]). unfold written. cbn. rewrite app_nil_r. eapply after_ext; [|exact HA]. intros i. unfold reads. cbn. lia.
    - apply Forall_cons in HF as [Hop HF]. destruct op as [ys|i vols].
      + destruct (writes_after ys xs rd s HA) as (s1 & E1 & A1). rewrite E1. cbn [mbind option_bind].
        destruct (IH _ _ _ A1 HF) as (s2 & outs & E2 & L2 & A2). exists s2, outs. split; [done|]. rewrite filter_cons, decide_False by (cbn; tauto).
        split; [done|]. unfold written in *. rewrite fmap_cons. cbn [mjoin list_join]. by rewrite app_assoc.
      + destruct (reads_after vols xs rd s i Hop HA) as (s1 & out & E1 & L1 & _ & A1). rewrite E1. cbn [mbind option_bind].
        destruct (IH _ _ _ A1 HF) as (s2 & outs & E2 & L2 & A2). rewrite E2. cbn [mbind option_bind]. exists s2, ((i, out) :: outs). split; [done|].
        rewrite filter_cons, decide_True by done. split; [cbn; lia|]. unfold written in *. rewrite fmap_cons. cbn [mjoin list_join app].
        eapply after_ext; [|exact A2]. intros j. cbn beta. unfold reads. rewrite fmap_cons. cbn [sum_list]. destruct (decide (j = i)) as [->|Hne].
        * rewrite decide_True by done. cbn. lia.
        * rewrite decide_False by congruence. cbn. lia.
  Qed.
  Lemma run_app a : forall s b, fb_run mul d s (a ++ b) = let* (s, o) := fb_run mul d s a in let* (s, o') := fb_run mul d s b in Some (s, o ++ o').
  Proof.
    induction a as [|op a IH]; intros s b; cbn [fb_run app].
    - cbn [mbind option_bind]. by destruct (fb_run mul d s b) as [[? ?]|].
    - destruct op as [ys|i vols].
      + destruct (foldm _ s ys) as [s1|]; [|done]. cbn [mbind option_bind]. apply IH.
      + destruct (fbrd_loop _ _ _ _ _) as [[s1 out]|]; [|done]. cbn [mbind option_bind]. rewrite IH. destruct (fb_run mul d s1 a) as [[s2 o]|]; [|done].
        cbn [mbind option_bind]. by destruct (fb_run mul d s2 b) as [[? ?]|].
  Qed.
End fb.

(** C27, exactly, for every history of writers and readers, every order and partition into blocks: the run of a reader puts out, for its
    frame number [r] since it started, the newest sample whose number is equal to [r] up to multiples of the delay, times the volume;
    the very first sample is never heard, and silence comes out as long as there is no such sample. *)
Theorem C27_exact {V} (zero : V) (mul : V -> V -> V) n readers pre i vols post : i < readers ->
  Forall (fun op => match op with FbWr _ => True | FbRd i _ => i < readers end) (pre ++ FbRd i vols :: post) ->
  let d := fb_delay n in
  exists st outs out, fb_run mul d (fb_new zero d readers) (pre ++ FbRd i vols :: post) = Some (st, outs) /\
    outs !! length (filter is_read pre) = Some (i, out) /\ length out = length vols /\
    forall m v, vols !! m = Some v -> exists x, out !! m = Some (mul x v) /\ newest zero d (written pre) (reads i pre + m) x.
Proof.
  intros Hi HF d. assert (2 <= d) as Hd by (unfold d, fb_delay; lia). apply Forall_app in HF as [HF1 HF2]. apply Forall_cons in HF2 as [_ HF2].
  destruct (run_after zero mul d readers Hd pre [] (fun _ => 0) _ (after_new zero d readers Hd) HF1) as (s1 & o1 & E1 & L1 & A1).
  destruct (reads_after zero mul d readers Hd vols _ _ s1 i Hi A1) as (s2 & out & E2 & L2 & G2 & A2).
  destruct (run_after zero mul d readers Hd post _ _ s2 A2 HF2) as (s3 & o3 & E3 & L3 & A3).
  exists s3, (o1 ++ (i, out) :: o3), out. rewrite run_app, E1. cbn [mbind option_bind fb_run]. rewrite E2. cbn [mbind option_bind]. rewrite E3. cbn [mbind option_bind].
  split; [done|]. split; [rewrite lookup_app_r by lia; by rewrite L1, Nat.sub_diag|]. done.
Qed.
Print Assumptions C27_exact.

(** A case: two readers, of which the second one starts later, and a writer between them *)
Example C27_exact_case :
  let pre := [FbRd 0 [1; 1]; FbWr [5; 6; 7]; FbRd 1 [1; 1]]%Z in
  Forall (fun op => match op with FbWr _ => True | FbRd i _ => i < 2 end) (pre ++ [FbRd 0 [1; 1; 1]]%Z) /\
  (snd <$> fb_run Z.mul 128 (fb_new 0%Z 128 2) (pre ++ [FbRd 0 [1; 1; 1]]%Z)) = Some [(0, [0; 0]%Z); (1, [0; 6]%Z); (0, [7; 0; 0]%Z)] /\
  newest 0%Z 128 (written pre) (reads 0 pre) 7%Z.
Proof.
  cbv zeta. split; [repeat constructor; lia|]. split; [vm_compute; reflexivity|]. left. exists 2. split; [lia|]. split; [done|]. split; [done|].
  intros j' Hj. cbn in Hj. lia.
Qed.
