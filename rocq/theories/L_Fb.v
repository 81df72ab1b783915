From Verif Require Import Base M_Prog L_Conf M_Fb S_Fb.
Open Scope nat_scope.

Section proof.
  Context {V : Type} (zero : V) (mul : V -> V -> V) (d readers i : nat).
  Context (Hd : 128 <= d) (Hi : i < readers).

  (** After [s] samples of [X] were written and [r] read by reader [i] *)
  Record finv (X : list V) (s r : nat) (st : fb V) : Prop := {
    fi_len : length (fb_buf st) = 3 * d;
    fi_wp : fb_wp st = if s =? 0 then d else s mod d;
    fi_rps : length (fb_rps st) = readers;
    fi_rp : fb_rps st !! i = Some (r mod d);
    fi_bound : Forall (fun p => p < d) (fb_rps st);
    fi_some : forall k x, 1 <= k < s -> s <= k + d -> X !! k = Some x -> fb_buf st !! (k mod d) = Some x;
    fi_zero : forall j, j < d -> (forall k, 1 <= k < s -> k mod d <> j) -> fb_buf st !! j = Some zero;
  }.

  Lemma finv_new X : finv X 0 0 (fb_new zero d readers).
  Proof.
    split; cbn [fb_new fb_buf fb_wp fb_rps].
    - by rewrite replicate_length.
    - done.
    - by rewrite replicate_length.
    - rewrite Nat.mod_0_l by lia. by apply lookup_replicate_2.
    - apply Forall_replicate. lia.
    - lia.
    - intros j Hj _. apply lookup_replicate_2. lia.
  Qed.

  Lemma mod_neq a b : a < b -> b < a + d -> a mod d <> b mod d.
  Proof.
    intros H1 H2 E. pose proof (Nat.div_mod a d ltac:(lia)). pose proof (Nat.div_mod b d ltac:(lia)).
    assert (a / d <= b / d) by (apply Nat.div_le_mono; lia).
    destruct (decide (a / d = b / d)) as [e|n]; [rewrite e in *; lia|]. nia.
  Qed.

  Lemma write_inv X s r st x : finv X s r st -> X !! s = Some x ->
    exists st', fb_write d st x = Some st' /\ finv X (S s) r st'.
  Proof.
    intros [H1 H2 H3 H4 H5 H6 H7] Hx. unfold fb_write.
    assert (s mod d < d) as Hm by (apply Nat.mod_upper_bound; lia).
    destruct (Nat.ltb_spec (fb_wp st) (length (fb_buf st))) as [Hl|Hl]; [|destruct (s =? 0); lia].
    eexists. split; [done|]. split; cbn [fb_buf fb_wp fb_rps]; try done.
    - by rewrite insert_length.
    - rewrite H2. cbn [Nat.eqb]. destruct (Nat.eqb_spec s 0) as [->|Hs].
      + rewrite <- Nat.add_mod_idemp_l, Nat.mod_same by lia. done.
      + rewrite Nat.add_mod_idemp_l by lia. f_equal. lia.
    - intros k y Hk1 Hk2 Hy. destruct (decide (k = s)) as [->|Hn].
      + rewrite Hx in Hy. injection Hy as ->. rewrite H2. destruct (Nat.eqb_spec s 0); [lia|]. apply list_lookup_insert. lia.
      + rewrite list_lookup_insert_ne.
        * apply H6; [lia|lia|done].
        * rewrite H2. destruct (Nat.eqb_spec s 0); [lia|]. intros E. eapply (mod_neq k s); lia.
    - intros j Hj Hk. rewrite list_lookup_insert_ne.
      + apply H7; [done|]. intros k Hk'. apply Hk. lia.
      + rewrite H2. destruct (Nat.eqb_spec s 0); [lia|]. apply Hk. lia.
  Qed.

  Lemma writes_inv X r bx : forall s st, finv X s r st -> (forall k x, bx !! k = Some x -> X !! (s + k) = Some x) ->
    exists st', foldm (fb_write d) st bx = Some st' /\ finv X (s + length bx) r st'.
  Proof.
    induction bx as [|x bx IH]; intros s st Hf Hb; cbn [foldm length].
    - exists st. rewrite Nat.add_0_r. done.
    - destruct (write_inv X s r st x Hf) as (st' & E & Hf').
      { rewrite <- (Nat.add_0_r s). apply Hb. done. }
      destruct (IH (S s) st' Hf') as (st'' & E' & Hf'').
      { intros k y Hy. replace (S s + k) with (s + S k) by lia. apply Hb. done. }
      exists st''. split; [cbn; by rewrite E|]. replace (s + S (length bx)) with (S s + length bx) by lia. done.
  Qed.

  (** What reader [i] finds at frame [m] *)
  Lemma read_inv X s r st : finv X s r st ->
    exists v, fb_read d st i = Some (Fb (fb_buf st) (fb_wp st) (<[i := S r mod d]> (fb_rps st)), v) /\ fb_buf st !! (r mod d) = Some v /\
      finv X s (S r) (Fb (fb_buf st) (fb_wp st) (<[i := S r mod d]> (fb_rps st))).
  Proof.
    intros [H1 H2 H3 H4 H5 H6 H7]. unfold fb_read. rewrite H4. cbn [mbind option_bind].
    assert (r mod d < d) by (apply Nat.mod_upper_bound; lia). assert (S r mod d < d) by (apply Nat.mod_upper_bound; lia).
    destruct (lookup_lt_is_Some_2 (fb_buf st) (r mod d)) as [v Hv]; [lia|]. exists v. rewrite Hv. cbn [mbind option_bind].
    rewrite Nat.add_mod_idemp_l by lia. replace (r + 1) with (S r) by lia. split_and!; try done.
    split; cbn [fb_buf fb_wp fb_rps]; try done.
    - by rewrite insert_length.
    - apply list_lookup_insert. lia.
    - by apply Forall_insert.
  Qed.

  Lemma reads_inv X s bv : forall r st, finv X s r st ->
    exists st' out, fbrd_loop mul d st i bv = Some (st', out) /\ finv X s (r + length bv) st' /\
      length out = length bv /\ (forall k v, bv !! k = Some v -> exists x, fb_buf st !! ((r + k) mod d) = Some x /\ out !! k = Some (mul x v)).
  Proof.
    induction bv as [|w bv IH]; intros r st Hf; cbn [fbrd_loop length].
    - exists st, []. rewrite Nat.add_0_r. split_and!; try done.
    - destruct (read_inv X s r st Hf) as (v & E & Ev & Hf'). rewrite E. cbn [mbind option_bind].
      destruct (IH (S r) _ Hf') as (st' & out & E' & Hf'' & Hl & Ho). rewrite E'. cbn [mbind option_bind].
      eexists _, _. split_and!; [done| | |].
      + replace (r + S (length bv)) with (S r + length bv) by lia. done.
      + cbn [length]. by rewrite Hl.
      + intros [|k] w' Hw.
        * injection Hw as <-. exists v. rewrite Nat.add_0_r. done.
        * destruct (Ho k w' Hw) as (x & Hx & Hout). exists x. cbn [fb_buf] in Hx. replace (r + S k) with (S r + k) by lia. done.
  Qed.

  (** Other readers change nothing *)
  Lemma other_read X s r st j vols : finv X s r st -> j <> i -> j < readers ->
    exists st' out, fbrd_loop mul d st j vols = Some (st', out) /\ finv X s r st'.
  Proof.
    intros Hf Hj Hr. revert st Hf. induction vols as [|w vols IH]; intros st Hf; cbn [fbrd_loop]; [by exists st, []|].
    destruct Hf as [H1 H2 H3 H4 H5 H6 H7]. unfold fb_read.
    destruct (lookup_lt_is_Some_2 (fb_rps st) j) as [p Hp]; [lia|]. rewrite Hp. cbn [mbind option_bind].
    assert (p < d) by (rewrite Forall_lookup in H5; eauto).
    destruct (lookup_lt_is_Some_2 (fb_buf st) p) as [v Hv]; [lia|]. rewrite Hv. cbn [mbind option_bind].
    assert ((p + 1) mod d < d) by (apply Nat.mod_upper_bound; lia).
    edestruct (IH (Fb (fb_buf st) (fb_wp st) (<[j:=(p + 1) mod d]> (fb_rps st)))) as (st' & out & E & Hf').
    { split; cbn [fb_buf fb_wp fb_rps]; try done.
      - by rewrite insert_length.
      - by rewrite list_lookup_insert_ne.
      - by apply Forall_insert. }
    rewrite E. cbn [mbind option_bind]. eexists _, _. done.
  Qed.

  Lemma run_app ops1 ops2 : forall st,
    fb_run mul d st (ops1 ++ ops2) =
      (let* (st, o1) := fb_run mul d st ops1 in let* (st, o2) := fb_run mul d st ops2 in Some (st, o1 ++ o2)).
  Proof.
    induction ops1 as [|[xs|j vols] ops1 IH]; intros st; cbn [fb_run app mbind option_bind].
    - destruct (fb_run mul d st ops2) as [[? ?]|]; done.
    - destruct (foldm _ st xs) as [st'|]; [|done]. cbn [mbind option_bind]. apply IH.
    - destruct (fbrd_loop mul d st j vols) as [[st' out]|]; [|done]. cbn [mbind option_bind]. rewrite IH.
      destruct (fb_run mul d st' ops1) as [[st1 o1]|]; [|done]. cbn [mbind option_bind].
      destruct (fb_run mul d st1 ops2) as [[st2 o2]|]; done.
  Qed.

  Lemma output_app (o1 o2 : list (nat * list V)) : output_of i (o1 ++ o2) = output_of i o1 ++ output_of i o2.
  Proof.
    unfold output_of. rewrite filter_app, fmap_app. generalize (snd <$> filter (fun o : nat * list V => o.1 = i) o1). intros l.
    generalize ((filter (fun o : nat * list V => o.1 = i) o2).*2). intros l2.
    induction l as [|x l IH]; [done|]. change (x ++ mjoin (l ++ l2) = (x ++ mjoin l) ++ mjoin l2). by rewrite IH, app_assoc.
  Qed.

  Lemma bystanders_run X s r ops : bystanders readers i ops -> forall st, finv X s r st ->
    exists st' outs, fb_run mul d st ops = Some (st', outs) /\ finv X s r st' /\ output_of i outs = [].
  Proof.
    induction 1 as [|[xs|j vols] ops Hop _ IH]; intros st Hf; cbn [fb_run]; [by exists st, []|done|].
    destruct Hop as [Hj Hr]. destruct (other_read X s r st j vols Hf Hj Hr) as (st1 & out & -> & Hf1). cbn [mbind option_bind].
    destruct (IH st1 Hf1) as (st2 & outs & -> & Hf2 & Ho). cbn [mbind option_bind]. eexists _, _. split_and!; [done|done|].
    rewrite <- Ho. unfold output_of. rewrite filter_cons_False by done. done.
  Qed.

  (** The sample that a reader at frame [m] gets: delayed by [d], or the one of the same frame *)
  Definition heard (first : bool) (X : list V) (m : nat) (x : V) : Prop :=
    if first then (m <= d -> x = zero) /\ (d < m -> X !! (m - d) = Some x)
    else (m = 0 -> x = zero) /\ (0 < m -> X !! m = Some x).

  Lemma session_run first ops xs vols : session readers i first ops xs vols -> forall X s st, finv X s s st ->
    X = take s X ++ xs -> s <= length X ->
    exists st' outs, fb_run mul d st ops = Some (st', outs) /\ length (output_of i outs) = length vols /\
      forall k v, vols !! k = Some v -> exists x, output_of i outs !! k = Some (mul x v) /\ heard first X (s + k) x.
  Proof.
    induction 1 as [|pre mid post ops bx bv xs vols Hpre Hmid Hpost Hl Hn _ IH]; intros X s st Hf HX HsX.
    { exists st, []. done. }
    assert (forall k x, bx !! k = Some x -> X !! (s + k) = Some x) as HbX.
    { intros k x Hk. rewrite HX, lookup_app_r by (rewrite take_length; lia). rewrite take_length.
      replace (s + k - s `min` length X) with k by lia. by apply lookup_app_l_Some. }
    assert (s + length bx <= length X) as HlX.
    { rewrite HX at 1. rewrite app_length, take_length, app_length. lia. }
    assert (X = take (s + length bx) X ++ xs) as HX'.
    { rewrite HX at 2. rewrite take_app_ge by (rewrite take_length; lia). rewrite take_length.
      replace (s + length bx - s `min` length X) with (length bx) by lia. rewrite take_app. rewrite <- app_assoc. done. }
    rewrite run_app. destruct (bystanders_run X s s pre Hpre st Hf) as (st1 & o1 & -> & Hf1 & Ho1). cbn [mbind option_bind].
    destruct first.
    - rewrite run_app. cbn [fb_run]. destruct (reads_inv X s bv s st1 Hf1) as (st2 & out & -> & Hf2 & Hlo & Hout). cbn [mbind option_bind].
      rewrite run_app. destruct (bystanders_run X s (s + length bv) mid Hmid st2 Hf2) as (st3 & o3 & -> & Hf3 & Ho3). cbn [mbind option_bind fb_run].
      destruct (writes_inv X (s + length bv) bx s st3 Hf3 HbX) as (st4 & -> & Hf4). cbn [mbind option_bind].
      rewrite run_app. destruct (bystanders_run X _ _ post Hpost st4 Hf4) as (st5 & o5 & -> & Hf5 & Ho5). cbn [mbind option_bind].
      rewrite <- Hl in Hf5. destruct (IH X (s + length bx) st5 Hf5 HX' HlX) as (st6 & o6 & -> & Hl6 & Ho6). cbn [mbind option_bind].
      eexists _, _. split; [done|].
      rewrite !output_app, Ho1, Ho5. cbn [app]. rewrite app_nil_r. change ((i, out) :: o3) with ([(i, out)] ++ o3). rewrite output_app, Ho3, app_nil_r.
      assert (output_of i [(i, out)] = out) as ->.
      { unfold output_of. rewrite filter_cons_True by done. cbn. by rewrite app_nil_r. }
      split; [rewrite !app_length; lia|]. intros k v Hk.
      destruct (decide (k < length bv)) as [Hlt|Hge].
      + rewrite lookup_app_l in Hk by done. destruct (Hout k v Hk) as (x & Hx & Hok). exists x. rewrite lookup_app_l by lia. split; [done|].
        destruct Hf1 as [H1 H2 H3 H4 H5 H6 H7]. split.
        * intros Hm. rewrite H7 in Hx; [by injection Hx|apply Nat.mod_upper_bound; lia|]. intros k' Hk' E.
          destruct (decide (s + k = d)) as [e|n].
          -- rewrite e, Nat.mod_same, Nat.mod_small in E by lia. lia.
          -- rewrite !Nat.mod_small in E by lia. lia.
        * intros Hm. destruct (lookup_lt_is_Some_2 X (s + k - d)) as [y Hy]; [lia|].
          rewrite Hy. rewrite <- Hx. rewrite <- (H6 (s + k - d) y); [|lia|lia|done].
          f_equal. replace (s + k) with ((s + k - d) + 1 * d) at 2 by lia. by rewrite Nat.mod_add by lia.
      + rewrite lookup_app_r in Hk by lia. destruct (Ho6 _ v Hk) as (x & Hox & Hh). exists x. rewrite lookup_app_r by lia. rewrite Hlo. split; [done|].
        replace (s + k) with (s + length bx + (k - length bv)) by lia. done.
    - rewrite run_app. cbn [fb_run]. destruct (writes_inv X s bx s st1 Hf1 HbX) as (st2 & -> & Hf2). cbn [mbind option_bind].
      rewrite run_app. destruct (bystanders_run X _ _ mid Hmid st2 Hf2) as (st3 & o3 & -> & Hf3 & Ho3). cbn [mbind option_bind fb_run].
      destruct (reads_inv X _ bv s st3 Hf3) as (st4 & out & -> & Hf4 & Hlo & Hout). cbn [mbind option_bind].
      rewrite run_app. destruct (bystanders_run X _ _ post Hpost st4 Hf4) as (st5 & o5 & -> & Hf5 & Ho5). cbn [mbind option_bind].
      rewrite <- Hl in Hf5. destruct (IH X (s + length bx) st5 Hf5 HX' HlX) as (st6 & o6 & -> & Hl6 & Ho6). cbn [mbind option_bind].
      eexists _, _. split; [done|].
      rewrite !output_app, Ho1, Ho3, Ho5. cbn [app].
      assert (output_of i [(i, out)] = out) as ->.
      { unfold output_of. rewrite filter_cons_True by done. cbn. by rewrite app_nil_r. }
      split; [rewrite !app_length; lia|]. intros k v Hk.
      destruct (decide (k < length bv)) as [Hlt|Hge].
      + rewrite lookup_app_l in Hk by done. destruct (Hout k v Hk) as (x & Hx & Hok). exists x. rewrite lookup_app_l by lia. split; [done|].
        destruct Hf3 as [H1 H2 H3 H4 H5 H6 H7]. split.
        * intros Hm. rewrite H7 in Hx; [by injection Hx|apply Nat.mod_upper_bound; lia|]. intros k' Hk' E.
          rewrite Hm, Nat.mod_0_l, Nat.mod_small in E by lia. lia.
        * intros Hm. destruct (lookup_lt_is_Some_2 X (s + k)) as [y Hy]; [lia|].
          rewrite Hy. rewrite <- Hx. symmetry. apply H6; [lia|lia|done].
      + rewrite lookup_app_r in Hk by lia. destruct (Ho6 _ v Hk) as (x & Hox & Hh). exists x. rewrite lookup_app_r by lia. rewrite Hlo. split; [done|].
        replace (s + k) with (s + length bx + (k - length bv)) by lia. done.
  Qed.
End proof.
