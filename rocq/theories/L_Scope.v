From Verif Require Import Base M_Prog L_Conf M_Scope S_Scope.
Open Scope nat_scope.
Local Opaque Nat.modulo.

Section proof.
  Context {V : Type} (zero : V).

  Definition shaped (s : scope V) : Prop :=
    length (sc_bufs s) = 3 /\ (forall b row, sc_bufs s !! b = Some row -> length row = scope_samples) /\
    length (sc_active s) = 3 /\ length (sc_offs s) = 3.
  Definition cell (s : scope V) (b i : nat) : option (V * V) := let* row := sc_bufs s !! b in row !! i.

  Lemma put_spec s b i v : shaped s -> b < 3 -> i < scope_samples ->
    exists s', scope_put s b i v = Some s' /\ shaped s' /\
      sc_active s' = sc_active s /\ sc_offs s' = sc_offs s /\ sc_thr s' = sc_thr s /\
      forall b' i', cell s' b' i' = if decide (b' = b /\ i' = i) then Some v else cell s b' i'.
  Proof.
    intros (H1 & H2 & H3 & H4) Hb Hi. unfold scope_put.
    destruct (lookup_lt_is_Some_2 (sc_bufs s) b) as [row Hr]; [lia|]. rewrite Hr. cbn [mbind option_bind].
    pose proof (H2 b row Hr) as Hl. destruct (Nat.ltb_spec i (length row)) as [Hlt|Hge]; [|lia].
    eexists. split; [done|]. cbn. split_and!; try done.
    - split_and!; try done; cbn; [by rewrite insert_length|]. intros b' row' Hr'.
      destruct (decide (b' = b)) as [->|Hn].
      + rewrite list_lookup_insert in Hr' by lia. injection Hr' as <-. by rewrite insert_length.
      + rewrite list_lookup_insert_ne in Hr' by done. eauto.
    - intros b' i'. unfold cell. cbn. destruct (decide (b' = b)) as [->|Hn].
      + rewrite list_lookup_insert by lia. cbn. rewrite Hr. cbn. destruct (decide (i' = i)) as [->|Hn].
        * rewrite list_lookup_insert by lia. by rewrite decide_True.
        * rewrite list_lookup_insert_ne by done. rewrite decide_False by tauto. done.
      + rewrite list_lookup_insert_ne by done. rewrite decide_False by tauto. done.
  Qed.

  Lemma over_spec b v : b < 3 -> forall n i s, shaped s -> i + n <= scope_samples ->
    exists s', foldm (fun s i => scope_put s b (i mod scope_samples) (v, v)) s (seq i n) = Some s' /\ shaped s' /\
      sc_active s' = sc_active s /\ sc_offs s' = sc_offs s /\ sc_thr s' = sc_thr s /\
      forall b' i', cell s' b' i' = if decide (b' = b /\ i <= i' < i + n) then Some (v, v) else cell s b' i'.
  Proof.
    intros Hb. induction n as [|n IH]; intros i s Hs Hi; cbn [seq foldm].
    - exists s. split_and!; try done; try apply Hs. intros b' i'. by rewrite decide_False by lia.
    - rewrite Nat.mod_small by lia. destruct (put_spec s b i (v, v) Hs Hb ltac:(lia)) as (s1 & E1 & Hs1 & A1 & O1 & T1 & C1).
      rewrite E1. cbn [mbind option_bind]. destruct (IH (S i) s1 Hs1 ltac:(lia)) as (s2 & E2 & Hs2 & A2 & O2 & T2 & C2).
      exists s2. split_and!; try done; try apply Hs2; try congruence. intros b' i'. rewrite C2, C1.
      repeat case_decide; try done; lia.
  Qed.

  Lemma step_spec s o : shaped s -> exists s', scope_step s o = Some s' /\ shaped s' /\
    (forall sig p, sig < 3 -> p < scope_samples -> cell s' sig p = match stores o sig p with Some v => Some v | None => cell s sig p end) /\
    (forall sig, sig < 3 -> sc_offs s' !! sig = match o with SOffs b o g => if b mod 3 =? sig then Some (o, g) else sc_offs s !! sig | _ => sc_offs s !! sig end) /\
    (scope_get_thr s' = match o with SThr t => t | _ => scope_get_thr s end) /\
    (forall sig, sig < 3 -> sc_active s' !! sig = match o with SMask m0 m1 m2 => [m0; m1; m2] !! sig | _ => sc_active s !! sig end).
  Proof.
    intros Hs. assert (forall b, b mod 3 < 3) as Hm by (intros; apply Nat.mod_upper_bound; lia).
    assert (forall b, b mod scope_samples < scope_samples) as Hm2 by (intros; apply Nat.mod_upper_bound; unfold scope_samples; lia).
    destruct o as [b i v|b i c v|b o g|t|m0 m1 m2]; cbn [scope_step].
    - destruct (put_spec s _ _ v Hs (Hm b) (Hm2 i)) as (s1 & E1 & Hs1 & A1 & O1 & T1 & C1). exists s1. unfold scope_get_thr. rewrite T1, A1, O1.
      split_and!; try done; try apply Hs1. intros sig p Hsig Hp. rewrite C1. cbn [stores]. change 512 with scope_samples.
      destruct (Nat.eqb_spec (b mod 3) sig), (Nat.eqb_spec (i mod scope_samples) p); cbn [andb];
        [rewrite decide_True by done; done|rewrite decide_False by lia; done..].
    - unfold scope_write_over. destruct (decide (i <= scope_samples)) as [Hi|Hi].
      + destruct (over_spec _ v (Hm b) ((i + c) `min` scope_samples - i) i s Hs ltac:(lia)) as (s1 & E1 & Hs1 & A1 & O1 & T1 & C1).
        exists s1. unfold scope_get_thr. rewrite T1, A1, O1. split_and!; try done; try apply Hs1. intros sig p Hsig Hp. rewrite C1. cbn [stores].
        destruct (Nat.eqb_spec (b mod 3) sig), (Nat.leb_spec i p), (Nat.ltb_spec p (i + c)); cbn [andb];
          [rewrite decide_True by lia; done|rewrite decide_False by lia; done..].
      + replace ((i + c) `min` scope_samples - i) with 0 by lia. cbn [seq foldm]. exists s. split_and!; try done; try apply Hs.
        intros sig p Hsig Hp. cbn [stores]. destruct (Nat.leb_spec i p); [lia|]. by rewrite andb_false_r.
    - unfold scope_set_offs. destruct Hs as (H1 & H2 & H3 & H4). destruct (Nat.ltb_spec (b mod 3) (length (sc_offs s))) as [Hl|Hl]; [|specialize (Hm b); lia].
      eexists. split; [done|]. split_and!; cbn; try done.
      + split_and!; cbn; try done. by rewrite insert_length.
      + intros sig Hsig. destruct (Nat.eqb_spec (b mod 3) sig) as [<-|Hn]; [by rewrite list_lookup_insert by lia|by rewrite list_lookup_insert_ne].
    - destruct Hs as (H1 & H2 & H3 & H4). eexists. split; [done|]. split_and!; cbn; try done. unfold scope_get_thr, scope_set_thr. cbn. destruct t; done.
    - destruct Hs as (H1 & H2 & H3 & H4). eexists. split; [done|]. split_and!; cbn; try done.
  Qed.

  Lemma new_shaped : shaped (scope_new zero).
  Proof.
    unfold shaped, scope_new. cbn [sc_bufs sc_active sc_offs]. split_and!; try by rewrite replicate_length.
    intros b row Hb. apply lookup_replicate in Hb as [-> _]. by rewrite replicate_length.
  Qed.

  Lemma last_cons_default {A} (x d : A) l : default d (last (x :: l)) = default x (last l).
  Proof. revert x d. induction l as [|y l IH]; intros x d; [done|]. change (last (x :: y :: l)) with (last (y :: l)). by rewrite (IH y d), (IH y x). Qed.

  Lemma run_spec ops : forall s, shaped s -> exists s', foldm scope_step s ops = Some s' /\ shaped s' /\
    (forall sig p d, sig < 3 -> p < scope_samples -> cell s sig p = Some d ->
       cell s' sig p = Some (default d (last (omap (fun o => stores o sig p) ops)))) /\
    (forall sig d, sig < 3 -> sc_offs s !! sig = Some d ->
       sc_offs s' !! sig = Some (default d (last (omap (fun o => match o with SOffs b o g => if b mod 3 =? sig then Some (o, g) else None | _ => None end) ops)))) /\
    (scope_get_thr s' = default (scope_get_thr s) (last (omap (fun o => match o with SThr t => Some t | _ => None end) ops))) /\
    (forall sig d, sig < 3 -> sc_active s !! sig = Some d ->
       sc_active s' !! sig = Some (default d (last (omap (fun o => match o with SMask m0 m1 m2 => [m0; m1; m2] !! sig | _ => None end) ops)))).
  Proof.
    induction ops as [|o ops IH]; intros s Hs; cbn [foldm].
    - exists s. split_and!; try done; apply Hs.
    - destruct (step_spec s o Hs) as (s1 & E1 & Hs1 & C1 & O1 & T1 & A1). rewrite E1. cbn [mbind option_bind].
      destruct (IH s1 Hs1) as (s2 & E2 & Hs2 & C2 & O2 & T2 & A2). exists s2. split_and!; try done; try apply Hs2.
      + intros sig p d Hsig Hp Hd. specialize (C1 sig p Hsig Hp). cbn [omap list_omap].
        destruct (stores o sig p) as [v|] eqn:Ev; cbn [option_bind mbind]; [|rewrite Hd in C1; by apply C2].
        rewrite (C2 sig p v Hsig Hp C1). by rewrite <- (last_cons_default v d).
      + intros sig d Hsig Hd. specialize (O1 sig Hsig). cbn [omap list_omap].
        destruct o as [| |b o g| |]; try (rewrite Hd in O1; by apply O2). destruct (b mod 3 =? sig); [|rewrite Hd in O1; by apply O2].
        rewrite (O2 sig _ Hsig O1). by rewrite <- (last_cons_default (o, g) d).
      + rewrite T2, T1. cbn [omap list_omap]. destruct o; try done. by rewrite <- (last_cons_default t (scope_get_thr s)).
      + intros sig d Hsig Hd. specialize (A1 sig Hsig). cbn [omap list_omap].
        destruct o as [| | | |m0 m1 m2]; try (rewrite Hd in A1; by apply A2).
        destruct (lookup_lt_is_Some_2 [m0; m1; m2] sig) as [b Hb]; [cbn; lia|]. rewrite Hb in A1 |- *.
        rewrite (A2 sig _ Hsig A1). by rewrite <- (last_cons_default b d).
  Qed.
End proof.
