(** C71: the Code node runs the program that was accepted last on every frame. *)
From Verif Require Import Base M_CodeN S_CodeN.
Open Scope list_scope.
Open Scope nat_scope.
Set Default Goal Selector "!".

Section proofs.
  Context {F C : Type} (zero : F) (X : engine F C).

  Fixpoint outs_of (e : en_state X) (xs : list (frame_in F)) : list (frame_out F) :=
    match xs with [] => [] | x :: xs => gives X e x :: outs_of (act X e (Frame x)) xs end.

  Lemma outs_of_length e xs : length (outs_of e xs) = length xs.
  Proof. revert e. induction xs as [|x xs IH]; intros e; cbn; [done|]. by rewrite IH. Qed.
  Lemma outs_of_answers e xs : answers X e xs (outs_of e xs).
  Proof.
    split; [apply outs_of_length|]. revert e. induction xs as [|x xs IH]; intros e i x' Hi; [done|].
    destruct i as [|i]; cbn in Hi |- *; [by simplify_eq|]. by rewrite (IH _ i x').
  Qed.
  Lemma answers_outs_of e xs ys : answers X e xs ys -> ys = outs_of e xs.
  Proof.
    intros [Hl H]. apply list_eq. intros i. destruct (xs !! i) as [x|] eqn:E.
    - rewrite (H _ _ E). symmetry. by apply (proj2 (outs_of_answers e xs)).
    - apply lookup_ge_None in E. rewrite !lookup_ge_None_2; [done| |]; rewrite ?outs_of_length; lia.
  Qed.
  Lemma outs_of_app e xs xs' : outs_of e (xs ++ xs') = outs_of e xs ++ outs_of (after X e (Frame <$> xs)) xs'.
  Proof. revert e. induction xs as [|x xs IH]; intros e; cbn; [done|]. by rewrite IH. Qed.

  Definition led_of (led : F * F) (ys : list (frame_out F)) : F * F := from_option (fun y => (y.1.1, y.1.2)) led (last ys).

  (** writing the next frame behind those that were written *)
  Lemma cn_write_next (pre buf : list F) n v : length pre = n -> n < length buf ->
    cn_write (pre ++ drop n buf) n v = Some ((pre ++ [v]) ++ drop (S n) buf).
  Proof.
    intros <- Hn. unfold cn_write. rewrite app_length, drop_length.
    destruct (Nat.ltb_spec (length pre) (length pre + (length buf - length pre))); [|lia]. f_equal.
    destruct (lookup_lt_is_Some_2 buf (length pre) Hn) as [x Hx].
    rewrite (drop_S _ _ _ Hx). rewrite insert_app_r_alt by lia. rewrite Nat.sub_diag. cbn. by rewrite <- app_assoc.
  Qed.

  Lemma code_frames_spec in1 in2 a b d g sig sig1 sig2 xs : forall n pre e led,
    length pre = n ->
    (forall i x1 x2 xa xb xd xg, xs !! i = Some (x1, x2, xa, xb, xd, xg) ->
      in1 !! (n + i) = Some x1 /\ in2 !! (n + i) = Some x2 /\ a !! (n + i) = Some xa /\ b !! (n + i) = Some xb /\ d !! (n + i) = Some xd /\ g !! (n + i) = Some xg) ->
    n + length xs <= length sig -> n + length xs <= length sig1 -> n + length xs <= length sig2 ->
    code_frames X (length xs) n e in1 in2 a b d g
      (((fun y : frame_out F => y.1.1) <$> pre) ++ drop n sig) (((fun y : frame_out F => y.1.2) <$> pre) ++ drop n sig1) (((fun y : frame_out F => y.2) <$> pre) ++ drop n sig2) led =
    let ys := pre ++ outs_of e xs in
    Some (after X e (Frame <$> xs),
      (((fun y => y.1.1) <$> ys) ++ drop (n + length xs) sig, ((fun y => y.1.2) <$> ys) ++ drop (n + length xs) sig1, ((fun y => y.2) <$> ys) ++ drop (n + length xs) sig2),
      led_of led (outs_of e xs)).
  Proof.
    induction xs as [|x xs IH]; intros n pre e led Hn Hin H0 H1 H2; cbn [length] in *.
    { cbn. by rewrite app_nil_r, Nat.add_0_r. }
    destruct x as [[[[[x1 x2] xa] xb] xd] xg].
    destruct (Hin 0 x1 x2 xa xb xd xg eq_refl) as (E1 & E2 & E3 & E4 & E5 & E6). rewrite Nat.add_0_r in *.
    cbn [code_frames]. rewrite E1, E2, E3, E4, E5, E6. cbn [mbind option_bind].
    destruct (en_frame X e x1 x2 xa xb xd xg) as [e' [[s1 s2] ret]] eqn:Ef.
    rewrite !cn_write_next by (rewrite ?fmap_length; lia). cbn [mbind option_bind].
    specialize (IH (S n) (pre ++ [(ret, s1, s2)]) e' (ret, s1)). rewrite !fmap_app in IH. cbn [fmap list_fmap fst snd] in IH.
    rewrite IH; [|rewrite app_length; cbn; lia| |lia..].
    2: { intros i y1 y2 ya yb yd yg Hy. replace (S n + i) with (n + S i) by lia. by apply Hin. }
    cbn [outs_of gives act fmap list_fmap after foldl]. rewrite Ef. cbn [fst snd]. rewrite <- app_assoc. cbn [app].
    replace (n + S (length xs)) with (S n + length xs) by lia. cbn zeta.
    assert (Hled : led_of led ((ret, s1, s2) :: outs_of e' xs) = led_of (ret, s1) (outs_of e' xs)).
    { unfold led_of. destruct (outs_of e' xs) as [|y ys]; [done|]. rewrite last_cons. destruct (last (y :: ys)) eqn:El; [done|]. by apply last_None in El. }
    rewrite !fmap_app, <- !app_assoc. cbn [fmap list_fmap app fst snd]. unfold frame_out in *. by rewrite Hled.
  Qed.

  Lemma foldl_take e (q : list C) : foldl (en_take X) e q = after X e (Take <$> q).
  Proof. revert e. induction q as [|p q IH]; intros e; cbn; [done|]. apply IH. Qed.
  Lemma after_app e l l' : after X e (l ++ l') = after X (after X e l) l'.
  Proof. apply foldl_app. Qed.

  Lemma process_spec q e outs leds ins xs : signals ins xs -> room outs (length xs) ->
    exists outs', written outs (outs_of (after X e (Take <$> q)) xs) outs' /\
      cnode_process zero X (CNode (Some (q, e))) (length xs) ins outs leds =
        Some (CNode (Some ([], after X e ((Take <$> q) ++ (Frame <$> xs)))), outs', led_of (zero, zero) (outs_of (after X e (Take <$> q)) xs)).
  Proof.
    intros (in1 & in2 & a & b & d & g & -> & Hin) [Hl Hr].
    destruct outs as [|sig [|sig1 [|sig2 [|]]]]; try done. apply Forall_cons in Hr as [R0 Hr]. apply Forall_cons in Hr as [R1 Hr]. apply Forall_cons in Hr as [R2 _].
    eexists. split; [by eexists _, _, _|]. unfold cnode_process. cbn [cn_backend]. rewrite foldl_take, after_app.
    pose proof (code_frames_spec in1 in2 a b d g sig sig1 sig2 xs 0 [] (after X e (Take <$> q)) (zero, zero) eq_refl Hin R0 R1 R2) as E.
    cbn [fmap list_fmap app Nat.add] in E. rewrite !drop_0 in E. rewrite E. cbn [mbind option_bind]. by rewrite outs_of_length.
  Qed.
  Lemma written_room {outs : list (list F)} {ys outs'} n : room outs (length ys) -> written outs ys outs' -> room outs n -> room outs' n.
  Proof.
    intros [_ H] (sig & sig1 & sig2 & -> & ->) [_ H']. split; [done|].
    apply Forall_cons in H as [? H]. apply Forall_cons in H as [? H]. apply Forall_cons in H as [? _].
    apply Forall_cons in H' as [? H']. apply Forall_cons in H' as [? H']. apply Forall_cons in H' as [? _].
    do 3 (apply Forall_cons; split; [rewrite app_length, drop_length, fmap_length; unfold frame_out in *; lia|]). constructor.
  Qed.

  Lemma run_spec evs : forall q l q' e outs leds, goes_through q evs l q' -> (forall n ins, EBlock n ins ∈ evs -> room outs n) ->
    exists outs' leds', cnode_run zero X (CNode (Some (q, e)), outs, leds) evs = Some (CNode (Some (q', after X e l)), outs', leds') /\
      forall n, room outs n -> room outs' n.
  Proof.
    induction evs as [|ev evs IH]; intros q l q' e outs leds H Hr.
    { inversion H; subst. by eexists _, _. }
    inversion H; subst; cbn [cnode_run cnode_step mbind option_bind cnode_send cnode_rate cnode_reset cn_backend].
    { eapply IH; [done|]. intros n ins' Hb. eapply Hr. by right. }
    { change (after X e (Rate r :: l0)) with (after X (en_rate X e r) l0). eapply IH; [done|]. intros n ins' Hb. eapply Hr. by right. }
    { change (after X e (Clear :: l0)) with (after X (en_clear X e) l0). eapply IH; [done|]. intros n ins' Hb. eapply Hr. by right. }
    destruct (process_spec q e outs leds ins xs) as (outs' & Hw & E); [done|eapply Hr; left|].
    rewrite E. cbn [mbind option_bind].
    assert (Hroom : forall n, room outs n -> room outs' n).
    { intros n. eapply written_room; [|done]. rewrite outs_of_length. eapply Hr. left. }
    edestruct (IH [] l0 q' (after X e ((Take <$> q) ++ (Frame <$> xs))) outs') as (o & le & E' & Ho); [done| |].
    { intros n ins' Hb. apply Hroom. eapply Hr. by right. }
    exists o, le. rewrite E', app_assoc, (after_app _ _ l0). split; [done|]. intros n Hn. by apply Ho, Hroom.
  Qed.
End proofs.

(** ** C71: after any history, the outputs of a block are the answers of the engine to its frames, in the state that it has after the earlier frames, and
    with all programs taken that were sent before the block. The LEDs show the return value and the first signal of the last frame. *)
Theorem C71_runs {F C} (zero : F) (X : engine F C) e evs l q outs leds ins xs :
  goes_through [] evs l q -> signals ins xs -> (forall n ins', EBlock n ins' ∈ evs ++ [EBlock (length xs) ins] -> room outs n) ->
  exists ys old new leds', cnode_run zero X (cnode_new X e, outs, leds) (evs ++ [EBlock (length xs) ins]) =
      Some (CNode (Some ([], after X e (l ++ (Take <$> q) ++ (Frame <$> xs)))), new, leds') /\
    (exists c leds1, cnode_run zero X (cnode_new X e, outs, leds) evs = Some (c, old, leds1)) /\
    answers X (after X e (l ++ (Take <$> q))) xs ys /\ written old ys new /\
    leds' = from_option (fun y => (y.1.1, y.1.2)) (zero, zero) (last ys).
Proof.
  intros H Hs Hr. destruct (run_spec zero X evs [] l q e outs leds H) as (old & le & E & Hroom); [intros; eapply Hr, elem_of_app; by left|].
  destruct (process_spec zero X q (after X e l) old le ins xs) as (new & Hw & E'); [done| |].
  { apply Hroom. eapply Hr, elem_of_app. right. by left. }
  exists (outs_of X (after X (after X e l) (Take <$> q)) xs), old, new. eexists. split_and!.
  - assert (Happ : forall s s', cnode_run zero X s evs = Some s' -> cnode_run zero X s (evs ++ [EBlock (length xs) ins]) = cnode_step zero X s' (EBlock (length xs) ins)).
    { clear. induction evs as [|ev evs IH]; intros s s'; cbn [app cnode_run].
      - intros [= ->]. by destruct (cnode_step _ _ _ _).
      - destruct (cnode_step zero X s ev) as [s1|]; [|done]. cbn [mbind option_bind]. apply IH. }
    unfold cnode_new in *. rewrite (Happ _ _ E). cbn [cnode_step]. rewrite E'. rewrite !after_app. done.
  - by eexists _, _.
  - rewrite <- after_app. apply outs_of_answers.
  - done.
  - done.
Qed.
Print Assumptions C71_runs.

(** No program is lost, taken twice or overtaken: what was taken and what still waits is what was sent. *)
Theorem C71_taken {F C} q evs l q' : goes_through (F := F) (C := C) q evs l q' ->
  q ++ omap (fun ev => match ev with ESend p => Some p | _ => None end) evs = omap (fun a => match a with Take p => Some p | _ => None end) l ++ q'.
Proof.
  induction 1 as [q|q p evs l q' _ IH|q r evs l q' _ IH|q evs l q' _ IH|q ins xs evs l q' _ _ IH]; cbn [omap list_omap app].
  - by rewrite app_nil_r.
  - by rewrite <- IH, <- app_assoc.
  - done.
  - done.
  - cbn [app] in IH. rewrite IH, !omap_app, <- app_assoc.
    assert (Hf : omap (fun a : action (F := F) (C := C) => match a with Take p => Some p | _ => None end) (Frame <$> xs) = []) by (clear; by induction xs).
    assert (Ht : omap (fun a : action (F := F) (C := C) => match a with Take p => Some p | _ => None end) (Take <$> q) = q) by (clear; induction q as [|p q IH]; cbn in *; congruence).
    rewrite Hf, Ht. by rewrite <- !app_assoc.
Qed.
Print Assumptions C71_taken.

(** Without programs in between, the length of the blocks does not matter: a block can be cut in two at any frame. *)
Theorem C71_cut {F C} (zero : F) (X : engine F C) q e outs leds ins xs xs' :
  signals ins (xs ++ xs') -> room outs (length (xs ++ xs')) ->
  exists c1 c' whole first rest leds1 leds2 leds3,
    cnode_process zero X (CNode (Some (q, e))) (length (xs ++ xs')) ins outs leds = Some (c', whole, leds1) /\
    cnode_process zero X (CNode (Some (q, e))) (length xs) ins outs leds = Some (c1, first, leds2) /\
    cnode_process zero X c1 (length xs') (drop (length xs) <$> ins) outs leds2 = Some (c', rest, leds3) /\
    (forall k b b1 b2, whole !! k = Some b -> first !! k = Some b1 -> rest !! k = Some b2 ->
      take (length (xs ++ xs')) b = take (length xs) b1 ++ take (length xs') b2) /\
    (xs' <> [] -> leds3 = leds1).
Proof.
  intros Hs Hr.
  destruct (process_spec zero X q e outs leds ins (xs ++ xs')) as (whole & Hw & E); [done..|].
  destruct (process_spec zero X q e outs leds ins xs) as (first & Hw1 & E1).
  { destruct Hs as (in1 & in2 & a & b & d & g & -> & Hin). eexists _, _, _, _, _, _. split; [done|]. intros i * Hi. apply Hin. by apply lookup_app_l_Some. }
  { destruct Hr as [Hl Hr]. split; [done|]. eapply Forall_impl; [done|]. intros b. cbn. rewrite app_length. lia. }
  set (e1 := after X e ((Take <$> q) ++ (Frame <$> xs))) in *.
  destruct (process_spec zero X [] e1 outs (led_of (zero, zero) (outs_of X (after X e (Take <$> q)) xs)) (drop (length xs) <$> ins) xs') as (rest & Hw2 & E2).
  { destruct Hs as (in1 & in2 & a & b & d & g & -> & Hin). eexists _, _, _, _, _, _. split; [done|]. intros i * Hi. rewrite !lookup_drop. apply Hin.
    unfold frame_in in *. rewrite lookup_app_r by lia. by replace (length xs + i - length xs) with i by lia. }
  { destruct Hr as [Hl Hr]. split; [done|]. eapply Forall_impl; [done|]. intros b. cbn. rewrite app_length. lia. }
  cbn [fmap list_fmap app] in E2, Hw2.
  assert (He : outs_of X (after X e (Take <$> q)) (xs ++ xs') = outs_of X (after X e (Take <$> q)) xs ++ outs_of X e1 xs').
  { rewrite outs_of_app. unfold e1. by rewrite after_app. }
  eexists _, _, whole, first, rest, _, _, _. split; [|split; [exact E1|split; [exact E2|]]].
  { rewrite E. do 4 f_equal. unfold e1. by rewrite fmap_app, app_assoc, (after_app _ _ _ (Frame <$> xs')). }
  change (after X e1 []) with e1 in *. split.
  - destruct Hw as (sig & sig1 & sig2 & -> & ->), Hw1 as (s & s1 & s2 & [= <- <- <-] & ->), Hw2 as (t & t1 & t2 & [= <- <- <-] & ->).
    rewrite He, !fmap_app.
    set (u := outs_of X (after X e (Take <$> q)) xs) in *. set (w := outs_of X e1 xs') in *.
    assert (Hu : length u = length xs) by apply outs_of_length. assert (Hv : length w = length xs') by apply outs_of_length.
    assert (Hcut : forall (p : frame_out F -> F) z z1 z2, take (length (xs ++ xs')) (((p <$> u) ++ (p <$> w)) ++ z) = take (length xs) ((p <$> u) ++ z1) ++ take (length xs') ((p <$> w) ++ z2)).
    { intros. rewrite (take_app_alt ((p <$> u) ++ (p <$> w))) by (rewrite !app_length, !fmap_length, Hu, Hv; done).
      rewrite !take_app_alt by (rewrite fmap_length; done). done. }
    intros [|[|[|k]]] b b1 b2; cbn [lookup list_lookup]; [intros [= <-] [= <-] [= <-]; apply Hcut..|done].
  - intros Hne. rewrite He. unfold led_of. rewrite last_app.
    destruct (last (outs_of X e1 xs')) eqn:El; [done|]. apply last_None in El. apply (f_equal length) in El. rewrite outs_of_length in El. by destruct xs'.
Qed.
Print Assumptions C71_cut.

(** A copy of a node is not connected: it leaves its outputs and LEDs as they are. *)
Theorem C71_copy {F C} (zero : F) (X : engine F C) c n ins outs leds : length ins = 6 -> length outs = 3 ->
  cnode_process zero X (cnode_clone X c) n ins outs leds = Some (cnode_clone X c, outs, leds).
Proof.
  intros Hi Ho. destruct ins as [|? [|? [|? [|? [|? [|? [|]]]]]]]; try done. destruct outs as [|? [|? [|? [|]]]]; done.
Qed.
Print Assumptions C71_copy.

(** An engine whose program is a factor: sig is the number of the frame since the last reset, sig1 and sig2 are the weighted inputs. *)
Definition demo_engine : engine Z Z := Engine (Z * Z) (fun e p => (p, e.2)) (fun e => (e.1, 0%Z)) (fun e _ => e)
  (fun e x1 x2 a b d g => ((e.1, e.2 + 1)%Z, (e.1 * x1 + a + b, e.1 * x2 + d + g, e.2)%Z)).
Definition demo_ins : list (list Z) := [[1; 2; 3; 4]; [5; 6; 7; 8]; [10; 10; 10; 10]; [0; 0; 0; 1]; [20; 20; 20; 20]; [0; 0; 0; 2]]%Z.
Definition demo_xs : list (frame_in Z) := [(1, 5, 10, 0, 20, 0); (2, 6, 10, 0, 20, 0); (3, 7, 10, 0, 20, 0); (4, 8, 10, 1, 20, 2)]%Z.
Definition demo_outs : list (list Z) := replicate 3 [-1; -1; -1; -1; -1]%Z.
Definition demo_evs : list (cevent (F := Z) (C := Z)) := [ESend 2%Z; EBlock 2 demo_ins; ESend 3%Z; EReset; ESend 4%Z].
Lemma demo_signals n : signals demo_ins (take n demo_xs).
Proof.
  eexists _, _, _, _, _, _. split; [reflexivity|]. intros i x1 x2 xa xb xd xg Hi.
  assert (Hi' : demo_xs !! i = Some (x1, x2, xa, xb, xd, xg)). { apply lookup_take_Some in Hi as [Hi _]. done. }
  destruct i as [|[|[|[|i]]]]; cbn in Hi'; simplify_eq/=; done.
Qed.
Example C71_case_history : goes_through [] demo_evs ((Take <$> [2%Z]) ++ (Frame <$> take 2 demo_xs) ++ [Clear]) [3; 4]%Z.
Proof. apply gt_send. apply (gt_block [2%Z] demo_ins (take 2 demo_xs)); [apply demo_signals|]. repeat constructor. Qed.
Example C71_case_room : forall n ins', EBlock n ins' ∈ demo_evs ++ [EBlock (length demo_xs) demo_ins] -> room demo_outs n.
Proof. intros n ins' H. unfold demo_evs in H. cbn in H. set_unfold. destruct_or!; try done; injection H as -> _; (split; [done|]); repeat constructor. Qed.
Example C71_case_run : cnode_run 0%Z demo_engine (cnode_new demo_engine (0, 0)%Z, demo_outs, (9, 9)%Z) (demo_evs ++ [EBlock 4 demo_ins]) =
  Some (CNode (X := demo_engine) (Some ([], (4, 4)%Z)), [[0; 1; 2; 3; -1]; [14; 18; 22; 27; -1]; [40; 44; 48; 54; -1]]%Z, (3, 27)%Z).
Proof. vm_compute. reflexivity. Qed.
