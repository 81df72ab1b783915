(** The frontend and the nodes share the scopes and patterns of an instance (C73) *)
From Verif Require Import Base M_Prog M_Scope M_Track M_Global S_Global.
Open Scope nat_scope.

Section table.
  Context {O : Type} (new : O).

  (** the map gives different objects to different instances *)
  Definition tab_inv (t : gtab O) : Prop :=
    (forall i h, gt_ids t !! i = Some h -> h < length (gt_objs t)) /\
    (forall i j h, gt_ids t !! i = Some h -> gt_ids t !! j = Some h -> i = j).

  Lemma tab_get_inv t i t' h : tab_inv t -> tab_get new t i = (t', h) ->
    tab_inv t' /\ gt_ids t' !! i = Some h /\ (forall j h', gt_ids t !! j = Some h' -> gt_ids t' !! j = Some h' /\ gt_objs t' !! h' = gt_objs t !! h') /\
    (forall j h', gt_ids t' !! j = Some h' -> gt_ids t !! j = Some h' \/ gt_ids t !! j = None /\ j = i /\ gt_objs t' !! h' = Some new).
  Proof.
    intros [H1 H2] E. unfold tab_get in E. destruct (gt_ids t !! i) as [h0|] eqn:Ei; injection E as <- <-.
    - split_and!; [done|done|done|]. intros j h' Hj. by left.
    - split_and!; cbn.
      + split; cbn.
        * intros j h' Hj. rewrite app_length. cbn. destruct (decide (j = i)) as [->|Hn].
          -- rewrite lookup_insert in Hj. injection Hj as <-. lia.
          -- rewrite lookup_insert_ne in Hj by done. apply H1 in Hj. lia.
        * intros j k h' Hj Hk. destruct (decide (j = i)) as [->|Hn], (decide (k = i)) as [->|Hm]; [done| | |].
          -- rewrite lookup_insert in Hj. rewrite lookup_insert_ne in Hk by done. injection Hj as <-. apply H1 in Hk. lia.
          -- rewrite lookup_insert in Hk. rewrite lookup_insert_ne in Hj by done. injection Hk as <-. apply H1 in Hj. lia.
          -- rewrite lookup_insert_ne in Hj, Hk by done. by eapply H2.
      + apply lookup_insert.
      + intros j h' Hj. split; [rewrite lookup_insert_ne; [done|congruence]|]. apply lookup_app_l. by eapply H1.
      + intros j h' Hj. destruct (decide (j = i)) as [->|Hn].
        * rewrite lookup_insert in Hj. injection Hj as <-. right. split_and!; [done|done|]. by rewrite lookup_app_r, Nat.sub_diag by lia.
        * rewrite lookup_insert_ne in Hj by done. by left.
  Qed.
  Lemma tab_call_inv f t i h t' : tab_inv t -> gt_ids t !! i = Some h -> tab_call f t h = Some t' ->
    tab_inv t' /\ gt_ids t' = gt_ids t /\
    (exists o o', gt_objs t !! h = Some o /\ f o = Some o' /\ gt_objs t' !! h = Some o') /\
    (forall j h', j <> i -> gt_ids t !! j = Some h' -> gt_objs t' !! h' = gt_objs t !! h').
  Proof.
    intros [H1 H2] Hi E. unfold tab_call in E. apply bind_Some in E as (o & Eo & E). apply bind_Some in E as (o' & Ef & [= <-]).
    split_and!; cbn.
    - split; cbn; [|done]. intros j h' Hj. rewrite insert_length. by eapply H1.
    - done.
    - exists o, o'. split_and!; [done|done|]. apply list_lookup_insert. by eapply H1.
    - intros j h' Hn Hj. apply list_lookup_insert_ne. intros ->. apply Hn. by eapply H2.
  Qed.
End table.

Section global.
  Context {V : Type} (zero : V) (val note gate : Z -> V) (lerp : V -> V -> nat -> nat -> V).
  Local Notation gstep := (global_step zero val note gate lerp).
  Local Notation tstep := (track_step zero val note gate lerp).

  Definition scope_inv (g : gdata) (insts : list nat) (f : nat -> list (scop V)) : Prop :=
    tab_inv (gd_scopes g) /\ Forall2 (fun h i => gt_ids (gd_scopes g) !! i = Some h) (gd_sh g) insts /\
    (forall i h, gt_ids (gd_scopes g) !! i = Some h ->
      exists s, gt_objs (gd_scopes g) !! h = Some s /\ foldm scope_step (scope_new zero) (f i) = Some s) /\
    (forall i, gt_ids (gd_scopes g) !! i = None -> f i = []).

  Lemma foldm_snoc {A B} (st : A -> B -> option A) x l y z w : foldm st x l = Some y -> st y z = Some w -> foldm st x (l ++ [z]) = Some w.
  Proof.
    revert x. induction l as [|a l IH]; intros x E1 E2; cbn in *.
    - injection E1 as ->. by rewrite E2.
    - apply bind_Some in E1 as (x' & Ex & E1). rewrite Ex. cbn. by apply IH.
  Qed.

  Lemma scope_run_inv rest os : forall g pre f g', scope_inv g pre f -> foldm gstep g os = Some g' -> rest = pre ++ scope_insts os ->
    scope_inv g' rest (fun i => f i ++ scope_calls rest i os).
  Proof.
    induction os as [|o os IH]; intros g pre f g' Hi E Er.
    - injection E as <-. cbn in Er. rewrite app_nil_r in Er. subst pre. destruct Hi as (H1 & H2 & H3 & H4).
      split_and!; [done|done| |].
      + intros i h Hh. cbn. rewrite app_nil_r. by apply H3.
      + intros i Hn. cbn. rewrite app_nil_r. by apply H4.
    - cbn [foldm] in E. apply bind_Some in E as (g1 & E1 & E).
      assert (Hsame : scope_insts (o :: os) = scope_insts os -> (forall i, scope_calls rest i (o :: os) = scope_calls rest i os) ->
        gd_scopes g1 = gd_scopes g -> gd_sh g1 = gd_sh g -> scope_inv g' rest (fun i => f i ++ scope_calls rest i (o :: os))).
      { intros S1 S2 S3 S4. assert (Hi1 : scope_inv g1 pre f) by (unfold scope_inv in *; rewrite S3, S4; done).
        pose proof (IH g1 pre f g' Hi1 E ltac:(by rewrite <- S1)) as (H1 & H2 & H3 & H4). split_and!; [done|done| |].
        - intros i h Hh. rewrite S2. by apply H3.
        - intros i Hn. rewrite S2. by apply H4. }
      destruct Hi as (H1 & H2 & H3 & H4). destruct o as [i|k c|i|k e|i|i|i]; cbn [global_step] in E1.
      + destruct (tab_get (scope_new zero) (gd_scopes g) i) as [t h] eqn:Eg. injection E1 as <-.
        destruct (tab_get_inv _ _ _ _ _ H1 Eg) as (T1 & T2 & T3 & T4).
        refine (IH _ (pre ++ [i]) f g' _ E _).
        * split_and!; cbn; [done| | |].
          -- apply Forall2_app; [|by repeat constructor]. eapply Forall2_impl; [exact H2|]. intros h' j Hj. by apply T3.
          -- intros j h' Hj. destruct (T4 _ _ Hj) as [Ho|(Hn & -> & Ho)].
             ++ destruct (H3 _ _ Ho) as (s & Hs & Hf). exists s. split; [|done]. rewrite <- Hs. apply (T3 j). done.
             ++ exists (scope_new zero). split; [done|]. by rewrite (H4 _ Hn).
          -- intros j Hn. apply H4. destruct (gt_ids (gd_scopes g) !! j) as [h'|] eqn:Ej; [|done]. apply T3 in Ej as [Ej _]. congruence.
        * rewrite Er. unfold scope_insts. cbn. by rewrite <- app_assoc.
      + apply bind_Some in E1 as (h & Eh & E1). apply bind_Some in E1 as (t & Et & [= <-]).
        destruct (Forall2_lookup_l _ _ _ _ _ H2 Eh) as (i & Ei & Hi).
        assert (Hk : rest !! k = Some i) by (rewrite Er; by apply lookup_app_l_Some).
        destruct (tab_call_inv _ _ _ _ _ H1 Hi Et) as (T1 & T2 & (s & s' & T3 & T4 & T5) & T6).
        assert (Hinv : scope_inv (GData t (gd_sh g) (gd_tracks g) (gd_ph g)) pre (fun j => f j ++ if decide (j = i) then [c] else [])).
        { split_and!; cbn; [done|by rewrite T2| |].
          - intros j h' Hj. rewrite T2 in Hj. destruct (H3 _ _ Hj) as (s0 & Hs & Hf). destruct (decide (j = i)) as [->|Hn].
            + assert (h' = h) as -> by congruence. exists s'. split; [done|]. eapply foldm_snoc; [exact Hf|]. congruence.
            + exists s0. rewrite app_nil_r. split; [|done]. by rewrite (T6 j).
          - intros j Hn. rewrite T2 in Hn. rewrite decide_False; [|congruence]. by rewrite (H4 _ Hn). }
        pose proof (IH _ _ _ _ Hinv E Er) as (G1 & G2 & G3 & G4).
        assert (Hc : forall j, (f j ++ if decide (j = i) then [c] else []) ++ scope_calls rest j os = f j ++ scope_calls rest j (GScopeDo k c :: os)).
        { intros j. cbn beta. rewrite <- app_assoc. f_equal. unfold scope_calls at 2. cbn [omap list_omap]. rewrite Hk.
          destruct (decide (j = i)) as [->|Hn]; [by rewrite bool_decide_true|]. rewrite bool_decide_false by congruence. done. }
        split_and!; [done|done| |].
        * intros j h' Hj. destruct (G3 _ _ Hj) as (s0 & Hs & Hf). exists s0. by rewrite <- Hc.
        * intros j Hn. rewrite <- Hc. by apply G4.
      + destruct (tab_get _ _ _) as [t h]. injection E1 as <-. by apply Hsame.
      + apply bind_Some in E1 as (h & Eh & E1). apply bind_Some in E1 as (t & Et & [= <-]). by apply Hsame.
      + destruct (_ !! i) as [h|]; [apply bind_Some in E1 as (t & Et & [= <-])|injection E1 as <-]; by apply Hsame.
      + destruct (tab_get _ _ _) as [t h]. apply bind_Some in E1 as (t1 & Et & [= <-]). by apply Hsame.
      + apply bind_Some in E1 as (h & Eh & E1). apply bind_Some in E1 as (tb & Etb & E1). destruct (tb.2); [|done].
        apply bind_Some in E1 as (t & Et & [= <-]). by apply Hsame.
  Qed.
End global.

(** All handles of a scope show the same: what was written by any of them, and by no handle of another scope *)
Theorem C73_scopes V (zero : V) val note gate lerp os g k i :
  global_run zero val note gate lerp os = Some g -> scope_insts os !! k = Some i ->
  exists s, scope_behind g k = Some s /\ scope_run zero (scope_calls (scope_insts os) i os) = Some s.
Proof.
  intros E Hk. assert (H0 : scope_inv zero (gdata_new (V := V)) [] (fun _ => [])).
  { split_and!; cbn; [split; cbn; intros; by rewrite lookup_empty in *|constructor| |done]. intros i' h Hh. by rewrite lookup_empty in Hh. }
  destruct (scope_run_inv zero val note gate lerp (scope_insts os) os _ _ _ _ H0 E eq_refl) as (_ & H2 & H3 & _).
  destruct (Forall2_lookup_r _ _ _ _ _ H2 Hk) as (h & Eh & Hh). destruct (H3 _ _ Hh) as (s & Hs & Hf).
  exists s. split; [|exact Hf]. unfold scope_behind. by rewrite Eh.
Qed.
Print Assumptions C73_scopes.

Section tracks.
  Context {V : Type} (zero : V) (val note gate : Z -> V) (lerp : V -> V -> nat -> nat -> V).
  Local Notation gstep := (global_step zero val note gate lerp).
  Local Notation tstep := (track_step zero val note gate lerp).

  Definition track_inv (g : @gdata V) (insts : list nat) (known fetched : nat -> bool) (f : nat -> list trop) : Prop :=
    tab_inv (gd_tracks g) /\ Forall2 (fun h i => gt_ids (gd_tracks g) !! i = Some h) (gd_ph g) insts /\
    (forall i h, gt_ids (gd_tracks g) !! i = Some h ->
      known i = true /\ exists t, gt_objs (gd_tracks g) !! h = Some (t, fetched i) /\ foldm tstep (tracker_new zero) (f i) = Some t) /\
    (forall i, gt_ids (gd_tracks g) !! i = None -> f i = [] /\ known i = false /\ fetched i = false).

  Lemma track_inv_ext g insts kn fe kn' fe' f f' : (forall i, kn i = kn' i) -> (forall i, fe i = fe' i) -> (forall i, f i = f' i) ->
    track_inv g insts kn fe f -> track_inv g insts kn' fe' f'.
  Proof.
    intros K F E (H1 & H2 & H3 & H4). split_and!; [done|done| |].
    - intros i h Hh. rewrite <- K, <- F, <- E. by apply H3.
    - intros i Hn. rewrite <- K, <- F, <- E. by apply H4.
  Qed.

  (** a call on the tracker [i] that exists *)
  Lemma track_call_inv g pre kn fe f i h fn t c b' :
    track_inv g pre kn fe f -> gt_ids (gd_tracks g) !! i = Some h -> tab_call fn (gd_tracks g) h = Some t ->
    (forall x y, fn (x, fe i) = Some y -> exists x', y = (x', b') /\ foldm tstep x c = Some x') ->
    track_inv (GData (gd_scopes g) (gd_sh g) t (gd_ph g)) pre kn (fun j => if decide (j = i) then b' else fe j)
      (fun j => f j ++ if decide (j = i) then c else []).
  Proof.
    intros (H1 & H2 & H3 & H4) Hi Et Hfn.
    destruct (tab_call_inv _ _ _ _ _ H1 Hi Et) as (T1 & T2 & (s & s' & T3 & T4 & T5) & T6).
    split_and!; cbn; [done|by rewrite T2| |].
    - intros j h' Hj. rewrite T2 in Hj. destruct (H3 _ _ Hj) as (Hkn & s0 & Hs & Hf). split; [done|]. destruct (decide (j = i)) as [->|Hn].
      + assert (h' = h) as -> by congruence. assert (s = (s0, fe i)) as -> by congruence.
        destruct (Hfn _ _ T4) as (x' & -> & Hx). exists x'. split; [done|].
        clear -Hf Hx. revert Hf. generalize (tracker_new zero). induction (f i) as [|a l IH]; intros x E; cbn in *; [by injection E as ->|].
        apply bind_Some in E as (x1 & Ex & E). rewrite Ex. cbn. by apply IH.
      + exists s0. rewrite app_nil_r. split; [|done]. by rewrite (T6 j).
    - intros j Hn. rewrite T2 in Hn. rewrite !decide_False; [|congruence|congruence]. rewrite app_nil_r. by apply H4.
  Qed.
  Lemma track_get_inv g pre kn fe f i t h :
    track_inv g pre kn fe f -> tab_get (track_fresh zero) (gd_tracks g) i = (t, h) ->
    gt_ids t !! i = Some h /\ track_inv (GData (gd_scopes g) (gd_sh g) t (gd_ph g)) pre (fun j => kn j || (i =? j)) fe f /\
    track_inv (GData (gd_scopes g) (gd_sh g) t (gd_ph g ++ [h])) (pre ++ [i]) (fun j => kn j || (i =? j)) fe f.
  Proof.
    intros (H1 & H2 & H3 & H4) Eg. destruct (tab_get_inv _ _ _ _ _ H1 Eg) as (T1 & T2 & T3 & T4).
    assert (Hf2 : Forall2 (fun h i => gt_ids t !! i = Some h) (gd_ph g) pre).
    { eapply Forall2_impl; [exact H2|]. intros h' j Hj. by apply T3. }
    assert (H3' : forall j h', gt_ids t !! j = Some h' ->
      kn j || (i =? j) = true /\ exists x, gt_objs t !! h' = Some (x, fe j) /\ foldm tstep (tracker_new zero) (f j) = Some x).
    { intros j h' Hj. destruct (T4 _ _ Hj) as [Ho|(Hn & -> & Ho)].
      - destruct (H3 _ _ Ho) as (Hkn & s & Hs & Hf). split; [by rewrite Hkn|]. exists s. split; [|done]. rewrite <- Hs. apply (T3 j). done.
      - destruct (H4 _ Hn) as (F1 & F2 & F3). rewrite Nat.eqb_refl, orb_true_r, F1, F3. split; [done|]. by exists (tracker_new zero). }
    assert (H4' : forall j, gt_ids t !! j = None -> f j = [] /\ kn j || (i =? j) = false /\ fe j = false).
    { intros j Hn. destruct (gt_ids (gd_tracks g) !! j) as [h'|] eqn:Ej; [apply T3 in Ej as [Ej _]; congruence|].
      destruct (H4 _ Ej) as (F1 & F2 & F3). rewrite F2. split_and!; [done| |done]. cbn. apply Nat.eqb_neq. intros ->. congruence. }
    split_and!; [done|by split_and!|]. split_and!; cbn; [done| |done|done]. apply Forall2_app; [done|by repeat constructor].
  Qed.

  Lemma track_run_inv rest os : forall g pre kn fe f g', track_inv g pre kn fe f -> foldm gstep g os = Some g' -> rest = pre ++ pattern_insts os ->
    exists kn' fe', track_inv g' rest kn' fe' (fun i => f i ++ track_calls rest i (kn i) (fe i) os) /\
      forall i, kn' i = kn i || existsb (fun o => match o with GPat j | GBackend j => j =? i | _ => false end) os.
  Proof.
    induction os as [|o os IH]; intros g pre kn fe f g' Hi E Er.
    - injection E as <-. cbn in Er. rewrite app_nil_r in Er. subst pre. exists kn, fe. split.
      + eapply track_inv_ext; [done|done| |exact Hi]. intros i. cbn. by rewrite app_nil_r.
      + intros i. cbn. by rewrite orb_false_r.
    - cbn [foldm] in E. apply bind_Some in E as (g1 & E1 & E).
      destruct o as [i|k c|i|k e|i|i|i]; cbn [global_step] in E1.
      + destruct (tab_get _ _ _) as [t h]. injection E1 as <-. refine (IH _ pre kn fe f g' _ E Er). exact Hi.
      + apply bind_Some in E1 as (h & Eh & E1). apply bind_Some in E1 as (t & Et & [= <-]). refine (IH _ pre kn fe f g' _ E Er). exact Hi.
      + destruct (tab_get _ _ _) as [t h] eqn:Eg. injection E1 as <-. destruct (track_get_inv _ _ _ _ _ _ _ _ Hi Eg) as (_ & _ & Hi2).
        destruct (IH _ _ _ _ _ _ Hi2 E) as (kn' & fe' & Hr & Hk); [rewrite Er; unfold pattern_insts; cbn; by rewrite <- app_assoc|].
        exists kn', fe'. split; [exact Hr|]. intros j. rewrite Hk. cbn. by rewrite orb_assoc.
      + apply bind_Some in E1 as (h & Eh & E1). apply bind_Some in E1 as (t & Et & [= <-]).
        destruct (Forall2_lookup_l _ _ _ _ _ (proj1 (proj2 Hi)) Eh) as (i & Ei & Hh).
        assert (Hk : rest !! k = Some i) by (rewrite Er; by apply lookup_app_l_Some).
        epose proof (track_call_inv _ _ _ _ _ _ _ _ _ [TEdit e] (fe i) Hi Hh Et _) as Hi2. Unshelve.
        2:{ intros x y Hy. unfold on_tracker in Hy. cbn [fst snd] in Hy. apply bind_Some in Hy as (x' & Hx & [= <-]). exists x'.
            split; [done|]. cbn [foldm]. by rewrite Hx. }
        destruct (IH _ _ _ _ _ _ Hi2 E Er) as (kn' & fe' & Hr & Hkn). exists kn', fe'. split; [|exact Hkn].
        eapply track_inv_ext; [done|done| |exact Hr]. intros j. cbn beta. rewrite <- app_assoc. f_equal. cbn [track_calls]. rewrite Hk.
        destruct (decide (j = i)) as [->|Hn]; [by rewrite bool_decide_true|]. by rewrite bool_decide_false by congruence.
      + destruct (gt_ids (gd_tracks g) !! i) as [h|] eqn:Hh.
        * apply bind_Some in E1 as (t & Et & [= <-]).
          epose proof (track_call_inv _ _ _ _ _ _ _ _ _ [TSend] (fe i) Hi Hh Et _) as Hi2. Unshelve.
          2:{ intros x y Hy. unfold on_tracker in Hy. cbn [fst snd] in Hy. apply bind_Some in Hy as (x' & Hx & [= <-]). exists x'.
              split; [done|]. cbn [foldm]. by rewrite Hx. }
          destruct (IH _ _ _ _ _ _ Hi2 E Er) as (kn' & fe' & Hr & Hkn). exists kn', fe'. split; [|exact Hkn].
          eapply track_inv_ext; [done|done| |exact Hr]. intros j. cbn beta. rewrite <- app_assoc. f_equal. cbn [track_calls].
          destruct (decide (j = i)) as [->|Hn].
          -- rewrite Nat.eqb_refl. destruct Hi as (_ & _ & H3 & _). by rewrite (proj1 (H3 _ _ Hh)).
          -- destruct (Nat.eqb_spec i j); [congruence|]. done.
        * injection E1 as <-. destruct (IH _ _ _ _ _ _ Hi E Er) as (kn' & fe' & Hr & Hkn). exists kn', fe'. split; [|exact Hkn].
          eapply track_inv_ext; [done|done| |exact Hr]. intros j. cbn beta. f_equal. cbn [track_calls].
          destruct (Nat.eqb_spec i j) as [<-|Hn]; [|done]. destruct Hi as (_ & _ & _ & H4). by rewrite (proj1 (proj2 (H4 _ Hh))).
      + destruct (tab_get _ _ _) as [t h] eqn:Eg. apply bind_Some in E1 as (t1 & Et & [= <-]).
        destruct (track_get_inv _ _ _ _ _ _ _ _ Hi Eg) as (Hh & Hi1 & _).
        epose proof (track_call_inv _ _ _ _ _ _ _ _ t1 (if fe i then [TBackend] else []) true Hi1 Hh Et _) as Hi2. Unshelve.
        2:{ intros x y Hy. cbn in Hy. destruct (fe i); injection Hy as <-; by eexists. }
        destruct (IH _ _ _ _ _ _ Hi2 E Er) as (kn' & fe' & Hr & Hkn). exists kn', fe'. split.
        * eapply track_inv_ext; [done|done| |exact Hr]. intros j. cbn beta. rewrite <- app_assoc. f_equal. cbn [track_calls].
          destruct (decide (j = i)) as [->|Hn].
          -- by rewrite Nat.eqb_refl, orb_true_r.
          -- destruct (Nat.eqb_spec i j); [congruence|]. by rewrite orb_false_r.
        * intros j. rewrite Hkn. cbn. by rewrite orb_assoc.
      + apply bind_Some in E1 as (h & Hh & E1). apply bind_Some in E1 as (tb & Etb & E1). destruct (tb.2); [|done].
        apply bind_Some in E1 as (t & Et & [= <-]).
        epose proof (track_call_inv _ _ _ _ _ _ _ _ _ [TRecv] (fe i) Hi Hh Et _) as Hi2. Unshelve.
        2:{ intros x y Hy. unfold on_tracker in Hy. cbn [fst snd] in Hy. apply bind_Some in Hy as (x' & Hx & [= <-]). exists x'.
            split; [done|]. cbn [foldm]. by rewrite Hx. }
        destruct (IH _ _ _ _ _ _ Hi2 E Er) as (kn' & fe' & Hr & Hkn). exists kn', fe'. split; [|exact Hkn].
        eapply track_inv_ext; [done|done| |exact Hr]. intros j. cbn beta. rewrite <- app_assoc. f_equal. cbn [track_calls].
        destruct (decide (j = i)) as [->|Hn]; [by rewrite Nat.eqb_refl|]. destruct (Nat.eqb_spec i j); [congruence|]. done.
  Qed.
  Lemma track_inv_new : track_inv gdata_new [] (fun _ => false) (fun _ => false) (fun _ => []).
  Proof.
    split_and!; cbn; [split; cbn; intros; by rewrite lookup_empty in *|constructor| |done]. intros i' h Hh. by rewrite lookup_empty in Hh.
  Qed.
End tracks.

(** All pattern handles of a tracker, its sequencer and the check for updates share one tracker, and nothing that is done to
    another tracker changes it *)
Theorem C73_trackers V (zero : V) val note gate lerp os g k i :
  global_run zero val note gate lerp os = Some g -> pattern_insts os !! k = Some i ->
  exists t, track_behind g k = Some t /\
    foldm (track_step zero val note gate lerp) (tracker_new zero) (track_calls (pattern_insts os) i false false os) = Some t.
Proof.
  intros E Hk.
  destruct (track_run_inv zero val note gate lerp (pattern_insts os) os _ _ _ _ _ _ (track_inv_new _ _ _ _ _) E eq_refl) as (kn & fe & (_ & H2 & H3 & _) & _).
  destruct (Forall2_lookup_r _ _ _ _ _ H2 Hk) as (h & Eh & Hh). destruct (H3 _ _ Hh) as (_ & t & Ht & Hf).
  exists t. split; [|exact Hf]. unfold track_behind. rewrite Eh. cbn. by rewrite Ht.
Qed.
Print Assumptions C73_trackers.

(** There is a tracker exactly for the instances of which the pattern or a sequencer was asked for; asking whether there is
    one, and checking for updates, make none *)
Theorem C73_has_tracker V (zero : V) val note gate lerp os g i :
  global_run zero val note gate lerp os = Some g -> has_tracker g i = true <-> GPat i ∈ os \/ GBackend i ∈ os.
Proof.
  intros E.
  destruct (track_run_inv zero val note gate lerp (pattern_insts os) os _ _ _ _ _ _ (track_inv_new _ _ _ _ _) E eq_refl) as (kn & fe & (_ & _ & H3 & H4) & Hk).
  assert (has_tracker g i = kn i) as ->.
  { unfold has_tracker. destruct (_ !! i) as [h|] eqn:Eh; [by rewrite (proj1 (H3 _ _ Eh))|by rewrite (proj1 (proj2 (H4 _ Eh)))]. }
  rewrite Hk. cbn [orb]. rewrite existsb_exists. split.
  - intros (o & Ho & Hb). apply elem_of_list_In in Ho. destruct o; try done; apply Nat.eqb_eq in Hb as ->; [by left|by right].
  - intros [H|H]; apply elem_of_list_In in H; eexists; split; [exact H|apply Nat.eqb_refl|exact H|apply Nat.eqb_refl].
Qed.
Print Assumptions C73_has_tracker.

(** Tracker 3: its pattern is edited before its sequencer exists, by two handles, and checked twice; the sequencer gets the
    update that is under way. Tracker 1 is edited in between. *)
Definition global_demo : list (@gop Z) :=
  [GCheck 3; GPat 3; GPat 1; GPatDo 0 (PPut 0 2 72%Z); GPatDo 1 (PPut 0 2 60%Z); GCheck 3; GPat 3; GScope 2; GBackend 3;
   GPatDo 2 (PPut 1 2 64%Z); GRecv 3; GScope 0; GScopeDo 0 (SThr (Some 5%Z)); GScopeDo 1 (SThr (Some 6%Z)); GScope 2; GBackend 1; GBackend 1].
Example C73_case_calls :
  scope_insts global_demo = [2; 0; 2] /\ pattern_insts global_demo = [3; 1; 3] /\
  scope_calls [2; 0; 2] 2 global_demo = [SThr (Some 5%Z)] /\
  track_calls [3; 1; 3] 3 false false global_demo = [TEdit (PPut 0 2 72%Z); TSend; TEdit (PPut 1 2 64%Z); TRecv] /\
  track_calls [3; 1; 3] 1 false false global_demo = [TEdit (PPut 0 2 60%Z); TBackend].
Proof. split_and!; vm_compute; reflexivity. Qed.
Example C73_case :
  (let* g := global_run 0%Z id (fun v => v - 69)%Z id (fun a _ _ _ => a) global_demo in
   let* s2 := scope_behind g 2 in
   let* s1 := scope_behind g 1 in
   let* t3 := track_behind g 0 in
   let* r3 := pt_data (tr_pat t3) !! 1 in
   let* t1 := track_behind g 1 in
   let* r1 := pt_data (tr_pat t1) !! 0 in
   Some (scope_get_thr s2, scope_get_thr s1, r3 !! 2, r1 !! 2, has_tracker g <$> [0; 1; 2; 3])) =
  Some (Some 5%Z, Some 6%Z, Some (Some 64%Z), Some (Some 60%Z), [false; true; false; true]).
Proof. vm_compute. reflexivity. Qed.
