(** Proofs about FVaFilt: it plays like a filter that sets all parameters in every frame *)
From Verif Require Import Base M_Filt S_Filt.
Open Scope nat_scope.

Lemma ladder_mode_of z : ladder_mode z = mode_of 10 z.
Proof.
  unfold mode_of, ladder_mode. destruct z as [|p|p]; [done| |done].
  do 4 (try destruct p as [p|p|]); reflexivity.
Qed.
Lemma svf_mode_of z : svf_mode z = mode_of 4 z.
Proof.
  unfold mode_of, svf_mode. destruct z as [|p|p]; [done| |done].
  do 3 (try destruct p as [p|p|]); reflexivity.
Qed.

Section fvafilt.
  Context {F V : Type} `{EqDecision F} (f0 : F) (lim_freq lim_res lim_drive : F -> F).
  Context (pair : F -> F -> V) (twice : V -> V) (vzero : V) (lanes : V -> F * F).
  Context {L S K O D : Type} (ltick : @fpar F -> nat -> L -> V -> V * L) (stick : @fpar F -> @fpar F -> S -> V -> V * S)
    (ktick : @fpar F -> @fpar F -> K -> V -> V * K) (otick : O -> V -> V * O) (dtick : D -> V -> V * D).
  Context (Hlim : forall x, lim_freq x <> f0).

  Notation frame := (fv_frame lim_freq lim_res lim_drive pair twice vzero lanes ltick stick ktick otick dtick).
  Notation frames := (fv_frames lim_freq lim_res lim_drive pair twice vzero lanes ltick stick ktick otick dtick).
  Notation pframe := (plain_frame lim_freq lim_res lim_drive pair twice vzero lanes ltick stick ktick otick dtick).
  Notation pframes := (plain_frames lim_freq lim_res lim_drive pair twice vzero lanes ltick stick ktick otick dtick).
  Notation over := (fv_over pair twice vzero lanes otick dtick).
  Notation st := (@fvafilt F L S K O D).

  Definition plain_of (s : st) : @plain L S K O D := Plain (fv_ladder s) (fv_svf s) (fv_sk s) (fv_os0 s) (fv_os1 s) (fv_dc s).
  Definition par_of (c : @fset F) : @fpar F := FPar (fs_freq c) (fs_res c) (fs_drive c) (ladder_mode (fs_lmode c)) (svf_mode (fs_smode c)).

  Definition inv (s : st) : Prop :=
    fs_freq (fv_old s) = f0 \/
    (fv_params s = par_of (fv_old s) /\ (fs_ftype (fv_old s) = 1%Z -> fv_svf_par s = fv_params s) /\ (fs_ftype (fv_old s) = 2%Z -> fv_sk_par s = fv_params s)).
  Definition mix_ok (s : st) : Prop := fv_mix s = ladder_mode (fs_lmode (fv_old s)).

  Lemma pframe_over (b : @fvblock F) (s : st) (i : @fvin F) :
    pframe b (plain_of s) i =
      let p := wanted lim_freq lim_res lim_drive b i in
      let os := (fv_os0 s, fv_os1 s) in
      if (as_i8 (fb_ftype b) =? 2)%Z then
        let '(k, (o0, o1), dc, o) := over (ktick p p) (fv_sk s) os (fv_dc s) (fi_l i) (fi_r i) in
        (Plain (fv_ladder s) (fv_svf s) k o0 o1 dc, o)
      else if (as_i8 (fb_ftype b) =? 1)%Z then
        let '(v, (o0, o1), dc, o) := over (stick p p) (fv_svf s) os (fv_dc s) (fi_l i) (fi_r i) in
        (Plain (fv_ladder s) v (fv_sk s) o0 o1 dc, o)
      else
        let '(l, (o0, o1), dc, o) := over (ltick p (fp_lmode p)) (fv_ladder s) os (fv_dc s) (fi_l i) (fi_r i) in
        (Plain l (fv_svf s) (fv_sk s) o0 o1 dc, o).
  Proof.
    unfold plain_frame, fv_over, plain_of. cbn [pl_ladder pl_svf pl_sk pl_os0 pl_os1 pl_dc foldl]. cbv zeta.
    destruct (as_i8 (fb_ftype b) =? 2)%Z; [|destruct (as_i8 (fb_ftype b) =? 1)%Z];
      repeat (match goal with |- context [let '(_, _) := ?e in _] => lazymatch e with context [let '(_, _) := _ in _] => fail | _ => destruct e as [? ?] eqn:? end end;
        cbn [pl_ladder pl_svf pl_sk pl_os0 pl_os1 pl_dc fst snd]); done.
  Qed.

  Lemma update_inv (s : st) c new : inv s -> fs_freq new <> f0 ->
    let '(s', c') := fv_update s c new in
    plain_of s' = plain_of s /\ fv_old s' = new /\ fv_params s' = par_of new /\ (fs_ftype new = 1%Z -> fv_svf_par s' = par_of new) /\ (fs_ftype new = 2%Z -> fv_sk_par s' = par_of new) /\
    (mix_ok s -> (fs_ftype new <> 1%Z /\ fs_ftype new <> 2%Z) \/ fs_lmode new = fs_lmode (fv_old s) -> mix_ok s').
  Proof.
    intros HI Hf. unfold fv_update. destruct (decide (new = fv_old s)) as [->|N].
    - destruct HI as [HI|(I1 & I2 & I3)]; [done|]. split; [done|]. split; [done|]. split; [done|]. rewrite <- I1. split; [done|]. split; [done|]. auto.
    - cbv zeta. split; [done|]. cbn [fv_old fv_params fv_svf_par fv_sk_par fv_mix]. split; [done|]. split; [done|].
      split; [by intros ->|]. split; [by intros ->|]. unfold mix_ok. cbn [fv_mix fv_old fp_lmode]. intros HM HL.
      destruct (Z.eqb_spec (fs_lmode new) (fs_lmode (fv_old s))) as [E|E]; cbn [negb].
      + assert ((if c then ladder_mode (fs_lmode new) else fv_mix s) = ladder_mode (fs_lmode new)) as E2 by (destruct c; [done|]; by rewrite HM, E).
        rewrite E2. rewrite HM, E. destruct (fs_ftype new) as [|[[?|?|]|[?|?|]|]|]; done.
      + destruct HL as [[H1 H2]|H]; [|done]. destruct (fs_ftype new) as [|[[?|?|]|[?|?|]|]|]; done.
  Qed.

  Lemma frame_sim (b : @fvblock F) (s : st) c (i : @fvin F) : inv s -> (is_ladder b -> mix_ok s) ->
    let t := as_i8 (fb_ftype b) in
    let '(s', c', o) := frame t (as_i8 (fb_smode b)) (as_i8 (fb_lmode b)) (s, c) i in
    pframe b (plain_of s) i = (plain_of s', o) /\ inv s' /\ fs_lmode (fv_old s') = as_i8 (fb_lmode b) /\
    (mix_ok s -> is_ladder b \/ as_i8 (fb_lmode b) = fs_lmode (fv_old s) -> mix_ok s').
  Proof.
    intros HI HM. cbv zeta. unfold fv_frame. cbn [fst snd].
    set (new := fv_set lim_freq lim_res lim_drive (as_i8 (fb_ftype b)) (as_i8 (fb_smode b)) (as_i8 (fb_lmode b)) i).
    pose proof (update_inv s c new HI ltac:(apply Hlim)) as P. destruct (fv_update s c new) as [s1 c1]. destruct P as (P0 & P1 & P2 & P3 & P4 & P5).
    assert (par_of new = wanted lim_freq lim_res lim_drive b i) as EW. { unfold par_of, wanted, new, fv_set. cbn [fs_freq fs_res fs_drive fs_lmode fs_smode]. by rewrite ladder_mode_of, svf_mode_of. }
    rewrite <- P0, pframe_over. cbv zeta. rewrite EW in *. set (p := wanted lim_freq lim_res lim_drive b i) in *.
    change (fs_ftype new) with (as_i8 (fb_ftype b)) in *. change (fs_lmode new) with (as_i8 (fb_lmode b)) in *. unfold is_ladder in *.
    destruct (Z.eqb_spec (as_i8 (fb_ftype b)) 2) as [E2|E2].
    { rewrite E2 in *. rewrite P2, P4 by done. destruct (over (ktick p p) _ _ _ _ _) as [[[k [o0 o1]] dc] o].
      split; [done|]. split; [right; cbn [fv_params fv_old fv_svf_par fv_sk_par]; rewrite P1; split; [by rewrite EW|]; split; [intros X; change (as_i8 (fb_ftype b) = 1%Z) in X; lia|done]|].
      split; [cbn [fv_old]; by rewrite P1|]. intros M H. exact (P5 M H). }
    destruct (Z.eqb_spec (as_i8 (fb_ftype b)) 1) as [E1|E1].
    { rewrite E1 in *. rewrite P2, P3 by done. destruct (over (stick p p) _ _ _ _ _) as [[[k [o0 o1]] dc] o].
      split; [done|]. split; [right; cbn [fv_params fv_old fv_svf_par fv_sk_par]; rewrite P1; split; [by rewrite EW|]; split; [done|intros X; change (as_i8 (fb_ftype b) = 2%Z) in X; lia]|].
      split; [cbn [fv_old]; by rewrite P1|]. intros M H. exact (P5 M H). }
    assert (fv_mix s1 = fp_lmode p) as EM.
    { specialize (P5 (HM (conj E1 E2)) (or_introl (conj E1 E2))). unfold mix_ok in P5. rewrite P5, P1. change (fs_lmode new) with (as_i8 (fb_lmode b)). rewrite ladder_mode_of. done. }
    rewrite P2, EM.
    assert (forall A (x y z : A), match as_i8 (fb_ftype b) with 2%Z => x | 1%Z => y | _ => z end = z) as EZ.
    { intros A x y z. destruct (as_i8 (fb_ftype b)) as [|[[?|?|]|[?|?|]|]|]; try done. }
    rewrite EZ. destruct (over (ltick p (fp_lmode p)) _ _ _ _ _) as [[[k [o0 o1]] dc] o].
    split; [done|]. split; [right; cbn [fv_params fv_old fv_svf_par fv_sk_par]; rewrite P1; split; [by rewrite EW|]; split; intros X; [change (as_i8 (fb_ftype b) = 1%Z) in X; lia|change (as_i8 (fb_ftype b) = 2%Z) in X; lia]|].
    cbn [fv_old]. rewrite P1. split; [done|]. intros _ _. unfold mix_ok. cbn [fv_mix fv_old]. change (fs_lmode new) with (as_i8 (fb_lmode b)). by rewrite ladder_mode_of.
  Qed.

  Lemma frames_sim (b : @fvblock F) is : forall (s : st) c, inv s -> (is_ladder b -> mix_ok s) ->
    let '(s', c', os) := frames (as_i8 (fb_ftype b)) (as_i8 (fb_smode b)) (as_i8 (fb_lmode b)) (s, c) is in
    pframes b (plain_of s) is = (plain_of s', os) /\ inv s' /\ (is <> [] -> fs_lmode (fv_old s') = as_i8 (fb_lmode b)) /\
    (mix_ok s -> is_ladder b \/ as_i8 (fb_lmode b) = fs_lmode (fv_old s) -> mix_ok s').
  Proof.
    induction is as [|i is IH]; intros s c HI HM; [done|]. cbn [fv_frames plain_frames].
    pose proof (frame_sim b s c i HI HM) as P. cbv zeta in P.
    destruct (frame (as_i8 (fb_ftype b)) (as_i8 (fb_smode b)) (as_i8 (fb_lmode b)) (s, c) i) as [[s1 c1] o]. destruct P as (P1 & P2 & P3 & P4).
    specialize (IH s1 c1 P2 (fun H => P4 (HM H) (or_introl H))).
    destruct (frames (as_i8 (fb_ftype b)) (as_i8 (fb_smode b)) (as_i8 (fb_lmode b)) (s1, c1) is) as [[s2 c2] os] eqn:EF. destruct IH as (I1 & I2 & I3 & I4).
    rewrite P1, I1. split; [done|]. split; [done|]. split.
    - intros _. destruct is as [|j is]; [|by apply I3]. cbn [fv_frames] in EF. by injection EF as <- _ _.
    - intros M H. apply I4; [by apply P4|]. right. by rewrite P3.
  Qed.
End fvafilt.
