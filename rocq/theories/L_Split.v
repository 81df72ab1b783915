(** Proofs for C60: smoothers and frame-wise nodes over the frames of a block *)
From Verif Require Import Base M_Atom M_Graph M_Dir M_Grid S_Grid M_Layout S_Layout M_Prog M_Conf M_Exec M_Sync M_Engine.
From Verif Require Import S_Conf S_Sync S_Prog S_Own S_Flow L_Conf L_Sync L_Own L_Own2 L_Own3 L_Flow L_Flow2 S_Settle L_Settle L_Settle2 S_Split.
Open Scope nat_scope.
Local Opaque block_size.

(** ** Frames of a node *)
Section frames.
  Context {S : Type} (stp : S -> list f32 -> list f32 -> S * list f32) (own ins : list (list f32)).
  Fixpoint st_at (s : S) (f : nat) : S :=
    match f with
    | 0 => s
    | Datatypes.S f => let s := st_at s f in (stp s (at_frame f own) (at_frame f ins)).1
    end.
  Definition out_at (s : S) (f : nat) : list f32 := (stp (st_at s f) (at_frame f own) (at_frame f ins)).2.

  Lemma put_length f vs bufs : length (put_frame f vs bufs) = length bufs.
  Proof. apply imap_length. Qed.
  Lemma put_lookup f vs bufs j : put_frame f vs bufs !! j = (fun b => <[f := default f32_zero (vs !! j)]> b) <$> bufs !! j.
  Proof. unfold put_frame. by rewrite list_lookup_imap. Qed.

  Lemma run_frames_spec s0 n : forall f outs, let r := run_frames stp (st_at s0 f) f n own ins outs in
    r.1 = st_at s0 (f + n) /\ length r.2 = length outs /\
    forall j b, outs !! j = Some b -> exists b', r.2 !! j = Some b' /\ length b' = length b /\
      (forall k, ~ f <= k < f + n -> b' !! k = b !! k) /\
      (forall k, f <= k < f + n -> k < length b -> b' !! k = Some (default f32_zero (out_at s0 k !! j))).
  Proof.
    induction n as [|n IH]; intros f outs; cbn [run_frames].
    - cbn. rewrite Nat.add_0_r. split; [done|]. split; [done|]. intros j b Hb. exists b. split; [done|]. split; [done|]. split; [done|]. intros k ? ?. lia.
    - destruct (stp (st_at s0 f) (at_frame f own) (at_frame f ins)) as [s1 vs] eqn:E.
      assert (Es : s1 = st_at s0 (Datatypes.S f)) by (cbn [st_at]; by rewrite E).
      assert (Ev : vs = out_at s0 f) by (unfold out_at; by rewrite E). subst s1.
      destruct (IH (Datatypes.S f) (put_frame f vs outs)) as (H1 & H2 & H3). cbn zeta in *.
      split; [rewrite H1; f_equal; lia|]. split; [by rewrite H2, put_length|].
      intros j b Hb. destruct (H3 j (<[f := default f32_zero (vs !! j)]> b)) as (b' & B1 & B2 & B3 & B4); [by rewrite put_lookup, Hb|].
      rewrite insert_length in B2, B4. exists b'. split; [done|]. split; [done|]. split.
      + intros k Hk. rewrite B3 by lia. apply list_lookup_insert_ne. lia.
      + intros k Hk Hlt. destruct (decide (k = f)) as [->|Hne]; [|apply B4; lia].
        rewrite B3 by lia. rewrite list_lookup_insert by done. by rewrite Ev.
  Qed.
End frames.

Lemma frame_fits {S} step : node_fits (@frame_sem S step).
Proof.
  intros id st k oc ic ats ps is os Hos. unfold frame_sem.
  pose proof (run_frames_spec (step id oc ic ats) ps is (st id) k 0 os) as H. cbn [st_at] in H. cbn zeta in H.
  destruct (run_frames _ _ _ _ _ _ _) as [s outs]. cbn [fst snd] in *. destruct H as (_ & Hl & H). split; [done|].
  apply Forall_forall. intros b' [j Hj]%elem_of_list_lookup.
  destruct (lookup_lt_is_Some_2 os j) as [b Hb]; [rewrite <- Hl; by eapply lookup_lt_Some|].
  destruct (H j b Hb) as (b2 & E & L & _). rewrite Hj in E. injection E as <-. rewrite L. by eapply Forall_lookup_1 in Hos.
Qed.

(** ** Smoothers *)
Section smooth.
  Context (fadd : f32 -> f32 -> f32).
  Fixpoint sm_iter (s : smoother f32) (n : nat) : smoother f32 :=
    match n with 0 => s | S n => sm_iter (sm_next fadd s).1 n end.
  Definition sm_at (s : smoother f32) (f : nat) : f32 := (sm_next fadd (sm_iter s f)).2.

  Lemma sm_iter_add s a b : sm_iter s (a + b) = sm_iter (sm_iter s a) b.
  Proof. revert s. induction a as [|a IH]; intros s; [done|]. cbn. apply IH. Qed.
  Lemma sm_at_add s a b : sm_at s (a + b) = sm_at (sm_iter s a) b.
  Proof. unfold sm_at. by rewrite sm_iter_add. Qed.
  Lemma sm_iter_count s n : sm_count (sm_iter s n) = sm_count s - n /\ sm_target (sm_iter s n) = sm_target s.
  Proof.
    revert s. induction n as [|n IH]; intros s; cbn [sm_iter]; [split; [lia|done]|]. destruct (IH (sm_next fadd s).1) as [-> ->].
    unfold sm_next. destruct (sm_count s) eqn:E; cbn; [split; [lia|done]|]. split; [lia|done].
  Qed.
  Lemma sm_at_target s f : sm_count s <= f -> sm_at s f = sm_target s.
  Proof.
    intros H. unfold sm_at. destruct (sm_iter_count s f) as [Hc Ht]. unfold sm_next. rewrite Hc.
    replace (sm_count s - f) with 0 by lia. done.
  Qed.

  Lemma run_smoother_vals b n : forall f s v h h' s' v', run_smoother fadd h b f n s v = Some (h', s', v') ->
    s' = sm_iter s n /\ (0 < n -> v' = sm_at s (n - 1)) /\
    forall c, h_bufs h !! b = Some c -> exists c', h_bufs h' !! b = Some c' /\
      (forall k, ~ f <= k < f + n -> c' !! k = c !! k) /\ (forall k, k < n -> c' !! (f + k) = Some (sm_at s k)).
  Proof.
    induction n as [|n IH]; intros f s v h h' s' v'; cbn [run_smoother].
    - intros [= <- <- <-]. split; [done|]. split; [lia|]. intros c Hc. exists c. split; [done|]. split; [done|]. intros k Hk. lia.
    - destruct (sm_next fadd s) as [s1 v1] eqn:En. destruct (buf_write h b f v1) as [h1|] eqn:Ew; cbn [mbind option_bind]; [|done].
      intros E. destruct (IH _ _ _ _ _ _ _ E) as (H1 & H2 & H3).
      assert (Es : s1 = (sm_next fadd s).1) by (by rewrite En). assert (Ev : v1 = sm_at s 0) by (unfold sm_at; cbn; by rewrite En).
      split; [by rewrite H1; cbn [sm_iter]; rewrite Es|]. split.
      + intros _. destruct n as [|n].
        * cbn in E. injection E as _ _ <-. by rewrite Ev.
        * rewrite H2 by lia. rewrite Es. replace (S (S n) - 1) with (1 + (S n - 1)) by lia. by rewrite sm_at_add.
      + intros c Hc. unfold buf_write in Ew. rewrite Hc in Ew. cbn [mbind option_bind] in Ew.
        destruct (Nat.ltb_spec f (length c)) as [Hlt|]; [|done]. injection Ew as <-.
        destruct (H3 (<[f := v1]> c)) as (c' & C1 & C2 & C3); [cbn; by rewrite lookup_insert|]. exists c'. split; [done|]. split.
        * intros k Hk. rewrite C2 by lia. apply list_lookup_insert_ne. lia.
        * intros [|k] Hk.
          -- rewrite Nat.add_0_r, C2 by lia. rewrite list_lookup_insert by done. by rewrite Ev.
          -- replace (f + S k) with (S f + k) by lia. rewrite C3 by lia. rewrite Es. change (S k) with (1 + k). by rewrite sm_at_add.
  Qed.

  (** the smoother that works on input [i] *)
  Fixpoint run_of (l : sms) (i : nat) : option (smoother f32) :=
    match l with
    | [] => None
    | (j, s) :: l => if negb (sm_done s) && (j =? i) then Some s else run_of l i
    end.
  Lemma run_target l i : target_of l i = sm_target <$> run_of l i.
  Proof. induction l as [|[j s] l IH]; cbn; [done|]. by destruct (negb _ && _). Qed.
  Lemma run_some l i s : run_of l i = Some s -> exists j, l !! j = Some (i, s) /\ sm_done s = false.
  Proof.
    induction l as [|[j t] l IH]; cbn; [done|]. destruct (sm_done t) eqn:Ed; cbn.
    - intros H. destruct (IH H) as (k & ?). by exists (S k).
    - destruct (Nat.eqb_spec j i) as [->|]; [intros [= <-]; by exists 0|]. intros H. destruct (IH H) as (k & ?). by exists (S k).
  Qed.
  Lemma run_in l i j s : one_each l -> l !! j = Some (i, s) -> sm_done s = false -> run_of l i = Some s.
  Proof.
    intros Ho Hj Hd. pose proof (target_in _ _ _ _ Ho Hj Hd) as Ht. rewrite run_target in Ht.
    destruct (run_of l i) as [t|] eqn:E; [|done]. destruct (run_some _ _ _ E) as (k & Hk & Hd').
    rewrite (Ho _ _ _ _ _ Hk Hj Hd' Hd) in Hk. congruence.
  Qed.

  (** a smoother after [nf] frames *)
  Definition aged_to (nf : nat) (x y : nat * smoother f32) : Prop :=
    y = if sm_done x.2 then x else (x.1, sm_iter x.2 nf).

  Lemma run_smoothers_vals inp nf l : forall h ps rf h' ps' rf' l', NoDup inp -> one_each l -> 0 < nf ->
    (forall b, b ∈ inp -> is_Some (h_bufs h !! b)) ->
    run_smoothers fadd h inp nf ps rf l = Some (h', ps', rf', l') ->
    Forall2 (aged_to nf) l l' /\
    (forall i s, i ∈ runs l -> run_of l i = Some s -> exists b c, inp !! i = Some b /\ h_bufs h' !! b = Some c /\
       ps' !! i = Some (sm_at s (nf - 1)) /\ forall f, f < nf -> c !! f = Some (sm_at s f)).
  Proof.
    induction l as [|[i s] l IH]; intros h ps rf h' ps' rf' l' Hnd Ho Hnf Hbufs; cbn [run_smoothers].
    - intros [= <- <- <- <-]. split; [constructor|]. intros i s Hi. by apply elem_of_nil in Hi.
    - destruct (sm_done s) eqn:Ed.
      + destruct (run_smoothers fadd h inp nf ps rf l) as [[[[h1 ps1] rf1] l1]|] eqn:E; cbn [mbind option_bind]; [|done].
        intros [= <- <- <- <-]. destruct (IH _ _ _ _ _ _ _ Hnd (one_cons _ _ Ho) Hnf Hbufs E) as (H1 & H2).
        assert (Hr : runs ((i, s) :: l) = runs l) by (unfold runs; rewrite filter_cons_False; [done|cbn; congruence]).
        rewrite Hr. split; [constructor; [unfold aged_to; cbn; by rewrite Ed|done]|]. cbn. rewrite Ed. cbn. done.
      + destruct (inp !! i) as [b|] eqn:Eb; cbn [mbind option_bind]; [|done].
        destruct (run_smoother fadd h b 0 nf s f32_zero) as [[[h1 s1] v1]|] eqn:E1; cbn [mbind option_bind]; [|done].
        destruct (Nat.ltb_spec i (length ps)) as [Hlt|]; [|done].
        destruct (run_smoothers fadd h1 inp nf (<[i:=v1]> ps) (rf ++ [(i, v1)]) l) as [[[[h2 ps2] rf2] l2]|] eqn:E2; cbn [mbind option_bind]; [|done].
        intros [= <- <- <- <-]. destruct (run_smoother_vals _ _ _ _ _ _ _ _ _ E1) as (R1 & R2 & R3).
        destruct (Hbufs b) as [c Hc]; [by eapply elem_of_list_lookup_2|]. destruct (R3 c Hc) as (c1 & C1 & C2 & C3).
        assert (Hbufs1 : forall x, x ∈ inp -> is_Some (h_bufs h1 !! x)).
        { intros x Hx. destruct (decide (x = b)) as [->|Hne]; [by rewrite C1|]. rewrite (run_smoother_frame _ _ _ _ _ _ _ _ _ _ x E1 Hne). by apply Hbufs. }
        destruct (IH _ _ _ _ _ _ _ Hnd (one_cons _ _ Ho) Hnf Hbufs1 E2) as (H1 & H2).
        pose proof (one_head _ _ _ Ho Ed) as Hi.
        destruct (run_all _ _ _ _ _ _ _ _ _ _ _ Hnd (one_cons _ _ Ho) E2) as (_ & _ & A3 & _ & _ & A8).
        assert (Hr : runs ((i, s) :: l) = i :: runs l) by (unfold runs; rewrite filter_cons_True; [done|done]).
        rewrite Hr. split; [constructor; [unfold aged_to; cbn; rewrite Ed; by rewrite R1|done]|].
        intros k t Hk. cbn [run_of]. rewrite Ed. cbn [negb andb]. destruct (Nat.eqb_spec i k) as [->|Hne].
        * intros [= <-]. exists b, c1. split; [done|]. split; [by rewrite (A8 k b Eb Hi)|]. split.
          -- rewrite A3 by done. rewrite list_lookup_insert by done. f_equal. by apply R2.
          -- intros f Hf. apply (C3 f Hf).
        * intros Ht. apply elem_of_cons in Hk as [->|Hk]; [done|]. by apply H2.
  Qed.

  (** ** The values that an input's own buffer will have *)
  Definition traj (e : exec) (f k : nat) : f32 :=
    match run_of (ex_sm e) k with
    | Some s => sm_at s f
    | None => default f32_zero (np_params (ex_prog e) !! k)
    end.

  Lemma smoothers_vals h e nf l h' e' : sinv h e -> hok h (owned (ex_prog e) ++ l) -> running (ex_prog e) -> 0 < nf <= block_size ->
    exec_smoothers fadd h e nf = Some (h', e') ->
    (forall k b, np_inp (ex_prog e) !! k = Some b -> exists c, h_bufs h' !! b = Some c /\ forall f, f < nf -> c !! f = Some (traj e f k)) /\
    (forall k f, k < length (np_params (ex_prog e)) -> traj e' f k = traj e (nf + f) k) /\
    (forall k, k < length (np_params (ex_prog e)) -> np_params (ex_prog e') !! k = Some (traj e (nf - 1) k)).
  Proof.
    intros Hs Hh Hrun [Hnf Hbs] E. destruct (smoothers_sinv _ _ _ _ _ _ _ Hs Hh Hrun E) as (S1 & _ & _ & R1).
    pose proof (si_one _ _ Hs) as Ho. pose proof (si_one _ _ S1) as Ho'. revert E S1 R1 Ho'. unfold exec_smoothers.
    destruct (refresh_targets _ _ _) as [h1|] eqn:E1; cbn [mbind option_bind]; [|done].
    destruct (run_smoothers _ _ _ _ _ _ _) as [[[[h2 ps] rf] l']|] eqn:E2; cbn [mbind option_bind]; [|done].
    intros [= <- <-] S1 R1 Ho'. cbn [ex_sm ex_prog ex_refresh prog_with_params np_params np_inp] in *.
    assert (Hnd : NoDup (np_inp (ex_prog e))).
    { pose proof (proj1 (proj1 Hh)) as Hn. unfold owned in Hn. rewrite <- !app_assoc in Hn. by apply NoDup_app in Hn as [? _]. }
    assert (Hb1 : forall b, b ∈ np_inp (ex_prog e) -> is_Some (h_bufs h1 !! b)).
    { intros b Hb. assert (Hin : b ∈ owned (ex_prog e) ++ l) by (unfold owned; rewrite !elem_of_app; by left; left).
      destruct (proj2 (proj1 (proj2 (proj1 Hh)) b) Hin) as [c Hc].
      apply elem_of_list_lookup in Hb as [i Hi]. destruct (refresh_spec _ _ _ _ Hnd E1) as [B1 B2].
      clear -E1 Hc. revert h c E1 Hc. induction (rev (ex_refresh e)) as [|[i v] rl IH]; intros h c; cbn [refresh_targets].
      - intros [= <-] Hc. by rewrite Hc.
      - destruct (np_inp (ex_prog e) !! i) as [b0|]; cbn [mbind option_bind]; [|done].
        destruct (buf_fill h b0 v) as [h2|] eqn:E; cbn [mbind option_bind]; [|done]. intros E1 Hc.
        destruct (decide (b = b0)) as [->|Hne].
        + revert E. unfold buf_fill. rewrite Hc. cbn [mbind option_bind]. intros [= <-]. eapply IH; [exact E1|]. cbn. by rewrite lookup_insert.
        + eapply IH; [exact E1|]. by rewrite (buf_fill_frame _ _ _ _ b E). }
    destruct (run_all _ _ _ _ _ _ _ _ _ _ _ Hnd Ho E2) as (A1 & A2 & A3 & _ & _ & A8).
    destruct (run_smoothers_vals _ _ _ _ _ _ _ _ _ _ Hnd Ho Hnf Hb1 E2) as (V1 & V2).
    assert (Hrn : forall k, run_of (ex_sm e) k = None -> k ∉ runs (ex_sm e) /\ run_of l' k = None).
    { intros k Hk. assert (target_of (ex_sm e) k = None) as Ht by (by rewrite run_target, Hk). split.
      - rewrite runs_target, Ht. by intros [? ?].
      - destruct (run_of l' k) as [s|] eqn:Es; [|done]. exfalso.
        assert (target_of l' k = Some (sm_target s)) as Ht' by (by rewrite run_target, Es).
        apply (aged_target nf (ex_sm e) l' k) in Ht'; [congruence|done|done|done]. }
    assert (Hrs : forall k s, run_of (ex_sm e) k = Some s -> k ∈ runs (ex_sm e)).
    { intros k s Hk. apply runs_target. rewrite run_target, Hk. by eexists. }
    split; [|split].
    - intros k b Hb. unfold traj. destruct (run_of (ex_sm e) k) as [s|] eqn:Es.
      + destruct (V2 k s (Hrs _ _ Es) Es) as (b' & c & Hb' & Hc & _ & Hv). rewrite Hb in Hb'. injection Hb' as <-. by exists c.
      + destruct (Hrn k Es) as [Hnr Hn']. destruct (lookup_lt_is_Some_2 (np_params (ex_prog e)) k) as [v Hv].
        { rewrite (rn_par _ Hrun). by eapply lookup_lt_Some. }
        exists (replicate block_size v). split.
        * eapply (si_buf _ _ S1 k b v); cbn; [done|by rewrite A3|by rewrite run_target, Hn'|by rewrite R1].
        * intros f Hf. rewrite Hv. cbn. apply lookup_replicate_2. lia.
    - intros k f Hk. unfold traj. cbn [ex_sm ex_prog prog_with_params np_params]. destruct (run_of (ex_sm e) k) as [s|] eqn:Es.
      + destruct (run_some _ _ _ Es) as (j & Hj & Hd). destruct (Forall2_lookup_l _ _ _ _ _ V1 Hj) as (y & Hy & Hag).
        unfold aged_to in Hag. cbn in Hag. rewrite Hd in Hag. subst y.
        destruct (Forall2_lookup_l _ _ _ _ _ A1 Hj) as (y & Hy' & _ & _ & _ & _ & Hdn). rewrite Hy in Hy'. injection Hy' as <-. cbn [fst snd] in Hdn.
        destruct (Hdn Hd) as [_ Hdn']. revert Hdn'. destruct (Nat.ltb_spec (sm_count s) nf) as [Hlt|Hge]; intros Hdn'.
        * assert (run_of l' k = None) as ->.
          { destruct (run_of l' k) as [t|] eqn:Et; [|done]. exfalso. destruct (run_some _ _ _ Et) as (j' & Hj' & Hd').
            destruct (Forall2_lookup_r _ _ _ _ _ V1 Hj') as ([k0 s0] & Hj0 & Hag). unfold aged_to in Hag. cbn in Hag.
            destruct (sm_done s0) eqn:Hd0; injection Hag as -> ->; [congruence|].
            pose proof (Ho _ _ _ _ _ Hj Hj0 Hd Hd0) as ->. rewrite Hj0 in Hj. apply (inj Some) in Hj. injection Hj as ->. rewrite Hdn' in Hd'. done. }
          destruct (V2 k s (Hrs _ _ Es) Es) as (_ & _ & _ & _ & -> & _). cbn. rewrite !sm_at_target by lia. done.
        * rewrite (run_in _ _ _ _ Ho' Hy Hdn'). by rewrite sm_at_add.
      + destruct (Hrn k Es) as [Hnr ->]. by rewrite A3.
    - intros k Hk. unfold traj. destruct (run_of (ex_sm e) k) as [s|] eqn:Es.
      + by destruct (V2 k s (Hrs _ _ Es) Es) as (_ & _ & _ & _ & -> & _).
      + destruct (Hrn k Es) as [Hnr _]. rewrite A3 by done. destruct (lookup_lt_is_Some_2 _ _ Hk) as [v ->]. done.
  Qed.
End smooth.
