(** Proofs about smoothing in the audio thread: every parameter ends up at its last target *)
From Verif Require Import Base M_Atom M_Graph M_Dir M_Grid S_Grid M_Layout S_Layout M_Prog M_Conf M_Exec M_Sync M_Engine.
From Verif Require Import S_Conf S_Sync S_Prog S_Own L_Graph L_Grid L_Layout L_Conf L_Conf2 L_Sync L_Prog L_Build L_Fill L_Wire L_Own L_Own2 L_Own3 L_Flow S_Settle.
Open Scope nat_scope.
Local Opaque block_size.

Notation sms := (list (nat * smoother f32)).

(** the target of the smoother that works on input [i] *)
Fixpoint target_of (l : sms) (i : nat) : option f32 :=
  match l with
  | [] => None
  | (j, s) :: l => if negb (sm_done s) && (j =? i) then Some (sm_target s) else target_of l i
  end.

Definition one_each (l : sms) : Prop :=
  forall j1 j2 i s1 s2, l !! j1 = Some (i, s1) -> l !! j2 = Some (i, s2) -> sm_done s1 = false -> sm_done s2 = false -> j1 = j2.

Lemma target_some l i v : target_of l i = Some v -> exists j s, l !! j = Some (i, s) /\ sm_done s = false /\ sm_target s = v.
Proof.
  induction l as [|[j s] l IH]; cbn; [done|]. destruct (sm_done s) eqn:Ed; cbn.
  - intros H. destruct (IH H) as (k & s' & ? & ?). by exists (S k), s'.
  - destruct (Nat.eqb_spec j i) as [->|].
    + intros [= <-]. by exists 0, s.
    + intros H. destruct (IH H) as (k & s' & ? & ?). by exists (S k), s'.
Qed.
Lemma target_in l i j s : one_each l -> l !! j = Some (i, s) -> sm_done s = false -> target_of l i = Some (sm_target s).
Proof.
  intros Ho Hj Hd. destruct (target_of l i) as [v|] eqn:E.
  - destruct (target_some _ _ _ E) as (j' & s' & Hj' & Hd' & <-). assert (j' = j) as -> by (by eapply Ho). congruence.
  - exfalso. clear Ho. revert j Hj E. induction l as [|[k s'] l IH]; intros [|j]; cbn; [done..| |].
    + intros [= -> ->]. by rewrite Hd, Nat.eqb_refl.
    + intros Hj. destruct (negb _ && _); [done|]. by apply IH with j.
Qed.
Lemma target_none l i : target_of l i = None <-> forall j s, l !! j = Some (i, s) -> sm_done s = true.
Proof.
  induction l as [|[k s] l IH]; cbn; [done|]. destruct (sm_done s) eqn:Ed; cbn.
  - rewrite IH. split.
    + intros H [|j] s'; cbn; [intros [= -> ->]; done|apply H].
    + intros H j s' Hj. by apply (H (S j) s').
  - destruct (Nat.eqb_spec k i) as [->|Hne].
    + split; [done|]. intros H. specialize (H 0 s eq_refl). congruence.
    + rewrite IH. split.
      * intros H [|j] s'; cbn; [intros [= -> ->]; done|apply H].
      * intros H j s' Hj. by apply (H (S j) s').
Qed.

(** where every parameter is heading *)
Definition ev_params (e : exec) : list f32 :=
  imap (fun i v => default v (target_of (ex_sm e) i)) (np_params (ex_prog e)).

Lemma ev_lookup e i : ev_params e !! i = (fun v => default v (target_of (ex_sm e) i)) <$> np_params (ex_prog e) !! i.
Proof. unfold ev_params. by rewrite list_lookup_imap. Qed.

Definition ev (e : exec) : list f32 * list satom := (ev_params e, np_atoms (ex_prog e)).

Record sinv (h : heap) (e : exec) : Prop := {
  si_one : one_each (ex_sm e);
  si_range : forall i v, target_of (ex_sm e) i = Some v -> i < length (np_params (ex_prog e));
  si_ref : forall i v, (i, v) ∈ ex_refresh e -> i < length (np_params (ex_prog e)) /\
     (is_Some (target_of (ex_sm e) i) \/ np_params (ex_prog e) !! i = Some v);
  si_buf : forall i b v, np_inp (ex_prog e) !! i = Some b -> np_params (ex_prog e) !! i = Some v ->
     target_of (ex_sm e) i = None -> i ∉ (ex_refresh e).*1 -> h_bufs h !! b = Some (replicate block_size v);
}.

Lemma sinv_heap h h' e : sinv h e -> (forall b, b ∈ np_inp (ex_prog e) -> h_bufs h' !! b = h_bufs h !! b) -> sinv h' e.
Proof.
  intros [H1 H2 H3 H4] Hb. constructor; try done. intros i b v Hi Hv Ht Hr. rewrite Hb; [by eapply H4|]. by eapply elem_of_list_lookup_2.
Qed.

(** ** Messages *)
Definition applied (A : list f32 * list satom) (m : gmsg) : list f32 * list satom :=
  match m with
  | MClear _ => ([], [])
  | MNewProg p _ => (np_params p, np_atoms p)
  | MAtom i a => (A.1, <[i := a]> A.2)
  | MParam i v => (<[i := v]> A.1, A.2)
  | _ => A
  end.

Lemma find_idx_spec {A} (f : A -> bool) l : match find_idx f l with
  | Some j => exists x, l !! j = Some x /\ f x = true
  | None => forall j x, l !! j = Some x -> f x = false end.
Proof.
  induction l as [|x l IH]; cbn; [done|]. destruct (f x) eqn:E; [by exists x|].
  destruct (find_idx f l) as [j|]; cbn; [exact IH|]. intros [|j] y; cbn; [by intros [= <-]|apply IH].
Qed.

Section msgs.
  Context (finc : f32 -> f32 -> nat -> f32).

  (** setting the smoother at place [j] *)
  Lemma set_sm l j i0 s i (s' : smoother f32) : one_each l -> l !! j = Some (i0, s) ->
    (i0 = i /\ sm_done s = false \/ sm_done s = true /\ target_of l i = None) -> sm_done s' = false ->
    let l' := alter (fun _ => (i, s')) j l in
    one_each l' /\ forall k, target_of l' k = if decide (k = i) then Some (sm_target s') else target_of l k.
  Proof.
    intros Ho Hj Hc Hd l'. assert (Hl : forall k, l' !! k = if decide (k = j) then Some (i, s') else l !! k).
    { intros k. unfold l'. destruct (decide (k = j)) as [->|Hne]; [by rewrite list_lookup_alter, Hj|by rewrite list_lookup_alter_ne]. }
    assert (Hother : forall k t, k <> j -> l !! k = Some (i, t) -> sm_done t = true).
    { intros k t Hne Hk. destruct (sm_done t) eqn:Et; [done|]. destruct Hc as [[-> Hs]|[_ Hn]].
      - exfalso. by eapply Hne, Ho.
      - rewrite (proj1 (target_none l i) Hn k t Hk) in Et. done. }
    assert (Ho' : one_each l').
    { intros j1 j2 i' s1 s2. rewrite !Hl. destruct (decide (j1 = j)) as [->|N1], (decide (j2 = j)) as [->|N2]; intros E1 E2 D1 D2.
      - done.
      - injection E1 as <- <-. exfalso. rewrite (Hother j2 s2 N2 E2) in D2. done.
      - injection E2 as <- <-. exfalso. rewrite (Hother j1 s1 N1 E1) in D1. done.
      - by eapply Ho. }
    split; [done|]. intros k. destruct (decide (k = i)) as [->|Hne].
    - apply target_in with j; [done| |done]. rewrite Hl. by rewrite decide_True.
    - destruct (target_of l k) as [v|] eqn:E.
      + destruct (target_some _ _ _ E) as (j' & t & Hj' & Dt & <-). apply target_in with j'; [done| |done].
        rewrite Hl. destruct (decide (j' = j)) as [->|]; [|done]. rewrite Hj in Hj'. injection Hj' as -> ->.
        destruct Hc as [[-> _]|[? _]]; [done|congruence].
      + apply target_none. intros j' t. rewrite Hl. destruct (decide (j' = j)) as [->|]; [intros [= -> ->]; done|].
        by apply target_none.
  Qed.

  Lemma param_sinv h e i v : sinv h e -> smoother_free e i ->
    sinv h (exec_set_param finc e i v) /\ ev (exec_set_param finc e i v) = applied (ev e) (MParam i v).
  Proof.
    intros Hs Hf. unfold exec_set_param. destruct (np_params (ex_prog e) !! i) as [cur|] eqn:Ep.
    2: { split; [done|]. unfold ev, applied. cbn. f_equal. symmetry. apply list_insert_ge.
         unfold ev_params. rewrite imap_length. by apply lookup_ge_None. }
    assert (HA : exists j i0 s, ex_sm e !! j = Some (i0, s) /\ (i0 = i /\ sm_done s = false \/ sm_done s = true /\ target_of (ex_sm e) i = None) /\
      match find_idx (fun s => negb (sm_done s.2) && (s.1 =? i)) (ex_sm e) with
        | Some j => with_sm e (alter (fun s => (s.1, sm_set finc s.2 cur v)) j (ex_sm e))
        | None =>
            match find_idx (fun s => sm_done s.2) (ex_sm e) with
            | Some j => with_sm e (alter (fun s => (i, sm_set finc s.2 cur v)) j (ex_sm e))
            | None => e
            end
        end = with_sm e (alter (fun _ => (i, sm_set finc s cur v)) j (ex_sm e))).
    { assert (Halt : forall (g : nat * smoother f32 -> nat * smoother f32) j x y, ex_sm e !! j = Some x -> g x = y -> alter g j (ex_sm e) = alter (fun _ => y) j (ex_sm e)).
      { intros g j x y Hj Hg. apply list_eq. intros k. destruct (decide (j = k)) as [->|Hne]; [|by rewrite !list_lookup_alter_ne].
        rewrite !list_lookup_alter, Hj. cbn. by rewrite Hg. }
      pose proof (find_idx_spec (fun s => negb (sm_done s.2) && (s.1 =? i)) (ex_sm e)) as F1. destruct (find_idx _ _) as [j|].
      - destruct F1 as ([i0 s] & Hj & [H1 H2]%andb_true_iff). cbn in H1, H2. apply Nat.eqb_eq in H2 as ->. apply negb_true_iff in H1.
        exists j, i, s. split; [done|]. split; [by left|]. by erewrite Halt.
      - assert (Hn : target_of (ex_sm e) i = None).
        { apply target_none. intros j s Hj. pose proof (F1 j (i, s) Hj) as H. cbn in H. rewrite Nat.eqb_refl, andb_true_r in H. by apply negb_false_iff in H. }
        pose proof (find_idx_spec (fun s : nat * smoother f32 => sm_done s.2) (ex_sm e)) as F2. destruct (find_idx _ _) as [j|].
        + destruct F2 as ([i0 s] & Hj & H1). cbn in H1. exists j, i0, s. split; [done|]. split; [by right|]. by erewrite Halt.
        + exfalso. destruct Hf as ([i0 s] & [j Hj]%elem_of_list_lookup & Hc). pose proof (F2 j _ Hj) as D. cbn in D.
          destruct Hc as [Hc|Hc]; cbn in Hc; [congruence|]. subst i0. rewrite (proj1 (target_none _ _) Hn j s Hj) in D. done. }
    destruct HA as (j & i0 & s & Hj & Hc & ->).
    destruct (set_sm (ex_sm e) j i0 s i (sm_set finc s cur v) (si_one _ _ Hs) Hj Hc eq_refl) as [O1 T1]. cbn [sm_target sm_set] in T1.
    split.
    - constructor; cbn [ex_sm with_sm ex_prog ex_refresh].
      + done.
      + intros k w. rewrite T1. destruct (decide (k = i)) as [->|]; [intros _; by eapply lookup_lt_Some|apply Hs].
      + intros k w Hk. destruct (si_ref _ _ Hs k w Hk) as [H1 H2]. split; [done|]. rewrite T1. destruct (decide (k = i)); [left; by eexists|done].
      + intros k b w Hb Hw. rewrite T1. destruct (decide (k = i)); [done|]. by apply Hs.
    - unfold ev, applied. cbn [ex_prog with_sm fst snd]. f_equal. apply list_eq. intros k. rewrite ev_lookup. cbn [ex_sm with_sm ex_prog]. rewrite T1.
      destruct (decide (k = i)) as [->|Hne].
      + rewrite Ep, list_lookup_insert; [done|]. unfold ev_params. rewrite imap_length. by eapply lookup_lt_Some.
      + rewrite list_lookup_insert_ne by done. by rewrite ev_lookup.
  Qed.
End msgs.

Lemma fill_from_spec vs : forall inp h h', NoDup inp -> fill_from h inp vs = Some h' ->
  (forall x, x ∉ inp -> h_bufs h' !! x = h_bufs h !! x) /\
  (forall i b v c, inp !! i = Some b -> vs !! i = Some v -> h_bufs h !! b = Some c -> h_bufs h' !! b = Some (replicate (length c) v)).
Proof.
  induction vs as [|v vs IH]; intros inp h h' Hnd.
  { destruct inp; cbn [fill_from]; intros [= <-]; (split; [done|]); by intros [|i]. }
  destruct inp as [|b inp]; cbn [fill_from]; [done|].
  - apply NoDup_cons in Hnd as [Hb Hnd]. destruct (buf_fill h b v) as [h1|] eqn:E; cbn [mbind option_bind]; [|done]. intros E2.
    destruct (IH inp h1 h' Hnd E2) as [F G]. split.
    + intros x [H1 H2]%not_elem_of_cons. rewrite F by done. by eapply buf_fill_frame.
    + intros [|i] b' w c; cbn.
      * intros [= <-] [= <-] Hc. rewrite F by done. revert E. unfold buf_fill. rewrite Hc. cbn [mbind option_bind]. intros [= <-]. cbn. by rewrite lookup_insert.
      * intros Hi Hw Hc. apply (G i); [done..|]. rewrite <- Hc. eapply buf_fill_frame; [exact E|]. intros ->. apply Hb. by eapply elem_of_list_lookup_2.
Qed.

Lemma swap_zip_lookup {A} (xs ys : list A) i : (swap_zip xs ys).2 !! i = if decide (i < length xs /\ i < length ys) then xs !! i else ys !! i.
Proof.
  revert ys i. induction xs as [|x xs IH]; intros ys i.
  - cbn. rewrite decide_False by lia. by destruct ys.
  - destruct ys as [|y ys]; cbn.
    + rewrite decide_False by lia. done.
    + specialize (IH ys). destruct (swap_zip xs ys) as [a b]. cbn in *. destruct i as [|i]; cbn.
      * by rewrite decide_True by lia.
      * rewrite IH. destruct (decide _), (decide _); try done; lia.
Qed.

(** installing a program keeps what the buffers hold and where the parameters are heading *)
Lemma install_sinv finc h e p copy h' e' t l : sinv h e -> hok h (owned p ++ owned (ex_prog e) ++ l) -> ready p -> running (ex_prog e) ->
  (forall i v, ev_params e !! i = Some v -> np_params p !! i = Some v) ->
  exec_message finc h e (MNewProg p copy) = Some (h', e', t) ->
  sinv h' e' /\ ev e' = applied (ev e) (MNewProg p copy).
Proof.
  intros Hs Hh Hr Hrun Hpre. cbn [exec_message]. unfold prog_init_inputs.
  destruct (fill_from h (np_inp p) (np_params p)) as [h1|] eqn:E1; cbn [mbind option_bind]; [|done].
  pose proof (proj1 (proj1 Hh)) as Hnd. unfold owned in Hnd. rewrite <- !app_assoc in Hnd.
  apply NoDup_app in Hnd as (N1 & N2 & _).
  destruct (fill_from_spec _ _ _ _ N1 E1) as [F1 F2].
  assert (Hother : forall b, b ∈ np_inp (ex_prog e) -> h_bufs h1 !! b = h_bufs h !! b).
  { intros b Hb. apply F1. intros Hb'. apply (N2 b Hb'). rewrite !elem_of_app. tauto. }
  assert (Hown : forall i b v, np_inp p !! i = Some b -> np_params p !! i = Some v -> h_bufs h1 !! b = Some (replicate block_size v)).
  { intros i b v Hb Hv. destruct (proj2 (proj1 (proj2 (proj1 Hh)) b)) as [c Hc].
    { unfold owned. rewrite !elem_of_app. left. left. by eapply elem_of_list_lookup_2. }
    rewrite (F2 i b v c Hb Hv Hc). by rewrite (proj2 (proj2 (proj1 Hh)) b c Hc). }
  assert (Hlen : length (np_params (ex_prog e)) <= length (np_params p)).
  { destruct (decide (length (np_params (ex_prog e)) = 0)) as [->|Hz]; [lia|].
    destruct (lookup_lt_is_Some_2 (ev_params e) (length (np_params (ex_prog e)) - 1)) as [v Hv].
    { unfold ev_params. rewrite imap_length. lia. }
    apply Hpre, lookup_lt_Some in Hv. lia. }
  pose proof (rn_par _ Hrun) as Hpl. pose proof (rd_par _ Hr) as Hrl.
  assert (Hsw : exists inp prev', (if copy then prog_swap p (ex_prog e) else (p, ex_prog e)) = (with_inp p inp, prev') /\ length inp = length (np_inp p) /\
     forall i b, inp !! i = Some b -> np_inp (ex_prog e) !! i = Some b \/ np_inp p !! i = Some b).
  { destruct copy; [|exists (np_inp p), (ex_prog e); split; [by destruct p|]; split; [done|]; by right].
    unfold prog_swap. rewrite (rd_unlocked _ Hr).
    set (prev1 := if np_locked (ex_prog e) then prog_unlock (ex_prog e) else ex_prog e).
    assert (Ei : np_inp prev1 = np_inp (ex_prog e)) by (unfold prev1; by destruct (np_locked _)).
    pose proof (swap_zip_lookup (np_inp prev1) (np_inp p)) as Hl. pose proof (swap_zip_length (np_inp prev1) (np_inp p)) as [_ Hl2].
    destruct (swap_zip (np_inp prev1) (np_inp p)) as [a b]. cbn [snd] in *. exists b, (with_inp prev1 a). split; [done|]. split; [done|].
    intros i x. rewrite Hl, Ei. destruct (decide _); [by left|by right]. }
  destruct Hsw as (inp & prev' & -> & Li & Hinp).
  destruct (ready_assign (with_inp p inp) (ready_with_inp _ _ Hr Li)) as (p' & -> & _ & _ & Hi & Hp & Ha & _ & _).
  cbn [mbind option_bind]. intros [= <- <- <-]. cbn in Hi, Hp, Ha.
  assert (Htv : forall i v w, target_of (ex_sm e) i = Some w -> np_params p !! i = Some v -> v = w).
  { intros i v w Ht Hv. pose proof (si_range _ _ Hs i w Ht) as Hlt. destruct (lookup_lt_is_Some_2 _ _ Hlt) as [x Hx].
    assert (Hw : ev_params e !! i = Some w) by (rewrite ev_lookup, Hx; cbn; by rewrite Ht).
    apply Hpre in Hw. congruence. }
  split.
  - constructor; cbn [ex_sm ex_prog ex_refresh]; rewrite ?Hp, ?Hi.
    + apply Hs.
    + intros i v Ht. pose proof (si_range _ _ Hs i v Ht). lia.
    + intros i v Hv. destruct (si_ref _ _ Hs i v Hv) as [H1 H2]. split; [lia|].
      destruct (target_of (ex_sm e) i) as [w|] eqn:Et; [left; by eexists|]. right. destruct H2 as [[? ?]|H2]; [done|].
      apply Hpre. rewrite ev_lookup, H2, Et. done.
    + intros i b v Hb Hv Ht Hx. destruct (Hinp i b Hb) as [Hb'|Hb']; [|by eapply Hown].
      rewrite Hother by (by eapply elem_of_list_lookup_2).
      assert (Hlt : i < length (np_params (ex_prog e))) by (rewrite Hpl; by eapply lookup_lt_Some).
      destruct (lookup_lt_is_Some_2 _ _ Hlt) as [w Hw].
      assert (Hev : ev_params e !! i = Some w) by (rewrite ev_lookup, Hw, Ht; done).
      apply Hpre in Hev. assert (w = v) as -> by congruence. by eapply Hs.
  - unfold ev, applied. cbn [ex_prog]. rewrite Ha. f_equal. apply list_eq. intros i. rewrite ev_lookup. cbn [ex_prog ex_sm]. rewrite Hp.
    destruct (np_params p !! i) as [v|] eqn:Ev; [|done]. cbn. f_equal.
    destruct (target_of (ex_sm e) i) as [w|] eqn:Et; [|done]. cbn. symmetry. by eapply Htv.
Qed.

(** what a program that is still in the queue has to agree with *)
Definition fits_msg (A : list f32 * list satom) (m : gmsg) : Prop :=
  match m with
  | MNewProg p _ => forall i v, A.1 !! i = Some v -> np_params p !! i = Some v
  | MAtom i _ => i < length A.2
  | _ => True
  end.

Lemma message_sinv finc h e m h' e' t l : sinv h e -> hok h (mjoin (owned <$> msg_progs m) ++ owned (ex_prog e) ++ l) ->
  msg_ready m -> running (ex_prog e) -> calm_message e m -> fits_msg (ev e) m ->
  exec_message finc h e m = Some (h', e', t) -> sinv h' e' /\ ev e' = applied (ev e) m.
Proof.
  intros Hs Hh Hm Hrun Hc Hf. destruct m as [p|p copy|i a|i v|i a|bufs]; cbn [msg_progs fmap list_fmap mjoin list_join] in Hh.
  - cbn [exec_message]. intros [= <- <- <-]. cbn in Hm. subst p. destruct Hc as [Hc1 Hc2].
    assert (Hn : forall i, target_of (ex_sm e) i = None).
    { intros i. apply target_none. intros j s Hj. apply (Hc1 (i, s)). by eapply elem_of_list_lookup_2. }
    split; [|done]. constructor; cbn; [apply Hs| | |done].
    + intros i v. by rewrite Hn.
    + intros i v. rewrite Hc2. by intros ?%elem_of_nil.
  - rewrite app_nil_r in Hh. intros E. by eapply install_sinv.
  - cbn [exec_message]. destruct (Nat.ltb_spec i (length (np_atoms (ex_prog e)))); [|done]. intros [= <- <- <-].
    split; [|done]. by destruct Hs; constructor.
  - cbn [exec_message]. intros E. apply (inj Some) in E. injection E as <- <- <-. by apply param_sinv.
  - cbn [exec_message]. intros E. apply (inj Some) in E. injection E as <- <- <-. unfold exec_set_modamt.
    destruct (np_mods (ex_prog e) !! i); [|done]. split; [|done]. by destruct Hs; constructor.
  - cbn [exec_message]. intros [= <- <- <-]. split; [|done]. by destruct Hs; constructor.
Qed.
