(** The code of the [Rust1x1] nodes is exchanged while they run (C50) *)
From Verif Require Import Base M_Atom M_Prog M_Dyn S_Dyn L_Dyn.
Open Scope nat_scope.

Section dyn.
  Context {U In Out : Type} (dummy : U) (process : U -> In -> U * Out).
  Local Notation history := (list (dcall U In)).
  Local Notation run := (dyn_run dummy process).
  Local Notation code := (code dummy process).
  Local Notation outputs := (outputs dummy process).

  (** Whatever steps the two threads do in whatever interleaving: what the nodes put out is what they put out if each call happened at
      one moment between its begin and its end. ([rest] is the output of a run that has not yet ended.) *)
  Theorem C50_exchange tr s outs : run dyn_new tr = Some (s, outs) ->
    exists w r (h : history) rest, happened tr w r h /\ outputs h = (Some <$> outs) ++ rest /\
      length rest <= 1 /\ (dy_audio s = AIdle -> rest = []).
  Proof.
    intros E. destruct (linearised _ _ _ _ _ E) as (w & r & h & Hh & HI). exists w, r, h. pose proof (i_outs _ _ _ _ _ _ _ HI) as Ho.
    destruct (linrun (dy_audio s)) as [[k inp]|] eqn:El.
    - destruct Ho as (b & t & u & _ & _ & _ & Ho). exists [Some (process u inp).2]. split; [done|]. split; [done|]. split; [done|].
      intros Ha. by rewrite Ha in El.
    - exists []. rewrite app_nil_r. split; [done|]. split; [done|]. split; [cbn; lia|done].
  Qed.

  (** No call blocks or panics: a thread that is between two calls can make any of its calls, a thread within a call can go on *)
  Theorem C50_total tr s outs : run dyn_new tr = Some (s, outs) ->
    (dy_front s = None -> forall i u, is_Some (dyn_step dummy process s (DSend i u)) /\ is_Some (dyn_step dummy process s (DCreate i))) /\
    (dy_front s <> None -> is_Some (dyn_step dummy process s DPublish)) /\
    match dy_audio s with
    | AIdle => forall k inp, k < length (dy_nodes s) -> is_Some (dyn_step dummy process s (DLook k inp))
    | AUpdate _ _ _ => is_Some (dyn_step dummy process s DUpdate)
    | AProcess _ _ => is_Some (dyn_step dummy process s DProcess)
    end.
  Proof.
    intros E. destruct (linearised _ _ _ _ _ E) as (w & r & h & Hh & HI). split; [|split].
    - intros Hf i u. pose proof (i_front _ _ _ _ _ _ _ HI) as Hw. rewrite Hf in Hw. cbn [dyn_step]. unfold dyn_send, dyn_create. rewrite Hf.
      destruct (dyn_handle dummy s i) as [s2 hd] eqn:Eh. destruct (inv_handle _ _ _ _ _ _ _ _ _ _ HI Hw Hf Eh) as (HI2 & Hh2 & _).
      destruct (lookup_lt_is_Some_2 (dy_bufs s2) (dh_input hd)) as [t Ht]; [by eapply (i_lt _ _ _ _ _ _ _ HI2)|].
      rewrite Ht. cbn [mbind option_bind]. split; [done|]. by destruct (dh_output hd).
    - intros Hf. pose proof (i_front _ _ _ _ _ _ _ HI) as Hw. cbn [dyn_step]. unfold dyn_publish. destruct (dy_front s) as [b|]; [|done].
      destruct Hw as (i & u & hd & t & _ & _ & _ & Ht & _). cbn [mbind option_bind]. by rewrite Ht.
    - assert (Hn : forall k, k < length (dy_nodes s) -> exists b t, dy_nodes s !! k = Some b /\ dy_bufs s !! b = Some t).
      { intros k Hk. destruct (lookup_lt_is_Some_2 (dy_nodes s) k Hk) as [b Hb]. exists b.
        destruct (lookup_lt_is_Some_2 (dy_bufs s) b) as [t Ht]; [by eapply (i_node _ _ _ _ _ _ _ HI)|]. by exists t. }
      pose proof (i_outs _ _ _ _ _ _ _ HI) as Ho. pose proof (i_dirty _ _ _ _ _ _ _ HI) as Hd.
      destruct (dy_audio s) as [|k inp new|k inp] eqn:Ea.
      + intros k inp Hk. cbn [dyn_step]. unfold dyn_look. rewrite Ea. destruct (Hn k Hk) as (b & t & H1 & H2). rewrite H1. cbn [mbind option_bind]. by rewrite H2.
      + cbn [dyn_step]. unfold dyn_update. rewrite Ea.
        assert (exists b t, dy_nodes s !! k = Some b /\ dy_bufs s !! b = Some t) as (b & t & H1 & H2).
        { destruct new; cbn in Ho; [destruct (Hd _ _ eq_refl) as (b & t & H1 & H2 & _)|destruct Ho as (b & t & u & H1 & H2 & _)]; eauto. }
        rewrite H1. cbn [mbind option_bind]. by rewrite H2.
      + cbn [dyn_step]. unfold dyn_process. rewrite Ea. cbn in Ho. destruct Ho as (b & t & u & H1 & H2 & H3 & _).
        rewrite H1. cbn [mbind option_bind]. rewrite H2. cbn [mbind option_bind]. rewrite H3. cbn [mbind option_bind]. by destruct (process u inp).
  Qed.

  (** The frontend never writes to the code that the audio thread works on *)
  Theorem C50_exclusive tr s outs b t : run dyn_new tr = Some (s, outs) -> dy_bufs s !! b = Some t -> tb_in t <> tb_out t.
  Proof.
    intros E Ht. destruct (linearised _ _ _ _ _ E) as (w & r & h & Hh & HI). destruct (i_wf _ _ _ _ _ _ _ HI _ _ Ht) as (_ & _ & _ & _ & _ & H & _). exact H.
  Qed.

  (** ** What the calls do *)
  Lemma newest_kept (h1 h0 : history) k i : created h0 !! k = Some i -> created (h1 ++ h0) !! k = Some i.
  Proof. intros H. induction h1 as [|c h1 IH]; [done|]. destruct c; cbn; [done|by apply lookup_app_l_Some|done]. Qed.
  Lemma code_kept (h1 h0 : history) i k u : created h0 !! k = Some i -> code h0 k = Some u -> (forall v, CSend i v ∉ h1) ->
    code (h1 ++ h0) k = Some (after process u (runs h1 k)).
  Proof.
    intros Hi Hc Hns. induction h1 as [|c h1 IH]; [done|]. feed pose proof IH as IH'. { intros v Hv. apply (Hns v). by right. } clear IH.
    destruct c as [i' v|i'|k' inp]; cbn [app S_Dyn.code runs].
    - rewrite decide_False; [done|]. intros [Hn _]. rewrite (newest_kept _ _ _ _ Hi) in Hn. injection Hn as <-. apply (Hns v). by left.
    - rewrite decide_False; [done|]. intros ->. pose proof (lookup_lt_Some _ _ _ (newest_kept h1 _ _ _ Hi)). lia.
    - destruct (decide (k = k')); [|done]. rewrite IH'. cbn. unfold after. by rewrite foldl_app.
  Qed.

  (** Code that is sent runs from then on, with the state it left in the run before, until other code is sent for that instance: it
      is run by the newest node of the instance, *)
  Theorem C50_runs_what_was_sent (h0 h1 : history) i u k inp : newest h0 i k -> (forall v, CSend i v ∉ h1) ->
    let h := h1 ++ CSend i u :: h0 in
    outputs (CRun k inp :: h) = outputs h ++ [Some (process (after process u (runs h1 k)) inp).2].
  Proof.
    intros Hn Hns h. cbn [S_Dyn.outputs]. unfold h at 2. rewrite (code_kept h1 (CSend i u :: h0) i k u); [done| | |done].
    - apply Hn.
    - cbn [S_Dyn.code]. by rewrite decide_True.
  Qed.

  (** or, if there is no node of the instance yet, by the first that is constructed *)
  Theorem C50_preserved_for_first_use (h0 h1 h2 : history) i u inp : i ∉ created (h1 ++ CSend i u :: h0) ->
    (forall v, CSend i v ∉ h1) -> (forall v, CSend i v ∉ h2) ->
    let k := length (created (h1 ++ CSend i u :: h0)) in
    let h := h2 ++ CCreate i :: h1 ++ CSend i u :: h0 in
    outputs (CRun k inp :: h) = outputs h ++ [Some (process (after process u (runs h2 k)) inp).2].
  Proof.
    intros Hi H1 H2 k h. cbn [S_Dyn.outputs]. unfold h at 2. rewrite (code_kept h2 _ i k u); [done| | |done].
    - cbn. by rewrite lookup_app_r, Nat.sub_diag by (unfold k; lia).
    - cbn [S_Dyn.code]. rewrite decide_True by done. rewrite decide_False by done. f_equal.
      assert (waiting (h1 ++ CSend i u :: h0) i = Some u) as ->; [|done]. clear -H1. induction h1 as [|c h1 IH]; cbn; [by rewrite decide_True|].
      feed pose proof IH as IH'. { intros v Hv. apply (H1 v). by right. } destruct c as [i' v| |]; [|done..]. rewrite decide_False; [done|].
      intros ->. apply (H1 v). by left.
  Qed.

  (** Without code sent for its instance since its construction a node runs the dummy, if no code was sent for the instance at
      all, or if there was already a node of the instance: the code that was sent before does not go over to the new node *)
  Theorem C50_dummy (h0 h1 : history) i inp : i ∈ created h0 \/ (forall v, CSend i v ∉ h0) -> (forall v, CSend i v ∉ h1) ->
    let k := length (created h0) in
    let h := h1 ++ CCreate i :: h0 in
    outputs (CRun k inp :: h) = outputs h ++ [Some (process (after process dummy (runs h1 k)) inp).2].
  Proof.
    intros Hi H1 k h. cbn [S_Dyn.outputs]. unfold h at 2. rewrite (code_kept h1 _ i k dummy); [done| | |done].
    - cbn. by rewrite lookup_app_r, Nat.sub_diag by (unfold k; lia).
    - cbn [S_Dyn.code]. rewrite decide_True by done. f_equal. destruct (decide (i ∈ created h0)) as [|Hn]; [done|]. destruct Hi as [|Hi]; [done|].
      assert (waiting h0 i = None) as ->; [|done]. clear -Hi. induction h0 as [|c h0 IH]; [done|]. cbn.
      feed pose proof IH as IH'. { intros v Hv. apply (Hi v). by right. } destruct c as [i' v| |]; [|done..]. rewrite decide_False; [done|].
      intros ->. apply (Hi v). by left.
  Qed.
End dyn.
Print Assumptions C50_exchange.
Print Assumptions C50_total.
Print Assumptions C50_exclusive.
Print Assumptions C50_runs_what_was_sent.
Print Assumptions C50_preserved_for_first_use.
Print Assumptions C50_dummy.

(** The dummy is silent *)
Theorem C50_dummy_is_silent {V} (p : V -> rin -> V * list f32) (h0 h1 : list (dcall (option V) rin)) i inp :
  i ∈ created h0 \/ (forall v, CSend i v ∉ h0) -> (forall v, CSend i v ∉ h1) ->
  let h := h1 ++ CCreate i :: h0 in
  last (outputs None (rust_process p) (CRun (length (created h0)) inp :: h)) = Some (Some (replicate (ri_frames inp) f32_zero)).
Proof.
  intros Hi H1 h. unfold h. rewrite (C50_dummy None (rust_process p) h0 h1 i inp Hi H1). rewrite last_snoc.
  assert (Hd : forall l, after (rust_process p) None l = None); [|by rewrite Hd].
  intros l. unfold after. induction l as [|x l IH]; [done|]. exact IH.
Qed.
Print Assumptions C50_dummy_is_silent.

(** ** A concrete execution: code [u] counts its runs and adds [u] to the input. The second code is written while the first one is
    fetched: it is not yet used by that run. After the second construction the instance is silent. *)
Definition demo_code (u : option (nat * nat)) (x : nat) : option (nat * nat) * option nat :=
  match u with None => (None, None) | Some (u, n) => (Some (u, S n), Some (u + n + x)) end.
Definition demo_run : list (@dstep (option (nat * nat)) nat) :=
  [DSend 0 (Some (100, 0)); DPublish; DCreate 0; DLook 0 1; DUpdate; DProcess; DSend 0 (Some (200, 0)); DLook 0 2; DPublish; DUpdate;
   DProcess; DLook 0 3; DUpdate; DProcess; DCreate 0; DLook 1 4; DUpdate; DProcess; DLook 0 5; DUpdate; DProcess].
Example C50_case : snd <$> dyn_run None demo_code dyn_new demo_run = Some [Some 101; Some 103; Some 203; None; Some 206].
Proof. reflexivity. Qed.
Definition demo_history : list (dcall (option (nat * nat)) nat) :=
  [CRun 0 5; CRun 1 4; CCreate 0; CRun 0 3; CSend 0 (Some (200, 0)); CRun 0 2; CRun 0 1; CCreate 0; CSend 0 (Some (100, 0))].
Example C50_case_history : happened demo_run None None demo_history.
Proof.
  unfold demo_run, demo_history.
  repeat match goal with
  | |- happened ?l _ _ _ => let l' := eval cbn in (removelast l) in let x := eval cbn in (last l) in
      match x with Some ?x => change l with (l' ++ [x]); first [apply happened_send|apply happened_publish|apply happened_create|apply happened_look|apply happened_update|apply happened_process] end
  end.
  constructor.
Qed.
Example C50_case_outputs : outputs None demo_code demo_history = Some <$> [Some 101; Some 103; Some 203; None; Some 206].
Proof. vm_compute. reflexivity. Qed.
Example C50_case_hypotheses : newest [CRun 0 2; CRun 0 1; CCreate 0; CSend 0 (Some (100, 0))] 0 0 /\
  (forall v : nat * nat, CSend 0 v ∉ [CRun 1 4; CCreate 0; CRun 0 3]) /\ 0 ∈ created (U := nat * nat) (In := nat) [CCreate 0].
Proof. split; [split; set_solver|]. split; set_solver. Qed.
