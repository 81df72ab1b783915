(** C53: what an observer and the generation counter tell *)
From stdpp Require Import strings.
From Verif Require Import Base M_Atom M_Graph M_Dir M_Grid S_Grid M_Layout M_Prog M_Conf S_Conf M_Exec M_Sync S_Sync L_Sync M_Nodes M_Repr M_Patch P_Conf M_Obs S_Obs L_Obs.
Open Scope nat_scope.

(** A property that reads differently after a call: the observer was told of it, or of everything. *)
Theorem C53_property_told (T : ntable) (i2f : Z -> f32) (load_sample : satom -> satom) (HT : table_ok T) h o c h' o' ms ns r k :
  made T i2f load_sample h o -> ob_on o = true -> obs_step T i2f load_sample h o c = Some (h', o', ms, ns, r) ->
  obs_get_prop o' k <> obs_get_prop o k -> told ns (NProp k).
Proof. intros Hm Ho E H. eapply (step_facts T HT) in E as F; [|by apply (made_reach T HT)]. by apply (fa_prop _ _ _ _ _ _ _ F k). Qed.
Print Assumptions C53_property_told.

(** A parameter whose value or modulation amount reads differently after a call: the observer was told of it, of everything, or that the
    graph has changed. This holds for every call but changes of modulation amounts, and for those of them that set an amount
    where there was none or take one away, on a matrix without unpublished changes. *)
Theorem C53_parameter_told_partial (T : ntable) (i2f : Z -> f32) (load_sample : satom -> satom) (HT : table_ok T) h o c h' o' ms ns r p :
  made T i2f load_sample h o -> ob_on o = true -> obs_step T i2f load_sample h o c = Some (h', o', ms, ns, r) ->
  tells_all T o c ->
  value_of T o' p <> value_of T o p \/ amount_of o' p <> amount_of o p -> told ns (NParam p) \/ NMatrix ∈ ns.
Proof. intros Hm Ho E Ht H. eapply (step_facts T HT) in E as F; [|by apply (made_reach T HT)]. by apply (fa_param_told _ _ _ _ _ _ _ F p). Qed.
Print Assumptions C53_parameter_told_partial.

(** Properties hold the value they were given last, by a call or a loaded patch *)
Theorem C53_property_value (T : ntable) (i2f : Z -> f32) (load_sample : satom -> satom) h o c h' o' ms ns r k :
  obs_step T i2f load_sample h o c = Some (h', o', ms, ns, r) -> obs_get_prop o' k = property_after c k (obs_get_prop o k).
Proof.
  unfold obs_get_prop. destruct c as [l| | |p a|p v|rp|c|k' v|]; cbn [obs_step property_after].
  - destruct (lop_pure l); [destruct (lay_step _ _ l) as [[l' r']|]; cbn [mbind option_bind]; [|done]|]; by intros [= <- <- <- <- <-].
  - intros E. apply obs_sync_spec in E as (_ & -> & _). done.
  - unfold obs_clear. destruct (conf_delete_nodes _) as [c ms1]. destruct (obs_monitor _ _) as [[o1 ms2] ns2] eqn:Em.
    destruct (obs_sync _ _ _) as [[[[[h2 o2] ms3] ns3] e]|] eqn:Es; cbn [mbind option_bind]; [|done]. intros [= <- <- <- <- <-].
    apply obs_sync_spec in Es as (_ & -> & _). unfold obs_monitor in Em. destruct (matrix_monitor _ _) as [m ms4]. injection Em as <- <- <-. done.
  - unfold obs_set_param. destruct (matrix_set_param _ _ _ _ _ _) as [m ms1]. by intros [= <- <- <- <- <-].
  - unfold obs_set_modamt. destruct (conf_set_modamt _ _ _ _) as [[c ms1] b]. destruct b; [|by intros [= <- <- <- <- <-]].
    destruct (obs_sync _ _ _) as [[[[[h2 o2] ms3] ns3] e]|] eqn:Es; cbn [mbind option_bind]; [|done]. intros [= <- <- <- <- <-].
    apply obs_sync_spec in Es as (_ & E & _). cbn [ob_props] in *. by rewrite E.
  - unfold obs_load. destruct (obs_clear T h o) as [[[[h1 o1] ms1] ns1]|] eqn:Ec; cbn [mbind option_bind]; [|done].
    destruct (matrix_load _ _ _ _ _ _ _) as [m ms2]. destruct (foldm load_cell _ _) as [l|]; cbn [mbind option_bind]; [|done].
    destruct (obs_sync _ _ _) as [[[[[h2 o2] ms3] ns3] e]|] eqn:Es; cbn [mbind option_bind]; [|done]. intros [= <- <- <- <- <-].
    apply obs_sync_spec in Es as (_ & -> & _). cbn [ob_props].
    assert (ob_props o1 = ∅) as ->.
    { unfold obs_clear in Ec. destruct (conf_delete_nodes _) as [c ms5]. destruct (obs_monitor _ _) as [[o3 ms6] ns2] eqn:Em.
      destruct (obs_sync _ _ _) as [[[[[h4 o4] ms7] ns7] e7]|] eqn:Es; cbn [mbind option_bind] in Ec; [|done]. injection Ec as <- <- <- <-.
      apply obs_sync_spec in Es as (_ & -> & _). unfold obs_monitor in Em. destruct (matrix_monitor _ _) as [m9 ms4]. injection Em as <- <- <-. done. }
    induction (mr_props rp) as [|[k1 v1] ps IH] using rev_ind; [done|]. rewrite foldl_app, omap_app. cbn [foldl fst snd omap list_omap].
    destruct (decide (k1 = k)) as [->|Hk].
    + by rewrite lookup_insert, last_snoc.
    + by rewrite lookup_insert_ne, app_nil_r.
  - unfold obs_monitor. destruct (matrix_monitor _ _) as [m ms1]. by intros [= <- <- <- <- <-].
  - intros [= <- <- <- <- <-]. cbn [ob_props]. destruct (decide (k' = k)) as [->|Hk]; [by rewrite lookup_insert|by rewrite lookup_insert_ne].
  - intros [= <- <- <- <- <-]. done.
Qed.
Print Assumptions C53_property_value.

(** The last cell that the observer is given is the monitored one; if it is given none, the monitored cell is unchanged. *)
Theorem C53_monitor_told_partial (T : ntable) (i2f : Z -> f32) (load_sample : satom -> satom) (HT : table_ok T) h o c h' o' ms ns r :
  made T i2f load_sample h o -> ob_on o = true -> obs_step T i2f load_sample h o c = Some (h', o', ms, ns, r) ->
  tells_all T o c -> monitored o' = default (monitored o) (last_monitor ns).
Proof. intros Hm Ho E Ht. eapply (step_facts T HT) in E as F; [|by apply (made_reach T HT)]. by apply (fa_mon _ _ _ _ _ _ _ F). Qed.
Print Assumptions C53_monitor_told_partial.

(** The observer is told that the graph has changed exactly if the audio thread is sent a new program, for all calls but changes of
    modulation amounts. *)
Theorem C53_program_told_partial (T : ntable) (i2f : Z -> f32) (load_sample : satom -> satom) (HT : table_ok T) h o c h' o' ms ns r :
  made T i2f load_sample h o -> ob_on o = true -> obs_step T i2f load_sample h o c = Some (h', o', ms, ns, r) ->
  is_modamt c = false -> program_sent ms <-> NMatrix ∈ ns.
Proof. intros Hm Ho E Ht. eapply (step_facts T HT) in E as F; [|by apply (made_reach T HT)]. by apply (fa_prog_told _ _ _ _ _ _ _ F). Qed.
Print Assumptions C53_program_told_partial.

(** An observer that starts with a copy of the matrix and reads again what it is told of has a copy of the matrix after any history of
    calls that leave nothing untold. *)
Theorem C53_copy_up_to_date_partial (T : ntable) (i2f : Z -> f32) (load_sample : satom -> satom) (HT : table_ok T) h o m tr h' o' m' :
  made T i2f load_sample h o -> ob_on o = true -> same_mirror m (mirror_of T o) ->
  follows T i2f load_sample (h, o) m tr (h', o') m' -> same_mirror m' (mirror_of T o').
Proof.
  intros Hm Ho Hs Hf. apply (proj2 (A := made T i2f load_sample h' o' /\ ob_on o' = true)).
  remember (h, o) as s eqn:Es. remember (h', o') as s' eqn:Es'. revert h o Es h' o' Es' Hm Ho Hs.
  induction Hf as [s m|s m tr h1 o1 m1 c h2 o2 ms ns r m2 Hf IH Ht E Hr]; intros h o -> h' o' Es' Hm Ho Hs.
  { injection Es' as <- <-. done. }
  injection Es' as <- <-. destruct (IH h o eq_refl h1 o1 eq_refl Hm Ho Hs) as [[Hm1 Ho1] Hs1]. clear IH.
  pose proof (made_snoc T i2f load_sample _ _ _ _ _ _ _ _ Hm1 E) as Hm2.
  eapply (step_facts T HT) in E as F; [|by apply (made_reach T HT)]. split; [split; [done|by apply (fa_on _ _ _ _ _ _ _ F)]|].
  assert (forall (A : Type) (x y : option A), EqDecision A -> ~ (x <> y) -> x = y) as Hdec.
  { intros A x y HA H. destruct (decide (x = y)); done. }
  destruct Hs1 as [P1 V1 A1 N1]. destruct Hr as [R1 R2 R3 R4 R5]. cbn [mirror_of mi_prop mi_value mi_amount mi_mon] in *.
  assert (forall l n, Decision (told l n)) as Dt by (intros; unfold told; apply _).
  assert (forall k, obs_get_prop o2 k <> obs_get_prop o1 k -> told ns (NProp k)) as Fp by (intros k H; by apply (fa_prop _ _ _ _ _ _ _ F k)).
  assert (forall p, value_of T o2 p <> value_of T o1 p \/ amount_of o2 p <> amount_of o1 p -> told ns (NParam p) \/ NMatrix ∈ ns) as Fv
    by (intros p H; by apply (fa_param_told _ _ _ _ _ _ _ F p)).
  constructor; cbn [mirror_of mi_prop mi_value mi_amount mi_mon].
  - intros k. destruct (Dt ns (NProp k)) as [Hy|Hy]; [by apply R1|]. rewrite R2, P1 by done. symmetry. apply Hdec; [apply _|]. auto.
  - intros p. assert (Decision (told ns (NParam p) \/ NMatrix ∈ ns)) as [Hy|Hy] by apply _; [by apply R3|].
    destruct (R4 p Hy) as [-> _]. rewrite V1. symmetry. apply Hdec; [apply _|]. auto.
  - intros p. assert (Decision (told ns (NParam p) \/ NMatrix ∈ ns)) as [Hy|Hy] by apply _; [by apply R3|].
    destruct (R4 p Hy) as [_ ->]. rewrite A1. symmetry. apply Hdec; [apply _|]. auto.
  - rewrite R5, N1. symmetry. by apply (fa_mon _ _ _ _ _ _ _ F).
Qed.
Print Assumptions C53_copy_up_to_date_partial.

(** An observer is only told of what a call was about. *)
Theorem C53_no_false_alarm (T : ntable) (i2f : Z -> f32) (load_sample : satom -> satom) h o c h' o' ms ns r n :
  obs_step T i2f load_sample h o c = Some (h', o', ms, ns, r) -> n ∈ ns -> ob_on o = true /\ caused c n.
Proof.
  destruct c as [l| | |p a|p v|rp|c|k v|]; cbn [obs_step].
  - destruct (lop_pure l); [destruct (lay_step _ _ l) as [[l' r']|]; cbn [mbind option_bind]; [|done]|]; intros [= <- <- <- <- <-]; by intros ?%elem_of_nil.
  - intros E H. apply sync_notes with (n := n) in E as [Ho [-> | [x ->]]]; [..|exact H]; (split; [done|]); cbn; auto.
  - destruct (obs_clear T h o) as [[[[h1 o1] ms1] ns1]|] eqn:Ec; cbn [mbind option_bind]; [|done]. intros [= <- <- <- <- <-] H.
    apply clear_notes with (n := n) in Ec as [Ho [-> | [-> | [x ->]]]]; [..|exact H]; (split; [done|]); cbn; auto.
  - unfold obs_set_param. destruct (matrix_set_param _ _ _ _ _ _) as [m ms1]. intros [= <- <- <- <- <-]. unfold tell. cbn [ob_on].
    destruct (ob_on o); [|by intros ?%elem_of_nil]. intros ->%elem_of_list_singleton. split; [done|]. left. by eexists.
  - unfold obs_set_modamt. destruct (conf_set_modamt _ _ _ _) as [[c ms1] b]. destruct b; cbn [mbind option_bind].
    + destruct (obs_sync T h _) as [[[[[h2 o2] ms3] ns3] e2]|] eqn:Es; cbn [mbind option_bind]; [|done]. intros [= <- <- <- <- <-] H.
      apply elem_of_app in H as [H|H].
      * unfold tell in H. destruct (ob_on o); [|by apply elem_of_nil in H]. apply elem_of_list_singleton in H as ->. split; [done|]. right. by eexists.
      * by apply sync_notes with (n := n) in Es as [? _].
    + intros [= <- <- <- <- <-]. by intros ?%elem_of_nil.
  - unfold obs_load. destruct (obs_clear T h o) as [[[[h1 o1] ms1] ns1]|] eqn:Ec; cbn [mbind option_bind]; [|done].
    pose proof (clear_on _ _ _ _ _ _ _ Ec) as Ho1.
    destruct (matrix_load _ _ _ _ _ _ _) as [m2 ms2]. destruct (foldm load_cell _ _) as [l|]; cbn [mbind option_bind]; [|done].
    destruct (obs_sync T h1 _) as [[[[[h2 o2] ms3] ns3] e2]|] eqn:Es; cbn [mbind option_bind]; [|done]. intros [= <- <- <- <- <-] H.
    pose proof (sync_on _ _ _ _ _ _ _ _ Es) as Ho2. cbn [ob_on] in Ho2.
    rewrite !elem_of_app in H. destruct H as [H|[H|H]].
    + apply clear_notes with (n := n) in Ec as [Ho [-> | [-> | [x ->]]]]; [..|exact H]; (split; [done|]); cbn; eauto 10.
    + apply sync_notes with (n := n) in Es as [Ho [-> | [x ->]]]; [..|exact H]; cbn [ob_on] in Ho; (split; [congruence|]); cbn; eauto 10.
    + unfold tell in H. rewrite Ho2, Ho1 in H. destruct (ob_on o); [|by apply elem_of_nil in H]. apply elem_of_list_singleton in H as ->.
      split; [done|]. cbn; eauto.
  - unfold obs_monitor, matrix_monitor. intros [= <- <- <- <- <-]. unfold tell. cbn [ob_on mx_mon].
    destruct (ob_on o); [|by intros ?%elem_of_nil]. intros ->%elem_of_list_singleton. split; [done|]. by left.
  - unfold obs_set_prop. intros [= <- <- <- <- <-]. unfold tell. cbn [ob_on].
    destruct (ob_on o); [|by intros ?%elem_of_nil]. intros ->%elem_of_list_singleton. split; [done|]. by eexists.
  - intros [= <- <- <- <- <-]. by intros ?%elem_of_nil.
Qed.
Print Assumptions C53_no_false_alarm.

(** If the generation is the same at the end of a history as at its start, nothing has changed in between: every property, value and
    modulation amount is the same and no program was sent to the audio thread. Changes of modulation amounts that fail are left out. *)
Theorem C53_generation_partial (T : ntable) (i2f : Z -> f32) (load_sample : satom -> satom) (HT : table_ok T) h o tr h' o' :
  made T i2f load_sample h o -> history T i2f load_sample (h, o) tr (h', o') -> no_failed_modamt tr ->
  ob_gen o <= ob_gen o' /\
  (ob_gen o' = ob_gen o ->
   (forall k, obs_get_prop o' k = obs_get_prop o k) /\
   (forall p, value_of T o' p = value_of T o p /\ amount_of o' p = amount_of o p) /\
   (forall c ms ns r, (c, ms, ns, r) ∈ tr -> ~ program_sent ms)).
Proof.
  intros Hm Hh. remember (h, o) as s eqn:Es. remember (h', o') as s' eqn:Es'. revert h o Es h' o' Es' Hm.
  induction Hh as [s|s tr h1 o1 c h2 o2 ms ns r Hh IH E]; intros h o -> h' o' Es' Hm Hnf.
  { injection Es' as <- <-. split; [done|]. intros _. split; [done|]. split; [done|]. by intros ? ? ? ? ?%elem_of_nil. }
  injection Es' as <- <-. destruct (IH h o eq_refl h1 o1 eq_refl Hm) as [Hle Hsame].
  { intros ? ? ? ? Hin. eapply Hnf. apply elem_of_app. left. exact Hin. }
  pose proof (made_history T i2f load_sample _ _ _ Hh Hm) as Hm1. cbn [fst snd] in Hm1.
  eapply (step_facts T HT) in E as F; [|by apply (made_reach T HT)]. pose proof (fa_le _ _ _ _ _ _ _ F) as Hle2. split; [lia|].
  intros Hg. destruct Hsame as (P & V & N); [lia|].
  assert (ob_gen o2 = ob_gen o1) as Hg2 by lia. split; [|split].
  - intros k. rewrite <- P. destruct (decide (obs_get_prop o2 k = obs_get_prop o1 k)) as [|Hne]; [done|]. apply (fa_prop _ _ _ _ _ _ _ F) in Hne as [? _]. lia.
  - intros p. destruct (V p) as [<- <-].
    destruct (decide (value_of T o2 p = value_of T o1 p)) as [|Hne]; [destruct (decide (amount_of o2 p = amount_of o1 p)) as [|Hne]; [done|]|]; exfalso.
    + assert (ob_gen o1 < ob_gen o2); [|lia]. apply (fa_param _ _ _ _ _ _ _ F p); [by right|]. intros Hmod. eapply Hnf; [|exact Hmod].
      apply elem_of_app. right. by left.
    + assert (ob_gen o1 < ob_gen o2); [|lia]. apply (fa_param _ _ _ _ _ _ _ F p); [by left|]. intros Hmod. eapply Hnf; [|exact Hmod].
      apply elem_of_app. right. by left.
  - intros c' ms' ns' r' [Hin|Hin]%elem_of_app; [by eapply N|]. apply elem_of_list_singleton in Hin. injection Hin as -> -> -> ->.
    intros H. apply (fa_prog _ _ _ _ _ _ _ F) in H. lia.
Qed.
Print Assumptions C53_generation_partial.

(** Setting a modulation amount tells the observer of the parameter exactly if there was none before or it is taken away. *)
Theorem C53_amount_exact (T : ntable) (i2f : Z -> f32) (load_sample : satom -> satom) h o p v h' o' ms ns r :
  ob_on o = true -> obs_step T i2f load_sample h o (OModamt p v) = Some (h', o', ms, ns, r) ->
  NParam p ∈ ns <-> is_atom T p = false /\ (amount_of o p = None \/ v = None).
Proof.
  intros Ho. cbn [obs_step]. unfold obs_set_modamt. destruct (set_modamt_facts T i2f (mx_conf (ob_mx o)) p v p) as (_ & _ & _ & _ & F).
  unfold amount_of. destruct (conf_set_modamt _ _ _ _) as [[c ms1] b]. cbn [fst snd] in F. rewrite <- F. destruct b; cbn [mbind option_bind].
  - destruct (obs_sync T h _) as [[[[[h2 o2] ms3] ns3] e2]|] eqn:Es; cbn [mbind option_bind]; [|done]. intros [= <- <- <- <- <-].
    unfold tell. rewrite Ho. split; [done|]. intros _. by left.
  - intros [= <- <- <- <- <-]. split; [by intros ?%elem_of_nil|done].
Qed.
Print Assumptions C53_amount_exact.

(** After a successful synchronisation the matrix has no unpublished changes. *)
Theorem C53_published (T : ntable) (i2f : Z -> f32) (load_sample : satom -> satom) (HT : table_ok T) h o h' o' ms ns :
  made T i2f load_sample h o -> obs_step T i2f load_sample h o OSync = Some (h', o', ms, ns, None) -> up_to_date T o'.
Proof.
  intros Hm E. cbn [obs_step] in E. apply obs_sync_spec in E as (E & _). destruct (made_reach T HT _ _ _ _ Hm) as [sent Hr].
  by apply (sync_up_to_date T HT _ _ _ _ _ (matrix_reachable_inv T HT i2f load_sample _ _ _ Hr) E).
Qed.
Print Assumptions C53_published.

(** ** What is not told *)

Section examples.
  Local Notation run := (obs_run demo_table (fun z => z) (fun a => a)).
  Local Notation made_demo := (made demo_table (fun z => z) (fun a => a)).
  Local Notation call := (obs_step demo_table (fun z => z) (fun a => a)).

  (** changing a modulation amount that is already set *)
  Definition amount_calls : list ocall := [OObserver; OModamt (NId 1 0, 0) (Some 5%Z)].
  Definition amount_check : option (bool * option f32 * option f32 * list note) :=
    let* (h, o, _) := run 2 2 amount_calls in
    let* (_, o', _, ns, _) := call h o (OModamt (NId 1 0, 0) (Some 6%Z)) in
    Some (ob_on o, amount_of o (NId 1 0, 0), amount_of o' (NId 1 0, 0), ns).
  Lemma amount_checked : amount_check = Some (true, Some 5%Z, Some 6%Z, []).
  Proof. vm_compute. reflexivity. Qed.

  (** changing one on a board with a cycle *)
  Definition cycle_calls : list ocall :=
    [OObserver; OLay (LPlace 0 0 (Cell (NId 1 0) 0 0 None None (Some 0) None None None));
     OLay (LPlace 0 1 (Cell (NId 1 0) 0 0 None None None (Some 0) None None))].
  Definition cycle_check : option (option f32 * option f32 * bool * option merror) :=
    let* (h, o, _) := run 2 2 cycle_calls in
    let* (_, o', _, _, r) := call h o (OModamt (NId 1 0, 0) (Some 6%Z)) in
    Some (amount_of o (NId 1 0, 0), amount_of o' (NId 1 0, 0), ob_gen o' =? ob_gen o, r).
  Lemma cycle_checked : cycle_check = Some (None, Some 6%Z, true, Some CycleDetected).
  Proof. vm_compute. reflexivity. Qed.

  (** changing one on a board with a new cell *)
  Definition new_cell : cell := Cell (NId 1 0) 0 0 None None None None None None.
  Definition publish_calls : list ocall := [OObserver; OLay (LPlace 0 0 new_cell)].
  Definition publish_check : option (bool * option satom * option satom * bool * (cell * cell) * bool * list note) :=
    let* (h, o, _) := run 2 2 publish_calls in
    let* (_, o', ms, ns, _) := call h o (OModamt (NId 2 0, 0) (Some 6%Z)) in
    Some (ob_on o, value_of demo_table o (NId 1 0, 1), value_of demo_table o' (NId 1 0, 1),
          match ms with MNewProg _ _ :: _ => true | _ => false end, (monitored o, monitored o'), ob_gen o <? ob_gen o', ns).
  Lemma publish_checked : publish_check = Some (true, None, Some (AParam 11%Z), true, (cell_empty Nop, new_cell), true, [NParam (NId 2 0, 0)]).
  Proof. vm_compute. reflexivity. Qed.

  (** Changing a modulation amount from one value to another does not tell the observer anything. *)
  Theorem C53_amount_change_silent_refuted : exists T i2f load_sample h o p v h' o' ms r, table_ok T /\ made T i2f load_sample h o /\ ob_on o = true /\
    obs_step T i2f load_sample h o (OModamt p v) = Some (h', o', ms, [], r) /\ amount_of o' p <> amount_of o p.
  Proof.
    pose proof amount_checked as C. unfold amount_check in C. destruct (run 2 2 amount_calls) as [[[h o] tr]|] eqn:E; cbn [mbind option_bind] in C; [|discriminate C].
    apply run_made in E. destruct (call h o _) as [[[[[h' o'] ms] ns] r]|] eqn:E2; cbn [mbind option_bind] in C; [|discriminate C].
    injection C as C1 C2 C3 ->. exists demo_table, (fun z => z), (fun a => a), h, o, (NId 1 0, 0), (Some 6%Z), h', o', ms, r.
    split; [apply demo_table_ok|]. split; [exact E|]. split; [exact C1|]. split; [exact E2|]. rewrite C2, C3. discriminate.
  Qed.

  (** Changing a modulation amount on a board with a cycle changes what is read, but not the generation. *)
  Theorem C53_generation_refuted : exists T i2f load_sample h o p v h' o' ms ns r, table_ok T /\ made T i2f load_sample h o /\
    obs_step T i2f load_sample h o (OModamt p v) = Some (h', o', ms, ns, r) /\ amount_of o' p <> amount_of o p /\ ob_gen o' = ob_gen o.
  Proof.
    pose proof cycle_checked as C. unfold cycle_check in C. destruct (run 2 2 cycle_calls) as [[[h o] tr]|] eqn:E; cbn [mbind option_bind] in C; [|discriminate C].
    apply run_made in E. destruct (call h o _) as [[[[[h' o'] ms] ns] r]|] eqn:E2; cbn [mbind option_bind] in C; [|discriminate C].
    injection C as C1 C2 C3 C4. exists demo_table, (fun z => z), (fun a => a), h, o, (NId 1 0, 0), (Some 6%Z), h', o', ms, ns, r.
    split; [apply demo_table_ok|]. split; [exact E|]. split; [exact E2|]. split; [rewrite C1, C2; discriminate|]. by apply Nat.eqb_eq.
  Qed.

  (** Changing a modulation amount publishes new cells, creates the values of other parameters and refreshes the monitored cell without
      telling the observer. *)
  Theorem C53_publish_silent_refuted : exists T i2f load_sample h o p q v h' o' ms ns r, table_ok T /\ made T i2f load_sample h o /\ ob_on o = true /\
    obs_step T i2f load_sample h o (OModamt p v) = Some (h', o', ms, ns, r) /\ program_sent ms /\ ns = [NParam p] /\ p <> q /\
    value_of T o' q <> value_of T o q /\ monitored o' <> monitored o.
  Proof.
    pose proof publish_checked as C. unfold publish_check in C. destruct (run 2 2 publish_calls) as [[[h o] tr]|] eqn:E; cbn [mbind option_bind] in C; [|discriminate C].
    apply run_made in E. destruct (call h o _) as [[[[[h' o'] ms] ns] r]|] eqn:E2; cbn [mbind option_bind] in C; [|discriminate C].
    apply (inj Some) in C. repeat (apply pair_equal_spec in C as [C ?]).
    exists demo_table, (fun z => z), (fun a => a), h, o, (NId 2 0, 0), (NId 1 0, 1), (Some 6%Z), h', o', ms, ns, r.
    split; [apply demo_table_ok|]. split; [exact E|]. split; [exact C|]. split; [exact E2|].
    split. { destruct ms as [|[] ms]; try discriminate. eexists _, _. left. }
    split; [assumption|]. split; [discriminate|].
    match goal with H : (monitored _, _) = _ |- _ => apply pair_equal_spec in H as [Hm1 Hm2] end.
    split; [|rewrite Hm1, Hm2; discriminate].
    match goal with H : value_of _ o' _ = _, H' : value_of _ o _ = _ |- _ => rewrite H, H' end. discriminate.
  Qed.

  (** ** Concrete cases *)
  (** an observed history with cells, a monitored cell, values, a modulation amount that is set on a published matrix, and properties *)
  Definition told_calls : list ocall :=
    [OObserver; OLay (LPlace 0 0 new_cell); OLay (LPlace 0 1 (Cell (NId 2 0) 0 0 None None None (Some 0) None None)); OSync;
     OMonitor new_cell; OSet (NId 1 0, 1) (AParam 7%Z); OModamt (NId 1 0, 0) (Some 5%Z); OProp "name"%string (ASetting 3); OModamt (NId 1 0, 0) None; OClear].
  Example C53_case : (let* (h, o, tr) := run 2 2 told_calls in Some (map (fun e : event => (e.1.2, e.2)) tr)) =
    Some [([], None); ([], None); ([], None); ([NMon new_cell; NMatrix], None); ([NMon new_cell], None); ([NParam (NId 1 0, 1)], None);
          ([NParam (NId 1 0, 0)], None); ([NProp "name"%string], None); ([NParam (NId 1 0, 0)], None);
          ([NMon (cell_empty Nop); NMon (cell_empty Nop); NMatrix; NAll], None)].
  Proof. vm_compute. reflexivity. Qed.

  (** the hypotheses on changes of modulation amounts are met *)
  Example C53_case_tells_all : exists h o tr, run 2 2 (take 6 told_calls) = Some (h, o, tr) /\ ob_on o = true /\ monitors_board o /\
    tells_all demo_table o (OModamt (NId 1 0, 0) (Some 5%Z)).
  Proof.
    assert (((fun s : heap * observed * list event => (ob_on s.1.2, amount_of s.1.2 (NId 1 0, 0), monitored s.1.2, board (board_of s.1.2) (0, 0),
        bool_decide (Forall (fun c => c_node c = Nop \/ c_node c ∈ created (mx_conf (ob_mx s.1.2))) (g_cells (board_of s.1.2))),
        created (mx_conf (ob_mx s.1.2)),
        forallb (fun n => forallb (fun i => negb (table_param demo_table n i) || bool_decide (is_Some (value_of demo_table s.1.2 (n, i)))) (seq 0 3))
          (created (mx_conf (ob_mx s.1.2))))) <$> run 2 2 (take 6 told_calls))
      = Some (true, None, new_cell, Some new_cell, true, [NId 1 0; NId 2 0], true)) as C by (vm_compute; reflexivity).
    destruct (run 2 2 (take 6 told_calls)) as [[[h o] tr]|] eqn:E; [|discriminate C]. apply (inj Some) in C. cbn [fst snd] in C.
    repeat (apply pair_equal_spec in C as [C ?]). exists h, o, tr. split; [reflexivity|]. clear E. split; [exact C|].
    assert (monitors_board o) as Hmon.
    { intros c. rewrite H3. cbn [new_cell c_x c_y]. rewrite H2. by intros [= <-]. }
    split; [done|]. cbn [tells_all]. split; [by left|]. split; [|done]. split.
    - intros n [Hn (q & c & Hb & <-)]. apply bool_decide_eq_true in H1. rewrite Forall_forall in H1.
      destruct (H1 c) as [?|?]; [|done..]. unfold board, grid_get in Hb. destruct (decide _) in Hb; [done|].
      destruct (g_cells (board_of o) !! _) as [c'|] eqn:Ec in Hb; cbn in Hb; [|done]. injection Hb as ->. by eapply elem_of_list_lookup_2.
    - intros [n i] Ht Hc. cbn [fst snd] in *. rewrite forallb_forall in H. specialize (H n (proj1 (elem_of_list_In _ _) Hc)).
      rewrite forallb_forall in H. rewrite H0 in Hc.
      assert (i < 3) as Hi.
      { unfold table_param in Ht. apply orb_true_iff in Ht as [Ht|Ht].
        - apply Nat.ltb_lt in Ht. apply elem_of_cons in Hc as [->|Hc%elem_of_list_singleton]; [|subst n]; cbn in Ht; lia.
        - unfold is_atom in Ht. apply andb_true_iff in Ht as [_ Ht]. apply existsb_exists in Ht as (j & Hj & Hji).
          apply in_seq in Hj. apply Nat.eqb_eq in Hji. apply elem_of_cons in Hc as [->|Hc%elem_of_list_singleton]; [|subst n]; cbn in *; lia. }
      specialize (H i). rewrite Ht in H. cbn [negb orb] in H. apply bool_decide_eq_true in H; [done|]. apply in_seq. lia.
  Qed.
End examples.
Print Assumptions C53_amount_change_silent_refuted.
Print Assumptions C53_generation_refuted.
Print Assumptions C53_publish_silent_refuted.
