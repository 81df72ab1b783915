From Verif Require Import Base M_Dir S_Dir L_Dir M_Graph S_Graph L_Graph M_Grid S_Grid L_Grid M_Layout S_Layout.
Open Scope nat_scope.

Definition lop_ind' (P : lop -> Prop)
  (HPlace : forall x y c, P (LPlace x y c)) (HMul : forall cs, P (LPlaceMultiple cs))
  (HCheck : P LCheck) (HSync : P LSync) (HFail : forall e, P (LFail e))
  (HSave : P LSave) (HRestore : P LRestore) (HClear : P LClear)
  (HChange : forall body, Forall P body -> P (LChange body))
  (HChangeErr : forall body, Forall P body -> P (LChangeErr body)) : forall o, P o :=
  fix go o :=
    let all := fix all (os : list lop) : Forall P os :=
      match os with [] => Forall_nil_2 P | o :: os => Forall_cons_2 P o os (go o) (all os) end in
    match o with
    | LPlace x y c => HPlace x y c | LPlaceMultiple cs => HMul cs | LCheck => HCheck | LSync => HSync
    | LFail e => HFail e | LSave => HSave | LRestore => HRestore | LClear => HClear
    | LChange b => HChange b (all b) | LChangeErr b => HChangeErr b (all b)
    end.

Section proofs.
  Context (is_param : node_id -> nat -> bool).
  Notation step := (lay_step is_param).

  Record lay_ok (m : layout) : Prop := {
    ok_wf : grid_wf (lay_grid m);
    ok_order : order_reachable (lay_order m);
    ok_saved : forall cs, lay_saved m = Some cs -> length cs = g_w (lay_grid m) * g_h (lay_grid m);
  }.

  (* what an operation that is not a transaction keeps *)
  Definition same_dims (m m' : layout) : Prop :=
    g_w (lay_grid m') = g_w (lay_grid m) /\ g_h (lay_grid m') = g_h (lay_grid m).

  Lemma ok_new w h : lay_ok (layout_new w h).
  Proof. split; cbn; [apply wf_new|apply order_reachable_new|done]. Qed.

  Lemma same_dims_refl m : same_dims m m.
  Proof. done. Qed.
  Lemma same_dims_trans m1 m2 m3 : same_dims m1 m2 -> same_dims m2 m3 -> same_dims m1 m3.
  Proof. unfold same_dims. intros [? ?] [? ?]. split; congruence. Qed.

  Lemma place_keep m x y c m' : lay_ok m -> layout_place m x y c = Some m' ->
    lay_ok m' /\ same_dims m m' /\ lay_saved m' = lay_saved m.
  Proof.
    intros [Hwf Ho Hs]. unfold layout_place.
    destruct (place_some (lay_grid m) x y c Hwf) as (g' & -> & Hwf' & Hw & Hh & _). cbn.
    intros [= <-]. split_and!; [|done|done].
    split; cbn; [done..|]. intros cs Hcs. rewrite Hw, Hh. by apply Hs.
  Qed.

  Lemma check_keep m m' r : lay_ok m -> layout_check is_param m = Some (m', r) ->
    lay_ok m' /\ lay_grid m' = lay_grid m /\ lay_saved m' = lay_saved m /\
    check_spec (lay_grid m) r /\ lay_edges m' = grid_edges (lay_grid m) /\
    lay_inputs m' = used_inputs is_param (grid_edges (lay_grid m)).
  Proof.
    intros [Hwf Ho Hs]. unfold layout_check.
    destruct (grid_check _ _) as [[[go es] r']|] eqn:Hc; [|done]. cbn. intros [= <- <-].
    destruct (grid_check_sound _ _ _ _ _ Hwf Ho Hc) as (-> & ? & ?). cbn. split_and!; try done.
  Qed.

  Lemma scan_keep m m' : lay_ok m -> layout_scan is_param m = Some m' ->
    lay_ok m' /\ lay_grid m' = lay_grid m /\ lay_saved m' = lay_saved m /\
    lay_edges m' = grid_edges (lay_grid m) /\
    lay_inputs m' = used_inputs is_param (grid_edges (lay_grid m)).
  Proof.
    intros [Hwf Ho Hs]. unfold layout_scan.
    destruct (scan _ _) as [[go es]|] eqn:Hc; [|done]. cbn. intros [= <-]. cbn.
    pose proof (scan_reachable _ _ _ _ Hwf Ho Hc). apply scan_edges in Hc as ->; [|done].
    split_and!; done.
  Qed.

  Lemma sync_keep m m' r : lay_ok m -> layout_sync is_param m = Some (m', r) ->
    lay_ok m' /\ lay_grid m' = lay_grid m /\ lay_saved m' = lay_saved m /\
    lay_edges m' = grid_edges (lay_grid m) /\
    lay_inputs m' = used_inputs is_param (grid_edges (lay_grid m)).
  Proof.
    intros Hok. unfold layout_sync. destruct (layout_scan is_param m) as [m1|] eqn:Hs; [|done].
    cbn. destruct (gord_calculate_order _ _) as [[[go out] ok]|] eqn:Ho; [|done]. cbn. intros [= <- _].
    apply scan_keep in Hs as ([Hwf1 Hr1 Hs1] & ? & ? & ? & ?); [|done]. cbn. split_and!; try done.
    split; cbn; [done| |done]. by eapply order_reachable_order.
  Qed.

  Lemma place_cells_keep cs : forall m m' r, lay_ok m -> layout_place_cells m cs = Some (m', r) ->
    lay_ok m' /\ same_dims m m' /\ lay_saved m' = lay_saved m.
  Proof.
    induction cs as [|c cs IH]; intros m m' r Hok; cbn [layout_place_cells].
    - intros [= <- _]. done.
    - destruct (grid_get _ _ _) as [[ex|]|]; cbn [mbind option_bind]; [| |done].
      + destruct (negb _); [by intros [= <- _]|].
        destruct (layout_place m _ _ c) as [m1|] eqn:Hp; [|done]. cbn [mbind option_bind].
        apply place_keep in Hp as (? & ? & Hsv); [|done]. intros Hr. apply IH in Hr as (? & ? & ?); [|done].
        split_and!; [done|by eapply same_dims_trans|congruence].
      + by intros [= <- _].
  Qed.

  Lemma restore_keep m : lay_ok m -> lay_ok (layout_restore m) /\ same_dims m (layout_restore m).
  Proof.
    intros [Hwf Hr Hs]. unfold layout_restore. destruct (lay_saved m) as [cs|] eqn:Hcs.
    - split; [|done]. split; cbn; [|done|done]. unfold grid_wf; cbn. by apply Hs.
    - split; [|done]. split; [done..|]. congruence.
  Qed.

  Lemma save_keep m : lay_ok m -> lay_ok (layout_save m).
  Proof. intros [Hwf Hr Hs]. split; cbn; [done..|]. intros cs [= <-]. apply Hwf. Qed.

  Lemma finish_keep m m' r : lay_ok m -> finish_change is_param m = Some (m', r) ->
    lay_ok m' /\ same_dims m m'.
  Proof.
    intros Hok. unfold finish_change. destruct (layout_check is_param m) as [[m1 r1]|] eqn:Hc; [|done].
    cbn. apply check_keep in Hc as (Hok1 & Hg & _); [|done].
    assert (same_dims m m1) by (unfold same_dims; by rewrite Hg).
    destruct r1; intros [= <- _]; [|done].
    destruct (restore_keep m1 Hok1). split; [done|]. by eapply same_dims_trans.
  Qed.

  Lemma step_keep o : forall m m' r, lay_ok m -> step m o = Some (m', r) -> lay_ok m' /\ same_dims m m'.
  Proof.
    induction o as [x y c|cs| | |e| | | |body IH|body IH] using lop_ind'; intros m m' r Hok; cbn [lay_step].
    - destruct (layout_place _ _ _ _) as [m1|] eqn:Hp; [|done]. cbn. intros [= <- _].
      apply place_keep in Hp; naive_solver.
    - unfold layout_place_multiple. destruct (layout_place_cells _ _) as [[m1 r1]|] eqn:Hp; [|done]. cbn.
      apply place_cells_keep in Hp as (? & ? & ?); [|done]. destruct r1; [by intros [= <- _]|].
      intros Hc. apply check_keep in Hc as (? & Hg & _); [|done]. split; [done|].
      unfold same_dims in *. by rewrite Hg.
    - intros Hc. apply check_keep in Hc as (? & Hg & _); [|done]. unfold same_dims. by rewrite Hg.
    - intros Hc. apply sync_keep in Hc as (? & Hg & _); [|done]. unfold same_dims. by rewrite Hg.
    - by intros [= <- _].
    - intros [= <- _]. split; [by apply save_keep|done].
    - intros [= <- _]. by apply restore_keep.
    - unfold layout_clear. destruct (layout_sync _ _) as [[m1 r1]|] eqn:Hs; [|done]. cbn. intros [= <- _].
      apply sync_keep in Hs as (? & Hg & _).
      + split; [done|]. unfold same_dims. rewrite Hg. done.
      + destruct Hok as [Hwf Hr Hsv]. split; cbn; [|by apply order_reachable_clear|done].
        unfold grid_wf in *; cbn. by rewrite fmap_length.
    - unfold change_matrix. set (go := fix go (m : layout) (os : list lop) {struct os} : option layout := _).
      assert (forall os m m', Forall (fun o => forall m m' r, lay_ok m -> step m o = Some (m', r) -> lay_ok m' /\ same_dims m m') os ->
        lay_ok m -> go m os = Some m' -> lay_ok m' /\ same_dims m m') as Hgo.
      { intros os. induction os as [|o os IHos]; intros m0 m0' Hf Hok0; cbn.
        - by intros [= <-].
        - apply Forall_cons in Hf as [Ho Hos]. destruct (step m0 o) as [[m1 r1]|] eqn:Hst; [|done]. cbn.
          apply Ho in Hst as [? ?]; [|done]. intros Hrr. apply IHos in Hrr as [? ?]; [|done..].
          split; [done|]. by eapply same_dims_trans. }
      destruct (go (layout_save m) body) as [m1|] eqn:Hg; [|done]. cbn [mbind option_bind].
      apply Hgo in Hg as [Hok1 Hd1]; [|done|by apply save_keep].
      intros Hf. apply finish_keep in Hf as [? ?]; [|done]. split; [done|]. by eapply same_dims_trans.
    - unfold change_matrix_err.
      set (go := fix go (m : layout) (os : list lop) {struct os} : option (layout * option merror) := _).
      assert (forall os m m' r, Forall (fun o => forall m m' r, lay_ok m -> step m o = Some (m', r) -> lay_ok m' /\ same_dims m m') os ->
        lay_ok m -> go m os = Some (m', r) -> lay_ok m' /\ same_dims m m') as Hgo.
      { intros os. induction os as [|o os IHos]; intros m0 m0' r0 Hf Hok0; cbn.
        - by intros [= <- _].
        - apply Forall_cons in Hf as [Ho Hos]. destruct (step m0 o) as [[m1 r1]|] eqn:Hst; [|done]. cbn.
          apply Ho in Hst as [? ?]; [|done]. destruct r1; [by intros [= <- _]|].
          intros Hrr. apply IHos in Hrr as [? ?]; [|done..].
          split; [done|]. by eapply same_dims_trans. }
      destruct (go (layout_save m) body) as [[m1 r1]|] eqn:Hg; [|done]. cbn [mbind option_bind].
      apply Hgo in Hg as [Hok1 Hd1]; [|done|by apply save_keep]. destruct r1.
      + intros [= <- _]. destruct (restore_keep m1 Hok1). split; [done|]. by eapply same_dims_trans.
      + intros Hf. apply finish_keep in Hf as [? ?]; [|done]. split; [done|]. by eapply same_dims_trans.
  Qed.

  Lemma run_keep os : forall m m', lay_ok m -> run_ignoring step m os = Some m' -> lay_ok m' /\ same_dims m m'.
  Proof.
    induction os as [|o os IH]; intros m m' Hok; cbn.
    - by intros [= <-].
    - destruct (step m o) as [[m1 r]|] eqn:Hs; [|done]. cbn. apply step_keep in Hs as [? ?]; [|done].
      intros Hrr. apply IH in Hrr as [? ?]; [|done]. split; [done|]. by eapply same_dims_trans.
  Qed.

  Lemma reachable_ok m : lay_reachable is_param m -> lay_ok m.
  Proof. intros (w & h & os & H). apply run_keep in H as [? _]; [done|]. apply ok_new. Qed.

  Lemma plain_saved o m m' r : plain o -> lay_ok m -> step m o = Some (m', r) -> lay_saved m' = lay_saved m.
  Proof.
    destruct o; cbn [plain lay_step]; intros Hp Hok; try done.
    - destruct (layout_place _ _ _ _) as [m1|] eqn:Hpl; [|done]. cbn. intros [= <- _].
      apply place_keep in Hpl; naive_solver.
    - unfold layout_place_multiple. destruct (layout_place_cells _ _) as [[m1 r1]|] eqn:Hpl; [|done]. cbn.
      apply place_cells_keep in Hpl as (? & ? & <-); [|done]. destruct r1; [by intros [= <- _]|].
      intros Hc. apply check_keep in Hc; naive_solver.
    - intros Hc. apply check_keep in Hc; naive_solver.
    - intros Hc. apply sync_keep in Hc; naive_solver.
    - by intros [= <- _].
  Qed.

  (** closures, as arbitrary functions *)
  Definition saves_kept (f : layout -> option (layout * option merror)) : Prop :=
    forall m m' r, lay_ok m -> f m = Some (m', r) ->
      lay_ok m' /\ same_dims m m' /\ lay_saved m' = lay_saved m.

  Lemma restore_save m0 m : same_dims m0 m -> lay_saved m = Some (g_cells (lay_grid m0)) ->
    lay_grid (layout_restore m) = lay_grid m0.
  Proof.
    intros [Hw Hh] Hs. unfold layout_restore. rewrite Hs. cbn. rewrite Hw, Hh. by destruct (lay_grid m0).
  Qed.

  Lemma finish_spec m0 m m' r : lay_ok m -> same_dims m0 m -> lay_saved m = Some (g_cells (lay_grid m0)) ->
    finish_change is_param m = Some (m', r) ->
    match r with
    | Some _ => lay_grid m' = lay_grid m0 /\ check_spec (lay_grid m) r
    | None => lay_grid m' = lay_grid m /\ valid_layout (lay_grid m) /\
              lay_edges m' = grid_edges (lay_grid m) /\
              lay_inputs m' = used_inputs is_param (grid_edges (lay_grid m))
    end.
  Proof.
    intros Hok Hd Hs. unfold finish_change. destruct (layout_check is_param m) as [[m1 r1]|] eqn:Hc; [|done].
    cbn. apply check_keep in Hc as (Hok1 & Hg & Hsv & Hspec & He & Hi); [|done].
    destruct r1; intros [= <- <-].
    - split; [|done]. apply restore_save; [|congruence]. unfold same_dims in *. by rewrite Hg.
    - split_and!; try done; by destruct Hspec.
  Qed.

  Lemma change_err_spec f m m' r : saves_kept f -> lay_ok m ->
    change_matrix_err is_param f m = Some (m', r) ->
    exists m1 r1, f (layout_save m) = Some (m1, r1) /\
    match r with
    | Some e => lay_grid m' = lay_grid m /\ (r1 = Some e \/ r1 = None /\ check_spec (lay_grid m1) r)
    | None => r1 = None /\ lay_grid m' = lay_grid m1 /\ valid_layout (lay_grid m') /\
              lay_edges m' = grid_edges (lay_grid m') /\
              lay_inputs m' = used_inputs is_param (grid_edges (lay_grid m'))
    end.
  Proof.
    intros Hf Hok. unfold change_matrix_err. destruct (f (layout_save m)) as [[m1 r1]|] eqn:Hfm; [|done].
    cbn [mbind option_bind]. apply Hf in Hfm as Hk; [|by apply save_keep]. destruct Hk as (Hok1 & Hd1 & Hs1).
    exists m1, r1. split; [done|].
    assert (lay_saved m1 = Some (g_cells (lay_grid m))) as Hs2 by (rewrite Hs1; done).
    destruct r1 as [e|].
    - match goal with H : Some _ = Some _ |- _ => injection H as <- <- end.
      split; [|by left]. by apply restore_save.
    - match goal with H : finish_change _ _ = _ |- _ => apply (finish_spec m) in H; [|done..] end.
      destruct r as [e|]; [naive_solver|].
      match goal with H : _ /\ _ |- _ => destruct H as (-> & ? & ? & ?) end. done.
  Qed.

  Lemma run_plain_keep body : forall m m', Forall plain body -> lay_ok m ->
    run_ignoring step m body = Some m' -> lay_ok m' /\ same_dims m m' /\ lay_saved m' = lay_saved m.
  Proof.
    induction body as [|o os IH]; intros m m' Hp Hok; cbn.
    - by intros [= <-].
    - apply Forall_cons in Hp as [Ho Hp]. destruct (step m o) as [[m1 r]|] eqn:Hs; [|done]. cbn.
      pose proof (plain_saved _ _ _ _ Ho Hok Hs) as Hsv. apply step_keep in Hs as [? ?]; [|done].
      intros Hrr. apply IH in Hrr as (? & ? & ?); [|done..]. split_and!; [done|by eapply same_dims_trans|congruence].
  Qed.

  Lemma run_plain_err_keep body : forall m m' r, Forall plain body -> lay_ok m ->
    run_until_err step m body = Some (m', r) -> lay_ok m' /\ same_dims m m' /\ lay_saved m' = lay_saved m.
  Proof.
    induction body as [|o os IH]; intros m m' r Hp Hok; cbn.
    - by intros [= <- _].
    - apply Forall_cons in Hp as [Ho Hp]. destruct (step m o) as [[m1 r1]|] eqn:Hs; [|done]. cbn.
      pose proof (plain_saved _ _ _ _ Ho Hok Hs) as Hsv. apply step_keep in Hs as [? ?]; [|done].
      destruct r1; [by intros [= <- _]|].
      intros Hrr. apply IH in Hrr as (? & ? & ?); [|done..]. split_and!; [done|by eapply same_dims_trans|congruence].
  Qed.

  Lemma change_unfold body m :
    step m (LChange body) = change_matrix is_param (fun m => run_ignoring step m body) m.
  Proof.
    cbn [lay_step]. unfold change_matrix. f_equal.
  Qed.
  Lemma change_err_unfold body m :
    step m (LChangeErr body) = change_matrix_err is_param (fun m => run_until_err step m body) m.
  Proof. cbn [lay_step]. unfold change_matrix_err. f_equal. Qed.

  Lemma change_as_err f m :
    change_matrix is_param f m =
    change_matrix_err is_param (fun m => let* m := f m in Some (m, None)) m.
  Proof.
    unfold change_matrix, change_matrix_err. by destruct (f _).
  Qed.

  Lemma lay_change_spec body m m' r : Forall plain body -> lay_reachable is_param m ->
    step m (LChange body) = Some (m', r) ->
    exists m1, run_ignoring step (layout_save m) body = Some m1 /\
    match r with
    | Some _ => lay_grid m' = lay_grid m /\ ~ valid_layout (lay_grid m1)
    | None => lay_grid m' = lay_grid m1 /\ valid_layout (lay_grid m')
    end.
  Proof.
    intros Hp Hr. apply reachable_ok in Hr. rewrite change_unfold, change_as_err. intros H.
    apply change_err_spec in H as (m1 & r1 & H1 & H); [|intros ??? Hok Hf|done].
    - destruct (run_ignoring step (layout_save m) body) as [m2|]; [|done]. cbn in H1. injection H1 as <- <-.
      exists m2. split; [done|]. destruct r as [e|].
      + destruct H as [? [?|[_ Hc]]]; [done|]. split; [done|]. intros [Hv1 Hv2].
        destruct e; cbn in Hc; naive_solver.
      + naive_solver.
    - destruct (run_ignoring step m0 body) as [m2|] eqn:Hrun; [|done]. cbn in Hf. injection Hf as <- _.
      by eapply run_plain_keep.
  Qed.

  Lemma lay_change_err_spec body m m' r : Forall plain body -> lay_reachable is_param m ->
    step m (LChangeErr body) = Some (m', r) ->
    exists m1 r1, run_until_err step (layout_save m) body = Some (m1, r1) /\
    match r with
    | Some e => lay_grid m' = lay_grid m /\ (r1 = Some e \/ r1 = None /\ ~ valid_layout (lay_grid m1))
    | None => r1 = None /\ lay_grid m' = lay_grid m1 /\ valid_layout (lay_grid m')
    end.
  Proof.
    intros Hp Hr. apply reachable_ok in Hr. rewrite change_err_unfold. intros H.
    apply change_err_spec in H as (m1 & r1 & H1 & H); [|intros ??? Hok Hf|done].
    - exists m1, r1. split; [done|]. destruct r as [e|]; [|naive_solver].
      destruct H as [? [?|[-> Hc]]]; [naive_solver|]. split; [done|]. right. split; [done|]. intros [Hv1 Hv2].
      destruct e; cbn in Hc; naive_solver.
    - by eapply run_plain_err_keep.
  Qed.

  Lemma used_inputs_spec g n i : (n, i) ∈ used_inputs is_param (grid_edges g) <->
    is_param n i = true /\ input_used g n i.
  Proof.
    unfold used_inputs, input_used. rewrite elem_of_list_filter, elem_of_list_fmap. cbn.
    split.
    - intros [Hp (e & [= -> ->] & He)]. split; [done|]. apply grid_edges_elem in He. naive_solver.
    - intros [Hp (p & d & e & Hc & <- & <-)]. split; [done|]. exists e. split; [done|].
      apply grid_edges_elem. naive_solver.
  Qed.

  Lemma lay_used_after_success o m m' : lay_reachable is_param m ->
    (o = LCheck \/ o = LSync \/ (exists b, Forall plain b /\ o = LChange b) \/ (exists b, Forall plain b /\ o = LChangeErr b)) ->
    step m o = Some (m', None) ->
    forall n i, (n, i) ∈ lay_inputs m' <-> is_param n i = true /\ input_used (lay_grid m') n i.
  Proof.
    intros Hr Ho Hs n i. apply reachable_ok in Hr. rewrite <- used_inputs_spec.
    assert (lay_inputs m' = used_inputs is_param (grid_edges (lay_grid m'))) as ->; [|done].
    destruct Ho as [->|[->|[(b & Hb & ->)|(b & Hb & ->)]]].
    - cbn in Hs. apply check_keep in Hs as (_ & -> & _ & _ & _ & H); done.
    - cbn in Hs. apply sync_keep in Hs as (_ & -> & _ & _ & H); done.
    - rewrite change_unfold, change_as_err in Hs.
      apply change_err_spec in Hs as (m1 & r1 & H1 & H); [naive_solver| |done].
      intros m2 m2' r' Hok Hf. destruct (run_ignoring step m2 b) eqn:Hrun; [|done]. cbn in Hf. injection Hf as <- _.
      by eapply run_plain_keep.
    - rewrite change_err_unfold in Hs.
      apply change_err_spec in Hs as (m1 & r1 & H1 & H); [naive_solver| |done].
      intros m2 m2' r' Hok Hf. by eapply run_plain_err_keep.
  Qed.

  (** the number of connections and the connections of a checked layout *)
  Lemma lay_check_edges m m' r : lay_reachable is_param m -> step m LCheck = Some (m', r) ->
    exists ss, NoDup ss /\ (forall p d, (p, d) ∈ ss <-> exists e, connects (lay_grid m) p d e) /\
      Forall2 (fun pd e => connects (lay_grid m) pd.1 pd.2 e) ss (lay_edges m').
  Proof.
    intros Hr Hs. apply reachable_ok in Hr. cbn in Hs.
    apply check_keep in Hs as (_ & _ & _ & _ & -> & _); [|done]. apply grid_edges_enum.
  Qed.
  Lemma lay_sync_edges m m' r : lay_reachable is_param m -> step m LSync = Some (m', r) ->
    exists ss, NoDup ss /\ (forall p d, (p, d) ∈ ss <-> exists e, connects (lay_grid m) p d e) /\
      Forall2 (fun pd e => connects (lay_grid m) pd.1 pd.2 e) ss (lay_edges m').
  Proof.
    intros Hr Hs. apply reachable_ok in Hr. cbn in Hs.
    apply sync_keep in Hs as (_ & _ & _ & -> & _); [|done]. apply grid_edges_enum.
  Qed.

  Lemma lay_check_total m : lay_reachable is_param m -> fanout_ok (lay_grid m) ->
    exists m' r, step m LCheck = Some (m', r) /\ lay_grid m' = lay_grid m /\
    match r with
    | None => valid_layout (lay_grid m)
    | Some (DuplicatedInput o1 o2) => duplicated_input (lay_grid m) o1 o2
    | Some CycleDetected => (forall o1 o2, ~ duplicated_input (lay_grid m) o1 o2) /\ ~ layout_acyclic (lay_grid m)
    | Some _ => False
    end.
  Proof.
    intros Hr Hf. apply reachable_ok in Hr. cbn. unfold layout_check.
    destruct (grid_check_ok _ _ (ok_wf _ Hr) Hf (ok_order _ Hr)) as (go & r & -> & _ & Hs). cbn.
    eexists _, _. split_and!; [done..|]. exact Hs.
  Qed.

  Lemma lay_sync_total m : lay_reachable is_param m -> fanout_ok (lay_grid m) ->
    exists m' r, step m LSync = Some (m', r) /\ lay_grid m' = lay_grid m /\
      (r = None <-> layout_acyclic (lay_grid m)) /\ (r = None \/ r = Some CycleDetected).
  Proof.
    intros Hr Hf. apply reachable_ok in Hr. cbn. unfold layout_sync, layout_scan.
    destruct (scan_some _ _ (ok_wf _ Hr) Hf (ok_order _ Hr)) as (go & -> & HR). cbn.
    destruct (calculate_order_ok go _ [] HR) as (g' & ok & ord & Hord & _ & Hok & _).
    rewrite Hord. cbn. eexists _, _. split_and!; [done..| |].
    - rewrite acyclic_layout in Hok by apply Hr. rewrite <- Hok. by destruct ok.
    - destruct ok; auto.
  Qed.
End proofs.

(** ** Placing clusters *)

Lemma last_for_cons c cs p : last_for (c :: cs) p =
  match last_for cs p with Some c' => Some c' | None => if decide (cell_pos c = p) then Some c else None end.
Proof.
  unfold last_for. rewrite filter_cons. destruct (decide (cell_pos c = p)).
  - rewrite last_cons. by destruct (last _).
  - by destruct (last _).
Qed.

Lemma place_cells_spec cs : forall m m', grid_wf (lay_grid m) ->
  Forall (fun c => c_x c < 256 /\ c_y c < 256) cs ->
  layout_place_cells m cs = Some (m', None) ->
  (forall p, board (lay_grid m') p = match last_for cs p with Some c => Some c | None => board (lay_grid m) p end) /\
  Forall (fun c => exists c0, board (lay_grid m) (cell_pos c) = Some c0 /\ c_node c0 = Nop) cs.
Proof.
  induction cs as [|c cs IH]; intros m m' Hwf Hb; cbn [layout_place_cells].
  - intros [= <-]. split; [|constructor]. intros p. done.
  - rewrite grid_get_board by done. cbn [mbind option_bind].
    apply Forall_cons in Hb as [[Hx Hy] Hb].
    destruct (board (lay_grid m) (c_x c, c_y c)) as [ex|] eqn:Hex; [|done].
    unfold cell_is_empty. case_bool_decide as He; cbn [negb]; [|done].
    unfold layout_place.
    destruct (place_some (lay_grid m) (c_x c) (c_y c) c Hwf) as (g' & -> & Hwf' & Hw & Hh & Hbd & _).
    cbn [mbind option_bind]. intros H. apply IH in H as [H1 H2]; [|done..]. cbn [lay_grid with_grid] in *.
    assert (cell_at c (u8 (c_x c)) (u8 (c_y c)) = c) as Hc.
    { unfold u8. rewrite !Nat.mod_small by done. by destruct c. }
    rewrite Hc in Hbd.
    assert (in_bounds (lay_grid m) (c_x c, c_y c)) as Hin by (by apply board_Some in Hex as [? _]).
    split.
    + intros p. rewrite H1, last_for_cons. destruct (last_for cs p); [done|]. rewrite Hbd.
      destruct (decide (cell_pos c = p)) as [<-|Hne].
      * by rewrite decide_True.
      * rewrite decide_False; [done|]. intros [-> _]. by apply Hne.
    + constructor; [by exists ex|]. rewrite Forall_forall in H2. apply Forall_forall. intros c1 Hc1.
      destruct (H2 c1 Hc1) as (c0 & Hc0 & Hn). rewrite Hbd in Hc0.
      destruct (decide _) as [[Hp _]|_]; [|by exists c0].
      exists ex. unfold cell_pos in *. split; [|done]. rewrite Hp. done.
Qed.

Lemma place_multiple_spec is_param m m' cs : lay_reachable is_param m ->
  Forall (fun c => c_x c < 256 /\ c_y c < 256) cs ->
  lay_step is_param m (LPlaceMultiple cs) = Some (m', None) ->
  (forall p, board (lay_grid m') p = match last_for cs p with Some c => Some c | None => board (lay_grid m) p end) /\
  Forall (fun c => exists c0, board (lay_grid m) (cell_pos c) = Some c0 /\ c_node c0 = Nop) cs /\
  valid_layout (lay_grid m').
Proof.
  intros Hr Hb. apply reachable_ok in Hr. cbn [lay_step]. unfold layout_place_multiple.
  destruct (layout_place_cells m cs) as [[m1 r]|] eqn:Hp; [|done]. cbn [mbind option_bind].
  destruct r; [done|]. intros Hc. pose proof (place_cells_keep _ _ _ _ Hr Hp) as (Hok & _ & _).
  apply check_keep in Hc as (_ & -> & _ & Hs & _); [|done].
  apply place_cells_spec in Hp as [H1 H2]; [|apply Hr|done]. done.
Qed.
