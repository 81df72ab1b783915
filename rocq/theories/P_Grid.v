(** Properties C06 to C10: the hexagonal matrix layout *)
From Verif Require Import Base M_Dir S_Dir M_Graph M_Grid S_Grid L_Grid M_Layout S_Layout L_Layout.
Open Scope nat_scope.

(** ** C06 *)

(** Placing never panics on a matrix with one cell per position; afterwards that position holds
    the cell (with the new position) and every other position what it held before. *)
Theorem C06_place_get : forall g x y c, grid_wf g ->
  exists g', grid_place g x y c = Some g' /\ grid_wf g' /\ g_w g' = g_w g /\ g_h g' = g_h g /\
    (forall p, board g' p = if decide (p = (x, y) /\ in_bounds g p)
                            then Some (cell_at c (u8 x) (u8 y)) else board g p) /\
    (~ in_bounds g (x, y) -> g' = g).
Proof. exact place_some. Qed.
Print Assumptions C06_place_get.

(** Reading never panics, and yields nothing exactly outside of the bounds. *)
Theorem C06_get_bounds : forall g x y, grid_wf g ->
  exists oc, grid_get g x y = Some oc /\ (oc = None <-> ~ in_bounds g (x, y)).
Proof.
  intros g x y H. exists (board g (x, y)). split; [by apply grid_get_board|by apply board_None].
Qed.
Print Assumptions C06_get_bounds.

(** Every history of placements on a new matrix keeps it readable. *)
Theorem C06_history : forall w h ps, exists g, grid_run (grid_new w h) ps = Some g /\ grid_wf g /\
  g_w g = w /\ g_h g = h.
Proof. intros w h ps. apply (grid_run_ok ps (grid_new w h)), wf_new. Qed.
Print Assumptions C06_history.

(** In matrices up to 256 columns and rows the placed cell knows its position. *)
Theorem C06_position : forall x y c, x < 256 -> y < 256 ->
  c_x (cell_at c (u8 x) (u8 y)) = x /\ c_y (cell_at c (u8 x) (u8 y)) = y.
Proof. intros x y c Hx Hy. cbn -[u8]. unfold u8. by rewrite !Nat.mod_small. Qed.
Print Assumptions C06_position.

(** Beyond that the position is truncated. *)
Theorem C06_position_large_refuted :
  exists x c g', grid_place (grid_new 300 1) x 0 c = Some g' /\ in_bounds (grid_new 300 1) (x, 0) /\
    exists c', board g' (x, 0) = Some c' /\ c_x c' <> x.
Proof.
  exists 260, (cell_empty (NId 3 0)).
  destruct (place_some (grid_new 300 1) 260 0 (cell_empty (NId 3 0)) (wf_new _ _)) as (g' & H & _ & _ & _ & Hb & _).
  assert (in_bounds (grid_new 300 1) (260, 0)) as Hin by (split; cbn; lia).
  exists g'. split; [done|]. split; [done|]. eexists. split.
  - rewrite Hb. by rewrite decide_True.
  - vm_compute. lia.
Qed.
Print Assumptions C06_position_large_refuted.

Example C06_ex : exists g,
  grid_run (grid_new 3 3) [(1, 2, cell_empty (NId 3 0)); (1, 1, cell_empty (NId 4 0)); (7, 7, cell_empty (NId 5 0)); (1, 2, cell_empty (NId 6 1))] = Some g /\
  board g (1, 2) = Some (cell_empty_at (NId 6 1) 1 2) /\ board g (1, 1) = Some (cell_empty_at (NId 4 0) 1 1) /\
  board g (0, 0) = Some (cell_empty Nop) /\ board g (7, 7) = None.
Proof. eexists. split_and!; [vm_compute; reflexivity|..]; vm_compute; reflexivity. Qed.

(** ** C07 *)

(** The connections recorded by a check (or a sync) enumerate, each exactly once, the pairs of a
    cell and one of its input edges where the facing ports are both assigned. *)
Theorem C07_edges_exact : forall is_param m o m' r,
  lay_reachable is_param m -> o = LCheck \/ o = LSync -> lay_step is_param m o = Some (m', r) ->
  exists ss, NoDup ss /\ (forall p d, (p, d) ∈ ss <-> exists e, connects (lay_grid m) p d e) /\
    Forall2 (fun pd e => connects (lay_grid m) pd.1 pd.2 e) ss (lay_edges m').
Proof. intros is_param m o m' r Hr [->| ->]; [by apply lay_check_edges|by apply lay_sync_edges]. Qed.
Print Assumptions C07_edges_exact.

(** The cycle check sees all of them: synchronising is rejected exactly if they form a cycle. *)
Theorem C07_sync_rejects_exactly_cycles : forall is_param m,
  lay_reachable is_param m -> fanout_ok (lay_grid m) ->
  exists m' r, lay_step is_param m LSync = Some (m', r) /\ lay_grid m' = lay_grid m /\
    (r = None <-> layout_acyclic (lay_grid m)) /\ (r = None \/ r = Some CycleDetected).
Proof. exact lay_sync_total. Qed.
Print Assumptions C07_sync_rejects_exactly_cycles.

(** a 3x3 layout used in the examples: sin at (0,0) with bottom output, amp at (0,1) with top input *)
Definition ex_sin : cell := Cell (NId 3 0) 0 0 None (Some 0) (Some 0) None None None.
Definition ex_amp : cell := Cell (NId 4 0) 0 1 None None None (Some 1) None None.
Definition ex_amp2 : cell := Cell (NId 4 0) 1 0 None None None None (Some 1) None.
Definition all_params : node_id -> nat -> bool := fun _ _ => true.

Definition run_lay (w h : nat) (os : list lop) : option layout :=
  run_ignoring (lay_step all_params) (layout_new w h) os.

Example C07_ex : exists m, run_lay 3 3 [LPlace 0 0 ex_sin; LPlace 0 1 ex_amp; LCheck] = Some m /\
  lay_edges m = [Edge (NId 3 0) 0 (NId 4 0) 1] /\ connects (lay_grid m) (0, 1) T (Edge (NId 3 0) 0 (NId 4 0) 1).
Proof.
  eexists. split_and!; [vm_compute; reflexivity|vm_compute; reflexivity|].
  apply site_connects. vm_compute. reflexivity.
Qed.

(** ** C08 *)

(** Checking a layout never panics (within the fan-out limit) and its verdict is exact: fine means
    every input has at most one source and there is no cycle; a reported duplicate is one. *)
Theorem C08_check_exact : forall is_param m,
  lay_reachable is_param m -> fanout_ok (lay_grid m) ->
  exists m' r, lay_step is_param m LCheck = Some (m', r) /\ lay_grid m' = lay_grid m /\
    match r with
    | None => valid_layout (lay_grid m)
    | Some (DuplicatedInput o1 o2) => duplicated_input (lay_grid m) o1 o2
    | Some CycleDetected => (forall o1 o2, ~ duplicated_input (lay_grid m) o1 o2) /\ ~ layout_acyclic (lay_grid m)
    | Some _ => False
    end.
Proof. exact lay_check_total. Qed.
Print Assumptions C08_check_exact.

(** [sync] on the other hand accepts duplicated inputs. *)
Theorem C08_sync_reports_duplicates_refuted :
  exists m m', lay_reachable all_params m /\ duplicated_input (lay_grid m) (NId 3 0, 0) (NId 3 0, 0) /\
    lay_step all_params m LSync = Some (m', None).
Proof.
  destruct (run_lay 3 3 [LPlace 0 0 ex_sin; LPlace 0 1 ex_amp; LPlace 1 0 ex_amp2]) as [m|] eqn:H.
  2: { vm_compute in H. discriminate. }
  assert (m = match run_lay 3 3 [LPlace 0 0 ex_sin; LPlace 0 1 ex_amp; LPlace 1 0 ex_amp2] with Some m => m | None => layout_new 0 0 end) as Hm by (rewrite H; done).
  exists m. destruct (lay_step all_params m LSync) as [[m' [e|]]|] eqn:Hs.
  - rewrite Hm in Hs. vm_compute in Hs. discriminate.
  - exists m'. split_and!; [by eexists 3, 3, _| |done].
    exists (0, 1), T, (Edge (NId 3 0) 0 (NId 4 0) 1), (1, 0), TL, (Edge (NId 3 0) 0 (NId 4 0) 1).
    rewrite Hm. clear H Hs Hm. split_and!; try done; try (apply site_connects; vm_compute; reflexivity).
  - rewrite Hm in Hs. vm_compute in Hs. discriminate.
Qed.
Print Assumptions C08_sync_reports_duplicates_refuted.

Example C08_ex : exists m, run_lay 3 3 [LPlace 0 0 ex_sin; LPlace 0 1 ex_amp; LPlace 1 0 ex_amp2] = Some m /\
  exists m', lay_step all_params m LCheck = Some (m', Some (DuplicatedInput (NId 3 0, 0) (NId 3 0, 0))).
Proof. eexists. split; [vm_compute; reflexivity|]. eexists. vm_compute. reflexivity. Qed.

(** ** C09 *)

(** A transaction whose closure places cells (and checks, syncs or fails) either leaves exactly
    what the closure produced, which is then valid, or all cells as they were before; it is only
    rolled back if what the closure produced is invalid. *)
Theorem C09_change_matrix_atomic : forall is_param m body m' r,
  lay_reachable is_param m -> Forall plain body ->
  lay_step is_param m (LChange body) = Some (m', r) ->
  exists m1, run_ignoring (lay_step is_param) (layout_save m) body = Some m1 /\
  match r with
  | Some _ => lay_grid m' = lay_grid m /\ ~ valid_layout (lay_grid m1)
  | None => lay_grid m' = lay_grid m1 /\ valid_layout (lay_grid m')
  end.
Proof. intros ip m body m' r Hr Hp. by apply lay_change_spec. Qed.
Print Assumptions C09_change_matrix_atomic.

Theorem C09_change_matrix_err_atomic : forall is_param m body m' r,
  lay_reachable is_param m -> Forall plain body ->
  lay_step is_param m (LChangeErr body) = Some (m', r) ->
  exists m1 r1, run_until_err (lay_step is_param) (layout_save m) body = Some (m1, r1) /\
  match r with
  | Some e => lay_grid m' = lay_grid m /\ (r1 = Some e \/ r1 = None /\ ~ valid_layout (lay_grid m1))
  | None => r1 = None /\ lay_grid m' = lay_grid m1 /\ valid_layout (lay_grid m')
  end.
Proof. intros ip m body m' r Hr Hp. by apply lay_change_err_spec. Qed.
Print Assumptions C09_change_matrix_err_atomic.

(** After a successful check, sync or transaction the inputs reported as used are those of the
    visible layout. *)
Theorem C09_used_inputs_after_success : forall is_param m o m',
  lay_reachable is_param m ->
  (o = LCheck \/ o = LSync \/ (exists b, Forall plain b /\ o = LChange b) \/ (exists b, Forall plain b /\ o = LChangeErr b)) ->
  lay_step is_param m o = Some (m', None) ->
  forall n i, (n, i) ∈ lay_inputs m' <-> is_param n i = true /\ input_used (lay_grid m') n i.
Proof. intros ip m o m' Hr Ho. by apply lay_used_after_success. Qed.
Print Assumptions C09_used_inputs_after_success.

(** a cell that closes a loop *)
Definition ex_loop1 : cell := Cell (NId 3 0) 0 0 None None (Some 0) None None None.
Definition ex_loop2 : cell := Cell (NId 3 0) 0 1 None None None (Some 0) None None.

(** After a rejected transaction the used-input information is that of the rejected layout. *)
Theorem C09_used_inputs_after_failure_refuted :
  exists m body m' e, lay_reachable all_params m /\ Forall plain body /\
    lay_step all_params m (LChange body) = Some (m', Some e) /\
    lay_grid m' = lay_grid m /\
    exists n i, (n, i) ∈ lay_inputs m' /\ ~ input_used (lay_grid m') n i.
Proof.
  pose (body := [LPlace 0 0 ex_loop1; LPlace 0 1 ex_loop2]).
  destruct (lay_step all_params (layout_new 2 2) (LChange body)) as [[m' [e|]]|] eqn:H.
  2, 3: vm_compute in H; discriminate.
  exists (layout_new 2 2), body, m', e.
  assert (lay_reachable all_params (layout_new 2 2)) as Hr by (by exists 2, 2, []).
  assert (Forall plain body) as Hp by (repeat constructor).
  assert (lay_grid m' = lay_grid (layout_new 2 2)) as Hg.
  { by destruct (C09_change_matrix_atomic _ _ _ _ _ Hr Hp H) as (m1 & _ & ? & _). }
  split_and!; try done. exists (NId 3 0), 0. split.
  - vm_compute in H. injection H as <- _. left.
  - rewrite Hg. intros (p & d & e' & (c & q & c' & Hc & Hn & _) & _).
    apply board_Some in Hc as [_ Hc]. cbn in Hc.
    assert (forall k, replicate 4 (cell_empty Nop) !! k = Some c -> c_node c = Nop) as Hall.
    { intros k Hk. apply lookup_replicate in Hk as [-> _]. done. }
    apply Hn. by eapply Hall.
Qed.
Print Assumptions C09_used_inputs_after_failure_refuted.

(** A transaction nested in the closure destroys the snapshot: the outer one is rejected, but the
    first placement of the closure stays. *)
Theorem C09_nested_transactions_refuted :
  exists m body m' e, lay_reachable all_params m /\
    lay_step all_params m (LChange body) = Some (m', Some e) /\
    lay_grid m' <> lay_grid m.
Proof.
  pose (body := [LPlace 0 0 ex_loop1; LChange []; LPlace 0 1 ex_loop2]).
  destruct (lay_step all_params (layout_new 2 2) (LChange body)) as [[m' [e|]]|] eqn:H.
  2, 3: vm_compute in H; discriminate.
  exists (layout_new 2 2), body, m', e. split_and!; [by exists 2, 2, []|done|].
  vm_compute in H. injection H as <- _. vm_compute. discriminate.
Qed.
Print Assumptions C09_nested_transactions_refuted.

Example C09_ex_ok : exists m', lay_step all_params (layout_new 2 2) (LChange [LPlace 0 0 ex_sin; LPlace 0 1 ex_amp]) = Some (m', None) /\
  board (lay_grid m') (0, 1) = Some ex_amp /\ lay_inputs m' = [(NId 4 0, 1)].
Proof. eexists. split_and!; vm_compute; reflexivity. Qed.
Example C09_ex_err : exists m', lay_step all_params (layout_new 2 2)
   (LChangeErr [LPlaceMultiple [cell_at ex_sin 0 0; cell_at ex_amp 0 0]]) = Some (m', Some (NonEmptyCell (cell_at ex_sin 0 0))) /\
  lay_grid m' = grid_new 2 2.
Proof. eexists. split_and!; vm_compute; reflexivity. Qed.

(** A restored snapshot is used up: restoring once more changes nothing. *)
Theorem C09_restore_once : forall m x y c m2,
  layout_place (layout_restore m) x y c = Some m2 -> lay_saved m <> None -> layout_restore m2 = m2.
Proof.
  intros m x y c m2. unfold layout_place. destruct (grid_place _ _ _ _) as [g|]; [|done]. cbn.
  intros [= <-] Hs. unfold layout_restore at 1. cbn. unfold layout_restore. by destruct (lay_saved m).
Qed.
Print Assumptions C09_restore_once.

(** Placing a cluster of cells succeeds only if all its positions were empty and inside of the
    matrix; then exactly these cells are replaced and the layout is valid. *)
Theorem C46_cluster_only_into_empty_cells : forall is_param m m' cs, lay_reachable is_param m ->
  Forall (fun c => c_x c < 256 /\ c_y c < 256) cs ->
  lay_step is_param m (LPlaceMultiple cs) = Some (m', None) ->
  (forall p, board (lay_grid m') p = match last_for cs p with Some c => Some c | None => board (lay_grid m) p end) /\
  Forall (fun c => exists c0, board (lay_grid m) (cell_pos c) = Some c0 /\ c_node c0 = Nop) cs /\
  valid_layout (lay_grid m').
Proof. exact place_multiple_spec. Qed.
Print Assumptions C46_cluster_only_into_empty_cells.

Example C46_ex : exists m', lay_step all_params (layout_new 3 3) (LPlaceMultiple [cell_at ex_sin 0 0; cell_at ex_amp 0 1]) = Some (m', None) /\
  board (lay_grid m') (0, 1) = Some (cell_at ex_amp 0 1).
Proof. eexists. split; vm_compute; reflexivity. Qed.

(** ** C10 *)

(** The listed connections are exactly the neighbouring cells with facing assigned ports. *)
Theorem C10_listing_exact : forall g p this, grid_wf g -> board g p = Some this ->
  exists l, get_connections g p.1 p.2 = Some (Some l) /\ NoDup l /\
    forall c d i c' d' j q, ((c, d, i), (c', d', j, q)) ∈ l <->
      board g p = Some c /\ board g q = Some c' /\ neighbour p d q /\ d' = dir_flip d /\
      edge_port c d = Some i /\ edge_port c' d' = Some j.
Proof.
  intros g p this Hwf Hc. destruct (get_connections_ok g p this Hwf Hc) as (l & H & Hnd & Hl).
  exists l. split_and!; [done..|]. intros. apply Hl.
Qed.
Print Assumptions C10_listing_exact.

(** Both cells list the connection, seen from their side. *)
Theorem C10_listing_symmetric : forall g p l c d i c' d' j q, grid_wf g ->
  get_connections g p.1 p.2 = Some (Some l) -> ((c, d, i), (c', d', j, q)) ∈ l ->
  exists l', get_connections g q.1 q.2 = Some (Some l') /\ ((c', d', j), (c, d, i, p)) ∈ l'.
Proof.
  intros g p l c d i c' d' j q Hwf Hl Hin.
  destruct (board g p) as [this|] eqn:Hp.
  - destruct (get_connections_ok g p this Hwf Hp) as (l2 & H2 & _ & Hl2).
    rewrite Hl in H2. injection H2 as <-. apply Hl2 in Hin as Hs. apply conn_spec_sym in Hs as Hs'.
    assert (board g q = Some c') as Hq by apply Hs'.
    destruct (get_connections_ok g q c' Hwf Hq) as (l3 & H3 & _ & Hl3).
    exists l3. split; [done|]. by apply Hl3.
  - unfold get_connections in Hl. destruct p as [px py]; cbn in Hl.
    rewrite grid_get_board in Hl by done. rewrite Hp in Hl. done.
Qed.
Print Assumptions C10_listing_symmetric.

Example C10_ex : exists m, run_lay 3 3 [LPlace 0 0 ex_sin; LPlace 0 1 ex_amp; LPlace 1 0 ex_amp2] = Some m /\
  get_connections (lay_grid m) 0 0 =
    Some (Some [((ex_sin, BR, 0), (ex_amp2, TL, 1, (1, 0))); ((ex_sin, B, 0), (ex_amp, T, 1, (0, 1)))]).
Proof. eexists. split; vm_compute; reflexivity. Qed.
