(** The running program follows the layout (C12) *)
From Verif Require Import Base M_Atom M_Graph M_Dir M_Grid S_Grid M_Layout S_Layout M_Prog M_Conf M_Exec M_Sync.
From Verif Require Import S_Conf S_Sync S_Prog L_Graph L_Grid L_Layout L_Conf L_Sync L_Build L_Fill L_Wire P_Conf P_Sync.
Open Scope nat_scope.

(** After any history of calls, a successful synchronisation sends one program to the audio thread (and
    messages for the monitor). Whatever the audio thread was doing, once it has taken the message its
    program runs the nodes of the board in an order that respects the connections, every input reads
    what the layout says, and the program holds the current parameter values. *)
Theorem C12_program_follows_layout (T : ntable) (i2f : Z -> f32) (load_sample : satom -> satom) (HT : table_ok T)
    (finc : f32 -> f32 -> nat -> f32) h m sent h' m' ms :
  matrix_reachable T i2f load_sample h m sent -> matrix_sync T h m = Some (h', m', ms, None) ->
  length (created (mx_conf m')) <= 256 ->
  exists p mon, ms = MNewProg p true :: mon /\ (forall x, x ∈ mon -> exists bs, x = MMonitor bs) /\
    forall hx e hx' e' t, exec_message finc hx e (MNewProg p true) = Some (hx', e', t) ->
      wired T (lay_grid (mx_lay m)) (cf_modamt (mx_conf m')) (ex_prog e') /\ carries T (mx_conf m') (ex_prog e').
Proof.
  intros Hr E Hlen. pose proof (matrix_reachable_inv T HT i2f load_sample _ _ _ Hr) as Hm.
  destruct (sync_cases T HT _ _ _ _ _ _ Hm E) as (c1 & Ec & Hg1 & Hgr & _ & Hall & order & p & mon & Hgo & Ep & -> & Hmon).
  exists p, mon. split; [done|]. split; [done|]. intros hx e hx' e' t Ex.
  assert (Hord : forall n, n ∈ order -> n ∈ created c1) by (intros n Hn; apply Hall; by apply Hgo).
  assert (Hids : created (mx_conf m') = created c1) by (by eapply program_good).
  rewrite Hids in Hlen.
  destruct (program_built T HT h c1 order (grid_edges (lay_grid (mx_lay m))) h' (mx_conf m') p (good_fine T c1 Hg1) Hlen) as (c2 & p1 & Hl & _ & Hsv & Hb & _ & _); [apply Hgo|done| |done|].
  - intros e0 He. apply grid_edges_elem in He as (q & d & He). by eapply good_wire.
  - destruct (install_wired T HT finc (lay_grid (mx_lay m)) c1 c2 order p true hx e hx' e' t Hl Hb Hgo Hord Ex) as [Hw Hsc].
    split.
    + destruct Hsv as (_ & _ & _ & -> & _). by rewrite (ld_modamt _ _ _ Hl).
    + by eapply built_carries.
Qed.
Print Assumptions C12_program_follows_layout.

(** Synchronising does not panic, and fails only for a cyclic layout, if all kinds on the board exist, no
    node feeds more than 64 others and no cell uses input number 32. *)
Theorem C12_sync_succeeds (T : ntable) (i2f : Z -> f32) (load_sample : satom -> satom) (HT : table_ok T) h m sent :
  matrix_reachable T i2f load_sample h m sent -> let g := lay_grid (mx_lay m) in
  (forall n, on_board g n -> nt_known T (nid_kind n) = true) -> fanout_ok g ->
  (forall q d e, connects g q d e -> e_to_input e <> max_node_inputs) ->
  exists h' m' ms r, matrix_sync T h m = Some (h', m', ms, r) /\ (r = None <-> layout_acyclic g).
Proof.
  intros Hr g Hk Hf Hi. pose proof (matrix_reachable_inv T HT i2f load_sample _ _ _ Hr) as [Hl Hg]. unfold matrix_sync.
  destruct (create_cells_total T (c_node <$> g_cells (lay_grid (mx_lay m))) (mx_conf m)) as [c1 Ec].
  { intros n Hn Hne. apply Hk. apply board_cells; [apply Hl|done]. }
  rewrite Ec. cbn [mbind option_bind].
  destruct (create_cells_good T HT _ _ _ Hg Ec) as (Hg1 & _).
  unfold layout_scan. destruct (scan_some _ _ (ok_wf _ Hl) Hf (ok_order _ Hl)) as (go & Es & HR).
  rewrite Es. cbn [mbind option_bind lay_order lay_grid lay_edges].
  destruct (calculate_order_ok go _ [] HR) as (go' & ok & ord & Eo & _ & Hok & _). rewrite Eo. cbn [mbind option_bind].
  rewrite acyclic_layout in Hok by apply Hl. destruct ok; cbn [negb].
  - destruct (program_total T HT h c1 ord (grid_edges (lay_grid (mx_lay m))) (good_fine T c1 Hg1)) as [[[h2 c2] p2] Ep].
    { intros e He. apply grid_edges_elem in He as (q & d & He). by eapply Hi. }
    rewrite app_nil_l in *. cbn [app lay_edges]. rewrite Ep. cbn [mbind option_bind]. unfold matrix_remonitor. cbn [mx_lay mx_mon lay_grid].
    rewrite grid_get_board by apply Hl. cbn [mbind option_bind].
    destruct (board _ _) as [c|]; [destruct (matrix_monitor _ c) as [m2 ms2]|]; cbn [mbind option_bind];
      eexists _, _, _, _; (split; [done|]); tauto.
  - eexists _, _, _, _. split; [done|]. naive_solver.
Qed.
Print Assumptions C12_sync_succeeds.

(** The bound of 256 nodes is needed: operations are numbered with one byte, so that of 257 nodes on the
    board one is not in the program. *)
Definition crowded_calls : list mop :=
  ((fun i => MxLay (LPlace (i / 16) (i mod 16) (Cell (NId (1 + i / 256) (i mod 256)) 0 0 None None None None None None)))
     <$> seq 0 257) ++ [MxSync].
Lemma computed {A B} (o : option A) (f : A -> B) b : (s ← o; Some (f s)) = Some b -> exists s, o = Some s /\ f s = b.
Proof. destruct o as [s|]; cbn; [|done]. intros [= <-]. by exists s. Qed.

Definition crowded_check (s : heap * matrix * list gmsg) :=
  (c_node <$> board (lay_grid (mx_lay s.1.2)) (16, 0),
   match s.2 !! 0 with Some (MNewProg p true) => bool_decide (NId 2 0 ∈ op_node <$> np_ops p) | _ => true end).

Lemma crowded_aux (o : option (heap * matrix * list gmsg)) :
  (s ← o; Some (crowded_check s)) = Some (Some (NId 2 0), false) ->
  exists h m sent p, o = Some (h, m, sent) /\ sent !! 0 = Some (MNewProg p true) /\
    on_board (lay_grid (mx_lay m)) (NId 2 0) /\ NId 2 0 ∉ op_node <$> np_ops p.
Proof.
  intros ([[h m] sent] & E & Hb)%computed. unfold crowded_check in Hb. cbn [fst snd] in Hb. injection Hb as H1 H2.
  destruct (sent !! 0) as [[ |p [|]| | | | ]|] eqn:E0; try done.
  exists h, m, sent, p. split; [done|]. split; [done|]. split.
  - split; [done|]. destruct (board (lay_grid (mx_lay m)) (16, 0)) as [c|] eqn:Ec; [|done]. exists (16, 0), c. split; [done|].
    by injection H1.
  - by apply bool_decide_eq_false in H2.
Qed.

Theorem C12_257_nodes_refuted :
  exists h m sent p, matrix_run demo_table (fun z => z) (fun a => a) (Heap ∅ 0, matrix_new 17 16, []) crowded_calls = Some (h, m, sent) /\
    sent !! 0 = Some (MNewProg p true) /\
    on_board (lay_grid (mx_lay m)) (NId 2 0) /\ NId 2 0 ∉ op_node <$> np_ops p.
Proof. apply crowded_aux. vm_compute. reflexivity. Qed.
Print Assumptions C12_257_nodes_refuted.

(** A cell that uses input number 32 makes synchronisation panic. *)
Definition input32_calls : list mop :=
  [MxLay (LPlace 0 0 (Cell (NId 1 0) 0 0 None None (Some 0) None None None));
   MxLay (LPlace 0 1 (Cell (NId 2 0) 0 1 None None None (Some 32) None None))].
Theorem C12_input_32_refuted :
  exists h m sent, matrix_run demo_table (fun z => z) (fun a => a) (Heap ∅ 0, matrix_new 2 2, []) input32_calls = Some (h, m, sent) /\
    matrix_sync demo_table h m = None.
Proof.
  assert (H : (s ← matrix_run demo_table (fun z => z) (fun a => a) (Heap ∅ 0, matrix_new 2 2, []) input32_calls;
     Some (matrix_sync demo_table s.1.1 s.1.2)) = Some None) by (by vm_compute).
  apply computed in H as ([[h m] sent] & E & H). by exists h, m, sent.
Qed.
Print Assumptions C12_input_32_refuted.

(** The hypotheses of the theorems are met: on the demonstration board, node (2, 0) reads output 0 of node (1, 2) *)
Example C12_example :
  (s ← demo_matrix;
   match s.2 !! 0 with
   | Some (MNewProg p true) =>
       r ← exec_message (fun _ _ _ => 0%Z) s.1.1 (exec_new 10) (MNewProg p true);
       let q := ex_prog r.1.2 in
       Some (length (created (mx_conf s.1.2)) <=? 256, op_node <$> np_ops q, op_inputs <$> np_ops q, np_out q, np_inp q, np_cur q)
   | _ => None
   end)
  = Some (true, [NId 1 2; NId 2 0], [[]; [(2, 6, None)]], [0; 1; 2; 3; 4], [5; 6; 7; 8; 9; 10; 11],
          [None; None; None; None; Some 9; Some 10; Some 2]).
Proof. by vm_compute. Qed.
