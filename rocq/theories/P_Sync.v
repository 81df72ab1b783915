(** Free instances and node creation (C16) *)
From Verif Require Import Base M_Atom M_Graph M_Dir M_Grid S_Grid M_Layout M_Prog M_Conf M_Exec M_Sync.
From Verif Require Import S_Conf S_Sync L_Grid L_Layout L_Conf L_Sync P_Conf.
Open Scope nat_scope.

(** Synchronising creates a DSP node for every cell of the board. The nodes are created at most once
    each, and an instance is created after all smaller instances of the same kind. *)
Theorem C16_creation_in_order (T : ntable) (i2f : Z -> f32) (load_sample : satom -> satom) (HT : table_ok T)
    h m sent h' m' ms r :
  matrix_reachable T i2f load_sample h m sent -> matrix_sync T h m = Some (h', m', ms, r) ->
  (forall n, on_board (lay_grid (mx_lay m')) n -> n ∈ created (mx_conf m')) /\
  lay_grid (mx_lay m') = lay_grid (mx_lay m) /\
  NoDup (created (mx_conf m')) /\
  (forall i n, created (mx_conf m') !! i = Some n -> forall j, j < nid_inst n ->
     exists i', i' < i /\ created (mx_conf m') !! i' = Some (NId (nid_kind n) j)) /\
  (exists new, created (mx_conf m') = created (mx_conf m) ++ new).
Proof.
  intros Hr E. pose proof (matrix_reachable_inv T HT i2f load_sample _ _ _ Hr) as Hm.
  destruct (sync_inv T HT _ _ _ _ _ _ Hm E) as [_ [Hi Hd Hg _]].
  destruct (sync_cases T HT _ _ _ _ _ _ Hm E) as (c1 & Ec & Hg1 & Hgr & _ & Hall & Hcase).
  assert (Hids : created (mx_conf m') = created c1).
  { destruct r; [by destruct Hcase as (_ & _ & -> & _)|].
    destruct Hcase as (order & p & mon & _ & Ep & _). by eapply program_good. }
  rewrite Hgr. split; [intros n Hn; rewrite Hids; by apply Hall|]. split; [done|]. split; [done|]. split; [done|].
  rewrite Hids. by destruct (create_cells_good T HT _ _ _ (proj2 Hm) Ec) as (_ & Hp & _).
Qed.
Print Assumptions C16_creation_in_order.

(** Right after a successful synchronisation, a free instance is one of the asked kind that no cell of
    the board uses, and every instance that is in use is on the board. *)
Theorem C16_unused_is_free (T : ntable) (i2f : Z -> f32) (load_sample : satom -> satom) (HT : table_ok T)
    h m sent h' m' ms fuel n n' :
  matrix_reachable T i2f load_sample h m sent -> matrix_sync T h m = Some (h', m', ms, None) ->
  matrix_unused fuel m' n = Some n' ->
  nid_kind n' = nid_kind n /\ (nid_inst n < 256 -> nid_inst n' < 256) /\ ~ on_board (lay_grid (mx_lay m')) n'.
Proof.
  intros Hr E Eu. pose proof (matrix_reachable_inv T HT i2f load_sample _ _ _ Hr) as Hm.
  destruct (sync_inv T HT _ _ _ _ _ _ Hm E) as [_ [Hi _ _ _]].
  destruct (sync_cases T HT _ _ _ _ _ _ Hm E) as (c1 & Ec & Hg1 & Hgr & _ & Hall & Hcase).
  destruct Hcase as (order & p & mon & (_ & Hord & _) & Ep & _).
  destruct (unused_result T fuel _ n n' Hi Eu) as (H1 & H2 & H3). split; [done|]. split; [done|].
  rewrite Hgr. intros Hn. destruct (program_used T HT _ _ _ _ _ _ _ n' (cg_inv T c1 Hg1) Ep) as (_ & Hu & _).
  rewrite Hu in H2; [done|by apply Hord|by apply Hall].
Qed.
Print Assumptions C16_unused_is_free.

(** The search ends after at most 256 steps if some instance of the kind is not on the board. *)
Theorem C16_unused_terminates (T : ntable) (i2f : Z -> f32) (load_sample : satom -> satom) (HT : table_ok T)
    h m sent h' m' ms n i :
  matrix_reachable T i2f load_sample h m sent -> matrix_sync T h m = Some (h', m', ms, None) ->
  nid_inst n < 256 -> i < 256 -> ~ on_board (lay_grid (mx_lay m')) (NId (nid_kind n) i) ->
  exists steps n', steps <= 256 /\ matrix_unused steps m' n = Some n'.
Proof.
  intros Hr E Hn Hlt Hfree. pose proof (matrix_reachable_inv T HT i2f load_sample _ _ _ Hr) as Hm.
  destruct (sync_inv T HT _ _ _ _ _ _ Hm E) as [_ [Hi _ _ _]].
  destruct (sync_cases T HT _ _ _ _ _ _ Hm E) as (c1 & Ec & Hg1 & Hgr & Hl & Hall & Hcase).
  destruct Hcase as (order & p & mon & (_ & Hord & _) & Ep & _).
  destruct (program_used T HT _ _ _ _ _ _ _ (NId (nid_kind n) i) (cg_inv T c1 Hg1) Ep) as (_ & _ & Hu).
  set (d := (i + 256 - nid_inst n) mod 256).
  assert (Hd : u8 (nid_inst n + d) = i).
  { unfold u8, d. rewrite Nat.add_mod_idemp_r by lia. replace (nid_inst n + (i + 256 - nid_inst n)) with (i + 1 * 256) by lia.
    rewrite Nat.mod_add by lia. by apply Nat.mod_small. }
  assert (Hdl : d < 256) by (apply Nat.mod_upper_bound; lia).
  destruct (unused_finds T d (mx_conf m') n Hi Hn) as [n' Hn'].
  - rewrite Hd. destruct (used (mx_conf m') (NId (nid_kind n) i)) eqn:Eu; [|done]. exfalso.
    apply Hfree. rewrite Hgr. destruct (Hu eq_refl) as [Ho|(e & He & Ht)]; [by apply Hord|].
    apply grid_edges_elem in He as (q & dd & (c & q' & c' & Hb & Hnn & _ & _ & _ & _ & Hc & _)).
    split; [congruence|]. exists q, c. split; [done|congruence].
  - exists (S d), n'. split; [lia|done].
Qed.
Print Assumptions C16_unused_terminates.

(** If all 256 instances of a kind are on the board, the search never ends: no number of steps gives
    a result. *)
Theorem C16_unused_full_board_refuted (T : ntable) (i2f : Z -> f32) (load_sample : satom -> satom) (HT : table_ok T)
    h m sent h' m' ms k :
  matrix_reachable T i2f load_sample h m sent -> matrix_sync T h m = Some (h', m', ms, None) ->
  (forall i, i < 256 -> on_board (lay_grid (mx_lay m')) (NId k i)) ->
  forall fuel i, i < 256 -> matrix_unused fuel m' (NId k i) = None.
Proof.
  intros Hr E Hall'. pose proof (matrix_reachable_inv T HT i2f load_sample _ _ _ Hr) as Hm.
  destruct (sync_cases T HT _ _ _ _ _ _ Hm E) as (c1 & Ec & Hg1 & Hgr & _ & Hall & Hcase).
  destruct Hcase as (order & p & mon & (_ & Hord & _) & Ep & _).
  apply unused_loops. intros i Hi. rewrite Hgr in Hall'.
  destruct (program_used T HT _ _ _ _ _ _ _ (NId k i) (cg_inv T c1 Hg1) Ep) as (_ & Hu & _).
  apply Hu; [by apply Hord, Hall'|by apply Hall, Hall'].
Qed.
Print Assumptions C16_unused_full_board_refuted.

(** a board with node (1, 2) and (2, 0), connected, on the demonstration table *)
Definition demo_calls : list mop :=
  [MxLay (LPlace 0 0 (Cell (NId 1 2) 0 0 None None (Some 0) None None None));
   MxLay (LPlace 0 1 (Cell (NId 2 0) 0 1 None None None (Some 0) None None));
   MxSync].
Definition demo_matrix : option (heap * matrix * list gmsg) :=
  matrix_run demo_table (fun z => z) (fun a => a) (Heap ∅ 0, matrix_new 2 2, []) demo_calls.

Example C16_example :
  (s ← demo_matrix;
   Some (created (mx_conf s.1.2), matrix_unused 256 s.1.2 (NId 1 2), matrix_unused 256 s.1.2 (NId 1 0)))
  = Some ([NId 1 0; NId 1 1; NId 1 2; NId 2 0], Some (NId 1 3), Some (NId 1 0)).
Proof. by vm_compute. Qed.

(** the hypothesis of the last theorem is met: a 16x16 board with all 256 instances of kind 1 *)
Definition full_calls : list mop :=
  ((fun i => MxLay (LPlace (i / 16) (i mod 16) (Cell (NId 1 i) 0 0 None None None None None None))) <$> seq 0 256) ++ [MxSync].
Example full_board_example :
  (s ← matrix_run demo_table (fun z => z) (fun a => a) (Heap ∅ 0, matrix_new 16 16, []) full_calls;
   Some (length (created (mx_conf s.1.2)), matrix_unused 1000 s.1.2 (NId 1 7))) = Some (256, None).
Proof. by vm_compute. Qed.
