From Verif Require Import Base M_Dir S_Dir L_Dir M_Graph S_Graph L_Graph M_Grid S_Grid.
Open Scope nat_scope.

(** ** Cells and positions *)

Lemma wf_new w h : grid_wf (grid_new w h).
Proof. unfold grid_wf, grid_new; cbn. by rewrite replicate_length. Qed.

Lemma in_bounds_lookup g p : grid_wf g -> in_bounds g p ->
  exists c, g_cells g !! (p.1 * g_h g + p.2) = Some c.
Proof.
  intros Hwf [Hx Hy]. apply lookup_lt_is_Some. unfold grid_wf in Hwf. nia.
Qed.

Lemma board_Some g p c : board g p = Some c <->
  in_bounds g p /\ g_cells g !! (p.1 * g_h g + p.2) = Some c.
Proof.
  unfold board, grid_get, in_bounds. destruct (decide _) as [H|H].
  - split; [done|]. intros [H1 _]. lia.
  - destruct (g_cells g !! _) as [c'|]; cbn; split; try done; try naive_solver lia.
Qed.

Lemma grid_get_board g x y : grid_wf g -> grid_get g x y = Some (board g (x, y)).
Proof.
  intros Hwf. unfold board. cbn. unfold grid_get. destruct (decide _) as [H|H]; [done|].
  destruct (in_bounds_lookup g (x, y) Hwf) as [c Hc]; [split; cbn; lia|].
  cbn in Hc. by rewrite Hc.
Qed.

Lemma board_None g p : grid_wf g -> board g p = None <-> ~ in_bounds g p.
Proof.
  intros Hwf. split.
  - intros H Hb. destruct (in_bounds_lookup g p Hwf Hb) as [c Hc].
    assert (board g p = Some c) by (by apply board_Some). congruence.
  - intros H. destruct (board g p) as [c|] eqn:Hc; [|done].
    apply board_Some in Hc. naive_solver.
Qed.

Lemma index_inj (h x y x' y' : nat) : y < h -> y' < h -> x * h + y = x' * h + y' -> x = x' /\ y = y'.
Proof. intros. assert (x = x') by nia. subst. lia. Qed.

Lemma place_some g x y c : grid_wf g ->
  exists g', grid_place g x y c = Some g' /\ grid_wf g' /\ g_w g' = g_w g /\ g_h g' = g_h g /\
    (forall p, board g' p = if decide (p = (x, y) /\ in_bounds g p)
                            then Some (cell_at c (u8 x) (u8 y)) else board g p) /\
    (~ in_bounds g (x, y) -> g' = g).
Proof.
  intros Hwf. unfold grid_place. destruct (decide (g_w g <= x \/ g_h g <= y)) as [H|H].
  { exists g. split_and!; try done. intros p. destruct (decide _) as [[-> Hb]|]; [|done].
    unfold in_bounds in Hb; cbn in Hb. lia. }
  destruct (decide _) as [Hl|Hl]; [|unfold grid_wf in Hwf; nia].
  eexists. split_and!; [done|..]; cbn.
  - unfold grid_wf in *; cbn. by rewrite insert_length.
  - done.
  - done.
  - intros p. destruct (decide _) as [[-> Hb]|Hn].
    + apply board_Some. split; [done|]. cbn. by rewrite list_lookup_insert.
    + destruct (decide (in_bounds g p)) as [Hb|Hb].
      * destruct (in_bounds_lookup g p Hwf Hb) as [c' Hc'].
        assert (board g p = Some c') as -> by (by apply board_Some).
        apply board_Some. split; [done|]. cbn.
        rewrite list_lookup_insert_ne; [done|].
        intros He. destruct p as [px py]. destruct Hb as [Hb1 Hb2]. cbn in *.
        destruct (index_inj (g_h g) px py x y); [lia..|]. subst. apply Hn. split; [done|]. split; cbn; lia.
      * pose proof Hb as Hb'. apply (board_None g p Hwf) in Hb as ->.
        destruct (board _ p) as [c'|] eqn:Hc'; [|done].
        apply board_Some in Hc'. destruct Hc' as [Hc' _]. unfold in_bounds in *; cbn in *. done.
  - intros Hn. unfold in_bounds in Hn. cbn in Hn. lia.
Qed.

Lemma get_adjacent_board g x y d : grid_wf g ->
  get_adjacent g x y d =
  Some (match dir_offs_pos d (x, y) with Some q => board g q | None => None end).
Proof.
  intros Hwf. unfold get_adjacent, dir_offs_pos. cbn [fst snd].
  destruct (dir_as_offs d x) as [ox oy]. cbv zeta.
  destruct (decide (0 <= _ /\ 0 <= _)%Z) as [Hp|Hp].
  - destruct (decide _) as [H|H].
    + f_equal. symmetry. apply (board_None g _ Hwf). unfold in_bounds; cbn. lia.
    + set (nx := Z.to_nat _) in *. set (ny := Z.to_nat (Z.of_nat y + oy)) in *.
      destruct (in_bounds_lookup g (nx, ny) Hwf) as [c Hc]; [unfold in_bounds; cbn; lia|].
      cbn in Hc. rewrite Hc. cbn. f_equal. symmetry. apply board_Some. split; [unfold in_bounds; cbn; lia|done].
  - destruct (decide _) as [H|H]; [done|]. lia.
Qed.

(** ** Connection sites *)

Definition site (g : grid) (pd : (nat * nat) * celldir) : option edge_t :=
  let* c := board g pd.1 in
  if decide (c_node c = Nop) then None else
  let* q := dir_offs_pos pd.2 pd.1 in
  let* c' := board g q in
  if decide (c_node c' = Nop) then None else
  let* i := input_port c pd.2 in
  let* o := output_port c' (dir_flip pd.2) in
  Some (Edge (c_node c') o (c_node c) i).

Lemma site_connects g p d e : site g (p, d) = Some e <-> connects g p d e.
Proof.
  unfold site, connects. cbn [fst snd]. split.
  - intros H. destruct (board g p) as [c|] eqn:Hc; [|done]. cbn in H.
    destruct (decide _) as [|Hn]; [done|].
    destruct (dir_offs_pos d p) as [q|] eqn:Hq; [|done]. cbn in H.
    destruct (board g q) as [c'|] eqn:Hc'; [|done]. cbn in H.
    destruct (decide _) as [|Hn']; [done|].
    destruct (input_port c d) as [i|] eqn:Hi; [|done]. cbn in H.
    destruct (output_port c' _) as [o|] eqn:Ho; [|done]. cbn in H.
    injection H as <-. exists c, q, c'. cbn. split_and!; try done.
    apply offs_pos_neighbour; [|done]. intros ->. done.
  - intros (c & q & c' & -> & Hn & Hq & Hc' & Hn' & Hi & Ht & Ho & Hf). cbn.
    rewrite decide_False by done.
    apply offs_pos_neighbour in Hq; [|by destruct Hq]. rewrite Hq. cbn. rewrite Hc'. cbn.
    rewrite decide_False by done. rewrite Hi. cbn. rewrite Ho. cbn.
    destruct e; cbn in *; by subst.
Qed.

Lemma site_nop g p d c : board g p = Some c -> c_node c = Nop -> site g (p, d) = None.
Proof. intros H Hn. unfold site; cbn [fst snd]. rewrite H. cbn [mbind option_bind]. by rewrite decide_True. Qed.

Definition in_dirs : list celldir := [T; TL; BL].
Definition cell_sites (p : nat * nat) : list ((nat * nat) * celldir) := (fun d => (p, d)) <$> in_dirs.
Definition cell_edges (g : grid) (p : nat * nat) : list edge_t := omap (site g) (cell_sites p).
Lemma cell_edges_nop g p c : board g p = Some c -> c_node c = Nop -> cell_edges g p = [].
Proof.
  intros H Hn. unfold cell_edges, cell_sites, in_dirs. cbn.
  rewrite !(site_nop g p _ c) by done. done.
Qed.
Definition cell_ops (g : grid) (p : nat * nat) : list gop :=
  match board g p with
  | Some c => if decide (c_node c = Nop) then []
              else GAddNode (c_node c) :: ((fun e => GAddEdge (e_from e) (e_to e)) <$> cell_edges g p)
  | None => []
  end.

Lemma positions_elem w h p : p ∈ positions w h <-> p.1 < w /\ p.2 < h.
Proof.
  unfold positions. rewrite elem_of_list_bind. destruct p as [x y]; cbn. split.
  - intros (x' & H & Hx'). apply elem_of_list_fmap in H as (y' & [= -> ->] & Hy').
    apply elem_of_seq in Hx', Hy'. lia.
  - intros [Hx Hy]. exists x. split; [|apply elem_of_seq; lia].
    apply elem_of_list_fmap. exists y. split; [done|]. apply elem_of_seq; lia.
Qed.

Lemma adj_output_site g x y d c : grid_wf g -> d ∈ in_dirs -> board g (x, y) = Some c -> c_node c <> Nop ->
  exists o, get_adjacent_output g x y d = Some o /\
    forall acc, scan_input c (local_port_idx c d) o acc =
      match site g ((x, y), d) with
      | Some e => let* go := gord_add_edge (fst acc) (e_from e) (e_to e) in Some (go, snd acc ++ [e])
      | None => Some acc
      end.
Proof.
  intros Hwf Hd Hc Hn. unfold get_adjacent_output.
  assert (dir_is_output d = false) as ->.
  { unfold in_dirs in Hd. set_unfold in Hd. destruct Hd as [->|[->|[->|[]]]]; done. }
  rewrite get_adjacent_board by done. cbn [mbind option_bind].
  unfold site; cbn [fst snd]. rewrite Hc. cbn [mbind option_bind]. rewrite decide_False by done.
  assert (input_port c d = local_port_idx c d) as ->.
  { unfold in_dirs in Hd. set_unfold in Hd. destruct Hd as [->|[->|[->|[]]]]; done. }
  destruct (dir_offs_pos d (x, y)) as [q|]; cbn [mbind option_bind].
  2: { eexists. split; [done|]. intros []. unfold scan_input. by destruct (local_port_idx c d). }
  destruct (board g q) as [c'|]; cbn [mbind option_bind].
  2: { eexists. split; [done|]. intros []. unfold scan_input. by destruct (local_port_idx c d). }
  destruct (decide (c_node c' = Nop)) as [H|H].
  { eexists. split; [done|]. intros []. unfold scan_input. by destruct (local_port_idx c d). }
  eexists. split; [done|]. intros [go es].
  assert (output_port c' (dir_flip d) = match d with T => c_out3 c' | TL => c_out2 c' | BL => c_out1 c' | _ => None end) as ->.
  { unfold in_dirs in Hd. set_unfold in Hd. destruct Hd as [->|[->|[->|[]]]]; done. }
  unfold scan_input. destruct (local_port_idx c d) as [i|]; cbn [mbind option_bind]; [|done].
  destruct (match d with T => _ | _ => _ end) as [o|]; cbn; done.
Qed.

Lemma scan_cell_ops g go es p : grid_wf g -> in_bounds g p ->
  scan_cell g (go, es) p =
  let* go' := gord_run go (cell_ops g p) in Some (go', es ++ cell_edges g p).
Proof.
  intros Hwf Hb. destruct p as [x y]. unfold scan_cell.
  destruct (in_bounds_lookup g (x, y) Hwf Hb) as [c Hc]. cbn [fst snd] in Hc. rewrite Hc.
  cbn [mbind option_bind].
  assert (board g (x, y) = Some c) as Hbc by (by apply board_Some).
  unfold cell_ops. rewrite Hbc. destruct (decide _) as [Hn|Hn].
  { cbn [gord_run foldl mbind option_bind].
    rewrite (cell_edges_nop g (x, y) c) by done.
    by rewrite app_nil_r. }
  unfold cell_edges, cell_sites.
  destruct (adj_output_site g x y T c) as (o1 & -> & H1); [done|unfold in_dirs; set_solver|done..|].
  destruct (adj_output_site g x y TL c) as (o2 & -> & H2); [done|unfold in_dirs; set_solver|done..|].
  destruct (adj_output_site g x y BL c) as (o3 & -> & H3); [done|unfold in_dirs; set_solver|done..|].
  cbn [local_port_idx] in H1, H2, H3. cbn [mbind option_bind].
  rewrite H1. unfold in_dirs. cbn [fmap list_fmap omap list_omap].
  rewrite gord_run_cons. cbn [gord_step mbind option_bind fst snd].
  set (g0 := (gord_add_node go (c_node c)).1). clearbody g0.
  assert (Hrun : forall (ga : gord) (os : list gop), gord_run ga os = foldl (fun g o => g ← g; gord_step g o) (Some ga) os) by done.
  destruct (site g (x, y, T)) as [e1|]; destruct (site g (x, y, TL)) as [e2|]; destruct (site g (x, y, BL)) as [e3|];
    cbn [fmap list_fmap]; rewrite ?gord_run_cons; cbn [gord_step mbind option_bind fst snd];
    repeat (first [ rewrite H2 | rewrite H3 | rewrite gord_run_cons
                  | match goal with |- context [gord_add_edge ?g ?a ?b] => destruct (gord_add_edge g a b) eqn:? end ];
            cbn [gord_step mbind option_bind fst snd]; try done);
    cbn [gord_run foldl mbind option_bind]; rewrite <- ?app_assoc; cbn; rewrite ?app_nil_r; done.
Qed.

Lemma gord_run_app g os1 os2 : gord_run g (os1 ++ os2) = let* g' := gord_run g os1 in gord_run g' os2.
Proof.
  revert g. induction os1 as [|o os1 IH]; intros g; [done|].
  cbn [app]. rewrite !gord_run_cons. destruct (gord_step g o) as [g1|]; [|done]. cbn [mbind option_bind]. apply IH.
Qed.

Definition grid_ops (g : grid) : list gop := positions (g_w g) (g_h g) ≫= cell_ops g.
Definition grid_edges (g : grid) : list edge_t := positions (g_w g) (g_h g) ≫= cell_edges g.
Definition sites (g : grid) : list ((nat * nat) * celldir) := positions (g_w g) (g_h g) ≫= cell_sites.

Lemma foldl_scan_None g ps : foldl (fun acc p => let* acc := acc in scan_cell g acc p) None ps = None.
Proof. by induction ps. Qed.

Lemma scan_fold g ps : grid_wf g -> (forall p, p ∈ ps -> in_bounds g p) -> forall go es,
  foldl (fun acc p => let* acc := acc in scan_cell g acc p) (Some (go, es)) ps =
  let* go' := gord_run go (ps ≫= cell_ops g) in Some (go', es ++ (ps ≫= cell_edges g)).
Proof.
  intros Hwf. induction ps as [|p ps IH]; intros Hps go es.
  - cbn. by rewrite app_nil_r.
  - cbn [foldl]. cbn [mbind option_bind].
    rewrite scan_cell_ops; [|done|apply Hps; left].
    cbn [mbind list_bind]. rewrite gord_run_app.
    destruct (gord_run go (cell_ops g p)) as [go1|]; cbn [mbind option_bind].
    + rewrite IH by (intros; apply Hps; by right).
      cbn [mbind list_bind]. by rewrite <- (assoc_L (++)).
    + apply foldl_scan_None.
Qed.

Lemma scan_eq g go : grid_wf g ->
  scan g go = let* go' := gord_run go (GClear :: grid_ops g) in Some (go', grid_edges g).
Proof.
  intros Hwf. unfold scan. rewrite scan_fold; [|done|].
  - rewrite gord_run_cons. cbn [gord_step mbind option_bind]. done.
  - intros p Hp. apply positions_elem in Hp. done.
Qed.

Lemma grid_edges_sites g : grid_edges g = omap (site g) (sites g).
Proof.
  unfold grid_edges, sites. induction (positions _ _) as [|p ps IH]; [done|].
  cbn [mbind list_bind]. rewrite omap_app. f_equal. done.
Qed.

Lemma sites_elem g p d : (p, d) ∈ sites g <-> in_bounds g p /\ d ∈ in_dirs.
Proof.
  unfold sites. rewrite elem_of_list_bind. split.
  - intros (p' & H & Hp'). apply elem_of_list_fmap in H as (d' & [= -> ->] & Hd).
    apply positions_elem in Hp'. done.
  - intros [Hp Hd]. exists p. split; [|by apply positions_elem].
    apply elem_of_list_fmap. by exists d.
Qed.

Lemma NoDup_bind' {A B} (f : A -> list B) l :
  (forall x1 x2 y, x1 ∈ l -> x2 ∈ l -> y ∈ f x1 -> y ∈ f x2 -> x1 = x2) ->
  (forall x, x ∈ l -> NoDup (f x)) -> NoDup l -> NoDup (l ≫= f).
Proof.
  intros Hi Hf. induction 1 as [|x l Hx Hnd IH]; [constructor|].
  cbn. apply NoDup_app. split_and!.
  - apply Hf. left.
  - intros y Hy1 Hy2. apply elem_of_list_bind in Hy2 as (x' & Hy2 & Hx').
    assert (x = x') as -> by (eapply Hi; [left|right|..]; done). done.
  - apply IH; [|intros; apply Hf; by right]. intros x1 x2 y H1 H2. apply Hi; by right.
Qed.

Lemma NoDup_positions w h : NoDup (positions w h).
Proof.
  apply NoDup_bind'.
  - intros x1 x2 y _ _ H1 H2. apply elem_of_list_fmap in H1 as (? & -> & _).
    apply elem_of_list_fmap in H2 as (? & [= ->] & _). done.
  - intros x _. apply NoDup_fmap_2; [intros ?? [=]; done|]. apply NoDup_seq.
  - apply NoDup_seq.
Qed.

Lemma NoDup_sites g : NoDup (sites g).
Proof.
  apply NoDup_bind'.
  - intros x1 x2 y _ _ H1 H2. apply elem_of_list_fmap in H1 as (? & -> & _).
    apply elem_of_list_fmap in H2 as (? & [= ->] & _). done.
  - intros x _. apply NoDup_fmap_2; [intros ?? [=]; done|]. unfold in_dirs.
    rewrite !NoDup_cons, !elem_of_cons, !elem_of_nil. split_and!; try apply NoDup_nil_2; naive_solver.
  - apply NoDup_positions.
Qed.

Lemma connects_site g p d e : connects g p d e -> (p, d) ∈ sites g.
Proof.
  intros (c & q & c' & Hc & _ & _ & _ & _ & Hi & _). apply sites_elem.
  apply board_Some in Hc. split; [tauto|]. unfold in_dirs. destruct d; cbn in Hi; try done; set_solver.
Qed.

Lemma grid_edges_elem g e : e ∈ grid_edges g <-> exists p d, connects g p d e.
Proof.
  rewrite grid_edges_sites, elem_of_list_omap. split.
  - intros ([p d] & _ & H). exists p, d. by apply site_connects.
  - intros (p & d & H). exists (p, d). split; [by eapply connects_site|by apply site_connects].
Qed.

(** ** The graph described by the layout *)

Definition order_reachable (go : gord) : Prop := exists os, gord_run gord_new os = Some go.

Lemma reachable_R go : order_reachable go -> exists s, R go s.
Proof. intros [os H]. exists (sg_run sg_empty os). by eapply R_run; [apply R_new|]. Qed.

Lemma positions_lookup w h i x y : positions w h !! i = Some (x, y) -> i = x * h + y.
Proof.
  unfold positions. assert (forall k, (seq k w ≫= (fun x => (fun y => (x, y)) <$> seq 0 h)) !! i = Some (x, y) -> i + k * h = x * h + y) as H.
  { revert i. induction w as [|w IH]; intros i k; [done|]. cbn [seq mbind list_bind].
    destruct (decide (i < h)) as [Hi|Hi].
    - rewrite lookup_app_l by (rewrite fmap_length, seq_length; lia).
      rewrite list_lookup_fmap, lookup_seq_lt by lia. cbn. intros [= -> ->]. lia.
    - rewrite lookup_app_r by (rewrite fmap_length, seq_length; lia).
      rewrite fmap_length, seq_length. intros H. apply (IH (i - h) (S k)) in H. nia. }
  intros Hi. specialize (H 0). cbn in H. specialize (H Hi). lia.
Qed.

Lemma neighbour_before g p d q ps ps' :
  positions (g_w g) (g_h g) = ps ++ p :: ps' ->
  d ∈ in_dirs -> neighbour p d q -> in_bounds g q -> q ∈ ps.
Proof.
  intros Hps Hd Hnb Hq.
  assert (q ∈ positions (g_w g) (g_h g)) as Hin by (by apply positions_elem).
  apply elem_of_list_lookup in Hin as [i Hi]. destruct q as [qx qy], p as [px py].
  pose proof (positions_lookup _ _ _ _ _ Hi) as Hii.
  assert (positions (g_w g) (g_h g) !! length ps = Some (px, py)) as Hl.
  { rewrite Hps. by rewrite lookup_app_r, Nat.sub_diag. }
  pose proof (positions_lookup _ _ _ _ _ Hl) as Hll.
  assert (i < length ps).
  { destruct Hnb as (_ & H1 & H2). destruct Hq as [Hq1 Hq2]. cbn in *.
    unfold in_dirs in Hd. set_unfold in Hd.
    rewrite !mod2_even in H2.
    destruct Hd as [->|[->|[->|[]]]]; cbn in *.
    - assert (qx = px) by lia. subst. assert (qy < py) by lia. lia.
    - assert (S qx = px) by lia. subst. nia.
    - assert (S qx = px) by lia. subst. nia. }
  rewrite Hps, lookup_app_l in Hi by done. by eapply elem_of_list_lookup_2.
Qed.

Lemma sg_run_app s os1 os2 : sg_run s (os1 ++ os2) = sg_run (sg_run s os1) os2.
Proof. unfold sg_run. by rewrite foldl_app. Qed.

(* adding edges whose sources are known *)
Lemma sg_run_edges (es : list edge_t) : forall s n,
  n ∈ sg_nodes s -> (forall e, e ∈ es -> e_to e = n /\ e_from e ∈ sg_nodes s) ->
  let s' := sg_run s ((fun e => GAddEdge (e_from e) (e_to e)) <$> es) in
  sg_nodes s' = sg_nodes s /\
  forall a b, edge s' a b <-> edge s a b \/ exists e, e ∈ es /\ e_from e = a /\ e_to e = b.
Proof.
  induction es as [|e es IH]; intros s n Hn Hes.
  - cbn. split; [done|]. intros a b. split; [by left|]. intros [H|(e & H & _)]; [done|]. by apply elem_of_nil in H.
  - cbn [fmap list_fmap]. destruct (Hes e) as [Ht Hf]; [by left|].
    cbn [sg_run foldl]. cbn [sg_step].
    assert (sg_add (e_to e) (sg_nodes s) = sg_nodes s) as Hadd.
    { unfold sg_add. by rewrite Ht, decide_True. }
    rewrite Hadd. rewrite decide_True by done.
    edestruct (IH (SG (sg_nodes s) ((e_from e, e_to e) :: sg_edges s)) n) as [IH1 IH2].
    + done.
    + intros e' He'. apply Hes. by right.
    + split; [exact IH1|]. intros a b. unfold sg_run in IH2. rewrite IH2. unfold edge; cbn.
      rewrite elem_of_cons. split.
      * intros [[[= -> ->]|H]|(e' & H & H')]; [right; exists e; set_solver|by left|right; exists e'; set_solver].
      * intros [H|(e' & H & H')]; [by left; right|]. apply elem_of_cons in H as [->|H]; [left; left; naive_solver|right; naive_solver].
Qed.

Lemma grid_ops_prefix g ps ps' : grid_wf g -> positions (g_w g) (g_h g) = ps ++ ps' ->
  let s := sg_run sg_empty (ps ≫= cell_ops g) in
  (forall n, n ∈ sg_nodes s <-> exists p c, p ∈ ps /\ board g p = Some c /\ c_node c = n /\ n <> Nop) /\
  (forall a b, edge s a b <-> exists e, e ∈ (ps ≫= cell_edges g) /\ e_from e = a /\ e_to e = b).
Proof.
  intros Hwf. revert ps'. induction ps as [|p ps IH] using rev_ind; intros ps' Hps.
  - cbn. split; [|intros a b]; split; intros H; try (by apply elem_of_nil in H); naive_solver set_solver.
  - rewrite <- app_assoc in Hps. destruct (IH _ Hps) as [IH1 IH2].
    rewrite !bind_app. cbn [mbind list_bind]. rewrite !app_nil_r, sg_run_app.
    set (s := sg_run sg_empty (ps ≫= cell_ops g)) in *.
    assert (in_bounds g p) as Hb.
    { assert (p ∈ positions (g_w g) (g_h g)) as H by (rewrite Hps; set_solver). by apply positions_elem in H. }
    destruct (in_bounds_lookup g p Hwf Hb) as [c Hc].
    assert (board g p = Some c) as Hbc by (by apply board_Some).
    unfold cell_ops. rewrite Hbc. destruct (decide (c_node c = Nop)) as [Hn|Hn].
    + rewrite (cell_edges_nop g p c) by done.
      rewrite app_nil_r. cbn [sg_run foldl]. split; [|done].
      intros n. rewrite IH1. split.
      * intros (p' & c' & ? & ?). exists p', c'. set_solver.
      * intros (p' & c' & Hp' & Hc' & <- & Hnn). apply elem_of_app in Hp' as [Hp'|Hp'].
        { exists p', c'. done. } apply elem_of_list_singleton in Hp' as ->. congruence.
    + cbn [sg_run foldl sg_step].
      edestruct (sg_run_edges (cell_edges g p) (SG (sg_add (c_node c) (sg_nodes s)) (sg_edges s)) (c_node c)) as [H1 H2].
      { cbn. apply sg_add_in. }
      { intros e He. unfold cell_edges in He. apply elem_of_list_omap in He as ([p' d] & Hpd & He).
        apply elem_of_list_fmap in Hpd as (d' & [= -> ->] & Hd).
        apply site_connects in He as (c0 & q & c' & Hc0 & _ & Hq & Hc' & Hn' & _ & Ht & _ & Hf).
        rewrite Hbc in Hc0. injection Hc0 as <-. split; [done|]. cbn. apply elem_sg_add. right.
        apply IH1. exists q, c'. split_and!; try done; [|congruence].
        eapply neighbour_before; [done..|]. apply board_Some in Hc'. tauto. }
      unfold sg_run in H1, H2. split.
      * intros n. rewrite H1. cbn. rewrite elem_sg_add, IH1. split.
        { intros [->|(p' & c' & ? & ?)]; [exists p, c; set_solver|exists p', c'; set_solver]. }
        { intros (p' & c' & Hp' & Hc' & <- & Hnn). apply elem_of_app in Hp' as [Hp'|Hp'].
          - right. exists p', c'. done.
          - apply elem_of_list_singleton in Hp' as ->. left. congruence. }
      * intros a b. rewrite H2. unfold edge in *; cbn. rewrite IH2. setoid_rewrite elem_of_app. naive_solver.
Qed.

Lemma grid_ops_graph g : grid_wf g ->
  let s := sg_run sg_empty (grid_ops g) in
  (forall n, n ∈ sg_nodes s <-> n <> Nop /\ exists p c, board g p = Some c /\ c_node c = n) /\
  (forall a b, edge s a b <-> feeds g a b).
Proof.
  intros Hwf. destruct (grid_ops_prefix g (positions (g_w g) (g_h g)) [] Hwf) as [H1 H2].
  { by rewrite app_nil_r. }
  split.
  - intros n. unfold grid_ops. rewrite H1. split.
    + intros (p & c & _ & ? & ? & ?). split; [done|]. by exists p, c.
    + intros (? & p & c & Hc & ?). exists p, c. split_and!; try done.
      apply positions_elem. by apply board_Some in Hc as [Hc _].
  - intros a b. unfold grid_ops. rewrite H2. unfold feeds. split.
    + intros (e & He & ? & ?). apply grid_edges_elem in He as (p & d & He). by exists p, d, e.
    + intros (p & d & e & He & ? & ?). exists e. split; [|done]. apply grid_edges_elem. by exists p, d.
Qed.

Lemma sg_run_edge_ops os a b : forall s, edge (sg_run s os) a b -> edge s a b \/ GAddEdge a b ∈ os.
Proof.
  induction os as [|o os IH]; intros s H; [by left|]. cbn in H. apply IH in H as [H|H]; [|right; by right].
  destruct o; cbn in H.
  - by apply elem_of_nil in H.
  - by left.
  - destruct (decide _); [|by left]. unfold edge in H; cbn in H. apply elem_of_cons in H as [[= -> ->]|H].
    + right. left.
    + by left.
  - by left.
Qed.

Lemma scan_some g go : grid_wf g -> fanout_ok g -> order_reachable go ->
  exists go', scan g go = Some (go', grid_edges g) /\ R go' (sg_run sg_empty (grid_ops g)).
Proof.
  intros Hwf Hfan Hr. destruct (reachable_R go Hr) as [s Hs]. rewrite scan_eq by done.
  apply R_clear in Hs.
  rewrite gord_run_cons. cbn [gord_step mbind option_bind].
  destruct (run_some (grid_ops g) (gord_clear go) sg_empty Hs) as [go' Hgo'].
  - intros os1 os2 Hos a.
    apply (Hfan a).
    + apply NoDup_remove_dups.
    + intros b Hb. apply targets_elem in Hb.
      apply sg_run_edge_ops in Hb as [Hb|Hb]; [by apply elem_of_nil in Hb|].
      assert (GAddEdge a b ∈ grid_ops g) as Hin by (rewrite Hos; set_solver).
      unfold grid_ops in Hin. apply elem_of_list_bind in Hin as (p & Hin & _).
      unfold cell_ops in Hin. destruct (board g p); [|by apply elem_of_nil in Hin].
      destruct (decide _); [by apply elem_of_nil in Hin|].
      apply elem_of_cons in Hin as [?|Hin]; [done|].
      apply elem_of_list_fmap in Hin as (e & [= -> ->] & He).
      unfold cell_edges in He. apply elem_of_list_omap in He as ([p' d] & _ & He).
      apply site_connects in He. by exists p', d, e.
  - rewrite Hgo'. cbn. eexists. split; [done|].
    by apply (R_run _ _ _ _ Hs Hgo').
Qed.

(** ** Duplicate detection *)

Definition ekey (e : edge_t) : node_id * nat := (e_to e, e_to_input e).
Definition esrc (e : edge_t) : node_id * nat := (e_from e, e_from_out e).

Lemma find_dup_None es : forall seen,
  find_dup seen es = None <->
  NoDup (ekey <$> es) /\ forall k, k ∈ ekey <$> es -> k ∉ fst <$> seen.
Proof.
  induction es as [|e es IH]; intros seen.
  - cbn. split; [|done]. intros _. split; [constructor|]. intros k Hk. by apply elem_of_nil in Hk.
  - cbn [find_dup fmap list_fmap]. change (e_to e, e_to_input e) with (ekey e).
    destruct (list_find _ seen) as [[i [k o1]]|] eqn:Hf.
    + apply list_find_Some in Hf as (Hi & Hk & _). cbn in Hk. subst k. split; [done|].
      intros [_ H]. exfalso. apply (H (ekey e)); [left|].
      apply elem_of_list_fmap. exists (ekey e, o1). split; [done|]. by eapply elem_of_list_lookup_2.
    + apply list_find_None in Hf. rewrite IH. cbn [fmap list_fmap fst]. rewrite NoDup_cons.
      assert (ekey e ∉ seen.*1) as Hn.
      { intros Hin. apply elem_of_list_fmap in Hin as ([k o] & Hk & Hin).
        rewrite Forall_forall in Hf. apply (Hf _ Hin). by cbn in *. }
      split.
      * intros [Hnd Hk]. split_and!.
        -- intros Hin. apply (Hk _ Hin). left.
        -- done.
        -- intros k. rewrite elem_of_cons. intros [->|Hin]; [done|]. specialize (Hk _ Hin). set_solver.
      * intros [[Hnin Hnd] Hk]. split; [done|]. intros k Hin. rewrite elem_of_cons. intros [->|Hin']; [done|].
        apply (Hk k); [by right|done].
Qed.

Lemma find_dup_Some es : forall seen r, find_dup seen es = Some r ->
  exists pre e post o1, es = pre ++ e :: post /\ r = DuplicatedInput o1 (esrc e) /\
    ((ekey e, o1) ∈ seen \/ exists e', e' ∈ pre /\ ekey e' = ekey e /\ o1 = esrc e').
Proof.
  induction es as [|e es IH]; intros seen r; [done|].
  cbn [find_dup]. change (e_to e, e_to_input e) with (ekey e).
  change (e_from e, e_from_out e) with (esrc e).
  destruct (list_find _ seen) as [[i [k o1]]|] eqn:Hf.
  - apply list_find_Some in Hf as (Hi & Hk & _). cbn in Hk. subst k. intros [= <-].
    exists [], e, es, o1. split_and!; [done..|]. left. by eapply elem_of_list_lookup_2.
  - intros H. apply IH in H as (pre & e2 & post & o1 & -> & -> & H).
    exists (e :: pre), e2, post, o1. split_and!; [done..|].
    destruct H as [H|(e' & Hin & H)].
    + apply elem_of_cons in H as [H|H].
      * right. exists e. split_and!; [left|congruence..].
      * by left.
    + right. exists e'. split; [by right|done].
Qed.

Lemma omap_split {A B} (f : A -> option B) l pre e post e' :
  NoDup l -> omap f l = pre ++ e :: post -> e' ∈ pre ->
  exists x' x, x' ∈ l /\ x ∈ l /\ x' <> x /\ f x' = Some e' /\ f x = Some e.
Proof.
  intros Hnd. revert pre. induction Hnd as [|x l Hx Hnd IH]; intros pre H Hin.
  - cbn in H. by destruct pre.
  - cbn in H. destruct (f x) as [b|] eqn:Hf.
    + destruct pre as [|b' pre]; [by apply elem_of_nil in Hin|].
      cbn in H. injection H as -> H. apply elem_of_cons in Hin as [->|Hin].
      * assert (e ∈ omap f l) as He by (rewrite H; set_solver).
        apply elem_of_list_omap in He as (x2 & Hx2 & Hf2).
        exists x, x2. split_and!; [left|by right| |done|done]. intros ->. done.
      * destruct (IH pre H Hin) as (x1 & x2 & ? & ? & ? & ? & ?).
        exists x1, x2. split_and!; try done; by right.
    + destruct (IH pre H Hin) as (x1 & x2 & ? & ? & ? & ? & ?).
      exists x1, x2. split_and!; try done; by right.
Qed.

Lemma omap_dup {A B K} (f : A -> option B) (k : B -> K) l x x' e e' :
  x ∈ l -> x' ∈ l -> x <> x' -> f x = Some e -> f x' = Some e' -> k e = k e' ->
  ~ NoDup (k <$> omap f l).
Proof.
  induction l as [|a l IH]; intros Hx Hx' Hne Hf Hf' Hk Hnd; [by apply elem_of_nil in Hx|].
  apply elem_of_cons in Hx, Hx'. cbn in Hnd. destruct (f a) as [b|] eqn:Hfa.
  - cbn in Hnd. apply NoDup_cons in Hnd as [Hnin Hnd].
    destruct Hx as [->|Hx], Hx' as [->|Hx'].
    + done.
    + apply Hnin. apply elem_of_list_fmap. exists e'. split; [congruence|].
      apply elem_of_list_omap. by exists x'.
    + apply Hnin. apply elem_of_list_fmap. exists e. split; [congruence|].
      apply elem_of_list_omap. by exists x.
    + by apply IH.
  - destruct Hx as [->|Hx], Hx' as [->|Hx']; try congruence. by apply IH.
Qed.

Lemma dup_Some_spec g r : find_dup [] (grid_edges g) = Some r ->
  exists o1 o2, r = DuplicatedInput o1 o2 /\ duplicated_input g o1 o2.
Proof.
  intros H. apply find_dup_Some in H as (pre & e & post & o1 & Hes & -> & [H|(e' & Hin & Hk & ->)]).
  { by apply elem_of_nil in H. }
  exists (esrc e'), (esrc e). split; [done|].
  rewrite grid_edges_sites in Hes.
  destruct (omap_split _ _ _ _ _ _ (NoDup_sites g) Hes Hin) as ([p1 d1] & [p2 d2] & _ & _ & Hne & H1 & H2).
  apply site_connects in H1, H2. injection Hk as Hk1 Hk2.
  exists p1, d1, e', p2, d2, e. done.
Qed.

Lemma dup_None_spec g : find_dup [] (grid_edges g) = None <-> forall o1 o2, ~ duplicated_input g o1 o2.
Proof.
  rewrite find_dup_None. split.
  - intros [Hnd _] o1 o2 (p1 & d1 & e1 & p2 & d2 & e2 & H1 & H2 & Hne & Ht & Hi & _).
    rewrite grid_edges_sites in Hnd. revert Hnd.
    apply (omap_dup _ _ _ (p1, d1) (p2, d2) e1 e2); try done.
    + by eapply connects_site.
    + by eapply connects_site.
    + by apply site_connects.
    + by apply site_connects.
    + unfold ekey. congruence.
  - intros H. destruct (find_dup [] (grid_edges g)) as [r|] eqn:Hd.
    + apply dup_Some_spec in Hd as (o1 & o2 & _ & Hd). by apply H in Hd.
    + by apply find_dup_None in Hd.
Qed.

Lemma order_reachable_run go os go' : order_reachable go -> gord_run go os = Some go' -> order_reachable go'.
Proof. intros [os0 H0] H. exists (os0 ++ os). by rewrite gord_run_app, H0. Qed.

Lemma order_reachable_new : order_reachable gord_new.
Proof. by exists []. Qed.

Lemma order_reachable_clear go : order_reachable go -> order_reachable (gord_clear go).
Proof. intros H. eapply order_reachable_run; [done|]. by instantiate (1 := [GClear]). Qed.

Lemma scan_reachable g go go' es : grid_wf g -> order_reachable go -> scan g go = Some (go', es) ->
  order_reachable go'.
Proof.
  intros Hwf Hr. rewrite scan_eq by done. destruct (gord_run _ _) as [go1|] eqn:H; [|done].
  cbn. intros [= <- _]. by eapply order_reachable_run.
Qed.

Lemma scan_edges g go go' es : grid_wf g -> scan g go = Some (go', es) -> es = grid_edges g.
Proof.
  intros Hwf. rewrite scan_eq by done. destruct (gord_run _ _) as [go1|] eqn:H; [|done].
  cbn. by intros [= _ <-].
Qed.

Lemma scan_R g go go' es : grid_wf g -> order_reachable go -> scan g go = Some (go', es) ->
  R go' (sg_run sg_empty (grid_ops g)).
Proof.
  intros Hwf Hr. rewrite scan_eq by done. rewrite gord_run_cons. cbn [gord_step mbind option_bind].
  destruct (gord_run _ _) as [go1|] eqn:H; [|done].
  cbn. intros [= <- _]. destruct (reachable_R _ Hr) as [s Hs].
  exact (R_run _ _ _ _ (R_clear _ _ Hs) H).
Qed.

Lemma order_reachable_order go go' out ok : order_reachable go ->
  gord_calculate_order go [] = Some (go', out, ok) -> order_reachable go'.
Proof.
  intros Hr H. eapply (order_reachable_run go [GOrder]); [done|].
  rewrite gord_run_cons. cbn [gord_step]. rewrite H. done.
Qed.

Lemma acyclic_layout g : grid_wf g -> acyclic (sg_run sg_empty (grid_ops g)) <-> layout_acyclic g.
Proof.
  intros Hwf. destruct (grid_ops_graph g Hwf) as [_ He]. unfold acyclic, layout_acyclic, reach.
  assert (forall (E1 E2 : node_id -> node_id -> Prop), (forall a b, E1 a b -> E2 a b) ->
    forall a b, clos_trans _ E1 a b -> clos_trans _ E2 a b) as Hmono.
  { intros E1 E2 H a b. induction 1; [by apply t_step, H|by eapply t_trans]. }
  split; intros H n Hn; apply (H n); (eapply Hmono; [|exact Hn]); intros a b; by apply He.
Qed.

Definition check_spec (g : grid) (r : option merror) : Prop :=
  match r with
  | None => (forall o1 o2, ~ duplicated_input g o1 o2) /\ layout_acyclic g
  | Some (DuplicatedInput o1 o2) => duplicated_input g o1 o2
  | Some CycleDetected => (forall o1 o2, ~ duplicated_input g o1 o2) /\ ~ layout_acyclic g
  | Some _ => False
  end.

Lemma grid_check_scan g go : grid_wf g -> order_reachable go ->
  forall go0 es, scan g go = Some (go0, es) ->
  exists go' r, grid_check g go = Some (go', grid_edges g, r) /\ order_reachable go' /\ check_spec g r.
Proof.
  intros Hwf Hr go0 es Hscan. unfold grid_check. rewrite Hscan. cbn [mbind option_bind].
  pose proof (scan_R _ _ _ _ Hwf Hr Hscan) as HR.
  pose proof (scan_reachable _ _ _ _ Hwf Hr Hscan) as Hr0.
  apply scan_edges in Hscan; [|done]. subst es.
  destruct (find_dup [] (grid_edges g)) as [r|] eqn:Hd.
  - exists go0, (Some r). split_and!; [done..|].
    apply dup_Some_spec in Hd as (o1 & o2 & -> & Hd). done.
  - destruct (calculate_order_ok go0 _ [] HR) as (g' & ok & ord & Hord & _ & Hok & _).
    rewrite Hord. cbn [mbind option_bind]. eexists _, _. split_and!; [done|..].
    + by eapply order_reachable_order.
    + rewrite acyclic_layout in Hok by done. pose proof (proj1 (dup_None_spec g) Hd).
      destruct ok; cbn; naive_solver.
Qed.

Lemma grid_check_ok g go : grid_wf g -> fanout_ok g -> order_reachable go ->
  exists go' r, grid_check g go = Some (go', grid_edges g, r) /\ order_reachable go' /\ check_spec g r.
Proof.
  intros Hwf Hf Hr. destruct (scan_some g go Hwf Hf Hr) as (go0 & Hs & _).
  by eapply grid_check_scan.
Qed.

Lemma grid_check_sound g go go' es r : grid_wf g -> order_reachable go ->
  grid_check g go = Some (go', es, r) -> es = grid_edges g /\ order_reachable go' /\ check_spec g r.
Proof.
  intros Hwf Hr H. destruct (scan g go) as [[go0 es0]|] eqn:Hs.
  - destruct (grid_check_scan g go Hwf Hr _ _ Hs) as (go1 & r1 & H1 & ? & ?).
    rewrite H in H1. injection H1 as -> -> ->. done.
  - unfold grid_check in H. by rewrite Hs in H.
Qed.

(** the edge list enumerates the connection sites *)
Lemma grid_edges_enum g :
  exists ss, NoDup ss /\ (forall p d, (p, d) ∈ ss <-> exists e, connects g p d e) /\
    Forall2 (fun pd e => connects g pd.1 pd.2 e) ss (grid_edges g).
Proof.
  exists (filter (fun pd => is_Some (site g pd)) (sites g)). split_and!.
  - apply NoDup_filter, NoDup_sites.
  - intros p d. rewrite elem_of_list_filter. unfold is_Some. setoid_rewrite site_connects.
    split; [tauto|]. intros [e He]. split; [by exists e|]. by eapply connects_site.
  - rewrite grid_edges_sites. induction (sites g) as [|[p d] l IH]; [constructor|].
    rewrite filter_cons. cbn [omap list_omap]. destruct (decide _) as [[e He]|Hn].
    + rewrite He. constructor; [by apply site_connects|done].
    + destruct (site g (p, d)) as [e|] eqn:He; [|done]. exfalso. apply Hn. by exists e.
Qed.

(** ** Listing the connections of one cell *)


Lemma edge_port_local c d : edge_port c d = local_port_idx c d.
Proof. unfold edge_port. destruct d; cbn; try done; by destruct (_ c). Qed.

Definition conn_spec (g : grid) (p : nat * nat) (en : conn_entry) : Prop :=
  let '((c, d, i), (c', d', j, q)) := en in
  board g p = Some c /\ board g q = Some c' /\ neighbour p d q /\ d' = dir_flip d /\
  edge_port c d = Some i /\ edge_port c' d' = Some j.

Definition conn_at (g : grid) (p : nat * nat) (this : cell) (e : nat) : list conn_entry :=
  match (let* i := local_port_idx this (dir_from e) in
         let* q := dir_offs_pos (dir_from e) p in
         let* other := board g q in
         let* j := local_port_idx other (dir_flip (dir_from e)) in
         Some ((this, dir_from e, i), (other, dir_flip (dir_from e), j, q)))
  with Some en => [en] | None => [] end.

Lemma get_connections_edge_at g x y this e : grid_wf g ->
  get_connections_edge g x y this e = Some (conn_at g (x, y) this e).
Proof.
  intros Hwf. unfold get_connections_edge, conn_at.
  destruct (local_port_idx this (dir_from e)) as [i|]; cbn [mbind option_bind]; [|done].
  destruct (dir_offs_pos _ _) as [[nx ny]|]; cbn [mbind option_bind]; [|done].
  rewrite grid_get_board by done.
  case_bool_decide as Hb; cbn [negb mbind option_bind].
  - destruct (board g (nx, ny)) as [other|]; cbn [mbind option_bind]; [|done].
    by destruct (local_port_idx other _).
  - assert (board g (nx, ny) = None) as -> by (apply board_None; [done|]; unfold in_bounds; cbn; lia). done.
Qed.

Lemma get_connections_ok g p this : grid_wf g -> board g p = Some this ->
  exists l, get_connections g p.1 p.2 = Some (Some l) /\ NoDup l /\
    forall en, en ∈ l <-> conn_spec g p en.
Proof.
  intros Hwf Hc. unfold get_connections. destruct p as [x y]; cbn [fst snd] in *.
  rewrite grid_get_board by done. cbn [mbind option_bind]. rewrite Hc.
  assert (mapM (get_connections_edge g x y this) (seq 0 6) = Some (conn_at g (x, y) this <$> seq 0 6)) as ->.
  { apply mapM_fmap_Some_inv || idtac. generalize (seq 0 6). intros l. induction l as [|e l IH]; [done|].
    cbn. rewrite get_connections_edge_at by done. cbn. rewrite IH. done. }
  cbn [mbind option_bind]. eexists. split; [done|].
  assert (forall e en, en ∈ conn_at g (x, y) this e -> en.1.1.2 = dir_from e) as Hdir.
  { intros e en. unfold conn_at. destruct (mbind _ _) as [en'|] eqn:H; [|by rewrite elem_of_nil].
    intros Hin%elem_of_list_singleton; subst.
    destruct (local_port_idx this _); [cbn [mbind option_bind] in H|done].
    destruct (dir_offs_pos _ _) as [q|]; [cbn [mbind option_bind] in H|done].
    destruct (board g q) as [other|]; [cbn [mbind option_bind] in H|done].
    destruct (local_port_idx other _); [cbn [mbind option_bind] in H|done].
    by injection H as <-. }
  split.
  - assert (mjoin (conn_at g (x, y) this <$> seq 0 6) = seq 0 6 ≫= conn_at g (x, y) this) as ->.
    { generalize (seq 0 6). intros l. induction l as [|a l IH]; [done|].
      change (mjoin (conn_at g (x, y) this <$> a :: l)) with (conn_at g (x, y) this a ++ mjoin (conn_at g (x, y) this <$> l)).
      rewrite IH. done. }
    apply NoDup_bind'.
    + intros x1 x2 en H1 H2 Hen1 Hen2. apply Hdir in Hen1, Hen2. rewrite Hen1 in Hen2.
      apply elem_of_seq in H1, H2.
      assert (forall k, k < 6 -> dir_as_edge (dir_from k) = k) as Hk.
      { intros k Hk. do 6 (destruct k as [|k]; [done|]). lia. }
      rewrite <- (Hk x1), <- (Hk x2) by lia. by rewrite Hen2.
    + intros e _. unfold conn_at. destruct (mbind _ _); [apply NoDup_singleton|constructor].
    + apply NoDup_seq.
  - intros [[[c d] i] [[[c' d'] j] q]]. rewrite elem_of_list_join. split.
    + intros (l & Hin & Hl). apply elem_of_list_fmap in Hl as (e & -> & He). apply elem_of_seq in He.
      unfold conn_at in Hin.
      destruct (local_port_idx this _) as [i'|] eqn:Hi; cbn in Hin; [|by apply elem_of_nil in Hin].
      destruct (dir_offs_pos _ _) as [q'|] eqn:Hq; cbn in Hin; [|by apply elem_of_nil in Hin].
      destruct (board g q') as [other|] eqn:Hb; cbn in Hin; [|by apply elem_of_nil in Hin].
      destruct (local_port_idx other _) as [j'|] eqn:Hj; cbn in Hin; [|by apply elem_of_nil in Hin].
      apply elem_of_list_singleton in Hin. injection Hin; intros; subst.
      unfold conn_spec. rewrite !edge_port_local. split_and!; try done.
      apply offs_pos_neighbour; [|done]. do 6 (destruct e as [|e]; [done|]). lia.
    + unfold conn_spec. rewrite !edge_port_local. intros (Hp & Hq & Hn & -> & Hi & Hj).
      rewrite Hc in Hp. injection Hp as <-.
      exists (conn_at g (x, y) this (dir_as_edge d)). split.
      * unfold conn_at. rewrite dir_from_as_edge. rewrite Hi. cbn.
        apply offs_pos_neighbour in Hn; [|by destruct Hn]. rewrite Hn. cbn. rewrite Hq. cbn. rewrite Hj. cbn. by left.
      * apply elem_of_list_fmap. exists (dir_as_edge d). split; [done|]. apply elem_of_seq.
        destruct Hn as [Hn _]. destruct d; cbn; try lia. done.
Qed.

Lemma conn_spec_sym g p c d i c' d' j q :
  conn_spec g p ((c, d, i), (c', d', j, q)) -> conn_spec g q ((c', d', j), (c, d, i, p)).
Proof.
  unfold conn_spec. intros (? & ? & Hn & -> & ? & ?). apply neighbour_flip in Hn as [Hd Hn].
  rewrite flip_flip by done. done.
Qed.

(** ** Histories of placements *)


Lemma grid_run_ok ps : forall g, grid_wf g ->
  exists g', grid_run g ps = Some g' /\ grid_wf g' /\ g_w g' = g_w g /\ g_h g' = g_h g.
Proof.
  induction ps as [|[[x y] c] ps IH]; intros g Hwf; [by exists g|].
  cbn. destruct (place_some g x y c Hwf) as (g1 & H1 & Hwf1 & Hw & Hh & _). rewrite H1.
  destruct (IH g1 Hwf1) as (g2 & H2 & ? & ? & ?). exists g2. unfold grid_run in H2. split_and!; [done..|congruence|congruence].
Qed.
