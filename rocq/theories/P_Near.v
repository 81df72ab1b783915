(** C55: what a cell reports about its neighbourhood *)
From stdpp Require Import strings.
From Verif Require Import Base M_Dir S_Dir L_Dir M_Graph M_Grid S_Grid L_Grid M_Layout S_Layout M_Nodes M_Near S_Near L_Near.
Open Scope nat_scope.
Open Scope list_scope.

(** A copy of a cell knows its position, in matrices up to 256 rows and columns. *)
Theorem C55_copy_knows_position g p c : grid_wf g -> g_w g <= 256 -> g_h g <= 256 ->
  grid_get_copy g p.1 p.2 = Some (Some c) -> knows_position g p c.
Proof.
  intros Hwf Hw Hh E. unfold grid_get_copy in E. rewrite grid_get_board in E by done. cbn [mbind option_bind] in E. injection E as E.
  destruct p as [x y]. cbn [fst snd] in *. destruct (board g (x, y)) as [c0|] eqn:Eb; [|done].
  apply board_Some in Eb as Hb. destruct Hb as [[Hx Hy] _]. cbn [fst snd] in Hx, Hy.
  assert (u8 x = x /\ u8 y = y) as [Ex Ey] by (unfold u8; rewrite !Nat.mod_small by lia; done). rewrite Ex, Ey in E.
  cbn [fmap option_fmap option_map] in E. injection E as <-. split; [done|]. eauto.
Qed.
Print Assumptions C55_copy_knows_position.

(** All free places: exactly the empty places of the matrix around the cell, in the asked directions, each once. *)
Theorem C55_free_places g c dir : grid_wf g ->
  exists l, find_all_adjacent_free g c dir = Some l /\ NoDup l /\
    forall d q, (d, q) ∈ l <-> asked_for dir d /\ free_place g (c_x c, c_y c) d q.
Proof.
  intros Hwf. destruct (free_ports_spec g c (dir_options dir) Hwf) as (l & E & HN & _ & HM).
  { intros d Hd. apply options_asked in Hd. by eapply asked_not_C. }
  exists l. split; [done|]. split.
  - eapply NoDup_fmap_1, HN, options_NoDup.
  - intros d q. by rewrite HM, options_asked.
Qed.
Print Assumptions C55_free_places.

(** The first free place: there is one exactly if there is a free place; it is one of them; it is one where the cell has a port if there
    is such a place, and then the port is given. *)
Theorem C55_first_free g c dir : grid_wf g ->
  exists r, find_first_adjacent_free g c dir = Some r /\
    (r = None <-> forall d q, asked_for dir d -> ~ free_place g (c_x c, c_y c) d q) /\
    forall d port, r = Some (d, port) ->
      asked_for dir d /\ (exists q, free_place g (c_x c, c_y c) d q) /\
      match port with
      | Some i => edge_port c d = Some i
      | None => forall d' q', asked_for dir d' -> free_place g (c_x c, c_y c) d' q' -> edge_port c d' = None
      end.
Proof.
  intros Hwf. destruct (free_ports_spec g c (dir_options dir) Hwf) as (l & E & _ & _ & HM).
  { intros d Hd. apply options_asked in Hd. by eapply asked_not_C. }
  unfold find_first_adjacent_free. rewrite E. cbn [mbind option_bind]. eexists. split; [reflexivity|].
  assert (forall d q, (d, q) ∈ l <-> asked_for dir d /\ free_place g (c_x c, c_y c) d q) as HA.
  { intros d q. by rewrite HM, options_asked. }
  destruct (list_find (fun d => has_dir_set c d = true) (l.*1)) as [[i d0]|] eqn:El.
  - apply list_find_Some in El as (Hi & Hp & _). apply elem_of_list_lookup_2 in Hi. apply elem_of_list_fmap in Hi as ([d1 q1] & -> & Hq).
    cbn [fst] in *. apply HA in Hq as [Hq1 Hq2]. apply has_dir_port in Hp as [i0 Hi0]. split.
    + split; [done|]. intros H. exfalso. by apply (H d1 q1).
    + intros d port [= <- <-]. split; [done|]. split; [by exists q1|]. rewrite <- edge_port_local, Hi0. done.
  - apply list_find_None in El. rewrite Forall_forall in El.
    assert (forall d' q', asked_for dir d' -> free_place g (c_x c, c_y c) d' q' -> edge_port c d' = None) as Hnone.
    { intros d' q' Hd' Hq'. destruct (edge_port c d') as [i|] eqn:Ei; [|done]. exfalso. apply (El d').
      - apply elem_of_list_fmap. exists (d', q'). split; [done|]. by apply HA.
      - apply has_dir_port. by exists i. }
    destruct l as [|[d1 q1] l].
    + split; [|done]. split; [|done]. intros _ d q Hd Hq. assert ((d, q) ∈ []) as H by (by apply HA). by apply elem_of_nil in H.
    + assert (asked_for dir d1 /\ free_place g (c_x c, c_y c) d1 q1) as [H1 H2] by (apply HA; left). split.
      * split; [done|]. intros H. exfalso. by apply (H d1 q1).
      * intros d port [= <- <-]. split; [done|]. split; [by exists q1|]. exact Hnone.
Qed.
Print Assumptions C55_first_free.

(** A direction is reported as connected exactly if the ports of both cells meet there. *)
Theorem C55_connected g c d : grid_wf g ->
  exists r, is_port_dir_connected g c d = Some r /\ forall q, r = Some q <-> meets g (c_x c, c_y c) c d q.
Proof. apply connected_spec. Qed.
Print Assumptions C55_connected.

(** Between nodes this is exactly where a signal flows in the matrix. *)
Theorem C55_connected_flows g p c d q : knows_position g p c -> c_node c <> Nop ->
  (forall c', board g q = Some c' -> c_node c' <> Nop) -> meets g p c d q <-> flows g p d q.
Proof.
  intros (Hp & c0 & Hb0 & ->) Hc Hq. unfold meets, flows. cbn [cell_at c_node] in Hc.
  assert (forall d, edge_port (cell_at c0 p.1 p.2) d = edge_port c0 d) as EP by (by intros []).
  rewrite EP. split.
  - intros (Hn & [i Hi] & c' & Hb & [j Hj]). split; [done|]. assert (d <> C) as Hd by (by destruct Hn).
    destruct (side_cases d Hd) as [Hs|Hs].
    + exists (Edge (c_node c') j (c_node c0) i). left. exists c0, q, c'. rewrite edge_port_input in Hi by done.
      rewrite edge_port_output in Hj by (by apply flip_input). split_and!; try done. by apply Hq.
    + exists (Edge (c_node c0) i (c_node c') j). right. exists c', p, c0. rewrite edge_port_output in Hi by done.
      rewrite edge_port_input in Hj by (by apply flip_output). apply neighbour_flip in Hn as [_ Hn]. split_and!; try done.
      * by apply Hq.
      * by rewrite flip_flip.
  - intros (Hn & e & [He|He]); (split; [done|]).
    + destruct He as (c1 & q1 & c2 & H1 & _ & H2 & H3 & _ & H5 & _ & H7 & _). rewrite Hb0 in H1. injection H1 as <-.
      assert (d <> C) as Hd by (by destruct Hn). apply offs_pos_neighbour in Hn, H2; [|done..]. assert (q1 = q) as -> by congruence.
      assert (input_side d) as Hs by (unfold input_side; destruct d; cbn in H5; naive_solver).
      split; [rewrite edge_port_input by done; by eexists|]. exists c2. split; [done|]. rewrite edge_port_output by (by apply flip_input). by eexists.
    + destruct He as (c1 & q1 & c2 & H1 & _ & H2 & H3 & _ & H5 & _ & H7 & _).
      assert (d <> C) as Hd by (by destruct Hn). apply neighbour_flip in Hn as [_ Hn].
      apply offs_pos_neighbour in Hn, H2; [|apply flip_not_C..]. assert (q1 = p) as -> by congruence. rewrite Hb0 in H3. injection H3 as <-.
      rewrite flip_flip in H7 by done. assert (output_side d) as Hs by (unfold output_side; destruct d; cbn in H7; naive_solver).
      split; [rewrite edge_port_output by done; by eexists|]. exists c1. split; [done|]. rewrite edge_port_input by (by apply flip_output). by eexists.
Qed.
Print Assumptions C55_connected_flows.

(** The unconnected directions are the asked ones that are not reported as connected. *)
Theorem C55_unconnected g c dir : grid_wf g ->
  exists l, find_unconnected_ports g c dir = Some l /\ NoDup l /\
    forall d, d ∈ l <-> asked_for dir d /\ forall q, ~ meets g (c_x c, c_y c) c d q.
Proof.
  intros Hwf. destruct (unconnected_spec g c (dir_options dir) Hwf) as (l & E & HN & HM). exists l. split; [done|].
  split; [apply HN, options_NoDup|]. intros d. by rewrite HM, options_asked.
Qed.
Print Assumptions C55_unconnected.

(** Growing a patch: the first free place with a port of the cell [c] at [p]. A node placed there with a port towards [c] is connected to
    exactly this port; nothing else around [c] changes. *)
Theorem C55_grow g p c dir d i q n : grid_wf g -> g_w g <= 256 -> g_h g <= 256 -> knows_position g p c -> c_node c <> Nop ->
  find_first_adjacent_free g c dir = Some (Some (d, Some i)) -> neighbour p d q ->
  c_node n <> Nop -> forall j, edge_port n (dir_flip d) = Some j ->
  exists g', grid_place g q.1 q.2 n = Some g' /\
    (input_side d -> connects g' p d (Edge (c_node n) j (c_node c) i)) /\
    (output_side d -> connects g' q (dir_flip d) (Edge (c_node c) i (c_node n) j)) /\
    forall d', d' <> d -> forall q', flows g' p d' q' <-> flows g p d' q'.
Proof.
  intros Hwf Hw Hh (Hp & c0 & Hb0 & ->) Hc E Hn Hcn j Hj.
  destruct (C55_first_free g (cell_at c0 p.1 p.2) dir Hwf) as (r & Er & _ & Hr). rewrite E in Er. injection Er as <-.
  destruct (Hr d (Some i) eq_refl) as (Ha & (q1 & Hq1) & Hi). cbn [cell_at c_x c_y c_node] in *.
  assert (forall d, edge_port (cell_at c0 p.1 p.2) d = edge_port c0 d) as EP by (by intros []). rewrite EP in Hi.
  assert (d <> C) as Hd by (by eapply asked_not_C). rewrite Hp in Hq1. destruct Hq1 as (Hn1 & ce & Hbe & Hce).
  assert (q1 = q) as -> by (apply offs_pos_neighbour in Hn, Hn1; [congruence|done..]).
  destruct (place_some g q.1 q.2 n Hwf) as (g' & Eg & Hwf' & Hw' & Hh' & Hb & _). exists g'. split; [done|].
  assert (in_bounds g q) as Hin by (by apply board_Some in Hbe as [? _]).
  assert (board g' q = Some (cell_at n (u8 q.1) (u8 q.2))) as Hbq. { rewrite Hb, decide_True by (destruct q; done). done. }
  assert (p <> q) as Hpq by (intros ->; congruence).
  assert (board g' p = Some c0) as Hbp. { rewrite Hb, decide_False; [done|]. intros [H _]. apply Hpq. rewrite H. by destruct q. }
  split_and!.
  - intros Hs. exists c0, q, (cell_at n (u8 q.1) (u8 q.2)). cbn [cell_at c_node e_to e_from e_to_input e_from_out].
    rewrite edge_port_input in Hi by done. rewrite edge_port_output in Hj by (by apply flip_input). split_and!; try done.
  - intros Hs. exists (cell_at n (u8 q.1) (u8 q.2)), p, c0. cbn [cell_at c_node e_to e_from e_to_input e_from_out].
    rewrite edge_port_output in Hi by done. rewrite edge_port_input in Hj by (by apply flip_output).
    apply neighbour_flip in Hn as [_ Hn]. split_and!; try done. by rewrite flip_flip.
  - intros d' Hd' q'.
    assert (forall x, x <> q -> board g' x = board g x) as Hoth.
    { intros x Hx. rewrite Hb, decide_False; [done|]. intros [H _]. apply Hx. rewrite H. by destruct q. }
    assert (neighbour p d' q' -> q' <> q) as Hneq. { intros H ->. apply Hd'. by eapply neighbour_unique. }
    assert (forall (a b : nat * nat) (da : celldir) (e : edge_t) g1 g2, neighbour a da b -> board g1 a = board g2 a -> board g1 b = board g2 b ->
      connects g1 a da e -> connects g2 a da e) as Hcon.
    { intros a b da e g1 g2 Hab H1 H2 (x1 & y1 & z1 & G1 & G2 & G3 & G4 & G5). assert (da <> C) as Hda by (by destruct Hab).
      apply offs_pos_neighbour in Hab as Hab'; [|done]. apply offs_pos_neighbour in G3 as G3'; [|done]. assert (y1 = b) as -> by congruence.
      exists x1, b, z1. rewrite <- H1, <- H2. done. }
    unfold flows. split; intros (Hn' & e & He); (split; [done|]); exists e; pose proof (Hneq Hn') as Hq';
      apply neighbour_flip in Hn' as Hf; destruct Hf as [_ Hf]; destruct He as [He|He];
      [left; eapply (Hcon p q' d')|right; eapply (Hcon q' p (dir_flip d'))|left; eapply (Hcon p q' d')|right; eapply (Hcon q' p (dir_flip d'))];
      try exact He; try done; rewrite ?Hoth by done; done.
Qed.
Print Assumptions C55_grow.

(** The label of an edge: the name of the port there, if the node is known and the text fits; the mark says whether the neighbour at an
    output has an input on the common edge. *)
Theorem C55_edge_label g known room c d : grid_wf g ->
  exists r, edge_label g known room c d = Some r /\
    forall s con, r = Some (s, con) <->
      c_node c <> Nop /\ known (c_node c) = true /\ String.length s <= room /\
      ((input_side d /\ con = false /\ exists i, input_port c d = Some i /\ info_in_name (c_node c) i = Some s) \/
       (output_side d /\ (exists i, output_port c d = Some i /\ info_out_name (c_node c) i = Some s) /\
        (con = true <-> exists q c', neighbour (c_x c, c_y c) d q /\ board g q = Some c' /\ is_Some (input_port c' (dir_flip d))))).
Proof.
  intros Hwf. unfold edge_label. destruct (decide (c_node c = Nop)) as [Hc|Hc].
  { exists None. split; [done|]. naive_solver. }
  destruct (known (c_node c)) eqn:Hk; cbn [negb].
  2: { exists None. split; [done|]. naive_solver. }
  assert (forall (name : option string) (con : bool) s con',
    (let* s := name in if String.length s <=? room then Some (s, con) else None) = Some (s, con') <-> name = Some s /\ String.length s <= room /\ con' = con) as Hfin.
  { intros [s0|] con s con'; cbn [mbind option_bind]; [|naive_solver]. destruct (Nat.leb_spec (String.length s0) room).
    - split; [intros [= -> ->]; done|]. intros ([= ->] & _ & ->). done.
    - split; [done|]. intros ([= ->] & H1 & _). lia. }
  assert (forall (o : option nat) (f : nat -> option string) s, (let* i := o in f i) = Some s <-> exists i, o = Some i /\ f i = Some s) as Hbi.
  { intros [i|] f s; cbn [mbind option_bind]; naive_solver. }
  assert (forall d, output_side d -> exists con, adjacent_edge_has_input g (c_x c) (c_y c) d = Some con /\
    (con = true <-> exists q c', neighbour (c_x c, c_y c) d q /\ board g q = Some c' /\ is_Some (input_port c' (dir_flip d)))) as Hadj.
  { intros d0 Hs. unfold adjacent_edge_has_input. rewrite get_adjacent_board by done. cbn [mbind option_bind].
    assert (d0 <> C) as Hd0 by (unfold output_side in Hs; destruct d0; naive_solver).
    eexists. split; [reflexivity|]. split.
    - intros H. destruct (dir_offs_pos d0 (c_x c, c_y c)) as [q|] eqn:Eq; cbn [mbind option_bind] in H; [|done].
      destruct (board g q) as [c'|] eqn:Eb; [|done]. exists q, c'. apply offs_pos_neighbour in Eq; [|done].
      split; [done|]. split; [done|]. destruct d0; try done; by apply bool_decide_eq_true in H.
    - intros (q & c' & Hq & Hb & Hi). apply offs_pos_neighbour in Hq; [|done]. rewrite Hq. cbn [mbind option_bind]. rewrite Hb.
      destruct Hs as [->|[->| ->]]; by apply bool_decide_eq_true. }
  assert (forall d, output_side d -> input_side d -> False) as Hx by (unfold output_side, input_side; intros []; naive_solver).
  destruct d.
  7: { exists None. split; [done|]. intros s con. split; [done|]. unfold input_side, output_side. naive_solver. }
  1-3: destruct (Hadj TR) as (con1 & E1 & H1); [by left|]; destruct (Hadj BR) as (con2 & E2 & H2); [by right; left|];
    destruct (Hadj B) as (con3 & E3 & H3); [by right; right|]; rewrite ?E1, ?E2, ?E3; cbn [mbind option_bind];
    eexists; (split; [reflexivity|]); intros s con; rewrite Hfin, Hbi; cbn [output_port];
    (split; [intros (? & ? & ->); split_and!; try done; right; split; [unfold output_side; tauto|done]|]);
    intros (_ & _ & ? & [(Hs & _)|(_ & ? & Hcc)]); [exfalso; by eapply Hx; [|exact Hs]; unfold output_side; tauto|];
    (split; [done|]); (split; [done|]); apply eq_true_iff_eq; etrans; [exact Hcc|symmetry; done].
  1-3: eexists; (split; [reflexivity|]); intros s con; rewrite Hfin, Hbi; cbn [input_port];
    (split; [intros (? & ? & ->); split_and!; try done; left; split; [unfold input_side; tauto|done]|]);
    intros (_ & _ & ? & [(_ & -> & ?)|(Hs & _)]); [done|]; exfalso; eapply Hx; [exact Hs|unfold input_side; tauto].
Qed.
Print Assumptions C55_edge_label.

(** Ports by name: the named input is on the edge, and nothing else has changed. *)
Theorem C55_named_input c name d i : node_inp (c_node c) name = Some i -> i < 256 -> d <> C ->
  (set_input_by_name c name d).2 = true /\
  edge_port (set_input_by_name c name d).1 d = Some i /\
  (forall d', d' <> d -> edge_port (set_input_by_name c name d).1 d' = edge_port c d') /\
  c_node (set_input_by_name c name d).1 = c_node c /\
  (c_x (set_input_by_name c name d).1, c_y (set_input_by_name c name d).1) = (c_x c, c_y c).
Proof.
  intros E Hi Hd. unfold set_input_by_name. rewrite E. cbn [fst snd]. destruct c as [n x y o1 o2 o3 i1 i2 i3].
  unfold set_io_dir, u8. rewrite Nat.mod_small by done. split; [done|]. destruct d; try done; (split; [done|]); (split; [|done]); by intros [].
Qed.
Print Assumptions C55_named_input.
Theorem C55_named_output c name d i : node_out (c_node c) name = Some i -> i < 256 -> d <> C ->
  (set_output_by_name c name d).2 = true /\
  edge_port (set_output_by_name c name d).1 d = Some i /\
  (forall d', d' <> d -> edge_port (set_output_by_name c name d).1 d' = edge_port c d') /\
  c_node (set_output_by_name c name d).1 = c_node c /\
  (c_x (set_output_by_name c name d).1, c_y (set_output_by_name c name d).1) = (c_x c, c_y c).
Proof.
  intros E Hi Hd. unfold set_output_by_name. rewrite E. cbn [fst snd]. destruct c as [n x y o1 o2 o3 i1 i2 i3].
  unfold set_io_dir, u8. rewrite Nat.mod_small by done. split; [done|]. destruct d; try done; (split; [done|]); (split; [|done]); by intros [].
Qed.
Print Assumptions C55_named_output.
Theorem C55_unknown_name c name d :
  (node_inp (c_node c) name = None -> set_input_by_name c name d = (c, false)) /\
  (node_out (c_node c) name = None -> set_output_by_name c name d = (c, false)).
Proof. unfold set_input_by_name, set_output_by_name. split; intros ->; done. Qed.
Print Assumptions C55_unknown_name.

(** The direction is not checked: an input by name on an edge of outputs becomes an output. *)
Theorem C55_named_side_refuted : exists c name, node_inp (c_node c) name = Some 1 /\
  (set_input_by_name c name B).2 = true /\ output_port (set_input_by_name c name B).1 B = Some 1 /\
  forall d, input_port (set_input_by_name c name B).1 d = None.
Proof.
  exists (cell_empty (node_from_str "sin"%string)), "det"%string. split; [vm_compute; reflexivity|]. split; [vm_compute; reflexivity|].
  split; [vm_compute; reflexivity|]. intros []; vm_compute; reflexivity.
Qed.
Print Assumptions C55_named_side_refuted.

(** A cell read with [get] from a new matrix does not know its position. *)
Theorem C55_get_position_refuted : exists g c l, grid_wf g /\ board g (2, 2) = Some c /\ find_all_adjacent_free g c C = Some l /\
  exists d q, (d, q) ∈ l /\ ~ free_place g (2, 2) d q.
Proof.
  exists (grid_new 5 5), (cell_empty Nop), [(BR, (1, 0)); (B, (0, 1))]. split; [apply wf_new|]. split; [reflexivity|]. split; [vm_compute; reflexivity|].
  exists B, (0, 1). split; [set_solver|]. intros [Hn _]. apply offs_pos_neighbour in Hn; [|done]. vm_compute in Hn. discriminate.
Qed.
Print Assumptions C55_get_position_refuted.

(** "Dangling ports" include directions without a port. *)
Theorem C55_dangling_refuted : exists g c l, grid_wf g /\ board g (0, 0) = Some c /\ find_unconnected_ports g c B = Some l /\
  exists d, d ∈ l /\ edge_port c d = None.
Proof.
  exists (grid_new 2 2), (cell_empty Nop), [TR; BR; B]. split; [apply wf_new|]. split; [reflexivity|]. split; [vm_compute; reflexivity|].
  exists B. split; [set_solver|done].
Qed.
Print Assumptions C55_dangling_refuted.

(** An empty cell with ports counts as connected although no signal flows. *)
Theorem C55_empty_connected_refuted : exists g c q, grid_wf g /\ knows_position g (0, 0) c /\ c_node c <> Nop /\
  is_port_dir_connected g c B = Some (Some q) /\ ~ flows g (0, 0) B q.
Proof.
  set (sin := Cell (NId 3 0) 0 0 None None (Some 0) None None None).
  set (emp := Cell Nop 0 1 None None None (Some 0) None None).
  exists (Grid 1 2 [sin; emp]), sin, (0, 1). split; [done|]. split; [split; [done|by exists sin]|]. split; [done|]. split; [vm_compute; reflexivity|].
  intros (_ & e & [He|He]).
  - destruct He as (c1 & q1 & c2 & _ & _ & _ & _ & _ & H & _). done.
  - destruct He as (c1 & q1 & c2 & H1 & H2 & _). vm_compute in H1. injection H1 as <-. done.
Qed.
Print Assumptions C55_empty_connected_refuted.

(** A case: an amplifier with an input at the top, an oscillator at the right, and free places around it; the top one is the first with a
    port, and the oscillator placed there is connected to it. *)
Example C55_case : let amp := Cell (NId 4 0) 1 1 (Some 0) None None (Some 2) None None in
  let osc := Cell (NId 3 0) 2 1 None None None None None (Some 1) in
  exists g g', grid_run (grid_new 3 3) [((1, 1), amp); ((2, 1), osc)] = Some g /\ grid_wf g /\ knows_position g (1, 1) amp /\
    find_all_adjacent_free g amp C = Some [(T, (1, 0)); (TL, (0, 1)); (BL, (0, 2)); (BR, (2, 2)); (B, (1, 2))] /\
    is_port_dir_connected g amp TR = Some (Some (2, 1)) /\ flows g (1, 1) TR (2, 1) /\
    find_first_adjacent_free g amp C = Some (Some (T, Some 2)) /\
    grid_place g 1 0 (Cell (NId 3 1) 0 0 None None (Some 0) None None None) = Some g' /\
    connects g' (1, 1) T (Edge (NId 3 1) 0 (NId 4 0) 2).
Proof.
  cbn zeta. eexists _, _. split; [vm_compute; reflexivity|]. split; [reflexivity|]. split; [split; [reflexivity|eexists; split; reflexivity]|].
  split; [vm_compute; reflexivity|]. split; [vm_compute; reflexivity|]. split.
  - split; [by apply offs_pos_neighbour|]. exists (Edge (NId 4 0) 0 (NId 3 0) 1). right. eexists _, (1, 1), _.
    split; [reflexivity|]. split; [done|]. split; [by apply offs_pos_neighbour|]. split; [reflexivity|]. split_and!; done.
  - split; [vm_compute; reflexivity|]. split; [vm_compute; reflexivity|]. eexists _, (1, 0), _.
    split; [reflexivity|]. split; [done|]. split; [by apply offs_pos_neighbour|]. split; [reflexivity|]. split_and!; done.
Qed.
