(** Proofs about the neighbourhood of a cell *)
From Verif Require Import Base M_Dir S_Dir L_Dir M_Graph M_Grid S_Grid L_Grid M_Near S_Near.
Open Scope nat_scope.

Lemma options_asked dir d : d ∈ dir_options dir <-> asked_for dir d.
Proof.
  unfold asked_for, input_side, output_side, dir_options. destruct dir; cbn; set_solver.
Qed.
Lemma options_NoDup dir : NoDup (dir_options dir).
Proof. destruct dir; apply (bool_decide_unpack _); vm_compute; done. Qed.
Lemma asked_not_C dir d : asked_for dir d -> d <> C.
Proof. unfold asked_for, input_side, output_side. intros H ->. destruct dir; naive_solver. Qed.
Lemma has_dir_port c d : has_dir_set c d = true <-> is_Some (edge_port c d).
Proof. rewrite edge_port_local. destruct d; cbn; rewrite ?bool_decide_eq_true; try done. split; [done|]. by intros [? ?]. Qed.

Lemma free_ports_spec g c ds : grid_wf g -> (forall d, d ∈ ds -> d <> C) ->
  exists l, free_ports g c ds = Some l /\ (NoDup ds -> NoDup l.*1) /\ l.*1 `sublist_of` ds /\
    forall d q, (d, q) ∈ l <-> d ∈ ds /\ free_place g (c_x c, c_y c) d q.
Proof.
  intros Hwf. induction ds as [|d ds IH]; intros HC; cbn [free_ports].
  { exists []. split_and!; [done|by constructor|done|]. intros d q. rewrite !elem_of_nil. naive_solver. }
  destruct IH as (l & E & HN & HS & HM); [intros; apply HC; set_solver|].
  assert (d <> C) as Hd by (apply HC; set_solver).
  set (here := match dir_offs_pos d (c_x c, c_y c) with Some pos => if from_option cell_is_empty false (board g pos) then [(d, pos)] else [] | None => [] end).
  exists (here ++ l).
  assert (forall d' q, (d', q) ∈ here <-> d' = d /\ free_place g (c_x c, c_y c) d q) as Hh.
  { intros d' q. subst here. unfold free_place. destruct (dir_offs_pos d (c_x c, c_y c)) as [pos|] eqn:Ep.
    - apply offs_pos_neighbour in Ep as Hn; [|done]. destruct (board g pos) as [c0|] eqn:Eb; cbn [from_option].
      + unfold cell_is_empty. case_bool_decide as Ec.
        * rewrite elem_of_list_singleton. split; [intros [= -> ->]; eauto|]. intros (-> & Hq & _). f_equal.
          apply offs_pos_neighbour in Hq; [|done]. congruence.
        * rewrite elem_of_nil. split; [done|]. intros (-> & Hq & c1 & Hb & Hc1). apply offs_pos_neighbour in Hq; [|done].
          assert (q = pos) as -> by congruence. rewrite Hb in Eb. injection Eb as ->. done.
      + rewrite elem_of_nil. split; [done|]. intros (-> & Hq & c1 & Hb & Hc1). apply offs_pos_neighbour in Hq; [|done].
        assert (q = pos) as -> by congruence. congruence.
    - rewrite elem_of_nil. split; [done|]. intros (-> & Hq & _). apply offs_pos_neighbour in Hq; [|done]. congruence. }
  assert (here.*1 = [] \/ here.*1 = [d]) as H1.
  { subst here. destruct (dir_offs_pos _ _) as [pos|]; [|by left]. destruct (from_option _ _ _); [by right|by left]. }
  split_and!.
  - rewrite E. assert (match dir_offs_pos d (c_x c, c_y c) with
                   | Some pos =>
                       let* oc := grid_get g pos.1 pos.2 in
                       Some (if from_option cell_is_empty false oc then [(d, pos)] else [])
                   | None => Some []
                   end = Some here) as ->; [|done].
    subst here. destruct (dir_offs_pos d (c_x c, c_y c)) as [[x y]|]; [|done]. cbn [fst snd]. rewrite grid_get_board by done. done.
  - intros Hn. apply NoDup_cons in Hn as [Hn1 Hn2]. rewrite fmap_app. apply NoDup_app. split_and!.
    + destruct H1 as [-> | ->]; repeat constructor. set_solver.
    + intros x Hx Hx2. assert (x = d) as -> by (destruct H1 as [H1|H1]; rewrite H1 in Hx; set_solver).
      apply Hn1. apply elem_of_list_fmap in Hx2 as ([d' q] & -> & Hx2). apply HM in Hx2. apply Hx2.
    + by apply HN.
  - rewrite fmap_app. destruct H1 as [-> | ->]; cbn [app]; by constructor.
  - intros d' q. rewrite elem_of_app, Hh, HM, elem_of_cons. split; [intros [[-> ?]|[? ?]]; auto|].
    intros [[->|?] ?]; auto.
Qed.

Lemma connected_spec g c d : grid_wf g ->
  exists r, is_port_dir_connected g c d = Some r /\ forall q, r = Some q <-> meets g (c_x c, c_y c) c d q.
Proof.
  intros Hwf. unfold is_port_dir_connected, meets. destruct (has_dir_set c d) eqn:Eh.
  - assert (d <> C) as Hd by (intros ->; done). apply has_dir_port in Eh.
    destruct (dir_offs_pos d (c_x c, c_y c)) as [[x y]|] eqn:Ep.
    + apply offs_pos_neighbour in Ep as Hn; [|done]. cbn [fst snd]. rewrite grid_get_board by done. cbn [mbind option_bind].
      eexists. split; [reflexivity|]. intros q. split.
      * intros E. destruct (board g (x, y)) as [c'|] eqn:Eb; [|done]. destruct (has_dir_set c' (dir_flip d)) eqn:Ef; [|done].
        injection E as <-. apply has_dir_port in Ef. eauto 6.
      * intros (Hq & _ & c' & Hb & Hf). apply offs_pos_neighbour in Hq; [|done]. assert (q = (x, y)) as -> by congruence.
        rewrite Hb. apply has_dir_port in Hf. by rewrite Hf.
    + exists None. split; [done|]. intros q. split; [done|]. intros (Hq & _). apply offs_pos_neighbour in Hq; [|done]. congruence.
  - exists None. split; [done|]. intros q. split; [done|]. intros (_ & Hc & _). apply has_dir_port in Hc. congruence.
Qed.

Lemma unconnected_spec g c ds : grid_wf g ->
  exists l, unconnected g c ds = Some l /\ (NoDup ds -> NoDup l) /\ (forall d, d ∈ l <-> d ∈ ds /\ forall q, ~ meets g (c_x c, c_y c) c d q).
Proof.
  intros Hwf. induction ds as [|d ds IH]; cbn [unconnected].
  { exists []. split_and!; [done|done|]. intros d. rewrite !elem_of_nil. naive_solver. }
  destruct IH as (l & -> & HN & HM). destruct (connected_spec g c d Hwf) as (r & -> & Hr). cbn [mbind option_bind].
  eexists. split; [reflexivity|]. destruct r as [q|].
  - split; [intros H; apply NoDup_cons in H as [_ H]; auto|]. intros d'. rewrite HM, elem_of_cons. split; [naive_solver|].
    intros [[->|Hd] Hm]; [|done]. exfalso. apply (Hm q), Hr. done.
  - split.
    + intros H. apply NoDup_cons in H as [H1 H2]. constructor; [|auto]. rewrite HM. tauto.
    + intros d'. rewrite elem_of_cons, HM, elem_of_cons. split; [|tauto]. intros [->|?]; [|tauto]. split; [by left|].
      intros q Hq. apply Hr in Hq. done.
Qed.

Lemma edge_port_input c d : input_side d -> edge_port c d = input_port c d.
Proof. intros [->|[->| ->]]; unfold edge_port; cbn; [by destruct (c_in1 c)|by destruct (c_in2 c)|by destruct (c_in3 c)]. Qed.
Lemma edge_port_output c d : output_side d -> edge_port c d = output_port c d.
Proof. intros [->|[->| ->]]; done. Qed.
Lemma side_cases d : d <> C -> input_side d \/ output_side d.
Proof. unfold input_side, output_side. destruct d; naive_solver. Qed.
Lemma flip_input d : input_side d -> output_side (dir_flip d).
Proof. unfold input_side, output_side. destruct d; naive_solver. Qed.
Lemma flip_output d : output_side d -> input_side (dir_flip d).
Proof. unfold input_side, output_side. destruct d; naive_solver. Qed.
