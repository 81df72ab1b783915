(** One block evaluates the graph as a dataflow program (C13) *)
From Verif Require Import Base M_Atom M_Graph M_Dir M_Grid S_Grid M_Layout S_Layout M_Prog M_Conf M_Exec M_Sync M_Engine.
From Verif Require Import S_Conf S_Sync S_Prog S_Own S_Flow L_Conf L_Sync L_Own L_Own2 L_Own3 L_Flow L_Flow2 P_Conf P_Prog P_Own.
Open Scope nat_scope.
Local Opaque block_size.

Section flow.
  Context (T : ntable) (HT : table_ok T) (i2f : Z -> f32) (load_sample : satom -> satom).
  Context (finc : f32 -> f32 -> nat -> f32) (fadd : f32 -> f32 -> f32) (mix : f32 -> f32 -> f32 -> f32).
  Context {St : Type}.
  Context (node_sem : node_id -> St -> nat -> N -> N -> list satom ->
                      list (list f32) -> list (list f32) -> list (list f32) -> St * list (list f32)).
  Context (Hfit : node_fits node_sem).

  (** Whenever the audio thread processes a block, its program belongs to a layout, and the block is an
      evaluation of this layout as a dataflow program: every node of the board runs exactly once, what it
      reads are the values that its sources computed in this very block (or the input's own parameter
      value), and every modulator mixes the values of this block. *)
  Theorem C13_block_is_dataflow n nframes n' :
    small_reachable T i2f load_sample finc fadd mix node_sem n -> 0 < nframes ->
    engine_step T i2f load_sample finc fadd mix node_sem n (EBlock nframes) = Some n' ->
    exists g modamt, wired T g modamt (ex_prog (en_exec n')) /\
      dataflow T mix node_sem (ex_prog (en_exec n')) nframes (en_heap n) (en_heap n') (en_st n) (en_st n').
  Proof.
    intros Hn Hnf E. destruct (small_flow T HT i2f load_sample finc fadd mix node_sem Hfit n Hn) as [Ho Hq (g & ma & Hw)].
    cbn [engine_step] in E. destruct (exec_process _ _ _ _ _ _ _) as [[[[h1 e1] st1] fed]|] eqn:Ed; cbn [mbind option_bind] in E; [|done]. injection E as <-.
    exists g, ma. cbn. destruct Ho as [_ Hh _ Hr].
    assert (Hh' : hok (en_heap n) (owned (ex_prog (en_exec n)) ++ sent_bufs (en_queue n) ++ mjoin (owned <$> en_trash n))).
    { eapply hok_perm; [|exact Hh]. solve_Permutation. }
    destruct (process_flow T fadd mix node_sem Hfit g ma _ _ _ _ _ _ _ _ _ Hw Hr Hh' Hnf Ed). done.
  Qed.
End flow.
Print Assumptions C13_block_is_dataflow.

(** A board with a modulated connection: node (2, 0) reads through a modulator from node (1, 0). Its input
    in the block is the mix of the own value 20 and 3 times the output 7 that node (1, 0) computes in the same block. *)
Definition flow_steps : list eop :=
  [EMx (MxLay (LPlace 0 0 (Cell (NId 1 0) 0 0 None None (Some 0) None None None)));
   EMx (MxLay (LPlace 0 1 (Cell (NId 2 0) 0 1 None None None (Some 0) None None)));
   EMx (MxModamt (NId 2 0, 0) (Some 3%Z));
   EMx MxSync; EDrain 5; EBlock 16].
Definition checked_step (n : engine nat) (o : eop) : option (engine nat) :=
  let* n' := engine_step demo_table (fun z => z) (fun a => a) (fun _ _ _ => 0%Z) Z.add (fun a b c => a + b * c)%Z demo_sem n o in
  if length (created (mx_conf (en_mx n'))) <=? 256 then Some n' else None.
Lemma checked_small os n n' : small_reachable demo_table (fun z => z) (fun a => a) (fun _ _ _ => 0%Z) Z.add (fun a b c => a + b * c)%Z demo_sem n ->
  foldm checked_step n os = Some n' -> small_reachable demo_table (fun z => z) (fun a => a) (fun _ _ _ => 0%Z) Z.add (fun a b c => a + b * c)%Z demo_sem n'.
Proof.
  revert n. induction os as [|o os IH]; intros n Hn; cbn [foldm]; [by intros [= <-]|].
  destruct (checked_step n o) as [n1|] eqn:E; cbn [mbind option_bind]; [|done]. apply IH. unfold checked_step in E.
  destruct (engine_step _ _ _ _ _ _ _ _ _) as [n2|] eqn:E1; cbn [mbind option_bind] in E; [|done].
  destruct (Nat.leb_spec (length (created (mx_conf (en_mx n2)))) 256); [|done]. injection E as <-. by eapply small_step.
Qed.
Example C13_example :
  (n ← foldm checked_step (engine_new 4 4 10 7) flow_steps;
   let p := ex_prog (en_exec n) in
   Some (op_node <$> np_ops p, en_st n,
     (fun op => (fun j => take 2 <$> samples (en_heap n) (out_buf p op j)) <$> [0]) <$> np_ops p,
     (fun op => (fun j => take 2 <$> samples (en_heap n) (read_buf p op j)) <$> [0]) <$> np_ops p)) =
  Some ([NId 1 0; NId 2 0], 9,
    [[Some [7; 7]%Z]; [Some [8; 8]%Z]], [[Some [10; 10]%Z]; [Some [41; 41]%Z]]).
Proof. vm_compute. reflexivity. Qed.
