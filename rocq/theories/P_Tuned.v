(** The modulation amounts reach the audio thread (C18) *)
From Verif Require Import Base M_Atom M_Graph M_Dir M_Grid S_Grid M_Layout S_Layout M_Prog M_Conf M_Exec M_Sync M_Engine.
From Verif Require Import S_Conf S_Sync S_Prog S_Own L_Sync S_Tuned L_Tuned P_Conf P_Own.
Open Scope nat_scope.
Local Opaque block_size.

Section tuned.
  Context (T : ntable) (HT : table_ok T) (i2f : Z -> f32) (load_sample : satom -> satom).
  Context (finc : f32 -> f32 -> nat -> f32) (fadd : f32 -> f32 -> f32) (mix : f32 -> f32 -> f32 -> f32).
  Context {St : Type}.
  Context (node_sem : node_id -> St -> nat -> N -> N -> list satom ->
                      list (list f32) -> list (list f32) -> list (list f32) -> St * list (list f32)).

  (** Whatever API calls, message handling, blocks and releases happened in whatever interleaving, as long as the queue was never
      exceeded and no call of [set_param_modamt] since the last successful synchronisation gave an error: once the queue is empty,
      every node that the audio thread runs has one modulator for each of its inputs with a modulation amount, and the modulator
      uses the amount that [get_param_modamt] gives in the frontend. *)
  Theorem C18_amounts (n : engine St) : tuned T i2f load_sample finc fadd mix node_sem true n -> en_queue n = [] ->
    forall op, op ∈ np_ops (ex_prog (en_exec n)) ->
    let p := ex_prog (en_exec n) in
    let c := mx_conf (en_mx n) in
    let inputs := modulated T (cf_modamt c) (op_node op) in
    (op_mod op).2 = (op_mod op).1 + length inputs /\
    forall k j, inputs !! k = Some j -> exists a,
      conf_get_modamt c (op_node op, j) = Some a /\ mo_amt <$> np_mods p !! ((op_mod op).1 + k) = Some a.
  Proof.
    intros Hn Hq op Hop. cbn zeta. destruct (tuned_reach T HT i2f load_sample finc fadd mix node_sem true n Hn) as [_ Hi].
    specialize (Hi eq_refl). rewrite Hq in Hi. cbn [foldl] in Hi.
    assert (Hin : (op_node op, op_mod op) ∈ (pview (ex_prog (en_exec n))).1).
    { unfold pview. cbn. change (op_node op, op_mod op) with (opair op). by apply elem_of_list_fmap_1. }
    destruct (ti_at _ _ _ Hi _ _ Hin) as [H1 H2]. split; [done|]. intros k j Hk. destruct (H2 k j Hk) as (x & a & Hx & Ha).
    destruct (ti_amt _ _ _ Hi _ _ _ _ Hx Ha) as [H3 H4]. exists a. split; [done|]. unfold pview in H3. cbn [snd] in H3.
    by rewrite <- list_lookup_fmap.
  Qed.
End tuned.
Print Assumptions C18_amounts.

(** ** A concrete history *)
Local Notation dstep := (engine_step demo_table (fun z => z) (fun a => a) (fun _ _ _ => 1%Z) Z.add (fun a b c => a + b * c)%Z demo_sem).
Local Notation dtuned := (tuned demo_table (fun z => z) (fun a => a) (fun _ _ _ => 1%Z) Z.add (fun a b c => a + b * c)%Z demo_sem).
Definition tuned_checked (s : bool * engine nat) (o : eop) : option (bool * engine nat) :=
  match o with
  | EMx o' =>
      let* (h, m, ms) := matrix_step demo_table (fun z => z) (fun a => a) (en_heap s.2) (en_mx s.2) o' in
      if length (en_queue s.2) + length ms <=? 512 then (let* n := dstep s.2 o in Some (published demo_table s.1 s.2 o, n)) else None
  | _ => let* n := dstep s.2 o in Some (published demo_table s.1 s.2 o, n)
  end.
Lemma tuned_checked_ok os : forall s s', dtuned s.1 s.2 -> foldm tuned_checked s os = Some s' -> dtuned s'.1 s'.2.
Proof.
  induction os as [|o os IH]; intros [b n] s' Hn; cbn [foldm]; [by intros [= <-]|].
  destruct (tuned_checked (b, n) o) as [[b1 n1]|] eqn:E; cbn [mbind option_bind]; [|done]. apply IH. unfold tuned_checked in E. cbn [fst snd] in Hn, E. cbn [fst snd].
  destruct o as [o'|k|nf|].
  - destruct (matrix_step _ _ _ _ _ o') as [[[h1 m1] ms]|] eqn:E1; cbn [mbind option_bind] in E; [|done].
    destruct (Nat.leb_spec (length (en_queue n) + length ms) 512) as [Hl|]; [|done].
    destruct (dstep n (EMx o')) as [n2|] eqn:E2; cbn [mbind option_bind] in E; [|done]. injection E as <- <-. refine (tuned_next _ _ _ _ _ _ _ b n (EMx o') n2 _ _ _); [exact Hn| |exact E2].
    intros o2 h m ms' [= <-] E3. rewrite E1 in E3. by injection E3 as <- <- <-.
  - destruct (dstep n (EDrain k)) as [n2|] eqn:E2; cbn [mbind option_bind] in E; [|done]. injection E as <- <-. refine (tuned_next _ _ _ _ _ _ _ b n (EDrain k) n2 _ _ _); [exact Hn|done|exact E2].
  - destruct (dstep n (EBlock nf)) as [n2|] eqn:E2; cbn [mbind option_bind] in E; [|done]. injection E as <- <-. refine (tuned_next _ _ _ _ _ _ _ b n (EBlock nf) n2 _ _ _); [exact Hn|done|exact E2].
  - destruct (dstep n EDrop) as [n2|] eqn:E2; cbn [mbind option_bind] in E; [|done]. injection E as <- <-. refine (tuned_next _ _ _ _ _ _ _ b n EDrop n2 _ _ _); [exact Hn|done|exact E2].
Qed.

(** two nodes, the first feeds the second *)
Definition mod_board : list eop :=
  [EMx (MxLay (LPlace 0 0 (Cell (NId 1 0) 0 0 None None (Some 0) None None None)));
   EMx (MxLay (LPlace 0 1 (Cell (NId 2 0) 0 1 None None (Some 0) (Some 0) None None)));
   EMx (MxModamt (NId 2 0, 0) (Some 4%Z)); EMx MxSync].
Definition amounts (n : engine nat) : list (node_id * list (option f32)) * list f32 :=
  ((fun op => (op_node op, (fun j => conf_get_modamt (mx_conf (en_mx n)) (op_node op, j)) <$> modulated demo_table (cf_modamt (mx_conf (en_mx n))) (op_node op)))
     <$> np_ops (ex_prog (en_exec n)), mo_amt <$> np_mods (ex_prog (en_exec n))).

Lemma tuned_aux os A :
  (fun s => (s.1, en_queue s.2, amounts s.2)) <$> foldm tuned_checked (true, engine_new 4 4 10 7) os = Some (true, [], A) ->
  (exists n, foldm tuned_checked (true, engine_new 4 4 10 7) os = Some (true, n) /\ dtuned true n /\ en_queue n = []) /\
  (s ← foldm tuned_checked (true, engine_new 4 4 10 7) os; Some (amounts s.2)) = Some A.
Proof.
  intros H. destruct (foldm tuned_checked (true, engine_new 4 4 10 7) os) as [[b n]|] eqn:E; [|done].
  cbn [fmap option_fmap option_map fst snd] in H. injection H as Hb Hq H1. subst b. split.
  - exists n. split; [done|]. split; [|done]. change (dtuned (true, n).1 (true, n).2). eapply tuned_checked_ok; [|exact E]. constructor.
  - cbn [mbind option_bind snd]. by rewrite H1.
Qed.

(** amounts set before and after the upload, a further modulated input, and a changed amount *)
Example C18_amounts_case :
  let os := mod_board ++ [EDrain 2; EMx (MxModamt (NId 2 0, 0) (Some 6%Z)); EDrain 1; EBlock 4; EMx (MxModamt (NId 1 0, 1) (Some 9%Z)); EMx (MxModamt (NId 2 0, 0) (Some 5%Z)); EDrain 9] in
  (exists n, foldm tuned_checked (true, engine_new 4 4 10 7) os = Some (true, n) /\ dtuned true n /\ en_queue n = []) /\
  (s ← foldm tuned_checked (true, engine_new 4 4 10 7) os; Some (amounts s.2)) = Some ([(NId 1 0, [Some 9%Z]); (NId 2 0, [Some 5%Z])], [9; 5]%Z).
Proof.
  cbv zeta. apply tuned_aux. vm_compute. reflexivity.
Qed.

(** A failed call of [set_param_modamt] changes what [get_param_modamt] gives but not what the audio thread uses: while the board has a
    cycle, the amount 4 is taken away and then set to 6; both calls give an error, the frontend reports 6 and the audio thread uses 4. *)
Theorem C18_failed_amount_refuted :
  let cyc := EMx (MxLay (LPlace 0 2 (Cell (NId 1 0) 0 2 None None None (Some 0) None None))) in
  (s ← foldm tuned_checked (true, engine_new 4 4 10 7)
     (mod_board ++ [EDrain 2; cyc; EMx (MxModamt (NId 2 0, 0) None); EMx (MxModamt (NId 2 0, 0) (Some 6%Z)); EDrain 9]);
   Some (s.1, en_queue s.2, amounts s.2)) = Some (false, [], ([(NId 1 0, []); (NId 2 0, [Some 6%Z])], [4]%Z)).
Proof. vm_compute. reflexivity. Qed.
Print Assumptions C18_failed_amount_refuted.
