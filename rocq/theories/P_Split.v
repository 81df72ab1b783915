(** What a patch plays does not depend on the lengths of the blocks (C60) *)
From Verif Require Import Base M_Atom M_Graph M_Dir M_Grid S_Grid M_Layout S_Layout M_Prog M_Conf M_Exec M_Sync M_Engine.
From Verif Require Import S_Conf S_Sync S_Prog S_Own S_Flow L_Conf L_Sync L_Own L_Own2 L_Own3 L_Flow L_Flow2 S_Settle L_Settle L_Settle2 L_Settle4 L_Settle5.
From Verif Require Import P_Conf P_Own P_Settle S_Split L_Split L_Split2 L_Split3.
Open Scope nat_scope.
Local Opaque block_size.

Section split.
  Context (T : ntable) (HT : table_ok T) (i2f : Z -> f32) (load_sample : satom -> satom).
  Context (finc : f32 -> f32 -> nat -> f32) (fadd : f32 -> f32 -> f32) (mix : f32 -> f32 -> f32 -> f32).
  Context {S : Type} (step : node_id -> N -> N -> list satom -> S -> list f32 -> list f32 -> S * list f32).
  Local Notation calm := (calm_reachable T i2f load_sample finc fadd mix (frame_sem step)).
  Local Notation small := (small_reachable T i2f load_sample finc fadd mix (frame_sem step)).
  Local Notation plays := (play T i2f load_sample finc fadd mix (frame_sem step)).

  (** Take any engine that API calls and blocks can reach within the limits, with any values on their way to new settings, and nodes that do
      anything at all frame by frame. The host may call it with blocks of 1 to 128 frames as it likes: nothing fails, and the signals of all
      outputs, the states of all nodes and the current values of all parameters only depend on the total number of frames. *)
  Theorem C60_block_lengths slope n blocks blocks' : calm slope n -> small n -> monitor_ready (en_exec n) ->
    Forall (fun k => 1 <= k <= 128) blocks -> Forall (fun k => 1 <= k <= 128) blocks' -> sum_list blocks = sum_list blocks' ->
    exists n1 n2 signals, plays n blocks = Some (n1, signals) /\ plays n blocks' = Some (n2, signals) /\
      (forall id, en_st n1 id = en_st n2 id) /\ np_params (ex_prog (en_exec n1)) = np_params (ex_prog (en_exec n2)).
  Proof.
    intros Hn Hsm Hmo Hb Hb' Hsum.
    destruct (play_frames T HT i2f load_sample finc fadd mix step slope blocks Hb n Hn Hsm Hmo) as (n1 & ms1 & E1 & L1 & C1 & P1 & Q1).
    destruct (play_frames T HT i2f load_sample finc fadd mix step slope blocks' Hb' n Hn Hsm Hmo) as (n2 & ms2 & E2 & L2 & C2 & P2 & Q2).
    destruct (small_flow T HT i2f load_sample finc fadd mix (frame_sem step) (frame_fits step) n Hsm) as [_ _ (g & ma & Hw)].
    destruct (chain_unique T mix step g ma _ ms1 Hw ms2 _ _ _ _ _ ltac:(congruence) (fun _ => eq_refl) C1 C2) as [Hst Hsig].
    exists n1, n2, (signals T (ex_prog (en_exec n)) ms1). split; [done|]. split; [|split; [done|]].
    - rewrite E2. f_equal. f_equal. unfold signals. apply list_fmap_ext. intros i op Hi. apply list_fmap_ext. intros k j [-> Hj]%lookup_seq.
      symmetry. apply Hsig; [by eapply elem_of_list_lookup_2|done].
    - apply list_eq. intros k. destruct (decide (k < length (np_params (ex_prog (en_exec n))))) as [Hk|Hk].
      + rewrite Q1, Q2 by done. by rewrite Hsum.
      + rewrite !(proj2 (lookup_ge_None _ _)); [done|lia|lia].
  Qed.

  (** The signals are complete: for every output of every node that runs, one value for every frame. *)
  Theorem C60_complete slope n blocks n1 signals : calm slope n -> small n -> monitor_ready (en_exec n) ->
    Forall (fun k => 1 <= k <= 128) blocks -> plays n blocks = Some (n1, signals) ->
    length signals = length (np_ops (ex_prog (en_exec n))) /\
    forall i op sig, np_ops (ex_prog (en_exec n)) !! i = Some op -> signals !! i = Some sig ->
      length sig = kind_outs T (op_node op) /\ Forall (fun s => length s = sum_list blocks) sig.
  Proof.
    intros Hn Hsm Hmo Hb E.
    destruct (play_frames T HT i2f load_sample finc fadd mix step slope blocks Hb n Hn Hsm Hmo) as (n2 & ms & E2 & L2 & _).
    rewrite E in E2. injection E2 as <- ->. unfold L_Split3.signals. split; [by rewrite fmap_length|].
    intros i op sig Hi. rewrite list_lookup_fmap, Hi. cbn [fmap option_fmap option_map]. intros [= <-].
    split; [by rewrite fmap_length, seq_length|]. apply Forall_fmap, Forall_forall. intros j _. cbn. by rewrite fmap_length.
  Qed.
End split.
Print Assumptions C60_block_lengths.
Print Assumptions C60_complete.

(** ** A concrete case: node (1, 0) adds up its inputs, node (2, 0) reads it through a modulator; a parameter of each is on its way *)
Section checked.
  Context {St : Type}.
  Context (sem : node_id -> St -> nat -> N -> N -> list satom ->
                 list (list f32) -> list (list f32) -> list (list f32) -> St * list (list f32)).
  Local Notation xstep := (engine_step demo_table (fun z => z) (fun a => a) (fun _ _ _ => 1%Z) Z.add (fun a b c => a + b * c)%Z sem).
  Definition sp_checked (n : engine St) (o : eop) : option (engine St) :=
    let* n' :=
      match o with
      | EMx o' =>
          let* (h, m, ms) := matrix_step demo_table (fun z => z) (fun a => a) (en_heap n) (en_mx n) o' in
          if length (en_queue n) + length ms <=? 512 then xstep n o else None
      | EDrain k => if calm_drainb (en_heap n) (en_exec n) (take k (en_queue n)) then xstep n o else None
      | _ => xstep n o
      end in
    if length (created (mx_conf (en_mx n'))) <=? 256 then Some n' else None.
  Lemma sp_checked_ok slope os : forall n n',
    calm_reachable demo_table (fun z => z) (fun a => a) (fun _ _ _ => 1%Z) Z.add (fun a b c => a + b * c)%Z sem slope n ->
    small_reachable demo_table (fun z => z) (fun a => a) (fun _ _ _ => 1%Z) Z.add (fun a b c => a + b * c)%Z sem n ->
    foldm sp_checked n os = Some n' ->
    calm_reachable demo_table (fun z => z) (fun a => a) (fun _ _ _ => 1%Z) Z.add (fun a b c => a + b * c)%Z sem slope n' /\
    small_reachable demo_table (fun z => z) (fun a => a) (fun _ _ _ => 1%Z) Z.add (fun a b c => a + b * c)%Z sem n'.
  Proof.
    induction os as [|o os IH]; intros n n' Hn Hs; cbn [foldm]; [by intros [= <-]|].
    destruct (sp_checked n o) as [n1|] eqn:E; cbn [mbind option_bind]; [|done]. unfold sp_checked in E.
    match type of E with (let* x := ?t in _) = _ => destruct t as [n2|] eqn:E1 end; cbn [mbind option_bind] in E; [|done].
    destruct (Nat.leb_spec (length (created (mx_conf (en_mx n2)))) 256) as [Hl|]; [|done]. injection E as ->.
    assert (H : xstep n o = Some n1 /\ calm_step demo_table (fun z => z) (fun a => a) (fun _ _ _ => 1%Z) n o).
    { destruct o as [o'|k|nf|]; [| |by split|by split].
      - destruct (matrix_step _ _ _ _ _ o') as [[[h1 m1] ms]|] eqn:E2; cbn [mbind option_bind] in E1; [|done].
        destruct (Nat.leb_spec (length (en_queue n) + length ms) 512) as [Hq|]; [|done]. split; [done|].
        intros h m ms' E3. rewrite E2 in E3. by injection E3 as <- <- <-.
      - destruct (calm_drainb _ _ _) eqn:Ec; [|done]. split; [done|]. by apply calm_drainb_ok. }
    destruct H as [Ex Hc]. apply IH; [by eapply calm_next|by eapply small_step].
  Qed.
End checked.

Definition sp_step (id : node_id) (_ _ : N) (_ : list satom) (s : Z) (own ins : list f32) : Z * list f32 :=
  let t := foldr Z.add 0%Z ins in
  match nid_kind id with
  | 1 => ((s + t)%Z, [(s + t)%Z])
  | _ => (t, [t; s])
  end.
Definition sp_steps : list eop :=
  [EMx (MxLay (LPlace 0 0 (Cell (NId 1 0) 0 0 None None (Some 0) None None None)));
   EMx (MxLay (LPlace 0 1 (Cell (NId 2 0) 0 1 None None None (Some 0) None None)));
   EMx (MxModamt (NId 2 0, 0) (Some 3%Z));
   EMx MxSync; EDrain 5; EBlock 16;
   EMx (MxSet (NId 1 0, 1) (AParam 9%Z)); EMx (MxSet (NId 2 0, 0) (AParam 6%Z)); EDrain 2; EBlock 2].
Definition sp_engine : option (engine (node_id -> Z)) := foldm (sp_checked (frame_sem sp_step)) (engine_new 4 4 4 (fun _ => 0%Z)) sp_steps.
Local Notation sp_play := (play demo_table (fun z => z) (fun a => a) (fun _ _ _ => 1%Z) Z.add (fun a b c => a + b * c)%Z (frame_sem sp_step)).

Example C60_case :
  (exists n, sp_engine = Some n /\
    calm_reachable demo_table (fun z => z) (fun a => a) (fun _ _ _ => 1%Z) Z.add (fun a b c => a + b * c)%Z (frame_sem sp_step) 4 n /\
    small_reachable demo_table (fun z => z) (fun a => a) (fun _ _ _ => 1%Z) Z.add (fun a b c => a + b * c)%Z (frame_sem sp_step) n /\
    monitor_ready (en_exec n)) /\
  (n ← sp_engine; snd <$> sp_play n [5]) = Some [[[405; 430; 449; 468; 487]]; [[1238; 1314; 1353; 1410; 1467]; [1165; 1238; 1314; 1353; 1410]]]%Z /\
  (n ← sp_engine; snd <$> sp_play n [2; 1; 2]) = Some [[[405; 430; 449; 468; 487]]; [[1238; 1314; 1353; 1410; 1467]; [1165; 1238; 1314; 1353; 1410]]]%Z.
Proof.
  split; [|split; vm_compute; reflexivity].
  assert (Hs : (if sp_engine then true else false) = true) by (vm_compute; reflexivity).
  destruct sp_engine as [n|] eqn:E; [clear Hs|discriminate Hs]. exists n. split; [done|].
  destruct (sp_checked_ok (frame_sem sp_step) 4 sp_steps (engine_new 4 4 4 (fun _ => 0%Z)) n) as [H1 H2]; [constructor|constructor|exact E|].
  split; [done|]. split; [done|].
  assert (H : (fun n => (ex_mon (en_exec n), length (np_out (ex_prog (en_exec n))))) <$> sp_engine = Some ([None; None; None; None; None; Some 0], 3)) by (vm_compute; reflexivity).
  rewrite E in H. cbn in H. injection H as H3 H4. intros k idx. rewrite H3, H4.
  do 5 (destruct k as [|k]; [done|]). destruct k as [|k]; [|done]. cbn. intros [= <-]. rewrite decide_True by lia. lia.
Qed.

(** ** Nodes that read a parameter once in a block *)
(** What BiqFilt does with its parameters (src/dsp/node_biqfilt.rs:122-125), reduced to this: the value in the first frame of the block counts for
    the whole block. The signal it filters is left out. *)
Definition once_sem (id : node_id) (st : unit) (nframes : nat) (_ _ : N) (_ : list satom) (own ins old : list (list f32)) : unit * list (list f32) :=
  (st, imap (fun _ b => replicate (length b) (default 0%Z (default [] (ins !! 1) !! 0))) old).
Definition once_engine : option (engine unit) := foldm (sp_checked once_sem) (engine_new 4 4 4 ()) sp_steps.
Local Notation once_play := (play demo_table (fun z => z) (fun a => a) (fun _ _ _ => 1%Z) Z.add (fun a b c => a + b * c)%Z once_sem).

Lemma once_fits : node_fits once_sem.
Proof.
  intros id st k oc ic ats ps is os Hos. cbn. split; [apply imap_length|]. apply Forall_forall. intros b [j Hj]%elem_of_list_lookup.
  rewrite list_lookup_imap in Hj. destruct (os !! j) as [b0|] eqn:E; [|done]. injection Hj as <-. rewrite replicate_length. by eapply Forall_lookup_1 in Hos.
Qed.

(** With such nodes the statement is false: three frames while a parameter moves, as one block and as three. *)
Theorem C60_once_per_block_refuted :
  exists n, once_engine = Some n /\ node_fits once_sem /\
    calm_reachable demo_table (fun z => z) (fun a => a) (fun _ _ _ => 1%Z) Z.add (fun a b c => a + b * c)%Z once_sem 4 n /\
    small_reachable demo_table (fun z => z) (fun a => a) (fun _ _ _ => 1%Z) Z.add (fun a b c => a + b * c)%Z once_sem n /\
    (fun r => take 1 r.2) <$> once_play n [3] = Some [[[14; 14; 14]]]%Z /\ (fun r => take 1 r.2) <$> once_play n [1; 1; 1] = Some [[[14; 15; 9]]]%Z.
Proof.
  assert (H1 : (n ← once_engine; (fun r => take 1 r.2) <$> once_play n [3]) = Some [[[14; 14; 14]]]%Z) by (vm_compute; reflexivity).
  assert (H2 : (n ← once_engine; (fun r => take 1 r.2) <$> once_play n [1; 1; 1]) = Some [[[14; 15; 9]]]%Z) by (vm_compute; reflexivity).
  destruct once_engine as [n|] eqn:E; [|discriminate H1]. cbn [mbind option_bind] in H1, H2. exists n. split; [reflexivity|]. split; [exact once_fits|].
  destruct (sp_checked_ok once_sem 4 sp_steps (engine_new 4 4 4 ()) n) as [R1 R2]; [constructor|constructor|exact E|].
  split; [exact R1|]. split; [exact R2|]. split; [exact H1|exact H2].
Qed.
Print Assumptions C60_once_per_block_refuted.
