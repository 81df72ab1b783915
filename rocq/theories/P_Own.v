(** Buffers are owned by exactly one program and released exactly once (C19) *)
From Verif Require Import Base M_Atom M_Graph M_Dir M_Grid S_Grid M_Layout S_Layout M_Prog M_Conf M_Exec M_Sync M_Engine.
From Verif Require Import S_Conf S_Sync S_Prog S_Own L_Conf L_Sync L_Own L_Own2 L_Own3 P_Conf.
Open Scope nat_scope.
Local Opaque block_size.

Section own.
  Context (T : ntable) (HT : table_ok T) (i2f : Z -> f32) (load_sample : satom -> satom).
  Context (finc : f32 -> f32 -> nat -> f32) (fadd : f32 -> f32 -> f32) (mix : f32 -> f32 -> f32 -> f32).
  Context {St : Type}.
  Context (node_sem : node_id -> St -> nat -> N -> N -> list satom ->
                      list (list f32) -> list (list f32) -> list (list f32) -> St * list (list f32)).
  Context (Hfit : node_fits node_sem).
  Local Notation reachable := (engine_reachable T i2f load_sample finc fadd mix node_sem).
  Local Notation step := (engine_step T i2f load_sample finc fadd mix node_sem).

  Lemma reachable_own n : reachable n -> own_inv T n.
  Proof. intros (w & h & slope & st & os & E). eapply own_run; [done|done|apply own_new|exact E]. Qed.

  (** In every reachable state of the engine the allocated buffers are exactly those of the existing
      programs, and no buffer belongs to two programs or twice to one. Every pointer that the running
      program reads or writes through is one of its own buffers, hence not released. *)
  Theorem C19_buffers_owned_once n : reachable n ->
    holds (en_heap n) (mjoin (owned <$> live_progs n)) /\
    (forall b, b ∈ pointers (ex_prog (en_exec n)) -> b ∈ owned (ex_prog (en_exec n)) /\ is_Some (h_bufs (en_heap n) !! b)).
  Proof.
    intros Hn. destruct (reachable_own n Hn) as [_ Hh _ Hr]. rewrite live_bufs. split; [apply Hh|].
    intros b Hb. pose proof (rn_ptrs _ Hr b Hb) as Ho. split; [done|]. apply (proj1 (proj2 (proj1 Hh))).
    rewrite !elem_of_app. tauto.
  Qed.

  (** Releasing a program never frees a buffer a second time: the drop thread always succeeds, messages
      that do not fit into the queue are released without failure, and taking a program from the
      queue never fails. *)
  Theorem C19_release_never_fails n : reachable n ->
    is_Some (step n EDrop) /\
    (forall o h m ms, matrix_step T i2f load_sample (en_heap n) (en_mx n) o = Some (h, m, ms) -> is_Some (step n (EMx o))) /\
    (forall m q, en_queue n = m :: q -> (forall i a, m <> MAtom i a) -> is_Some (step n (EDrain 1))).
  Proof.
    intros Hn. destruct (reachable_own n Hn) as [Hm Hh Hq Hr]. split; [|split].
    - cbn [engine_step]. destruct (en_trash n) as [|p t] eqn:Et; [by eexists|].
      destruct (prog_drop_hok p (en_heap n) (sent_bufs (en_queue n) ++ owned (ex_prog (en_exec n)) ++ mjoin (owned <$> t))) as (h1 & -> & _).
      + eapply hok_perm; [|exact Hh]. cbn [fmap list_fmap mjoin list_join]. solve_Permutation.
      + by eexists.
    - intros o h m ms E. cbn [engine_step]. rewrite E. cbn [mbind option_bind]. unfold push.
      destruct (matrix_step_own T HT i2f load_sample _ _ _ _ _ _ _ Hm Hh E) as [H1 F1].
      destruct (queue_push_own ms h (en_queue n) (owned (ex_prog (en_exec n)) ++ mjoin (owned <$> en_trash n))) as (h2 & q2 & -> & _); [|done..|by eexists].
      eapply hok_perm; [|exact H1]. solve_Permutation.
    - intros m q Eq Hna. cbn [engine_step]. rewrite Eq in *. cbn [take exec_drain].
      change (m :: q) with ([m] ++ q) in Hh. rewrite sent_app in Hh. inversion Hq as [|? ? Hm1 Hq1]; subst.
      destruct (message_own finc (en_heap n) (en_exec n) m (sent_bufs q ++ mjoin (owned <$> en_trash n))) as (h1 & e1 & t1 & -> & _); [|done|..].
      + eapply hok_perm; [|exact Hh]. unfold sent_bufs at 1. cbn [fmap list_fmap mjoin list_join]. rewrite app_nil_r. solve_Permutation.
      + intros p Hp. by eapply msg_ready_progs.
      + intros p ->. exact Hm1.
      + intros i a ->. by destruct (Hna i a).
      + cbn [mbind option_bind]. by eexists.
  Qed.

  (** Nothing is leaked: releasing all existing programs, in any order, succeeds and leaves no buffer. *)
  Theorem C19_no_leak n ps : reachable n -> ps ≡ₚ live_progs n ->
    exists h, foldm prog_drop (en_heap n) ps = Some h /\ h_bufs h = ∅.
  Proof.
    intros Hn Hp. destruct (reachable_own n Hn) as [_ Hh _ _]. rewrite <- live_bufs in Hh.
    assert (Hb : hok (en_heap n) (mjoin (owned <$> ps))).
    { eapply hok_perm; [|exact Hh]. unfold mjoin. by rewrite Hp. }
    clear Hh Hn Hp. generalize dependent (en_heap n). induction ps as [|p ps IH]; intros h Hh; cbn [foldm].
    - exists h. split; [done|]. apply map_eq. intros b. rewrite lookup_empty. destruct (h_bufs h !! b) eqn:E; [|done].
      exfalso. assert (b ∈ @nil nat) as Hx; [|by apply elem_of_nil in Hx]. apply Hh. by eexists.
    - destruct (prog_drop_hok p h (mjoin (owned <$> ps)) Hh) as (h1 & -> & H1). cbn [mbind option_bind]. by apply IH.
  Qed.
End own.
Print Assumptions C19_buffers_owned_once.
Print Assumptions C19_release_never_fails.
Print Assumptions C19_no_leak.

(** A history with two uploads, a block in between and one release. *)
Definition demo_sem (n : node_id) (st : nat) (k : nat) (oc ic : N) (ats : list satom) (ps is os : list (list f32))
  : nat * list (list f32) := (S st, (fun o : list f32 => (fun _ : f32 => Z.of_nat st) <$> o) <$> os).
Lemma demo_sem_fits : node_fits demo_sem.
Proof.
  intros n st k oc ic ats ps is os Hos. cbn. rewrite fmap_length. split; [done|].
  apply Forall_fmap. eapply Forall_impl; [exact Hos|]. cbn. intros b Hb. by rewrite fmap_length.
Qed.
Definition demo_steps : list eop :=
  [EMx (MxLay (LPlace 0 0 (Cell (NId 1 0) 0 0 None None (Some 0) None None None)));
   EMx (MxLay (LPlace 0 1 (Cell (NId 2 0) 0 1 None None None (Some 0) None None)));
   EMx (MxSet (NId 1 0, 1) (AParam 5%Z)); EMx (MxModamt (NId 2 0, 0) (Some 3%Z));
   EMx MxSync; EDrain 5; EBlock 16;
   EMx (MxLay (LPlace 0 2 (Cell (NId 1 1) 0 2 None None None None None None))); EMx MxSync; EDrain 1; EBlock 128; EDrop].
Definition demo_engine : option (engine nat) :=
  engine_run demo_table (fun z => z) (fun a => a) (fun _ _ _ => 0%Z) Z.add (fun a b c => a + b * c)%Z demo_sem
    (engine_new 4 4 10 7) demo_steps.

(** The running program has taken over input buffers of the first one; 24 buffers exist and 24 are owned. *)
Example C19_example :
  (n ← demo_engine; Some (owned <$> live_progs n, length ((map_to_list (h_bufs (en_heap n))).*1), en_st n)) =
  Some ([[3; 4; 5; 21; 22; 14; 15; 16; 17; 23]; [10; 11; 12; 0; 1; 2; 6]; [18; 19; 20; 7; 8; 9; 13]], 24, 12).
Proof. by vm_compute. Qed.
