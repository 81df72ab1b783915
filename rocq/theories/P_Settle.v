(** The audio thread catches up with the frontend (C18) *)
From Verif Require Import Base M_Atom M_Graph M_Dir M_Grid S_Grid M_Layout S_Layout M_Prog M_Conf M_Exec M_Sync M_Engine.
From Verif Require Import S_Conf S_Sync S_Prog S_Own S_Settle L_Conf L_Conf2 L_Sync L_Own L_Own2 L_Own3 L_Settle L_Settle2 L_Settle3 L_Settle4 L_Settle5 L_Settle6 P_Conf P_Own.
Open Scope nat_scope.
Local Opaque block_size.

Section settle.
  Context (T : ntable) (HT : table_ok T) (i2f : Z -> f32) (load_sample : satom -> satom).
  Context (finc : f32 -> f32 -> nat -> f32) (fadd : f32 -> f32 -> f32) (mix : f32 -> f32 -> f32 -> f32).
  Context {St : Type}.
  Context (node_sem : node_id -> St -> nat -> N -> N -> list satom ->
                      list (list f32) -> list (list f32) -> list (list f32) -> St * list (list f32)).
  Context (Hfit : node_fits node_sem).
  Local Notation reachable := (calm_reachable T i2f load_sample finc fadd mix node_sem).
  Local Notation step := (engine_step T i2f load_sample finc fadd mix node_sem).
  Local Notation run := (engine_run T i2f load_sample finc fadd mix node_sem).

  (** Whatever API calls, message handling, blocks and releases happened in whatever interleaving, as long as the queue and the smoothers were
      never exceeded: once the queue is empty and the smoothing is over, every node that the audio thread runs finds, for each of its inputs,
      the value that [get_param] gives in the frontend, in the whole buffer of the input, and for each of its atoms the atom that
      [get_param] gives. *)
  Theorem C18_settled slope n : reachable slope n -> settled n -> forall op, op ∈ np_ops (ex_prog (en_exec n)) ->
    let p := ex_prog (en_exec n) in
    let id := op_node op in
    (forall j, j < nt_ins T (nid_kind id) -> exists v b,
       conf_get_param T (mx_conf (en_mx n)) (id, j) = Some (AParam v) /\
       np_params p !! ((op_in op).1 + j) = Some v /\ np_inp p !! ((op_in op).1 + j) = Some b /\
       h_bufs (en_heap n) !! b = Some (replicate block_size v)) /\
    (forall j, j < nt_ats T (nid_kind id) -> exists a,
       conf_get_param T (mx_conf (en_mx n)) (id, nt_at_id T (nid_kind id) j) = Some a /\
       np_atoms p !! ((op_at op).1 + j) = Some a).
  Proof.
    intros Hn [Hq [Hsm Href]] op Hop. cbn zeta. destruct (set_reach T HT i2f load_sample finc fadd mix node_sem Hfit slope n Hn) as [Ho Hs _ Hf _].
    pose proof (ops_reach T HT i2f load_sample finc fadd mix node_sem Hfit slope n Hn) as Hi. unfold ops_inv in Hi.
    rewrite Hq in Hi, Hf. cbn [foldl] in Hi, Hf.
    assert (Hw : where_ok T (mx_conf (en_mx n)) (otri op)). { apply (proj1 (Forall_forall _ _) Hi). by apply elem_of_list_fmap_1. }
    destruct Hw as (k & Hk & E1 & E2 & W1 & W2). cbn [otri fst snd] in *.
    assert (Hev : ev_params (en_exec n) = np_params (ex_prog (en_exec n))).
    { apply list_eq. intros i. rewrite ev_lookup. destruct (np_params _ !! i); [|done]. cbn. f_equal.
      destruct (target_of (ex_sm (en_exec n)) i) as [w|] eqn:Et; [|done]. destruct (target_some _ _ _ Et) as (j & s & Hj & Hd & _).
      exfalso. specialize (Hsm (i, s) (elem_of_list_lookup_2 _ _ _ Hj)). cbn in Hsm. congruence. }
    split.
    - intros j Hj. destruct (W1 j Hj) as (x & Hx & Hix). destruct (fr_pos _ _ _ Hf _ _ _ Hx) as (_ & _ & _ & _ & Hv & HA).
      unfold ev in HA. cbn [fst] in HA. rewrite Hev, Hix in HA. rewrite E1. cbn [fst].
      assert (Hb : exists b, np_inp (ex_prog (en_exec n)) !! (psum (n_ins T) (created (mx_conf (en_mx n))) k + j) = Some b).
      { apply lookup_lt_is_Some. rewrite <- (rn_par _ (oi_run _ _ Ho)). by eapply lookup_lt_Some. }
      destruct Hb as [b Hb]. exists (npa_value x), b. split.
      { unfold conf_get_param, is_atom. cbn [fst snd]. rewrite (proj2 (Nat.ltb_lt _ _) Hj). cbn [negb andb]. by rewrite Hv. }
      split; [done|]. split; [done|]. eapply si_buf; [exact Hs|exact Hb|exact HA| |].
      + destruct (target_of _ _) as [w|] eqn:Et; [|done]. destruct (target_some _ _ _ Et) as (j' & s & Hj' & Hd & _).
        exfalso. specialize (Hsm (_, s) (elem_of_list_lookup_2 _ _ _ Hj')). cbn in Hsm. congruence.
      + rewrite Href. apply not_elem_of_nil.
    - intros j Hj. destruct (W2 j Hj) as (x & Hx & Hix). destruct (fr_atom _ _ _ Hf _ _ _ Hx) as (_ & _ & _ & _ & _ & _ & Hv & HA).
      unfold ev in HA. cbn [snd] in HA. rewrite Hix in HA. rewrite E2. cbn [fst]. exists (nat_value x). split; [|done].
      unfold conf_get_param. rewrite (is_atom_atom T HT) by done. done.
  Qed.

  (** Message handling within the limits, releases, and blocks of 1 to 128 frames never fail. *)
  Theorem C18_never_fails slope n : reachable slope n ->
    (forall k, calm_step T i2f load_sample finc n (EDrain k) -> is_Some (step n (EDrain k))) /\
    (forall nf, 1 <= nf <= 128 -> monitor_ready (en_exec n) -> is_Some (step n (EBlock nf))) /\
    is_Some (step n EDrop).
  Proof.
    intros Hn. destruct (set_reach T HT i2f load_sample finc fadd mix node_sem Hfit slope n Hn) as [[Hm Hh Hq Hr] Hs Hco Hf Hb]. split; [|split].
    - intros k Hca. cbn [engine_step calm_step] in *.
      destruct (drain_set i2f finc fadd mix slope (take k (en_queue n)) (en_heap n) (en_exec n) (sent_bufs (drop k (en_queue n)) ++ mjoin (owned <$> en_trash n)) (drop k (en_queue n)))
        as (h1 & e1 & t & E1 & _); try done.
      + eapply hok_perm; [|exact Hh]. rewrite (sent_take k (en_queue n)). solve_Permutation.
      + by apply Forall_take.
      + by rewrite take_drop.
      + rewrite E1. by eexists.
    - intros nf Hnf Hmo. cbn [engine_step].
      destruct (process_total fadd mix node_sem Hfit (en_heap n) (en_exec n) (en_st n) nf (sent_bufs (en_queue n) ++ mjoin (owned <$> en_trash n)) Hs) as [[[[h e] st] fed] ->]; [|done|exact Hnf|done|by eexists].
      eapply hok_perm; [|exact Hh]. solve_Permutation.
    - cbn [engine_step]. destruct (en_trash n) as [|p t] eqn:Et; [by eexists|].
      destruct (prog_drop_hok p (en_heap n) (sent_bufs (en_queue n) ++ owned (ex_prog (en_exec n)) ++ mjoin (owned <$> t))) as (h1 & -> & _); [|by eexists].
      eapply hok_perm; [|exact Hh]. cbn [fmap list_fmap mjoin list_join]. solve_Permutation.
  Qed.

  Lemma block_step slope n nf n' : reachable slope n -> step n (EBlock nf) = Some n' ->
    en_queue n' = en_queue n /\ (monitor_ready (en_exec n) -> monitor_ready (en_exec n')) /\
    Forall2 (aged nf) (ex_sm (en_exec n)) (ex_sm (en_exec n')) /\ (ex_refresh (en_exec n')).*1 = runs (ex_sm (en_exec n)).
  Proof.
    intros Hn. destruct (set_reach T HT i2f load_sample finc fadd mix node_sem Hfit slope n Hn) as [[Hm Hh Hq Hr] Hs Hco Hf Hb]. cbn [engine_step].
    destruct (exec_process _ _ _ _ _ _ _) as [[[[h1 e1] st1] fed]|] eqn:E1; cbn [mbind option_bind]; [|done]. intros [= <-]. cbn.
    destruct (process_sinv fadd mix node_sem _ _ _ _ (sent_bufs (en_queue n) ++ mjoin (owned <$> en_trash n)) _ _ _ _ Hs ltac:(eapply hok_perm; [|exact Hh]; solve_Permutation) Hr E1) as (_ & _ & Hag & Hrf).
    destruct (process_own fadd mix node_sem Hfit _ _ _ _ _ _ _ _ _ Hh E1) as [_ (_ & Sc & So & _)].
    split; [done|]. split; [|done]. intros Hmo k idx. rewrite Sc, So. assert (ex_mon e1 = ex_mon (en_exec n)) as ->; [|apply Hmo].
    revert E1. unfold exec_process, exec_smoothers. destruct (refresh_targets _ _ _); cbn [mbind option_bind]; [|done].
    destruct (run_smoothers _ _ _ _ _ _ _) as [[[[h2 ps] rf] sms]|]; cbn [mbind option_bind]; [|done].
    destruct (foldm _ _ _) as [[[h3 st3] fb]|]; cbn [mbind option_bind]; [|done].
    destruct (foldm (monitor_slot _ _ _) _ _) as [fd|]; cbn [mbind option_bind]; [|done]. by intros [= <- <- <- <-].
  Qed.

  (** With an empty queue it is enough to go on processing: after more frames than the smoothing length, and one block more, the audio
      thread has settled. *)
  Theorem C18_settles slope n nfs nf : reachable slope n -> en_queue n = [] -> monitor_ready (en_exec n) ->
    Forall (fun k => 1 <= k <= 128) (nfs ++ [nf]) -> slope < sum_list nfs ->
    exists n', run n (EBlock <$> nfs ++ [nf]) = Some n' /\ reachable slope n' /\ settled n'.
  Proof.
    intros Hn Hq Hmo Hnf Hsum. apply Forall_app in Hnf as [Hnfs Hnf]. inversion Hnf as [|? ? Hnf1 _]; subst. clear Hnf.
    assert (H1 : exists n1, run n (EBlock <$> nfs) = Some n1 /\ reachable slope n1 /\ en_queue n1 = [] /\ monitor_ready (en_exec n1) /\
      forall s, s ∈ ex_sm (en_exec n1) -> sm_done s.2 = true).
    { assert (Hsm : forall s, s ∈ ex_sm (en_exec n) -> sm_done s.2 = true \/ sm_count s.2 < sum_list nfs).
      { intros s Hs. right. destruct (set_reach T HT i2f load_sample finc fadd mix node_sem Hfit slope n Hn) as [_ _ _ _ Hb].
        pose proof (proj1 (Forall_forall _ _) Hb s Hs) as [_ ?]. lia. }
      clear Hsum. revert n Hn Hq Hmo Hsm. induction nfs as [|k nfs IH]; intros n Hn Hq Hmo Hsm.
      - exists n. split; [done|]. split; [done|]. split; [done|]. split; [done|]. intros s Hs. destruct (Hsm s Hs) as [?|?]; [done|]. cbn in *. lia.
      - inversion Hnfs as [|? ? Hk Hnfs']; subst. destruct (C18_never_fails slope n Hn) as (_ & H2 & _). destruct (H2 k Hk Hmo) as [n1 E1].
        destruct (block_step slope n k n1 Hn E1) as (Q1 & M1 & A1 & _).
        destruct (IH Hnfs' n1) as (n2 & E2 & R2); [exact (calm_next _ _ _ _ _ _ _ _ n (EBlock k) n1 Hn I E1)|congruence|by apply M1| |].
        + intros y [i Hy]%elem_of_list_lookup. destruct (Forall2_lookup_r _ _ _ _ _ A1 Hy) as (x & Hx & _ & _ & _ & D1 & D2).
          destruct (sm_done x.2) eqn:Ed; [rewrite D1 by done; by left|]. destruct D2 as [D2 D3]; [done|].
          destruct (Hsm x (elem_of_list_lookup_2 _ _ _ Hx)) as [?|Hlt]; [congruence|]. cbn in Hlt.
          rewrite D3. destruct (Nat.ltb_spec (sm_count x.2) k); [by left|]. right. unfold sum_list in *. lia.
        + exists n2. split; [|done]. cbn [fmap list_fmap engine_run foldm]. unfold engine_run. cbn [foldm]. rewrite E1. done. }
    destruct H1 as (n1 & E1 & R1 & Q1 & M1 & D1). destruct (C18_never_fails slope n1 R1) as (_ & H2 & _). destruct (H2 nf Hnf1 M1) as [n2 E2].
    destruct (block_step slope n1 nf n2 R1 E2) as (Q2 & _ & A2 & F2). exists n2. split.
    { unfold engine_run in *. rewrite fmap_app, foldm_app, E1. cbn [mbind option_bind fmap list_fmap foldm]. by rewrite E2. }
    split; [exact (calm_next _ _ _ _ _ _ _ _ n1 (EBlock nf) n2 R1 I E2)|]. split; [congruence|]. split.
    - intros y [i Hy]%elem_of_list_lookup. destruct (Forall2_lookup_r _ _ _ _ _ A2 Hy) as (x & Hx & _ & _ & _ & Dx & _).
      pose proof (D1 x (elem_of_list_lookup_2 _ _ _ Hx)) as Hd. by rewrite Dx.
    - assert (Hz : runs (ex_sm (en_exec n1)) = []).
      { destruct (runs (ex_sm (en_exec n1))) as [|i l] eqn:E; [done|]. assert (Hi : i ∈ runs (ex_sm (en_exec n1))) by (rewrite E; left).
        apply runs_in in Hi as (j & s & Hj & Hd). specialize (D1 _ (elem_of_list_lookup_2 _ _ _ Hj)). cbn in D1. congruence. }
      rewrite Hz in F2. by destruct (ex_refresh (en_exec n2)).
  Qed.
End settle.
Print Assumptions C18_settled.
Print Assumptions C18_never_fails.
Print Assumptions C18_settles.

(** ** A concrete history *)
Local Notation drun := (engine_run demo_table (fun z => z) (fun a => a) (fun _ _ _ => 1%Z) Z.add (fun a b c => a + b * c)%Z demo_sem).
Local Notation dreach := (calm_reachable demo_table (fun z => z) (fun a => a) (fun _ _ _ => 1%Z) Z.add (fun a b c => a + b * c)%Z demo_sem).
Local Notation dstep := (engine_step demo_table (fun z => z) (fun a => a) (fun _ _ _ => 1%Z) Z.add (fun a b c => a + b * c)%Z demo_sem).

Definition calm_messageb (e : exec) (m : gmsg) : bool :=
  match m with
  | MParam i _ => existsb (fun s => sm_done s.2 || (s.1 =? i)) (ex_sm e)
  | MClear _ => forallb (fun s => sm_done s.2) (ex_sm e) && (length (ex_refresh e) =? 0)
  | _ => true
  end.
Lemma calm_messageb_ok e m : calm_messageb e m = true -> calm_message e m.
Proof.
  destruct m as [p|p copy|i a|i v|i a|bufs]; cbn; try done.
  - intros [H1 H2]%andb_prop. split; [|apply Nat.eqb_eq in H2; by destruct (ex_refresh e)].
    intros s Hs. rewrite forallb_forall in H1. apply H1. by apply elem_of_list_In.
  - intros (s & Hs & Hd)%existsb_exists. exists s. split; [by apply elem_of_list_In|]. apply orb_prop in Hd as [Hd|Hd%Nat.eqb_eq]; [by left|by right].
Qed.
Fixpoint calm_drainb (h : heap) (e : exec) (q : list gmsg) : bool :=
  match q with
  | [] => true
  | m :: q => calm_messageb e m && match exec_message (fun _ _ _ => 1%Z) h e m with Some (h, e, _) => calm_drainb h e q | None => true end
  end.
Lemma calm_drainb_ok q : forall h e, calm_drainb h e q = true -> calm_drain (fun _ _ _ => 1%Z) h e q.
Proof.
  induction q as [|m q IH]; intros h e; cbn [calm_drainb calm_drain]; [done|]. intros [H1 H2]%andb_prop. split; [by apply calm_messageb_ok|].
  intros h' e' t E. rewrite E in H2. by apply IH.
Qed.
Definition calm_checked (n : engine nat) (o : eop) : option (engine nat) :=
  match o with
  | EMx o' =>
      let* (h, m, ms) := matrix_step demo_table (fun z => z) (fun a => a) (en_heap n) (en_mx n) o' in
      if length (en_queue n) + length ms <=? 512 then dstep n o else None
  | EDrain k => if calm_drainb (en_heap n) (en_exec n) (take k (en_queue n)) then dstep n o else None
  | _ => dstep n o
  end.
Lemma calm_checked_ok slope os : forall n n', dreach slope n -> foldm calm_checked n os = Some n' -> dreach slope n'.
Proof.
  induction os as [|o os IH]; intros n n' Hn; cbn [foldm]; [by intros [= <-]|].
  destruct (calm_checked n o) as [n1|] eqn:E; cbn [mbind option_bind]; [|done]. apply IH. unfold calm_checked in E. destruct o as [o'|k|nf|].
  - destruct (matrix_step _ _ _ _ _ o') as [[[h1 m1] ms]|] eqn:E1; cbn [mbind option_bind] in E; [|done].
    destruct (Nat.leb_spec (length (en_queue n) + length ms) 512) as [Hl|]; [|done]. eapply calm_next; [exact Hn| |exact E].
    intros h m ms' E2. rewrite E1 in E2. by injection E2 as <- <- <-.
  - destruct (calm_drainb _ _ _) eqn:Ec; [|done]. eapply calm_next; [exact Hn| |exact E]. by apply calm_drainb_ok.
  - eapply calm_next; [exact Hn| |exact E]. exact I.
  - eapply calm_next; [exact Hn| |exact E]. exact I.
Qed.

(** parameters set before and after the upload, while smoothing, and again before a second upload *)
Definition calm_steps : list eop :=
  [EMx (MxLay (LPlace 0 0 (Cell (NId 1 0) 0 0 None None (Some 0) None None None)));
   EMx (MxLay (LPlace 0 1 (Cell (NId 2 0) 0 1 None None None (Some 0) None None)));
   EMx (MxSet (NId 1 0, 1) (AParam 5%Z)); EMx MxSync; EDrain 5; EBlock 16;
   EMx (MxSet (NId 1 0, 1) (AParam 9%Z)); EMx (MxSet (NId 1 0, 2) (ASetting 3)); EDrain 1; EBlock 4;
   EMx (MxSet (NId 1 0, 1) (AParam 8%Z)); EMx (MxSet (NId 2 0, 0) (AParam 6%Z)); EDrain 2; EBlock 4;
   EMx (MxLay (LPlace 0 2 (Cell (NId 1 1) 0 2 None None None None None None))); EMx MxSync; EMx (MxSet (NId 1 1, 0) (AParam 2%Z));
   EDrain 1; EBlock 1; EDrain 3; EDrop].
Definition calm_engine : option (engine nat) := foldm calm_checked (engine_new 4 4 10 7) calm_steps.
Definition input_state (n : engine nat) : list (list (option satom * option f32 * option (list f32))) :=
  (fun op => (fun j => (conf_get_param demo_table (mx_conf (en_mx n)) (op_node op, j), np_params (ex_prog (en_exec n)) !! ((op_in op).1 + j),
     let* b := np_inp (ex_prog (en_exec n)) !! ((op_in op).1 + j) in take 2 <$> h_bufs (en_heap n) !! b)) <$> seq 0 (nt_ins demo_table (nid_kind (op_node op)))) <$> np_ops (ex_prog (en_exec n)).
Definition atom_state (n : engine nat) : list (list (option satom * option satom)) :=
  (fun op => (fun j => (conf_get_param demo_table (mx_conf (en_mx n)) (op_node op, nt_at_id demo_table (nid_kind (op_node op)) j),
     np_atoms (ex_prog (en_exec n)) !! ((op_at op).1 + j))) <$> seq 0 (nt_ats demo_table (nid_kind (op_node op)))) <$> np_ops (ex_prog (en_exec n)).

(** The history keeps to the limits, the queue is empty, three values are still on their way, and after three more blocks all of them have arrived. *)
Example C18_case :
  (exists n, calm_engine = Some n /\ dreach 10 n /\ en_queue n = [] /\ monitor_ready (en_exec n)) /\
  (n ← calm_engine; Some (input_state n)) =
  Some [[(Some (AParam 10), Some 10, Some [10; 10]); (Some (AParam 8), Some 8, Some [14; 13])];
        [(Some (AParam 2), Some 10, Some [10; 10]); (Some (AParam 11), Some 11, Some [11; 11])];
        [(Some (AParam 6), Some 6, Some [21; 20])]]%Z /\
  (n ← calm_engine; n' ← drun n (EBlock <$> [10; 1; 1]); Some (input_state n', atom_state n')) =
  Some ([[(Some (AParam 10), Some 10, Some [10; 10]); (Some (AParam 8), Some 8, Some [8; 8])];
         [(Some (AParam 2), Some 2, Some [2; 2]); (Some (AParam 11), Some 11, Some [11; 11])];
         [(Some (AParam 6), Some 6, Some [6; 6])]],
        [[(Some (ASetting 3), Some (ASetting 3))]; [(Some (ASetting 7), Some (ASetting 7))]; []])%Z.
Proof.
  split; [|split; vm_compute; reflexivity]. assert (Hs : (if calm_engine then true else false) = true) by (vm_compute; reflexivity).
  destruct calm_engine as [n|] eqn:E; [clear Hs|discriminate Hs]. exists n. split; [done|]. split; [|split].
  - eapply calm_checked_ok; [|exact E]. constructor.
  - assert (H : en_queue <$> calm_engine = Some []) by (vm_compute; reflexivity). rewrite E in H. by injection H.
  - assert (H : (fun n => (ex_mon (en_exec n), length (np_out (ex_prog (en_exec n))))) <$> calm_engine = Some ([None; None; None; None; None; Some 0], 4)) by (vm_compute; reflexivity).
    rewrite E in H. cbn in H. injection H as H1 H2. intros k idx. rewrite H1, H2.
    do 5 (destruct k as [|k]; [done|]). destruct k as [|k]; [|done]. cbn. intros [= <-]. rewrite decide_True by lia. lia.
Qed.

(** ** What goes wrong outside of the limits *)
Definition one_node : list eop := [EMx (MxLay (LPlace 0 0 (cell_empty (NId 1 0)))); EMx MxSync; EDrain 2].

(** An update that did not fit into the queue is lost for good: the frontend reports the new value 7, the queue is empty and the smoothing
    over, but the node reads the old value 10. A later upload brings the value into the program, but not into the buffer that the
    node reads, because the new program takes over the buffers of the old one. *)
Theorem C18_full_queue_refuted :
  let fill := EMx <$> replicate 512 (MxSet (NId 1 0, 1) (AParam 11%Z)) in
  (n ← drun (engine_new 4 4 2 7) (one_node ++ fill ++ [EMx (MxSet (NId 1 0, 0) (AParam 7%Z)); EDrain 512; EBlock 3; EBlock 1; EBlock 1]);
   Some (en_queue n, forallb (fun s => sm_done s.2) (ex_sm (en_exec n)), ex_refresh (en_exec n), input_state n)) =
  Some ([], true, [], [[(Some (AParam 7), Some 10, Some [10; 10]); (Some (AParam 11), Some 11, Some [11; 11])]])%Z /\
  (n ← drun (engine_new 4 4 2 7) (one_node ++ fill ++ [EMx (MxSet (NId 1 0, 0) (AParam 7%Z)); EDrain 512; EBlock 3; EBlock 1; EBlock 1; EMx MxSync; EDrain 2; EBlock 3; EBlock 1]);
   Some (en_queue n, forallb (fun s => sm_done s.2) (ex_sm (en_exec n)), ex_refresh (en_exec n), input_state n)) =
  Some ([], true, [], [[(Some (AParam 7), Some 7, Some [10; 10]); (Some (AParam 11), Some 11, Some [11; 11])]])%Z.
Proof. split; vm_compute; reflexivity. Qed.

(** Clearing the matrix while a parameter is smoothed makes the next block fail. *)
Theorem C18_clear_while_smoothing_refuted :
  is_Some (drun (engine_new 4 4 2 7) (one_node ++ [EMx (MxSet (NId 1 0, 0) (AParam 7%Z)); EDrain 1; EMx MxClear; EDrain 4])) /\
  drun (engine_new 4 4 2 7) (one_node ++ [EMx (MxSet (NId 1 0, 0) (AParam 7%Z)); EDrain 1; EMx MxClear; EDrain 4; EBlock 1]) = None.
Proof. split; [|vm_compute; reflexivity]. eexists. vm_compute. reflexivity. Qed.

(** A block without frames fails as soon as a node is running. *)
Theorem C18_empty_block_refuted : drun (engine_new 4 4 2 7) (one_node ++ [EBlock 0]) = None.
Proof. vm_compute. reflexivity. Qed.

(** When the upload of a program with a further atom did not fit into the queue, handling a later change of this atom fails. *)
Theorem C18_lost_upload_refuted :
  let fill := EMx <$> replicate 512 (MxSet (NId 2 0, 0) (AParam 11%Z)) in
  drun (engine_new 4 4 2 7) ([EMx (MxLay (LPlace 0 0 (cell_empty (NId 2 0)))); EMx MxSync; EDrain 2] ++ fill ++
    [EMx (MxLay (LPlace 0 1 (cell_empty (NId 1 0)))); EMx MxSync; EDrain 512; EMx (MxSet (NId 1 0, 2) (ASetting 3)); EDrain 1]) = None.
Proof. vm_compute. reflexivity. Qed.

(** Monitoring the input of a node that exists but is not on the matrix any more makes the next block fail; that of a node on the matrix does not. *)
Theorem C18_monitor_refuted :
  drun (engine_new 4 4 2 7) (one_node ++ [EMx (MxMonitor (Cell (NId 1 0) 0 0 None None None (Some 0) None None)); EDrain 1; EBlock 1]) <> None /\
  drun (engine_new 4 4 2 7) ([EMx (MxLay (LPlace 0 0 (cell_empty (NId 1 0)))); EMx (MxLay (LPlace 0 1 (cell_empty (NId 1 1)))); EMx MxSync;
     EMx (MxLay (LPlace 0 1 (cell_empty Nop))); EMx MxSync; EDrain 4; EMx (MxMonitor (Cell (NId 1 1) 0 0 None None None (Some 0) None None)); EDrain 1; EBlock 1]) = None.
Proof. split; [vm_compute; done|vm_compute; reflexivity]. Qed.

(** a kind of node with 21 inputs *)
Definition wide_table : ntable :=
  NTable (fun k => k =? 1) (fun k => match k with 1 => 21 | _ => 0 end) (fun _ => 0) (fun k => match k with 1 => 1 | _ => 0 end)
         (fun _ _ => 0) (fun k j => Z.of_nat j) (fun _ _ => ASetting 7) (fun _ _ v => v) (fun _ _ v => v).
Lemma wide_table_ok : table_ok wide_table.
Proof.
  constructor.
  - intros k. cbn. unfold max_node_inputs. destruct k as [|[|k]]; lia.
  - done.
  - intros k j. cbn. lia.
  - intros k j j'. cbn. lia.
Qed.

(** Of 41 parameters that change at the same time one never arrives: input 19 of the second node is set to 100 and stays at 19. *)
Theorem C18_many_changes_refuted :
  let sets := (fun j => EMx (MxSet (NId 1 0, j) (AParam 100%Z))) <$> seq 0 21 in
  let sets' := (fun j => EMx (MxSet (NId 1 1, j) (AParam 100%Z))) <$> seq 0 20 in
  (n ← engine_run wide_table (fun z => z) (fun a => a) (fun _ _ _ => 1%Z) Z.add (fun a b c => a + b * c)%Z demo_sem (engine_new 4 4 0 7)
     ([EMx (MxLay (LPlace 0 0 (cell_empty (NId 1 0)))); EMx (MxLay (LPlace 0 1 (cell_empty (NId 1 1)))); EMx MxSync; EDrain 2] ++ sets ++ sets' ++
      [EDrain 41; EBlock 1; EBlock 1; EBlock 1]);
   Some (en_queue n, forallb (fun s => sm_done s.2) (ex_sm (en_exec n)), ex_refresh (en_exec n), drop 38 (np_params (ex_prog (en_exec n))),
     (fun j => conf_get_param wide_table (mx_conf (en_mx n)) (NId 1 1, j)) <$> [17; 18; 19; 20])) =
  Some ([], true, [], [100; 100; 19; 20], [Some (AParam 100); Some (AParam 100); Some (AParam 100); Some (AParam 20)])%Z.
Proof. vm_compute. reflexivity. Qed.
