(** Values reported by the audio thread (C58) *)
From Verif Require Import Base M_Atom M_Graph M_Dir M_Grid S_Grid M_Layout S_Layout M_Prog M_Conf M_Exec M_Sync M_Engine M_Feed.
From Verif Require Import S_Conf S_Sync S_Prog S_Own S_Feed L_Conf L_Prog L_Fill L_Feed L_Feed2 L_Feed3 L_Feed4 L_Feed5 P_Conf.
Open Scope nat_scope.
Local Opaque block_size.

Section feed.
  Context (T : ntable) (HT : table_ok T) (i2f : Z -> f32) (load_sample : satom -> satom).
  Context (finc : f32 -> f32 -> nat -> f32) (fadd : f32 -> f32 -> f32) (mix : f32 -> f32 -> f32 -> f32).
  Context {St : Type}.
  Context (node_sem : node_id -> St -> nat -> N -> N -> list satom ->
                      list (list f32) -> list (list f32) -> list (list f32) ->
                      St * list (list f32) * (option f32 * option f32)).
  Context (Hk : keeps_outs node_sem).
  Local Notation reachable := (feed_reachable T i2f load_sample finc fadd mix node_sem).
  Local Notation step := (feed_step T i2f load_sample finc fadd mix node_sem).

  (** After any interleaving of calls and steps of the audio thread, [update_output_feedback] succeeds, and
      from then on [out_fb_for] gives for a node's output the last sample of the latest block
      that was published by the program uploaded last. *)
  Theorem C58_output (s : feed St) : reachable s ->
    exists s', step s FUpdate = Some s' /\
      forall n o v, out_fb_for s' n o = Some v -> o < nt_outs T (nid_kind n) /\ shows (last (reported s)) n o v.
  Proof.
    intros Hr. destruct (reach_inv T HT i2f load_sample finc fadd mix node_sem Hk s Hr) as [info I].
    assert (Hs : exists s', step s FUpdate = Some s').
    { cbn [feed_step]. pose proof (fi_held _ _ _ I) as Hh. destruct (fd_held s) as [k|]; [|by eexists].
      destruct Hh as (H1 & _). destruct (fi_tb _ _ _ I k ltac:(lia)) as (t & -> & _). cbn [mbind option_bind]. by eexists. }
    destruct Hs as [s' E]. exists s'. split; [done|]. intros n o v.
    rewrite (update_value T i2f load_sample finc fadd mix node_sem info s s' n o I E).
    destruct (conf_inst (feed_conf s) n); [|done]. destruct (Nat.ltb_spec o (n_outs T n)) as [Ho|]; [|done]. intros [= <-]. split; [done|].
    destruct (last (reported s)) as [b|] eqn:Eb; [|done]. eapply valof_shows; [exact I| |done].
    apply last_Some_elem_of in Eb. by apply elem_of_list_filter in Eb as [_ ?].
  Qed.

  (** There is a value for every output of every node that ran in one of these blocks, and a node runs
      at most once in a block. *)
  Theorem C58_complete (s s' : feed St) b n outs cx : reachable s -> b ∈ reported s -> gave b n outs cx ->
    length outs = nt_outs T (nid_kind n) /\
    (forall outs' cx', gave b n outs' cx' -> outs' = outs /\ cx' = cx) /\
    (step s FUpdate = Some s' -> forall o, o < length outs -> is_Some (out_fb_for s' n o)).
  Proof.
    intros Hr Hb Hg. destruct (reach_inv T HT i2f load_sample finc fadd mix node_sem Hk s Hr) as [info I].
    destruct (gave_inst T info s b n outs cx I Hb Hg) as [[ni Hni] Hl]. split; [done|]. split.
    - intros outs' cx' Hg'. apply elem_of_list_filter in Hb as [_ Hb].
      destruct (fi_log _ _ _ I b) as [_ Hbo]; [apply elem_of_app; by left|].
      pose proof (vinv_nodes T _ _ (fi_info _ _ _ I (b_prog b))) as Hnd. rewrite <- (bo_nodes _ _ _ Hbo) in Hnd.
      pose proof (head_filter_unique (b_ran b) (n, outs, cx) Hnd Hg) as H1.
      pose proof (head_filter_unique (b_ran b) (n, outs', cx') Hnd Hg') as H2. cbn [fst] in H1, H2. rewrite H1 in H2. by injection H2.
    - intros E o Ho. rewrite (update_value T i2f load_sample finc fadd mix node_sem info s s' n o I E), Hni.
      destruct (Nat.ltb_spec o (n_outs T n)); [by eexists|lia].
  Qed.

  (** Between two calls of [update_output_feedback] the audio thread does not change what is reported. *)
  Theorem C58_steady (s s' : feed St) o n out : in_background o -> step s o = Some s' -> out_fb_for s' n out = out_fb_for s n out.
  Proof.
    intros Ho E. assert (Hx : fd_vals s' = fd_vals s /\ feed_conf s' = feed_conf s).
    { destruct o; cbn [in_background] in Ho; try done; revert E; cbn [feed_step engine_step].
      - destruct (fd_pend s); [by intros [= <-]|]. destruct (exec_drain _ _ _ _) as [[[h e] t]|]; cbn [mbind option_bind]; [|done]. by intros [= <-].
      - destruct (fd_pend s); [by intros [= <-]|]. destruct (fd_tb s !! _); cbn [mbind option_bind]; [|done].
        destruct (exec_process _ _ _ _ _ _ _) as [[[[h e] st] f]|]; cbn [mbind option_bind]; [|done].
        destruct (foldm ctx_ran _ _); cbn [mbind option_bind]; [|done]. by intros [= <-].
      - destruct (fd_pend s); [|by intros [= <-]]. destruct (fd_tb s !! _); cbn [mbind option_bind]; [|done]. by intros [= <-].
      - destruct (en_trash (fd_en s)) as [|p t]; cbn [mbind option_bind]; [by intros [= <-]|].
        destruct (prog_drop _ p); cbn [mbind option_bind]; [|done]. by intros [= <-]. }
    destruct Hx as [Hv Hc]. unfold out_fb_for. by rewrite Hv, Hc.
  Qed.

  (** After a synchronisation of an acyclic layout, once the audio thread has taken the messages and
      published one block, every node of the board has run in the block that is reported. *)
  Theorem C58_live (s : feed St) k nf s1 s2 s3 s4 n : reachable s -> fd_pend s = None ->
    layout_acyclic (lay_grid (mx_lay (en_mx (fd_en s)))) ->
    step s (FMx MxSync) = Some s1 -> length (en_queue (fd_en s)) < queue_size -> length (created (feed_conf s1)) <= 256 ->
    step s1 (FDrain k) = Some s2 -> length (en_queue (fd_en s1)) <= k ->
    step s2 (FBlock nf) = Some s3 -> step s3 FPublish = Some s4 ->
    on_board (lay_grid (mx_lay (en_mx (fd_en s)))) n ->
    exists b outs cx, last (reported s4) = Some b /\ b_frames b = nf /\ gave b n outs cx.
  Proof.
    intros Hr. destruct (reach_inv T HT i2f load_sample finc fadd mix node_sem Hk s Hr) as [info I].
    by apply (sync_live T HT i2f load_sample finc fadd mix node_sem Hk info).
  Qed.

  (** With up to 256 nodes, [led_value_for] and [phase_value_for] do not panic, and give the value that the
      node set last in a block of the program uploaded last. *)
  Theorem C58_led (s : feed St) n : reachable s -> length (created (feed_conf s)) <= 256 ->
    is_Some (led_value_for s n) /\ forall v, last (leds n (computed s)) = Some v -> led_value_for s n = Some v.
  Proof.
    intros Hr Hl. destruct (reach_inv T HT i2f load_sample finc fadd mix node_sem Hk s Hr) as [info I].
    split; [by apply (values_total T info s n I Hl)|]. intros v. by apply (led_value T info s n v I Hl).
  Qed.
  Theorem C58_phase (s : feed St) n : reachable s -> length (created (feed_conf s)) <= 256 ->
    is_Some (phase_value_for s n) /\ forall v, last (phases n (computed s)) = Some v -> phase_value_for s n = Some v.
  Proof.
    intros Hr Hl. destruct (reach_inv T HT i2f load_sample finc fadd mix node_sem Hk s Hr) as [info I].
    split; [by apply (values_total T info s n I Hl)|]. intros v. by apply (phase_value T info s n v I Hl).
  Qed.
End feed.
Print Assumptions C58_output.
Print Assumptions C58_complete.
Print Assumptions C58_steady.
Print Assumptions C58_live.
Print Assumptions C58_led.
Print Assumptions C58_phase.

(** ** A history *)
(** the nodes count their runs together, write the count into all outputs, light the LED every time and set the
    phase when the count is even *)
Definition tick_sem (n : node_id) (st : nat) (k : nat) (oc ic : N) (ats : list satom) (ps is os : list (list f32))
  : nat * list (list f32) * (option f32 * option f32) :=
  (S st, imap (fun i (o : list f32) => imap (fun j _ => (Z.of_nat st * 1000 + Z.of_nat i * 100 + Z.of_nat j)%Z) o) os,
   (Some (Z.of_nat st + 1)%Z, if Nat.even st then Some (Z.of_nat st + 50)%Z else None)).
Lemma tick_sem_keeps : keeps_outs tick_sem.
Proof. intros n st k oc ic ats ps is os. cbn. apply imap_length. Qed.

Local Notation drun := (feed_run demo_table (fun z => z) (fun a => a) (fun _ _ _ => 0%Z) Z.add (fun a b c => a + b * c)%Z tick_sem (feed_new 4 4 10 1)).
Definition feed_steps : list fop :=
  [FMx (MxLay (LPlace 0 0 (Cell (NId 1 0) 0 0 None None (Some 0) None None None)));
   FMx (MxLay (LPlace 0 1 (Cell (NId 2 0) 0 1 None None None (Some 0) None None)));
   FMx MxSync; FDrain 5; FBlock 16; FUpdate; FPublish; FBlock 8; FPublish].

(** What the calls give after two blocks and one update, and after one more update. *)
Example C58_example :
  (s ← drun feed_steps; Some (out_fb_for s (NId 1 0) 0, out_fb_for s (NId 2 0) 0, led_value_for s (NId 1 0), phase_value_for s (NId 2 0))) =
    Some (Some 0, Some 0, Some 4, Some 54)%Z /\
  (s ← drun (feed_steps ++ [FUpdate]); Some (out_fb_for s (NId 1 0) 0, out_fb_for s (NId 2 0) 0, length (reported s), out_fb_for s (NId 2 0) 3)) =
    Some (Some 3007%Z, Some 4007%Z, 2, None).
Proof. split; vm_compute; reflexivity. Qed.

(** ** Limits *)
(** Without a call of [update_output_feedback] after an upload, [out_fb_for] reads the values of the program
    before: it can report a value for a node that has never run. *)
Definition stale_steps : list fop :=
  feed_steps ++ [FUpdate; FMx MxClear; FMx (MxLay (LPlace 0 0 (Cell (NId 2 1) 0 0 None None None None None None))); FMx MxSync].
Theorem C58_stale_refuted :
  exists s n o v, feed_reachable demo_table (fun z => z) (fun a => a) (fun _ _ _ => 0%Z) Z.add (fun a b c => a + b * c)%Z tick_sem s /\
    out_fb_for s n o = Some v /\ v <> f32_zero /\ forall b outs cx, b ∈ fd_log s ++ option_list (fd_pend s) -> ~ gave b n outs cx.
Proof.
  assert (H : match drun stale_steps with
    | Some s => out_fb_for s (NId 2 1) 0 = Some 4107%Z /\
        forallb (fun b => forallb (fun r : ran => negb (bool_decide (r.1.1 = NId 2 1))) (b_ran b)) (fd_log s ++ option_list (fd_pend s)) = true
    | None => False
    end) by (vm_compute; split; reflexivity).
  destruct (drun stale_steps) as [s|] eqn:E; [|destruct H]. destruct H as [H1 H2].
  exists s, (NId 2 1), 0, 4107%Z. split; [exists 4, 4, 10, 1, stale_steps; exact E|]. split; [exact H1|]. split; [discriminate|].
  intros b outs cx Hb Hg. rewrite forallb_forall in H2. apply elem_of_list_In, H2 in Hb. rewrite forallb_forall in Hb.
  apply elem_of_list_In, Hb in Hg. cbn [fst] in Hg. rewrite bool_decide_eq_true_2 in Hg by reflexivity. discriminate Hg.
Qed.
Print Assumptions C58_stale_refuted.

(** The LED of a node keeps the place of the deleted node that was created before it, until its own first
    block. *)
Definition led_steps : list fop :=
  feed_steps ++ [FMx MxClear; FMx (MxLay (LPlace 0 0 (Cell (NId 2 1) 0 0 None None None None None None))); FMx MxSync; FUpdate].
Theorem C58_led_stale_refuted :
  exists s n v, feed_reachable demo_table (fun z => z) (fun a => a) (fun _ _ _ => 0%Z) Z.add (fun a b c => a + b * c)%Z tick_sem s /\
    length (created (feed_conf s)) <= 256 /\
    led_value_for s n = Some v /\ v <> f32_zero /\ forall b outs cx, b ∈ fd_log s ++ option_list (fd_pend s) -> ~ gave b n outs cx.
Proof.
  assert (H : match drun led_steps with
    | Some s => led_value_for s (NId 2 1) = Some 5%Z /\ length (created (feed_conf s)) = 2 /\
        forallb (fun b => forallb (fun r : ran => negb (bool_decide (r.1.1 = NId 2 1))) (b_ran b)) (fd_log s ++ option_list (fd_pend s)) = true
    | None => False
    end) by (vm_compute; split; [|split]; reflexivity).
  destruct (drun led_steps) as [s|] eqn:E; [|destruct H]. destruct H as (H1 & H0 & H2).
  exists s, (NId 2 1), 5%Z. split; [exists 4, 4, 10, 1, led_steps; exact E|]. split; [rewrite H0; lia|]. split; [exact H1|]. split; [discriminate|].
  intros b outs cx Hb Hg. rewrite forallb_forall in H2. apply elem_of_list_In, H2 in Hb. rewrite forallb_forall in Hb.
  apply elem_of_list_In, Hb in Hg. cbn [fst] in Hg. rewrite bool_decide_eq_true_2 in Hg by reflexivity. discriminate Hg.
Qed.
Print Assumptions C58_led_stale_refuted.

(** With more than 256 nodes [led_value_for] panics. *)
Definition many_steps : list fop :=
  [FMx (MxLay (LPlace 0 0 (Cell (NId 1 255) 0 0 None None None None None None)));
   FMx (MxLay (LPlace 0 1 (Cell (NId 2 0) 0 1 None None None None None None))); FMx MxSync].
Theorem C58_led_panic_refuted :
  exists s n, feed_reachable demo_table (fun z => z) (fun a => a) (fun _ _ _ => 0%Z) Z.add (fun a b c => a + b * c)%Z tick_sem s /\
    on_board (lay_grid (mx_lay (en_mx (fd_en s)))) n /\ led_value_for s n = None.
Proof.
  assert (H : match drun many_steps with
    | Some s => led_value_for s (NId 2 0) = None /\ board (lay_grid (mx_lay (en_mx (fd_en s)))) (0%nat, 1%nat) = Some (Cell (NId 2 0) 0 1 None None None None None None)
    | None => False
    end) by (vm_compute; split; reflexivity).
  destruct (drun many_steps) as [s|] eqn:E; [|destruct H]. destruct H as [H1 H2].
  exists s, (NId 2 0). split; [exists 4, 4, 10, 1, many_steps; exact E|]. split; [|exact H1].
  split; [discriminate|]. eexists _, _. split; [exact H2|reflexivity].
Qed.
Print Assumptions C58_led_panic_refuted.
