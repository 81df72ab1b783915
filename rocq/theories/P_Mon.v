(** Properties of the signal monitor: C29 *)
From Verif Require Import Base M_Prog L_Conf M_Mon S_Mon L_Mon.
Open Scope nat_scope.
Local Opaque Nat.modulo Nat.div mm_window mm_samples mon_bufs hundred.

Lemma hundred_pos : (0 <= hundred)%Z.
Proof. Local Transparent hundred. unfold hundred. lia. Qed.
Local Opaque hundred.

Lemma pair_bounds w : bounds w (pair_of w).
Proof.
  unfold bounds, pair_of. cbn [fst snd]. induction w as [|v w IH] using rev_ind.
  - cbn. pose proof hundred_pos. split_and!; [|by left|by left|lia|lia].
    intros v Hv. by apply elem_of_nil in Hv.
  - rewrite !foldl_app. cbn [foldl]. destruct IH as (I1 & I2 & I3 & I4 & I5).
    set (lo := foldl fmin hundred w) in *. set (hi := foldl fmax (- hundred)%Z w) in *.
    destruct v as [v|]; cbn [fmin fmax].
    + split_and!; try lia.
      * intros u [Hu|Hu%elem_of_list_singleton]%elem_of_app; [specialize (I1 u Hu); lia|]. injection Hu as ->. lia.
      * destruct (Z.min_spec lo v) as [[_ ->]|[_ ->]]; [|right; set_solver]. destruct I2; [by left|right; set_solver].
      * destruct (Z.max_spec hi v) as [[_ ->]|[_ ->]]; [right; set_solver|]. destruct I3; [by left|right; set_solver].
    + split_and!; try done.
      * intros u [Hu|Hu%elem_of_list_singleton]%elem_of_app; [by apply I1|done].
      * destruct I2; [by left|right; set_solver].
      * destruct I3; [by left|right; set_solver].
Qed.

Lemma slices_shows ms sig m st : ms !! sig = Some m -> mm_inv st m -> shows (mm_slices ms) sig st.
Proof.
  intros Hs [H1 H2 H3 H4 H5] j Hj. unfold snap_at, mm_slices. rewrite list_lookup_fmap, Hs. cbn [fmap option_fmap option_map mbind option_bind].
  rewrite H1, H2. change (windows st) with (wcount st). change (window_of st) with (wof st). set (w := wcount st) in *.
  assert (mm_samples = 160) as EN by done. rewrite EN in *.
  destruct (decide (j < w)) as [Hlt|Hge].
  - exists (pair_of (wof st (w - 1 - j))). split; [|split; [intros _; apply pair_bounds|lia]].
    rewrite <- (H4 (w - 1 - j)) by lia. f_equal. rewrite Nat.add_mod_idemp_l by lia.
    replace (w + (159 - j)) with (w - 1 - j + 1 * 160) by lia. by rewrite Nat.mod_add.
  - exists (0, 0)%Z. split; [|split; [lia|done]]. rewrite !Nat.mod_small by (rewrite ?Nat.mod_small; lia). apply H5. lia.
Qed.

Definition full (b : mbuf) (feeds : list (nat * list fv)) : Prop := carries b (fun s => block_samples s feeds) /\ unread b.
Definition clean (b : mbuf) : Prop := carries b (fun _ => []) /\ unread b.
Definition counted (P : list (list (nat * list fv))) (ms : list mm) : Prop :=
  length ms = mon_sigs /\ forall k m, ms !! k = Some m -> mm_inv (stream k P) m.

Record minv (T : list (list (nat * list fv))) (s : mon) : Prop := {
  mv_perm : all_buffers s ≡ₚ seq 0 mon_bufs;
  mv_clean : Forall clean (mo_unused s ++ mo_recycle s);
  mv_split : exists P Q, T = P ++ Q /\ Forall2 full (option_list (mo_busy s) ++ mo_queue s ++ option_list (mo_held s)) Q /\
    counted P (mo_procs s) /\
    (exists P1 ms, P1 `prefix_of` P /\ counted P1 ms /\ mo_shared s = mm_slices ms) /\
    (exists P2 ms, P2 `prefix_of` P /\ counted P2 ms /\ mo_copy s = mm_slices ms);
  mv_new : mo_new s = false -> mo_shared s = mm_slices (mo_procs s);
  mv_flag : mo_flag s = false -> mo_copy s = mo_shared s;
}.

Lemma new_counted : counted [] (replicate mon_sigs mm_new).
Proof. split; [done|]. intros k m Hk. apply lookup_replicate in Hk as [-> _]. apply mm_new_inv. Qed.

Lemma new_slices : replicate mon_sigs (0, replicate mm_samples (0, 0)%Z) = mm_slices (replicate mon_sigs mm_new).
Proof. reflexivity. Qed.

Lemma mon_new_inv : minv [] mon_new.
Proof.
  split; try done.
  - unfold all_buffers, mon_new. cbn [mo_unused mo_held mo_queue mo_busy mo_recycle option_list option_rect app]. rewrite app_nil_r.
    rewrite <- (Permutation_rev (mb_alloc <$> seq 0 mon_bufs)). rewrite <- list_fmap_compose.
    replace ((mb_id ∘ mb_alloc) <$> seq 0 mon_bufs) with (id <$> seq 0 mon_bufs) by by apply list_fmap_ext. by rewrite list_fmap_id.
  - unfold mon_new. cbn [mo_unused mo_recycle]. rewrite app_nil_r. apply Forall_rev, Forall_fmap, Forall_forall. intros i _. apply alloc_carries.
  - exists [], []. split; [done|]. split; [by apply Forall2_nil|]. split; [apply new_counted|].
    split; exists [], (replicate mon_sigs mm_new); (split; [done|]); (split; [apply new_counted|done]).
Qed.

Lemma stream_snoc k P b : stream k (P ++ [b]) = stream k P ++ block_samples k b.
Proof.
  unfold stream. rewrite fmap_app. cbn [fmap list_fmap].
  generalize (block_samples k <$> P) as l. intros l. induction l as [|x l IH]; [apply app_nil_r|].
  change (x ++ mjoin (l ++ [block_samples k b]) = (x ++ mjoin l) ++ block_samples k b). by rewrite IH, app_assoc.
Qed.

Lemma step_inv T s a : minv T s -> (forall feeds, a = MTake feeds -> Forall (fun f => f.1 < 6 /\ length f.2 <= 128) feeds) ->
  exists s' o, mon_step s a = Some (s', o) /\ minv (T ++ taken [a] [o]) s'.
Proof.
  intros Hinv Hf. pose proof Hinv as [H1 H2 (P & Q & -> & HQ & HP & Hsh & Hcp) H4 H5].
  assert (length (all_buffers s) = mon_bufs) as HL by (rewrite H1; apply seq_length).
  unfold all_buffers in HL. rewrite fmap_length, !app_length in HL.
  destruct s as [unused held queue busy recycle procs new shared flag copy]. unfold all_buffers in H1.
  cbn [mo_unused mo_held mo_queue mo_busy mo_recycle mo_procs mo_new mo_shared mo_flag mo_copy] in *.
  destruct a as [|feeds| | | | |]; cbn [mon_step mo_unused mo_held mo_queue mo_busy mo_recycle mo_procs mo_new mo_shared mo_flag mo_copy].
  - cbn [taken]. rewrite app_nil_r. destruct recycle as [|b r]; [by eexists _, _|]. eexists _, _. split; [done|]. split; try done.
    + rewrite <- H1. unfold all_buffers. cbn [mo_unused mo_held mo_queue mo_busy mo_recycle]. apply fmap_Permutation. cbn [app].
      rewrite !app_assoc. apply Permutation_middle.
    + cbn [mo_unused mo_recycle app] in H2 |- *. by rewrite Permutation_middle.
    + exists P, Q. done.
  - destruct held as [b0|]; [eexists _, _; split; [done|]; cbn [taken]; by rewrite app_nil_r|].
    destruct unused as [|b u]; [eexists _, _; split; [done|]; cbn [taken]; by rewrite app_nil_r|].
    inversion H2 as [|? ? [Hc Hu] H2']; subst. destruct (feeds_carries b feeds Hc Hu (Hf feeds eq_refl)) as (b' & E & Ei & Hu' & Hc').
    rewrite E. cbn [mbind option_bind]. eexists _, _. split; [done|]. cbn [taken]. split; try done.
    + rewrite <- H1. unfold all_buffers. cbn [mo_unused mo_held mo_queue mo_busy mo_recycle option_list option_rect app].
      rewrite !fmap_app, !fmap_cons, !fmap_app. cbn [option_list option_rect fmap list_fmap app]. rewrite Ei. symmetry. apply Permutation_middle.
    + exists P, (Q ++ [feeds]). cbn [mo_unused mo_held mo_queue mo_busy mo_recycle mo_procs mo_shared mo_copy]. split; [by rewrite app_assoc|]. split; [|done].
      cbn [option_list option_rect app] in HQ |- *. rewrite app_nil_r in HQ. rewrite app_assoc. apply Forall2_app; [done|]. constructor; [|constructor]. done.
  - cbn [taken]. rewrite app_nil_r. destruct held as [b|]; [|by eexists _, _]. cbn [option_list option_rect length] in HL.
    destruct (Nat.ltb_spec (length queue) mon_bufs) as [Hlt|Hge]; [|lia]. eexists _, _. split; [done|]. split; try done.
    + rewrite <- H1. unfold all_buffers. cbn [mo_unused mo_held mo_queue mo_busy mo_recycle option_list option_rect]. apply fmap_Permutation. cbn [app].
      rewrite <- app_assoc. cbn [app]. f_equiv. symmetry. apply Permutation_middle.
    + exists P, Q. cbn [mo_unused mo_held mo_queue mo_busy mo_recycle mo_procs mo_shared mo_copy option_list option_rect] in HQ |- *. by rewrite app_nil_r.
  - cbn [taken]. rewrite app_nil_r. destruct busy as [b|]; [by eexists _, _|]. destruct queue as [|b q]; [by eexists _, _|].
    eexists _, _. split; [done|]. split; try done.
    + rewrite <- H1. unfold all_buffers. cbn [mo_unused mo_held mo_queue mo_busy mo_recycle option_list option_rect]. apply fmap_Permutation. cbn [app].
      f_equiv. f_equiv. symmetry. apply Permutation_middle.
    + exists P, Q. done.
  - cbn [taken]. rewrite app_nil_r. destruct busy as [b|]; [|by eexists _, _]. cbn [option_list option_rect length] in HL.
    cbn [option_list option_rect app] in HQ. inversion HQ as [|? feeds ? Q' [Hc Hu] HQ']; subst.
    destruct HP as [HPl HPi].
    destruct (signals_inv (fun s => block_samples s feeds) (fun s => stream s P) procs 0 b new) as (ms' & b' & new' & E & Hl & Hi & Hc' & Hm & Hn).
    { done. } { intros s Hs. apply Hu. lia. } { done. } { intros k m Hk. by apply HPi. }
    rewrite E. cbn [mbind option_bind]. destruct (Nat.ltb_spec (length recycle) mon_bufs) as [Hlt|Hge]; [|lia].
    eexists _, _. split; [done|]. split; cbn [mo_unused mo_held mo_queue mo_busy mo_recycle mo_procs mo_new mo_shared mo_flag mo_copy]; try done.
    + rewrite <- H1. unfold all_buffers. cbn [mo_unused mo_held mo_queue mo_busy mo_recycle option_list option_rect app]. rewrite !fmap_app. cbn [fmap list_fmap].
      change (mb_id (mb_reset b')) with (mb_id b'). rewrite Hi. f_equiv. f_equiv. f_equiv. symmetry. apply Permutation_cons_append.
    + rewrite app_assoc. apply Forall_app. split; [done|]. constructor; [|constructor]. by eapply reset_carries.
    + exists (P ++ [feeds]), Q'. split; [by rewrite <- app_assoc|]. split; [done|]. split; [|split].
      * split; [congruence|]. intros k m Hk. rewrite stream_snoc. by apply Hm.
      * destruct Hsh as (P1 & ms1 & Pr1 & C1 & E1). exists P1, ms1. split; [|done]. by apply prefix_app_r.
      * destruct Hcp as (P1 & ms1 & Pr1 & C1 & E1). exists P1, ms1. split; [|done]. by apply prefix_app_r.
    + intros Hf'. destruct (Hn Hf') as [-> ->]. by apply H4.
  - cbn [taken]. rewrite app_nil_r. destruct new; [|by eexists _, _]. eexists _, _. split; [done|]. split; try done.
    exists P, Q. cbn [mo_held mo_queue mo_busy mo_procs mo_shared mo_copy]. split_and!; try done; try apply HP. exists P, procs. done.
  - cbn [taken]. rewrite app_nil_r. destruct flag; [|by eexists _, _]. eexists _, _. split; [done|]. split; try done.
    exists P, Q. cbn [mo_held mo_queue mo_busy mo_procs mo_shared mo_copy]. split_and!; try done; try apply HP.
Qed.

Lemma run_inv acts : forall T s, minv T s -> feeds_ok acts ->
  exists s' outs, mon_run s acts = Some (s', outs) /\ length outs = length acts /\ minv (T ++ taken acts outs) s'.
Proof.
  induction acts as [|a acts IH]; intros T s Hi Hf; cbn [mon_run].
  - exists s, []. rewrite app_nil_r. done.
  - destruct (step_inv T s a Hi) as (s1 & o & E & Hi1).
    { intros feeds ->. apply Hf. by left. }
    rewrite E. cbn [mbind option_bind]. destruct (IH _ s1 Hi1) as (s2 & outs & E2 & Hl & Hi2).
    { intros feeds Hx. apply Hf. by right. }
    rewrite E2. cbn [mbind option_bind]. exists s2, (o :: outs). cbn [length]. split_and!; [done|by rewrite Hl|].
    rewrite <- app_assoc in Hi2. assert (taken [a] [o] ++ taken acts outs = taken (a :: acts) (o :: outs)) as <-; [|done].
    destruct a, o; done.
Qed.

(** C29: for every interleaving of the three threads, nothing panics, every one of the 750 buffers is in exactly one place, and
    the blocks for which a buffer was taken split into those processed (in order, each once) and those on the way.
    The accumulated pairs are the windows of the processed samples; what the frontend sees are those of a prefix. *)
Theorem C29_monitor acts : feeds_ok acts ->
  exists s outs, mon_run mon_new acts = Some (s, outs) /\ length outs = length acts /\
    all_buffers s ≡ₚ seq 0 750 /\
    exists done waiting, taken acts outs = done ++ waiting /\
      length waiting = length (mo_queue s) + length (option_list (mo_held s)) + length (option_list (mo_busy s)) /\
      (forall sig, sig < 6 -> shows (mm_slices (mo_procs s)) sig (stream sig done)) /\
      exists seen, seen `prefix_of` done /\ forall sig, sig < 6 -> shows (mo_copy s) sig (stream sig seen).
Proof.
  intros Hf. destruct (run_inv acts [] mon_new mon_new_inv Hf) as (s & outs & E & Hl & [H1 H2 (P & Q & ET & HQ & HP & Hsh & Hcp) H4 H5]).
  exists s, outs. split_and!; [done|done|exact H1|]. exists P, Q. split; [exact ET|]. split.
  { apply Forall2_length in HQ. rewrite !app_length in HQ. lia. }
  assert (forall P' ms, counted P' ms -> forall sig, sig < 6 -> shows (mm_slices ms) sig (stream sig P')) as G.
  { intros P' ms [Hln Hi] sig Hs. destruct (lookup_lt_is_Some_2 ms sig) as [m Hm]; [rewrite Hln; done|]. eapply slices_shows; [done|]. by apply Hi. }
  split; [by apply G|]. destruct Hcp as (P2 & ms2 & Pr & C2 & ->). exists P2. split; [done|]. by apply G.
Qed.
Print Assumptions C29_monitor.

(** C29: when the monitor thread has published and the frontend asks, it sees all samples processed so far. *)
Theorem C29_current acts : feeds_ok acts ->
  exists s outs, mon_run mon_new (acts ++ [MPublish; MGet]) = Some (s, outs) /\ mo_copy s = mm_slices (mo_procs s).
Proof.
  intros Hf. destruct (run_inv acts [] mon_new mon_new_inv Hf) as (s & outs & E & Hl & Hi).
  assert (forall acts2 s1, mon_run s1 (acts2) = mon_run s1 acts2) as _ by done.
  assert (forall l1 l2 s1, mon_run s1 (l1 ++ l2) = (let* (s, o) := mon_run s1 l1 in let* (s, o') := mon_run s l2 in Some (s, o ++ o'))) as Happ.
  { clear. induction l1 as [|a l1 IH]; intros l2 s1; cbn [app mon_run mbind option_bind].
    - destruct (mon_run s1 l2) as [[? ?]|]; done.
    - destruct (mon_step s1 a) as [[s2 o]|]; [|done]. cbn [mbind option_bind]. rewrite IH. destruct (mon_run s2 l1) as [[s3 o3]|]; [|done].
      cbn [mbind option_bind]. destruct (mon_run s3 l2) as [[s4 o4]|]; done. }
  rewrite Happ, E. cbn [mbind option_bind mon_run mon_step].
  destruct Hi as [_ _ _ H4 H5]. destruct s as [unused held queue busy recycle procs new shared flag copy].
  cbn [mo_unused mo_held mo_queue mo_busy mo_recycle mo_procs mo_new mo_shared mo_flag mo_copy] in *.
  destruct new; cbn [mbind option_bind mo_flag mo_shared mo_procs].
  - eexists _, _. split; [done|]. done.
  - destruct flag; cbn [mbind option_bind]; (eexists _, _; split; [done|]); cbn [mo_copy mo_procs]; [by apply H4|]. rewrite H5, H4 by done. done.
Qed.
Print Assumptions C29_current.

(** C29: samples are left out only when all 750 buffers wait for the monitor thread or for being recycled *)
Theorem C29_refused acts feeds s outs s' : feeds_ok (acts ++ [MTake feeds]) -> mon_run mon_new acts = Some (s, outs) ->
  mo_held s = None -> mon_step s (MTake feeds) = Some (s', false) ->
  s' = s /\ length (mo_queue s) + length (option_list (mo_busy s)) + length (mo_recycle s) = 750.
Proof.
  intros Hf E Hh Hs. destruct (run_inv acts [] mon_new mon_new_inv) as (s1 & outs1 & E1 & Hl & Hi).
  { intros f Hin. apply Hf. set_solver. }
  assert (s1 = s) as -> by congruence. destruct Hi as [H1 H2 _ _ _].
  assert (length (all_buffers s) = mon_bufs) as HL by (rewrite H1; apply seq_length).
  unfold all_buffers in HL. rewrite fmap_length, !app_length, Hh in HL. cbn [option_list option_rect length] in HL.
  cbn [mon_step] in Hs. rewrite Hh in Hs. destruct (mo_unused s) as [|b u] eqn:Eu.
  - cbn [length] in HL. split; [congruence|]. change 750 with mon_bufs. rewrite <- HL. lia.
  - cbn [app] in H2. inversion H2 as [|? ? [Hc Hu] _]; subst.
    destruct (feeds_carries b feeds Hc Hu) as (b' & Eb & _). { apply Hf. set_solver. }
    rewrite Eb in Hs. cbn [mbind option_bind] in Hs. congruence.
Qed.
Print Assumptions C29_refused.

(** Eight blocks of 128 samples of signal 2, a ramp from -1 to 1022 (times the unit [u]), taken, sent and processed with the
    threads interleaved; the ninth block is on the way. *)
Definition ramp (u : Z) (n : nat) : list fv := (fun i => Some (u * (Z.of_nat (128 * n + i) - 1))%Z) <$> seq 0 128.
Definition ramp_acts (u : Z) : list mact :=
  mjoin ((fun n => [MTake [(2, ramp u n)]; MSend; MRecycle; MPop; MDone; MPublish]) <$> seq 0 8) ++
  [MGet; MTake [(2, ramp u 8)]; MSend].

Lemma ramp_ok u : feeds_ok (ramp_acts u).
Proof.
  intros feeds [H|H]%elem_of_app.
  - apply elem_of_list_join in H as (l & H & (n & -> & _)%elem_of_list_fmap).
    repeat (apply elem_of_cons in H as [H|H]; [first [discriminate H | injection H as ->]|]); [|by apply elem_of_nil in H].
    apply Forall_singleton. cbn [fst snd]. split; [lia|]. by unfold ramp; rewrite fmap_length, seq_length.
  - repeat (apply elem_of_cons in H as [H|H]; [first [discriminate H | injection H as ->]|]); [|by apply elem_of_nil in H].
    apply Forall_singleton. cbn [fst snd]. split; [lia|]. by unfold ramp; rewrite fmap_length, seq_length.
Qed.

Definition ramp_view (o : option (mon * list bool)) : option (nat * nat * option (Z * Z) * option (Z * Z)) :=
  (fun p : mon * list bool => (length (mo_queue p.1), length (mo_unused p.1), snap_at (mo_copy p.1) 2 159, snap_at (mo_copy p.1) 2 158)) <$> o.

Example C29_example : ramp_view (mon_run mon_new (ramp_acts 1)) = Some (1, 748, Some (-1, 898)%Z, Some (0, 0)%Z).
Proof. vm_compute. reflexivity. Qed.

(** The accumulator starts at 100 and -100: a window whose samples are all above 100 is shown with the minimum 100 *)
Definition above : list fv := replicate 128 (Some (2 * hundred)%Z).
Definition above_acts : list mact := mjoin (replicate 8 [MTake [(0, above)]; MSend; MPop; MDone; MRecycle]) ++ [MPublish; MGet].
Theorem C29_limit_refuted : exists acts, feeds_ok acts /\ exists s outs, mon_run mon_new acts = Some (s, outs) /\
  (forall v, v ∈ stream 0 (taken acts outs) -> v = Some (2 * hundred)%Z) /\
  windows (stream 0 (taken acts outs)) = 1 /\ snap_at (mo_copy s) 0 159 = Some (hundred, 2 * hundred)%Z.
Proof.
  exists above_acts. split.
  - intros feeds [H|H]%elem_of_app.
    + apply elem_of_list_join in H as (l & H & Hl). apply elem_of_replicate in Hl as [-> _].
      repeat (apply elem_of_cons in H as [H|H]; [first [discriminate H | injection H as ->]|]); [|by apply elem_of_nil in H].
      apply Forall_singleton. cbn [fst snd]. split; [lia|]. unfold above. by rewrite replicate_length.
    + set_solver.
  - assert (forall o : option (mon * list bool),
      (match o with Some (s, outs) => bool_decide (forallb (fun v => bool_decide (v = Some (2 * hundred)%Z)) (stream 0 (taken above_acts outs)) = true) &&
         (windows (stream 0 (taken above_acts outs)) =? 1) && bool_decide (snap_at (mo_copy s) 0 159 = Some (hundred, 2 * hundred)%Z) | None => false end) = true ->
      exists s outs, o = Some (s, outs) /\ (forall v, v ∈ stream 0 (taken above_acts outs) -> v = Some (2 * hundred)%Z) /\
        windows (stream 0 (taken above_acts outs)) = 1 /\ snap_at (mo_copy s) 0 159 = Some (hundred, 2 * hundred)%Z) as G.
    { intros [[s outs]|] H; [|discriminate]. exists s, outs. apply andb_prop in H as [[H1 H2]%andb_prop H3].
      split_and!; [done| |by apply Nat.eqb_eq|by apply bool_decide_eq_true in H3].
      apply bool_decide_eq_true in H1. rewrite forallb_forall in H1. intros v Hv. apply elem_of_list_In, H1 in Hv. by apply bool_decide_eq_true in Hv. }
    apply G. vm_compute. reflexivity.
Qed.
Print Assumptions C29_limit_refuted.
