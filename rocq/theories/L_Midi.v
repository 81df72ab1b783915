(** Proofs about the MIDI event delivery *)
From Coq Require Import Sorting.Sorted.
From Verif Require Import Base M_Prog L_Conf M_Midi S_Midi.
Open Scope nat_scope.
Local Opaque max_notes_per_block max_ccs_per_block.

Definition pending (s : feeder) : list tev := option_list (fd_win s) ++ fd_rest s.
Definition shift (d : nat) (e : tev) : tev := TEv (te_time e - d) (te_kind e).

Lemma next_event_spec s offs n :
  next_event s offs n =
    match pending s with
    | [] => Some (s, None)
    | e :: rest =>
        if te_time e <? offs + n then
          if te_time e <? offs then None else Some (Feeder None rest, Some (shift offs e))
        else Some (Feeder (Some e) rest, None)
    end.
Proof. destruct s as [[w|] [|e rest]]; done. Qed.

Lemma filter_all {A} (P : A -> Prop) `{!forall x, Decision (P x)} (l : list A) : (forall x, x ∈ l -> P x) -> filter P l = l.
Proof.
  induction l as [|x l IH]; intros HP; [done|]. rewrite filter_cons_True by (apply HP; set_solver).
  f_equal. apply IH. intros y Hy. apply HP. set_solver.
Qed.
Lemma filter_none {A} (P : A -> Prop) `{!forall x, Decision (P x)} (l : list A) : (forall x, x ∈ l -> ~ P x) -> filter P l = [].
Proof.
  induction l as [|x l IH]; intros HP; [done|]. rewrite filter_cons_False by (apply HP; set_solver).
  apply IH. intros y Hy. apply HP. set_solver.
Qed.

Lemma push_all l : forall nc, foldl push_event nc l =
  (nc.1 ++ filter (fun e => midi_is_cc (te_kind e) = false) l, nc.2 ++ filter (fun e => midi_is_cc (te_kind e) = true) l).
Proof.
  induction l as [|e l IH]; intros [ns cs]; cbn [foldl].
  - by rewrite !filter_nil, !app_nil_r.
  - rewrite IH, !filter_cons. unfold push_event. destruct (midi_is_cc (te_kind e)); cbn [fst snd].
    + rewrite decide_False, decide_True by done. by rewrite <- app_assoc.
    + rewrite decide_True, decide_False by done. by rewrite <- app_assoc.
Qed.

Definition in_block (offs n : nat) (e : tev) : Prop := te_time e < offs + n.
Global Instance in_block_dec offs n e : Decision (in_block offs n e).
Proof. unfold in_block. apply _. Defined.

Lemma feed_loop_spec offs n : forall fuel s nc,
  length (pending s) < fuel -> time_ordered (pending s) -> Forall (fun e => offs <= te_time e) (pending s) ->
  (let nc' := foldl push_event nc (shift offs <$> filter (in_block offs n) (pending s)) in
   length nc'.1 < max_notes_per_block /\ length nc'.2 < max_ccs_per_block) ->
  exists s', feed_loop fuel s offs n nc = Some (s', foldl push_event nc (shift offs <$> filter (in_block offs n) (pending s))) /\
    pending s' = filter (fun e => ~ in_block offs n e) (pending s).
Proof.
  induction fuel as [|fuel IH]; intros s nc Hf Hs Hge Hl; [lia|]. cbn [feed_loop]. rewrite next_event_spec.
  destruct (pending s) as [|e rest] eqn:Ep.
  { cbn. eexists. split; [done|]. by rewrite Ep. }
  apply StronglySorted_inv in Hs as [Hs He]. apply Forall_cons in Hge as [Hge1 Hge].
  destruct (Nat.ltb_spec (te_time e) (offs + n)) as [Hin|Hout].
  - destruct (Nat.ltb_spec (te_time e) offs); [lia|]. cbn [mbind option_bind].
    rewrite filter_cons_True in Hl |- * by (unfold in_block; lia). rewrite fmap_cons in Hl |- *. cbn [foldl] in Hl |- *.
    set (nc1 := push_event nc (shift offs e)) in *. cbn zeta in Hl.
    assert (forall l, length nc1.1 <= length (foldl push_event nc1 l).1 /\ length nc1.2 <= length (foldl push_event nc1 l).2) as Mono.
    { intros l. rewrite push_all. cbn. rewrite !app_length. lia. }
    destruct (Mono (shift offs <$> filter (in_block offs n) rest)) as [M1 M2].
    destruct (Nat.eqb_spec (length nc1.2) max_ccs_per_block); [lia|].
    destruct (Nat.eqb_spec (length nc1.1) max_notes_per_block); [lia|]. cbn [orb].
    destruct (IH (Feeder None rest) nc1) as (s' & E & P).
    + cbn in *. lia.
    + done.
    + done.
    + exact Hl.
    + exists s'. split; [exact E|]. rewrite P. rewrite (filter_cons_False (fun e => ~ in_block offs n e)); [done|]. unfold in_block. lia.
  - cbn [mbind option_bind]. assert (Forall (fun e' => ~ in_block offs n e') (e :: rest)) as Hall.
    { constructor; [unfold in_block; lia|]. eapply Forall_impl; [exact He|]. intros x Hx. cbn in Hx. unfold in_block. lia. }
    rewrite (filter_none (in_block offs n)) by (intros x Hx; exact (proj1 (Forall_forall _ _) Hall x Hx)).
    eexists. split; [done|]. unfold pending. cbn [fd_win fd_rest option_list app]. symmetry. apply filter_all. intros x Hx. exact (proj1 (Forall_forall _ _) Hall x Hx).
Qed.

Definition window (evs : list tev) (a n : nat) : list tev := filter (fun e => a <= te_time e < a + n) evs.

Lemma ordered_filter P `{!forall x, Decision (P x)} evs : time_ordered evs -> time_ordered (filter P evs).
Proof.
  intros HO. induction HO as [|e evs HO IH He]; [constructor|]. rewrite filter_cons. case_decide; [|done]. constructor; [done|].
  apply Forall_forall. intros x Hx. apply elem_of_list_filter in Hx as [_ Hx]. by apply (proj1 (Forall_forall _ _) He).
Qed.

Lemma run_blocks_spec evs : time_ordered evs -> forall blocks s offs,
  pending s = filter (fun e => offs <= te_time e) evs ->
  (forall i inj n, blocks !! i = Some (inj, n) ->
     let evs' := te_kind <$> window evs (offs + block_start blocks.*2 i) n in
     length (notes_of inj) + length (notes_of evs') < max_notes_per_block /\
     length (ccs_of inj) + length (ccs_of evs') < max_ccs_per_block) ->
  exists res, run_blocks s offs blocks = Some res /\ length res = length blocks /\
    forall i inj n, blocks !! i = Some (inj, n) ->
      let l := (TEv 0 <$> rev inj) ++ (shift (offs + block_start blocks.*2 i) <$> window evs (offs + block_start blocks.*2 i) n) in
      res !! i = Some (filter (fun e => midi_is_cc (te_kind e) = false) l, filter (fun e => midi_is_cc (te_kind e) = true) l).
Proof.
  intros Ho. induction blocks as [|[inj n] blocks IH]; intros s offs Hp Hl; cbn [run_blocks].
  { exists []. done. }
  pose proof (Hl 0 inj n eq_refl) as H0. unfold block_start in H0. cbn [take sum_list] in H0. rewrite Nat.add_0_r in H0.
  assert (filter (in_block offs n) (pending s) = window evs offs n) as EW.
  { rewrite Hp. unfold window. rewrite list_filter_filter. apply list_filter_iff. intros e. unfold in_block. lia. }
  set (nc0 := foldl push_event ([], []) (TEv 0 <$> rev inj)).
  assert (foldl push_event nc0 (shift offs <$> window evs offs n) =
    let l := (TEv 0 <$> rev inj) ++ (shift offs <$> window evs offs n) in
    (filter (fun e => midi_is_cc (te_kind e) = false) l, filter (fun e => midi_is_cc (te_kind e) = true) l)) as EF.
  { unfold nc0. rewrite <- foldl_app, push_all. done. }
  assert (forall (b : bool) (l : list tev), length (filter (fun e => midi_is_cc (te_kind e) = b) l) = length (filter (fun k => midi_is_cc k = b) (te_kind <$> l))) as FLb.
  { intros b l. induction l as [|e l IHl]; [done|]. rewrite fmap_cons, !filter_cons. case_decide; cbn [length]; [f_equal|]; done. }
  pose proof (FLb false) as FL1. pose proof (FLb true) as FL2.
  assert (forall (b : bool) (l : list midi), length (filter (fun k => midi_is_cc k = b) (rev l)) = length (filter (fun k => midi_is_cc k = b) l)) as FR.
  { intros b l. induction l as [|e l IHl]; [done|]. cbn [rev]. rewrite filter_app, app_length, IHl, !filter_cons, filter_nil. case_decide; cbn; lia. }
  assert (forall d (l : list tev), te_kind <$> (shift d <$> l) = te_kind <$> l) as FS.
  { intros d l. rewrite <- list_fmap_compose. by apply list_fmap_ext. }
  assert (forall (l : list midi), te_kind <$> (TEv 0 <$> l) = l) as FT.
  { intros l. rewrite <- list_fmap_compose. rewrite <- (list_fmap_id l) at 2. by apply list_fmap_ext. }
  destruct (feed_loop_spec offs n (S (S (length (fd_rest s)))) s nc0) as (s' & E & Ps').
  { unfold pending. destruct (fd_win s); cbn; lia. }
  { rewrite Hp. by apply ordered_filter. }
  { rewrite Hp. apply Forall_forall. intros e He. by apply elem_of_list_filter in He as [? _]. }
  { rewrite EW, EF. cbn zeta. cbn [fst snd]. rewrite FL1, FL2. rewrite fmap_app, FS, FT, !filter_app, !app_length, !FR. exact H0. }
  unfold feed_midi. fold nc0. rewrite E. cbn [mbind option_bind]. rewrite EW, EF.
  assert (forall i, offs + n + block_start blocks.*2 i = offs + block_start ((inj, n) :: blocks).*2 (S i)) as EB.
  { intros i. unfold block_start. cbn. lia. }
  destruct (IH s' (offs + n)) as (res & Er & Lr & Gr).
  { rewrite Ps', Hp, list_filter_filter. apply list_filter_iff. intros e. unfold in_block. lia. }
  { intros i inj' n' Hi. rewrite EB. by apply (Hl (S i)). }
  rewrite Er. cbn [mbind option_bind]. eexists. split; [done|]. split; [cbn; lia|].
  intros [|i] inj' n' Hi.
  - injection Hi as <- <-. unfold block_start. cbn [take sum_list]. rewrite Nat.add_0_r. done.
  - cbn [lookup list_lookup] in Hi |- *. specialize (Gr i inj' n' Hi). rewrite EB in Gr. exact Gr.
Qed.

(** Nodes *)
Lemma take_at_spec frame buf : time_ordered buf -> Forall (fun e => frame <= te_time e) buf ->
  take_at frame buf = (events_at buf frame, filter (fun e => S frame <= te_time e) buf).
Proof.
  intros Ho. induction Ho as [|e buf Ho IH He]; intros Hf; [done|]. apply Forall_cons in Hf as [Hf1 Hf]. cbn [take_at].
  unfold events_at. rewrite !filter_cons. destruct (Nat.leb_spec (te_time e) frame).
  - rewrite (IH Hf). rewrite decide_True by lia. rewrite decide_False by lia. done.
  - rewrite decide_False by lia. rewrite decide_True by lia.
    rewrite filter_none.
    + f_equal. symmetry. f_equal. apply filter_all. intros x Hx. pose proof (proj1 (Forall_forall _ _) He x Hx). cbn in *. lia.
    + intros x Hx. pose proof (proj1 (Forall_forall _ _) He x Hx). cbn in *. lia.
Qed.
Lemma node_reads_spec n : forall frame buf, time_ordered buf -> Forall (fun e => frame <= te_time e) buf ->
  node_reads frame n buf = (fun k => events_at buf (frame + k)) <$> seq 0 n.
Proof.
  induction n as [|n IH]; intros frame buf Ho Hf; [done|]. cbn [node_reads]. rewrite take_at_spec by done.
  rewrite IH.
  - cbn [seq]. rewrite fmap_cons, Nat.add_0_r. f_equal. rewrite <- fmap_S_seq, <- list_fmap_compose. apply list_fmap_ext. intros i k Hk. cbn.
    unfold events_at. f_equal. rewrite list_filter_filter. apply list_filter_iff. intros e. lia.
  - by apply ordered_filter.
  - apply Forall_forall. intros e He. by apply elem_of_list_filter in He as [? _].
Qed.

Lemma events_at_app l k f : events_at (l ++ k) f = events_at l f ++ events_at k f.
Proof. unfold events_at. by rewrite filter_app, fmap_app. Qed.
Lemma events_at_kind (b : bool) l f :
  events_at (filter (fun e => midi_is_cc (te_kind e) = b) l) f = filter (fun k => midi_is_cc k = b) (events_at l f).
Proof.
  unfold events_at. induction l as [|e l IH]; [done|]. rewrite !filter_cons. repeat case_decide; rewrite ?filter_cons; repeat case_decide;
    rewrite ?fmap_cons, ?filter_cons; repeat case_decide; try done; by rewrite IH.
Qed.
Lemma events_at_injected l f : events_at (TEv 0 <$> l) f = if f =? 0 then l else [].
Proof.
  unfold events_at. destruct f as [|f]; cbn [Nat.eqb].
  - rewrite filter_all; [|intros x Hx; apply elem_of_list_fmap in Hx as (? & -> & _); done].
    rewrite <- list_fmap_compose. rewrite <- (list_fmap_id l) at 2. by apply list_fmap_ext.
  - rewrite filter_none; [done|]. intros x Hx; apply elem_of_list_fmap in Hx as (? & -> & _); done.
Qed.
Lemma events_at_window evs d n f : f < n -> events_at (shift d <$> window evs d n) f = events_at evs (d + f).
Proof.
  intros Hf. unfold events_at, window. induction evs as [|e evs IH]; [done|]. rewrite !filter_cons. repeat case_decide; try lia.
  - rewrite fmap_cons, filter_cons. cbn [te_time shift]. rewrite decide_True by (cbn; lia). by rewrite !fmap_cons, IH.
  - rewrite fmap_cons, filter_cons. cbn [te_time shift]. rewrite decide_False by (cbn; lia). done.
  - done.
Qed.
Lemma ordered_block inj evs d n : time_ordered evs -> time_ordered ((TEv 0 <$> inj) ++ (shift d <$> window evs d n)).
Proof.
  intros Ho. induction inj as [|k inj IH]; cbn.
  - pose proof (ordered_filter (fun e => d <= te_time e < d + n) _ Ho) as HW. fold (window evs d n) in HW.
    induction HW as [|e w HW IH He]; [constructor|]. rewrite fmap_cons. constructor; [done|]. apply Forall_fmap. eapply Forall_impl; [exact He|].
    intros x Hx. cbn in *. lia.
  - constructor; [done|]. apply Forall_forall. intros x _. cbn. lia.
Qed.

(** *** The gate of MidiP *)
Lemma events_before_S evs t : time_ordered evs -> events_before evs (S t) = events_before evs t ++ events_at evs t.
Proof.
  intros Ho. unfold events_before, events_at. rewrite <- fmap_app. f_equal. induction Ho as [|e evs Ho IH He]; [done|].
  rewrite !filter_cons. destruct (decide (te_time e < t)) as [Hl|Hl].
  - rewrite decide_True by lia. rewrite decide_False by lia. cbn. by rewrite IH.
  - assert (filter (fun e => te_time e < t) evs = []) as En.
    { apply filter_none. intros x Hx. pose proof (proj1 (Forall_forall _ _) He x Hx). cbn in *. lia. }
    rewrite En in IH |- *. cbn in IH |- *. repeat case_decide; try lia; [by f_equal|done].
Qed.
Lemma mjoin_app {A} (a b : list (list A)) : mjoin (a ++ b) = mjoin a ++ mjoin b.
Proof.
  induction a as [|x a IH]; [done|]. change (mjoin ((x :: a) ++ b)) with (x ++ mjoin (a ++ b)).
  change (mjoin (x :: a)) with (x ++ mjoin a). by rewrite IH, app_assoc.
Qed.
Lemma frames_before evs t : time_ordered evs ->
  mjoin ((fun t => notes_of (events_at evs t)) <$> seq 0 t) = notes_of (events_before evs t).
Proof.
  intros Ho. induction t as [|t IH].
  - unfold events_before. rewrite filter_none; [done|]. intros; lia.
  - rewrite seq_S, fmap_app, mjoin_app, IH, events_before_S by done. cbn. rewrite app_nil_r. unfold notes_of. by rewrite filter_app.
Qed.

Lemma app_last_inv {A} (pre post es : list A) (x y : A) : es ++ [x] = pre ++ y :: post ->
  (post = [] /\ es = pre /\ x = y) \/ exists post', post = post' ++ [x] /\ es = pre ++ y :: post'.
Proof.
  intros H. destruct post as [|z post _] using rev_ind.
  - left. apply app_inj_tail in H as [-> ->]. done.
  - right. rewrite app_comm_cons, app_assoc in H. apply app_inj_tail in H as [-> ->]. eauto.
Qed.
Lemma held_on ch es n v m : held ch (es ++ [NoteOn ch n v]) m <-> m = n.
Proof.
  split.
  - intros (pre & v' & post & E & H1 & H2). apply app_last_inv in E as [(-> & -> & [= -> ->])|(post' & -> & _)]; [done|].
    exfalso. apply (H1 n v). set_solver.
  - intros ->. exists es, v, []. set_solver.
Qed.
Lemma held_other ch es e m : (forall n v, e <> NoteOn ch n v) -> held ch (es ++ [e]) m <-> held ch es m /\ e <> NoteOff ch m.
Proof.
  intros Hn. split.
  - intros (pre & v' & post & E & H1 & H2). apply app_last_inv in E as [(-> & -> & ->)|(post' & -> & ->)]; [by destruct (Hn m v')|].
    split; [|set_solver]. exists pre, v', post'. split_and!; set_solver.
  - intros [(pre & v' & post & -> & H1 & H2) Hne]. exists pre, v', (post ++ [e]). split_and!.
    + by rewrite <- app_assoc.
    + intros n' v'' Hin. apply elem_of_app in Hin as [Hin|Hin]; [by apply (H1 n' v'')|]. apply elem_of_list_singleton in Hin. by apply (Hn n' v'').
    + set_solver.
Qed.
Lemma started_on ch es n v m w : last_started ch (es ++ [NoteOn ch n v]) m w <-> m = n /\ w = v.
Proof.
  split.
  - intros (pre & post & E & H1). apply app_last_inv in E as [(-> & -> & [= -> ->])|(post' & -> & _)]; [done|].
    exfalso. apply (H1 n v). set_solver.
  - intros [-> ->]. exists es, []. set_solver.
Qed.
Lemma started_other ch es e m w : (forall n v, e <> NoteOn ch n v) -> last_started ch (es ++ [e]) m w <-> last_started ch es m w.
Proof.
  intros Hn. split.
  - intros (pre & post & E & H1). apply app_last_inv in E as [(-> & -> & ->)|(post' & -> & ->)]; [by destruct (Hn m w)|].
    exists pre, post'. split_and!; set_solver.
  - intros (pre & post & -> & H1). exists pre, (post ++ [e]). split_and!.
    + by rewrite <- app_assoc.
    + intros n' v'' Hin. apply elem_of_app in Hin as [Hin|Hin]; [by apply (H1 n' v'')|]. apply elem_of_list_singleton in Hin. by apply (Hn n' v'').
Qed.
Lemma held_started ch es n : held ch es n -> exists v, last_started ch es n v.
Proof. intros (pre & v & post & -> & H1 & _). by exists v, pre, post. Qed.

(** the state of the node knows the last note *)
Definition note_ok (ch : nat) (es : list midi) (s : midip) : Prop :=
  forall n v, last_started ch es n v -> mp_note s = n /\ mp_vel s = v.
Lemma event_note ch es s e : note_ok ch es s -> note_ok ch (es ++ [e]) (midip_event ch s e).
Proof.
  intros H n v. destruct e as [c k w|c k|c k w]; cbn [midip_event].
  - destruct (Nat.eqb_spec c ch) as [->|Hc]; cbn [negb].
    + rewrite started_on. intros [-> ->]. done.
    + rewrite started_other by (intros ? ?; congruence). apply H.
  - rewrite started_other by (intros ? ?; congruence). intros Hs. destruct (H _ _ Hs). destruct (negb (c =? ch)); [done|]. by destruct (mp_note s =? k).
  - rewrite started_other by (intros ? ?; congruence). apply H.
Qed.
Lemma events_note ch fs : forall es s, note_ok ch es s -> note_ok ch (es ++ fs) (foldl (midip_event ch) s fs).
Proof.
  induction fs as [|e fs IH]; intros es s H; cbn [foldl]; [by rewrite app_nil_r|].
  rewrite cons_middle, app_assoc. apply IH. by apply event_note.
Qed.

(** the gate the node will have at the next frame *)
Definition next_high (s : midip) : bool := if (0 <? mp_next s)%Z then true else if (mp_next s <? 0)%Z then false else 0 <? mp_gate s.
Definition gate_ok (ch : nat) (es : list midi) (s : midip) : Prop :=
  note_ok ch es s /\ (next_high s = true <-> exists n, held ch es n).

Lemma off_channel ch s fs : filter (fun e => on_channel ch e = true) fs = [] -> foldl (midip_event ch) s fs = s.
Proof.
  revert s. induction fs as [|e fs IH]; intros s H; [done|]. rewrite filter_cons in H. case_decide as D; [done|]. cbn [foldl].
  rewrite IH by done. destruct e as [c k w|c k|c k w]; cbn in *; try done; by destruct (c =? ch).
Qed.
Lemma off_held ch fs m : filter (fun e => on_channel ch e = true) fs = [] -> forall es, held ch (es ++ fs) m <-> held ch es m.
Proof.
  induction fs as [|e fs IH]; intros H es; [by rewrite app_nil_r|]. rewrite filter_cons in H. case_decide as D; [done|].
  rewrite cons_middle, app_assoc, IH by done. rewrite held_other.
  - split; [by intros [? _]|]. intros; split; [done|]. intros ->. cbn in D. by rewrite Nat.eqb_refl in D.
  - intros n v ->. cbn in D. by rewrite Nat.eqb_refl in D.
Qed.

Lemma filter_one {A} (P : A -> Prop) `{!forall x, Decision (P x)} (l : list A) : length (filter P l) <= 1 ->
  filter P l = [] \/ exists a x b, l = a ++ x :: b /\ P x /\ filter P a = [] /\ filter P b = [].
Proof.
  induction l as [|x l IH]; intros HP; [by left|]. rewrite filter_cons in HP |- *. case_decide as D.
  - right. exists [], x, l. cbn in HP. split_and!; try done. destruct (filter P l); [done|cbn in HP; lia].
  - destruct (IH HP) as [E|(a & y & b & -> & Hy & Ea & Eb)]; [by left|]. right. exists (x :: a), y, b. split_and!; try done.
    by rewrite filter_cons, decide_False.
Qed.

Lemma frame_gate ch es s fs s' o : gate_ok ch es s -> length (filter (fun e => on_channel ch e = true) fs) <= 1 ->
  midip_frame ch s fs = (s', o) ->
  gate_ok ch (es ++ fs) s' /\
  (mo_gate o = true <-> (starts ch fs /\ ~ exists n, held ch es n) \/ (~ starts ch fs /\ exists n, held ch es n)).
Proof.
  intros [HN HG] Hone E. unfold midip_frame in E.
  set (g := if (0 <? mp_next s)%Z then 1 else if (mp_next s <? 0)%Z then 0 else mp_gate s) in E.
  assert ((0 <? g) = next_high s) as Hg.
  { unfold g, next_high. destruct (0 <? mp_next s)%Z; [done|]. by destruct (mp_next s <? 0)%Z. }
  set (s0 := MidiP 0 (mp_note s) g (mp_vel s)) in E. injection E as <- <-.
  assert (note_ok ch es s0) as HN0 by exact HN. pose proof (events_note ch fs es s0 HN0) as HNf.
  assert (next_high s0 = next_high s) as Hnh by exact Hg.
  destruct (filter_one (fun e => on_channel ch e = true) fs Hone) as [Hoff|(a & e & b & -> & He & Ea & Eb)].
  - rewrite off_channel in HNf |- * by done. cbn [mo_gate mp_gate s0].
    assert (~ starts ch fs) as Hns.
    { intros (n & v & Hin). assert (NoteOn ch n v ∈ filter (fun e => on_channel ch e = true) fs) as Hf.
      { apply elem_of_list_filter. split; [|done]. cbn. by rewrite Nat.eqb_refl. }
      rewrite Hoff in Hf. by apply elem_of_nil in Hf. }
    split.
    + split; [done|]. rewrite Hnh, HG. split; intros [n Hn]; exists n; by apply (off_held ch fs n Hoff).
    + rewrite Hg, HG. tauto.
  - rewrite foldl_app in HNf |- *. cbn [foldl] in HNf |- *. rewrite (off_channel ch s0 a) in HNf |- * by done.
    rewrite off_channel in HNf |- * by done.
    assert (forall m, held ch (es ++ a ++ e :: b) m <-> held ch ((es ++ a) ++ [e]) m) as Hh.
    { intros m. replace (es ++ a ++ e :: b) with (((es ++ a) ++ [e]) ++ b) by (rewrite <- !app_assoc; done). by apply off_held. }
    assert (forall m, held ch (es ++ a) m <-> held ch es m) as Ha by (intros m; by apply off_held).
    destruct e as [c k w|c k|c k w]; cbn [on_channel] in He; [| |done]; apply Nat.eqb_eq in He as ->.
    + assert (starts ch (a ++ NoteOn ch k w :: b)) as Hst by (exists k, w; set_solver).
      assert (exists n, held ch (es ++ a ++ NoteOn ch k w :: b) n) as Hheld by (exists k; rewrite Hh, held_on; done).
      cbn [midip_event] in HNf |- *. rewrite Nat.eqb_refl in HNf |- *. cbn [negb] in HNf |- *. cbn [s0 mp_gate mp_next mp_note mp_vel] in HNf |- *.
      rewrite Hg in HNf |- *. destruct (next_high s) eqn:Enh.
      * cbn [mo_gate mp_gate mp_next mp_note mp_vel]. split; [split; [done|]|].
        -- split; [done|]. intros _. done.
        -- split; [done|]. intros [[_ Hno]|[Hno _]]; [|done]. destruct Hno. by apply HG.
      * cbn [mo_gate mp_gate mp_next mp_note mp_vel]. split; [split; [done|]|].
        -- split; [done|]. intros _. done.
        -- split; [|done]. intros _. left. split; [done|]. intros Hx. apply HG in Hx. done.
    + assert (~ starts ch (a ++ NoteOff ch k :: b)) as Hns.
      { intros (n & v & Hin). assert (NoteOn ch n v ∈ filter (fun e => on_channel ch e = true) (a ++ NoteOff ch k :: b)) as Hf.
        { apply elem_of_list_filter. split; [|done]. cbn. by rewrite Nat.eqb_refl. }
        rewrite filter_app, Ea, filter_cons, Eb in Hf. cbn in Hf. case_decide; set_solver. }
      assert (forall m, held ch (es ++ a ++ NoteOff ch k :: b) m <-> held ch es m /\ m <> k) as Hho.
      { intros m. rewrite Hh, held_other by done. rewrite Ha. split; intros [? ?]; split; congruence. }
      cbn [midip_event] in HNf |- *. rewrite Nat.eqb_refl in HNf |- *. cbn [negb] in HNf |- *. cbn [s0 mp_note] in HNf |- *.
      destruct (Nat.eqb_spec (mp_note s) k) as [Ek|Ek].
      * cbn [mo_gate mp_gate mp_next mp_note mp_vel s0] in HNf |- *. split; [split; [done|]|].
        -- cbn. split; [done|]. intros (n & Hn). apply Hho in Hn as [Hn Hne]. destruct (held_started _ _ _ Hn) as [v Hv].
           destruct (HN _ _ Hv). congruence.
        -- rewrite Hg, HG. tauto.
      * cbn [mo_gate mp_gate s0]. split; [split; [done|]|].
        -- rewrite Hnh, HG. split.
           ++ intros (n & Hn). exists n. apply Hho. split; [done|]. intros ->. destruct (held_started _ _ _ Hn) as [v Hv].
              destruct (HN _ _ Hv). congruence.
           ++ intros (n & Hn). apply Hho in Hn as [Hn _]. eauto.
        -- rewrite Hg, HG. tauto.
Qed.

Lemma frames_gate ch ess : forall es s, gate_ok ch es s ->
  Forall (fun fs => length (filter (fun e => on_channel ch e = true) fs) <= 1) ess ->
  forall t fs, ess !! t = Some fs -> exists o, (midip_frames ch s ess).2 !! t = Some o /\
    let b := es ++ mjoin (take t ess) in
    (mo_gate o = true <-> (starts ch fs /\ ~ exists n, held ch b n) \/ (~ starts ch fs /\ exists n, held ch b n)).
Proof.
  induction ess as [|fs ess IH]; intros es s HG HF t fs' Ht; [done|]. apply Forall_cons in HF as [H1 HF]. cbn [midip_frames].
  destruct (midip_frame ch s fs) as [s1 o] eqn:E. destruct (frame_gate _ _ _ _ _ _ HG H1 E) as [HG1 Ho].
  destruct (midip_frames ch s1 ess) as [s2 os] eqn:E2. destruct t as [|t].
  - injection Ht as <-. exists o. split; [done|]. cbn [take mjoin list_join]. rewrite app_nil_r. done.
  - destruct (IH _ _ HG1 HF t fs' Ht) as (o' & Eo & P). rewrite E2 in Eo. exists o'. split; [done|]. cbn [take mjoin list_join]. rewrite app_assoc. exact P.
Qed.
Lemma frames_note ch ess : forall es s, note_ok ch es s ->
  forall t fs, ess !! t = Some fs -> exists o, (midip_frames ch s ess).2 !! t = Some o /\
    forall n v, last_started ch (es ++ mjoin (take (S t) ess)) n v -> mo_note o = n /\ mo_vel o = v.
Proof.
  induction ess as [|fs ess IH]; intros es s HN t fs' Ht; [done|]. cbn [midip_frames].
  destruct (midip_frame ch s fs) as [s1 o] eqn:E. destruct (midip_frames ch s1 ess) as [s2 os] eqn:E2.
  assert (note_ok ch (es ++ fs) s1 /\ mo_note o = mp_note s1 /\ mo_vel o = mp_vel s1) as (HN1 & Eo1 & Eo2).
  { unfold midip_frame in E. injection E as <- <-. split; [by apply events_note|done]. }
  destruct t as [|t].
  - exists o. split; [done|]. intros n v. change (take 1 (fs :: ess)) with [fs]. cbn. rewrite app_nil_r, Eo1, Eo2. apply HN1.
  - destruct (IH _ _ HN1 t fs' Ht) as (o' & Eo & P). rewrite E2 in Eo. exists o'. split; [done|].
    change (take (S (S t)) (fs :: ess)) with (fs :: take (S t) ess). cbn [mjoin list_join]. rewrite app_assoc. exact P.
Qed.

Lemma midip_frames_app ch a : forall s b, midip_frames ch s (a ++ b) =
  let '(s1, os1) := midip_frames ch s a in let '(s2, os2) := midip_frames ch s1 b in (s2, os1 ++ os2).
Proof.
  induction a as [|fs a IH]; intros s b; cbn [midip_frames app].
  - by destruct (midip_frames ch s b).
  - destruct (midip_frame ch s fs) as [s1 o]. rewrite IH. destruct (midip_frames ch s1 a) as [s2 os]. by destruct (midip_frames ch s2 b).
Qed.
Lemma midip_blocks_frames ch blocks : forall s,
  midip_blocks ch s blocks = (midip_frames ch s (mjoin ((fun b : list tev * nat => node_reads 0 b.2 b.1) <$> blocks))).2.
Proof.
  induction blocks as [|[notes n] blocks IH]; intros s; [done|]. cbn [midip_blocks]. rewrite fmap_cons. cbn [mjoin list_join fst snd].
  rewrite midip_frames_app. destruct (midip_frames ch s (node_reads 0 n notes)) as [s1 os1]. rewrite IH. by destruct (midip_frames ch s1 _).
Qed.
