(** The effect, envelope and control nodes in a running patch (C65) *)
From Coq Require Import QArith.
From Verif Require Import Base M_Atom M_Graph M_Dir M_Grid S_Grid M_Layout S_Layout M_Prog M_Conf M_Exec M_Sync M_Engine M_Nodes M_Path M_Fx.
From Verif Require Import S_Conf S_Sync S_Prog S_Own S_Flow S_Path S_Fx L_Conf L_Sync L_Own L_Own2 L_Own3 L_Flow L_Flow2 L_Path P_Nodes P_Path L_Fx.
Open Scope nat_scope.
Local Opaque block_size.

Section fx.
  Context (def : nat -> nat -> f32) (norm denorm : nat -> nat -> f32 -> f32) (q2f : Q -> f32).
  Local Notation T := (hexo_table def norm denorm q2f).
  Context (i2f : Z -> f32) (load_sample : satom -> satom).
  Context (finc : f32 -> f32 -> nat -> f32) (fadd : f32 -> f32 -> f32) (mix : f32 -> f32 -> f32 -> f32).
  Context (fmul fsub fdiv : f32 -> f32 -> f32) (fclamp : f32 -> f32 -> f32 -> f32) (fmax0 fabs : f32 -> f32) (f2i : f32 -> Z).
  Context (n2f : N -> f32) (atom_f : satom -> f32) (X : fxlib) (host : node_id -> nat -> option (nat -> nat -> f32)).
  Context {R : Type}.
  Context (other : node_id -> R -> nat -> N -> N -> list satom -> list (list f32) -> list (list f32) -> list (list f32) -> R * list (list f32)).
  Context (Hother : node_fits other).
  Local Notation process := (fx_process denorm q2f fadd fmul fsub fdiv fclamp f2i n2f atom_f X host).
  Local Notation rest := (fx_rest denorm q2f fadd fmul fsub fdiv fclamp f2i n2f atom_f X host other).
  Local Notation sem := (path_sem denorm fadd fmul fmax0 fabs f2i rest).
  Local Notation serves := (serves T i2f load_sample finc fadd mix sem).
  Local Notation step := (engine_step T i2f load_sample finc fadd mix sem).

  (** the state that a node is in *)
  Definition node_state (n : engine (device * ((node_id -> fxs X) * R))) (id : node_id) : fxs X := (en_st n).2.1 id.

  Lemma sem_fx nd s nf oc ic ats own ins old : nid_kind nd ∈ fx_kinds ->
    sem nd s nf oc ic ats own ins old =
      let '(x, outs) := process nd (s.2.1 nd) nf oc ic ats ins old in
      ((s.1, (fun m => if decide (m = nd) then x else s.2.1 m, s.2.2)), outs).
  Proof.
    intros Hk. unfold path_sem.
    assert (HN : (nid_kind nd =? kind_out) = false /\ (nid_kind nd =? kind_inp) = false /\ (nid_kind nd =? kind_amp) = false /\ (nid_kind nd =? kind_mix3) = false).
    { unfold fx_kinds in Hk. cbn [seq app] in Hk. repeat (apply elem_of_cons in Hk as [->|Hk]; [done|]). by apply elem_of_nil in Hk. }
    destruct HN as (-> & -> & -> & ->). unfold fx_rest. rewrite decide_True by done. by destruct (process _ _ _ _ _ _ _ _).
  Qed.
  Lemma sem_keeps nd s nf oc ic ats own ins old s' outs id : id <> nd -> sem nd s nf oc ic ats own ins old = (s', outs) -> s'.2.1 id = s.2.1 id.
  Proof.
    intros Hid. unfold path_sem. destruct (_ =? kind_out); [by intros [= <- _]|].
    destruct (_ =? kind_inp); [by intros [= <- _]|]. destruct (_ =? kind_amp); [by intros [= <- _]|]. destruct (_ =? kind_mix3); [by intros [= <- _]|].
    unfold fx_rest. destruct (decide (nid_kind nd ∈ _)).
    - destruct (process _ _ _ _ _ _ _ _). intros [= <- _]. cbn [snd fst]. by rewrite decide_False.
    - destruct (other _ _ _ _ _ _ _ _ _). by intros [= <- _].
  Qed.

  (** a node that runs in the block goes from its state before to its state after it *)
  Lemma fx_ran g ma n nframes n' : serves g ma n -> en_queue n = [] -> 0 < nframes <= block_size -> step n (EBlock nframes) = Some n' ->
    let p := ex_prog (en_exec n') in wired T g ma p /\
    forall op, op ∈ np_ops p -> nid_kind (op_node op) ∈ fx_kinds -> exists ats ins old outs,
      (forall j, j < kind_ats T (op_node op) -> exists a, ats !! j = Some a /\ np_atoms p !! ((op_at op).1 + j) = Some a) /\
      (forall j, j < kind_ins T (op_node op) -> arrives T mix g ma p nframes (en_heap n') op j (fun f => rd ins j f)) /\
      process (op_node op) (node_state n (op_node op)) nframes (op_outc op) (op_inc op) ats ins old = (node_state n' (op_node op), outs) /\
      (forall j, j < kind_outs T (op_node op) -> exists b, old !! j = Some b /\ samples (en_heap n) (out_buf p op j) = Some b /\ length b = block_size) /\
      (forall j, j < kind_outs T (op_node op) -> exists b, outs !! j = Some b /\ samples (en_heap n') (out_buf p op j) = Some b).
  Proof.
    intros Hs0 Hq [Hnf Hbs] E. pose proof (fx_fits denorm q2f fadd fmul fsub fdiv fclamp f2i n2f atom_f X host other Hother) as Hrest.
    pose proof (C51_published def norm denorm q2f i2f load_sample finc fadd mix fmul fmax0 fabs f2i rest Hrest g ma n Hs0 Hq) as Hw.
    pose proof (block_ran def norm denorm q2f i2f load_sample finc fadd mix fmul fmax0 fabs f2i rest Hrest g ma n nframes n' (serves_small _ _ _ _ _ _ _ _ _ _ Hs0) Hw Hnf E) as Hb.
    split; [apply (b_wired _ _ _ _ _ _ _ _ _ _ _ _ _ _ _ _ Hb)|].
    intros op Hop Hk. apply elem_of_list_lookup in Hop as Hi. destruct Hi as [i Hi].
    destruct (b_flow _ _ _ _ _ _ _ _ _ _ _ _ _ _ _ _ Hb) as [(sts & H0 & Hend & Hsts) _].
    assert (Hnd : NoDup (op_node <$> np_ops (ex_prog (en_exec n')))) by apply (w_order _ _ _ _ (b_wired _ _ _ _ _ _ _ _ _ _ _ _ _ _ _ _ Hb)).
    assert (Hkeep : forall k s s', k <= length (np_ops (ex_prog (en_exec n'))) -> forall d, d <= k ->
        (forall i', d <= i' < k -> i' <> i) -> sts !! d = Some s -> sts !! k = Some s' -> s'.2.1 (op_node op) = s.2.1 (op_node op)).
    { intros k. induction k as [|k IH]; intros s s' Hk' d Hd Hne S1 S2; [assert (d = 0) as -> by lia; congruence|].
      destruct (decide (d = S k)) as [->|Hdk]; [congruence|].
      destruct (lookup_lt_is_Some_2 (np_ops (ex_prog (en_exec n'))) k) as [op' Hop']; [lia|].
      destruct (Hsts _ _ Hop') as (s1 & s2 & S3 & S4 & (ats & own & ins & old & outs & _ & _ & _ & _ & _ & _ & _ & _ & _ & _ & Hsem)).
      assert (s2 = s') as -> by congruence. rewrite (sem_keeps _ _ _ _ _ _ _ _ _ _ _ (op_node op) ltac:(intros Heq; apply (Hne k); [lia|]; eapply (NoDup_lookup _ _ _ (op_node op) Hnd); [by rewrite list_lookup_fmap, Hop', Heq|by rewrite list_lookup_fmap, Hi]) Hsem).
      eapply (IH s s1 ltac:(lia) d ltac:(lia)); [|done|done]. intros i' Hi'. apply Hne. lia. }
    destruct (Hsts _ _ Hi) as (s & s' & S1 & S2 & (ats & own & ins & old & outs & La & Lo & Li & Lold & Louts & Ha & Hown & Hins & Hold & Houts & Hsem)).
    pose proof (lookup_lt_Some _ _ _ Hi) as Hlen.
    assert (Hs : s.2.1 (op_node op) = node_state n (op_node op)) by (eapply (Hkeep i _ _ ltac:(lia) 0); [lia|lia|done|done]).
    assert (Hs' : node_state n' (op_node op) = s'.2.1 (op_node op)) by (eapply (Hkeep (length (np_ops (ex_prog (en_exec n')))) _ _ ltac:(lia) (S i)); [lia|lia|done|done]).
    exists ats, ins, old, outs. rewrite sem_fx in Hsem by done. rewrite <- Hs, Hs'.
    split; [|split; [|split; [|split]]].
    - intros j Hj. destruct (lookup_lt_is_Some_2 ats j) as [a Hat]; [lia|]. exists a. split; [done|]. rewrite <- Hat. symmetry. apply Ha. lia.
    - intros j Hj. eapply (arrives_ok def norm denorm q2f fadd mix fmul fmax0 fabs f2i rest n n' nframes g ma op j ats own ins old outs s s' Hb); try done; try congruence; try lia.
      rewrite sem_fx by done. done.
    - destruct (process _ _ _ _ _ _ _ _) as [x o]. apply pair_equal_spec in Hsem as [<- ->]. cbn [snd fst]. by rewrite decide_True.
    - intros j Hj. destruct (lookup_lt_is_Some_2 old j) as [b Hb']; [lia|]. exists b. split; [done|]. rewrite <- Hold by lia. split; [done|].
      rewrite Hold in Hb' by lia. unfold samples in Hb'. apply bind_Some in Hb' as (z & _ & Hz). by eapply (b_old _ _ _ _ _ _ _ _ _ _ _ _ _ _ _ _ Hb).
    - intros j Hj. destruct (lookup_lt_is_Some_2 outs j) as [b Hb']; [lia|]. exists b. split; [done|]. rewrite <- Houts by lia. done.
  Qed.

  (** the loop of a block: its states and what it leaves in the output buffers *)
  Lemma fx_loop {S} (body : S -> nat -> S * list (nat * f32)) s s' nframes old outs p h h' op : nframes <= block_size ->
    frames body s 0 nframes old = (s', outs) ->
    (forall j, j < kind_outs T (op_node op) -> exists b, old !! j = Some b /\ samples h (out_buf p op j) = Some b /\ length b = block_size) ->
    (forall j, j < kind_outs T (op_node op) -> exists b, outs !! j = Some b /\ samples h' (out_buf p op j) = Some b) ->
    exists st w, st 0 = s /\ st nframes = s' /\ (forall f, f < nframes -> body (st f) f = (st (Datatypes.S f), w f)) /\
      forall j v, j < kind_outs T (op_node op) -> (forall f, f < nframes -> lastw j (w f) = Some (v f)) -> leaves p nframes h' op j v.
  Proof.
    intros Hbs E Hold Houts. apply frames_spec in E as (_ & st & w & W1 & W2 & W3 & W4). cbn [plus] in *. exists st, w.
    split; [done|]. split; [done|]. split; [intros f Hf; apply W3; lia|]. intros j v Hj Hv.
    destruct (Hold j Hj) as (b & B1 & _ & B3). destruct (Houts j Hj) as (b1 & C1 & C2). destruct (W4 j b B1) as (b2 & D1 & D2 & _ & D4).
    assert (b2 = b1) as -> by congruence. exists b1. split; [done|]. intros f Hf. rewrite D4 by lia. by rewrite Hv.
  Qed.

  Lemma bit_tests (m : N) :
    ((N.land m 1 =? 1)%N = N.testbit m 0) /\ ((N.land m 2 =? 2)%N = N.testbit m 1) /\ ((N.land m 3 =? 3)%N = N.testbit m 0 && N.testbit m 1) /\
    (negb (N.land m 1 =? 0)%N = N.testbit m 0) /\ (negb (N.land m 2 =? 0)%N = N.testbit m 1) /\ (negb (N.land m 4 =? 0)%N = N.testbit m 2).
  Proof. destruct m as [|[[[p|p|]|[p|p|]|]|[[p|p|]|[p|p|]|]|]]; repeat split. Qed.

  Lemma connected_bit g ma p op j : wired T g ma p -> op ∈ np_ops p -> N.testbit (op_inc op) (N.of_nat j) = true <-> connected T g op j.
  Proof. intros Hw Hop. apply (w_in_flags _ _ _ _ Hw op j Hop). Qed.
  Lemma feeds_bit g ma p op j : wired T g ma p -> op ∈ np_ops p -> N.testbit (op_outc op) (N.of_nat j) = true <-> feeds_out T g op j.
  Proof. intros Hw Hop. apply (w_out_flags _ _ _ _ Hw op j Hop). Qed.

  Ltac member := unfold fx_kinds; cbn [seq app]; repeat (first [apply elem_of_list_here|apply elem_of_list_further]).
  (* the block of a node of kind [k]: [ats], [ins] and the states and writes of its loop *)
  Ltac block_of H Hk :=
    let op := fresh "op" in let Hop := fresh "Hop" in
    destruct H as [Hw H]; split; [exact Hw|]; intros op Hop gets gives Hk;
    destruct (H op Hop ltac:(rewrite Hk; member)) as (ats & ins & old & outs & Hats & Hins & Hpr & Hold & Houts);
    unfold fx_process in Hpr; cbv beta zeta in Hpr; rewrite Hk in Hpr;
    assert (Hni : kind_ins T (op_node op) = nt_ins T (nid_kind (op_node op))) by reflexivity;
    assert (Hno : kind_outs T (op_node op) = nt_outs T (nid_kind (op_node op))) by reflexivity;
    assert (Hna : kind_ats T (op_node op) = nt_ats T (nid_kind (op_node op))) by reflexivity;
    rewrite Hk in Hni, Hno, Hna;
    (match type of Hni with _ = ?e => let v := eval vm_compute in e in change (kind_ins T (op_node op) = v) in Hni end);
    (match type of Hno with _ = ?e => let v := eval vm_compute in e in change (kind_outs T (op_node op) = v) in Hno end);
    (match type of Hna with _ = ?e => let v := eval vm_compute in e in change (kind_ats T (op_node op) = v) in Hna end).

  (** A reverb hears the signals at its two inputs; if only one of them is connected, then it hears this one on both sides. It goes on from
      where it was after its last block, and puts out the mix of what it hears and what the reverb makes of it. *)
  Theorem C65_reverb g ma n nframes n' : serves g ma n -> en_queue n = [] -> 0 < nframes <= block_size -> step n (EBlock nframes) = Some n' ->
    let p := ex_prog (en_exec n') in wired T g ma p /\
    forall op, op ∈ np_ops p ->
    let gets := arrives T mix g ma p nframes (en_heap n') op in
    let gives := leaves p nframes (en_heap n') op in
    nid_kind (op_node op) = kind_pverb ->
    exists a b l r (ps : nat -> nat -> f32) m out_l out_r,
      gets 0 a /\ gets 1 b /\ both_sides (connected T g op 0) (connected T g op 1) a b l r /\
      (forall k, 2 <= k < 14 -> gets k (ps k)) /\ gets 14 m /\ gives 0 out_l /\ gives 1 out_r /\
      through (s_verb (node_state n (op_node op))) (s_verb (node_state n' (op_node op))) nframes (fun f v v' => exists wet_l wet_r,
        x_verb_next X v ((fun k => ps k f) <$> seq 2 12) (l f) (r f) = (v', (wet_l, wet_r)) /\
        out_l f = x_fade X (l f) wet_l (denorm kind_pverb 14 (m f)) /\ out_r f = x_fade X (r f) wet_r (denorm kind_pverb 14 (m f))).
  Proof.
    intros Hs Hq Hnf E p. pose proof (fx_ran g ma n nframes n' Hs Hq Hnf E) as H. cbv zeta in H. fold p in H. block_of H Hk.
    rewrite Nat.eqb_refl in Hpr. destruct (fx_loop _ _ _ _ _ _ _ _ _ _ (proj2 Hnf) Hpr Hold Houts) as (st & w & W0 & W1 & W2 & W3).
    set (il := (pverb_ins (op_inc op)).1). set (ir := (pverb_ins (op_inc op)).2).
    exists (fun f => rd ins 0 f), (fun f => rd ins 1 f), (fun f => rd ins il f), (fun f => rd ins ir f), (fun k f => rd ins k f), (fun f => rd ins 14 f),
      (fun f => default f32_zero (lastw 0 (w f))), (fun f => default f32_zero (lastw 1 (w f))).
    assert (Hbody : forall f, f < nframes -> exists wl wr, x_verb_next X (s_verb (st f)) ((fun k => rd ins k f) <$> seq 2 12) (rd ins il f) (rd ins ir f) = (s_verb (st (S f)), (wl, wr)) /\
        w f = [(0, x_fade X (rd ins il f) wl (denorm kind_pverb 14 (rd ins 14 f))); (1, x_fade X (rd ins ir f) wr (denorm kind_pverb 14 (rd ins 14 f)))]).
    { intros f Hf. pose proof (W2 f Hf) as Hb. unfold pverb_frame in Hb. subst il ir. destruct (pverb_ins (op_inc op)) as [il ir]. cbn [fst snd].
      destruct (x_verb_next X (s_verb (st f)) _ _ _) as [v [wl wr]]. apply pair_equal_spec in Hb as [<- <-]. by exists wl, wr. }
    split; [apply Hins; lia|]. split; [apply Hins; lia|]. split.
    { destruct (bit_tests (op_inc op)) as (T1 & T2 & T3 & _).
      pose proof (connected_bit g ma p op 0 Hw Hop) as B0. pose proof (connected_bit g ma p op 1 Hw Hop) as B1. change (N.of_nat 0) with 0%N in B0. change (N.of_nat 1) with 1%N in B1.
      subst il ir. unfold both_sides, pverb_ins. rewrite T1, T2, T3. destruct (N.testbit (op_inc op) 0), (N.testbit (op_inc op) 1); cbn [andb negb fst snd]; intuition congruence. }
    split; [intros k Hkk; apply Hins; lia|]. split; [apply Hins; lia|]. split; [|split].
    1,2: apply W3; [lia|]; intros f Hf; destruct (Hbody f Hf) as (wl & wr & _ & ->); done.
    exists (fun f => s_verb (st f)). rewrite W0, W1. split; [done|]. split; [done|]. intros f Hf. destruct (Hbody f Hf) as (wl & wr & Hv & ->). by exists wl, wr.
  Qed.

  (** A delay puts out the mix of its input and of what comes out of its delay line, at the time that is set or as long ago as the last clock
      period; the line is fed with the input and a part of what came out. *)
  Theorem C65_delay g ma n nframes n' : serves g ma n -> en_queue n = [] -> 0 < nframes <= block_size -> step n (EBlock nframes) = Some n' ->
    let p := ex_prog (en_exec n') in wired T g ma p /\
    forall op, op ∈ np_ops p ->
    let gets := arrives T mix g ma p nframes (en_heap n') op in
    let gives := leaves p nframes (en_heap n') op in
    nid_kind (op_node op) = kind_delay ->
    exists inp trig time fb m mode out wet,
      gets 0 inp /\ gets 1 trig /\ gets 2 time /\ gets 3 fb /\ gets 4 m /\ np_atoms p !! (op_at op).1 = Some mode /\ gives 0 out /\
      through (s_line (node_state n (op_node op)), s_clock (node_state n (op_node op))) (s_line (node_state n' (op_node op)), s_clock (node_state n' (op_node op))) nframes
        (fun f '(l, c) '(l', c') =>
          (atom_i f2i mode = 0%Z -> wet f = x_tap X l (denorm kind_delay 2 (time f)) /\ c' = c) /\
          (atom_i f2i mode <> 0%Z -> exists k, x_clock_next X c (denorm kind_delay 1 (trig f)) = (c', k) /\ wet f = x_tap_at X l k) /\
          l' = x_feed X l (fadd (inp f) (fmul (wet f) (denorm kind_delay 3 (fb f)))) /\
          out f = x_fade X (inp f) (wet f) (fclamp (denorm kind_delay 4 (m f)) (q2f 0) (q2f 1))).
  Proof.
    intros Hs Hq Hnf E p. pose proof (fx_ran g ma n nframes n' Hs Hq Hnf E) as H. cbv zeta in H. fold p in H. block_of H Hk.
    change (kind_delay =? kind_pverb) with false in Hpr. rewrite Nat.eqb_refl in Hpr.
    destruct (fx_loop _ _ _ _ _ _ _ _ _ _ (proj2 Hnf) Hpr Hold Houts) as (st & w & W0 & W1 & W2 & W3).
    destruct (Hats 0 ltac:(lia)) as (mode & Ha & Hmode). rewrite Nat.add_0_r in Hmode. unfold at_i in W2. rewrite Ha in W2. cbn [from_option] in W2.
    set (wet := fun f => if (atom_i f2i mode =? 0)%Z then x_tap X (s_line (st f)) (denorm kind_delay 2 (rd ins 2 f))
                         else x_tap_at X (s_line (st f)) (x_clock_next X (s_clock (st f)) (denorm kind_delay 1 (rd ins 1 f))).2).
    exists (fun f => rd ins 0 f), (fun f => rd ins 1 f), (fun f => rd ins 2 f), (fun f => rd ins 3 f), (fun f => rd ins 4 f), mode,
      (fun f => x_fade X (rd ins 0 f) (wet f) (fclamp (denorm kind_delay 4 (rd ins 4 f)) (q2f 0) (q2f 1))), wet.
    do 5 (split; [apply Hins; lia|]). split; [done|].
    assert (Hbody : forall f, f < nframes ->
      s_line (st (S f)) = x_feed X (s_line (st f)) (fadd (rd ins 0 f) (fmul (wet f) (denorm kind_delay 3 (rd ins 3 f)))) /\
      s_clock (st (S f)) = (if (atom_i f2i mode =? 0)%Z then s_clock (st f) else (x_clock_next X (s_clock (st f)) (denorm kind_delay 1 (rd ins 1 f))).1) /\
      w f = [(0, x_fade X (rd ins 0 f) (wet f) (fclamp (denorm kind_delay 4 (rd ins 4 f)) (q2f 0) (q2f 1)))]).
    { intros f Hf. pose proof (W2 f Hf) as Hb. unfold delay_frame in Hb. unfold wet. destruct (atom_i f2i mode =? 0)%Z.
      - apply pair_equal_spec in Hb as [<- <-]. done.
      - destruct (x_clock_next X _ _) as [c k]. apply pair_equal_spec in Hb as [<- <-]. done. }
    split.
    { apply W3; [lia|]. intros f Hf. destruct (Hbody f Hf) as (_ & _ & ->). done. }
    exists (fun f => (s_line (st f), s_clock (st f))). rewrite W0, W1. split; [done|]. split; [done|]. intros f Hf. destruct (Hbody f Hf) as (-> & -> & _).
    unfold wet. destruct (Z.eqb_spec (atom_i f2i mode) 0) as [Hm|Hm].
    - split; [done|]. split; [done|]. done.
    - split; [done|]. split; [|done]. intros _. destruct (x_clock_next X _ _) as [c k]. by exists k.
  Qed.

  (** A comb filter, with feedback or feed forward, and an all-pass filter *)
  Theorem C65_filters g ma n nframes n' : serves g ma n -> en_queue n = [] -> 0 < nframes <= block_size -> step n (EBlock nframes) = Some n' ->
    let p := ex_prog (en_exec n') in wired T g ma p /\
    forall op, op ∈ np_ops p ->
    let gets := arrives T mix g ma p nframes (en_heap n') op in
    let gives := leaves p nframes (en_heap n') op in
    (nid_kind (op_node op) = kind_comb -> exists inp time gain mode out,
      gets 0 inp /\ gets 1 time /\ gets 2 gain /\ np_atoms p !! (op_at op).1 = Some mode /\ gives 0 out /\
      through (s_comb (node_state n (op_node op))) (s_comb (node_state n' (op_node op))) nframes (fun f c c' =>
        (if decide (atom_i f2i mode = 0%Z) then x_feedback X else x_feedforward X) c (denorm kind_comb 1 (time f)) (denorm kind_comb 2 (gain f)) (inp f) = (c', out f))) /\
    (nid_kind (op_node op) = kind_allp -> exists inp time gain out,
      gets 0 inp /\ gets 1 time /\ gets 2 gain /\ gives 0 out /\
      through (s_allp (node_state n (op_node op))) (s_allp (node_state n' (op_node op))) nframes (fun f c c' =>
        x_allp_next X c (denorm kind_allp 1 (time f)) (denorm kind_allp 2 (gain f)) (inp f) = (c', out f))).
  Proof.
    intros Hs Hq Hnf E p. pose proof (fx_ran g ma n nframes n' Hs Hq Hnf E) as H. cbv zeta in H. fold p in H.
    assert (HA := H). assert (HB := H). split; [apply H|]. intros op0 Hop0 gets0 gives0. split.
    - revert op0 Hop0 gets0 gives0. apply (proj2 (A := wired T g ma p)). clear HB H. rename HA into H. block_of H Hk.
      change (kind_comb =? kind_pverb) with false in Hpr. change (kind_comb =? kind_delay) with false in Hpr. rewrite Nat.eqb_refl in Hpr.
      destruct (fx_loop _ _ _ _ _ _ _ _ _ _ (proj2 Hnf) Hpr Hold Houts) as (st & w & W0 & W1 & W2 & W3).
      destruct (Hats 0 ltac:(lia)) as (mode & Ha & Hmode). rewrite Nat.add_0_r in Hmode. unfold at_i in W2. rewrite Ha in W2. cbn [from_option] in W2.
      exists (fun f => rd ins 0 f), (fun f => rd ins 1 f), (fun f => rd ins 2 f), mode, (fun f => default f32_zero (lastw 0 (w f))).
      do 3 (split; [apply Hins; lia|]). split; [done|].
      assert (Hbody : forall f, f < nframes -> exists y, w f = [(0, y)] /\
        (if decide (atom_i f2i mode = 0%Z) then x_feedback X else x_feedforward X) (s_comb (st f)) (denorm kind_comb 1 (rd ins 1 f)) (denorm kind_comb 2 (rd ins 2 f)) (rd ins 0 f) = (s_comb (st (S f)), y)).
      { intros f Hf. pose proof (W2 f Hf) as Hb. unfold comb_frame in Hb. destruct (Z.eqb_spec (atom_i f2i mode) 0) as [Hm|Hm]; [rewrite decide_True by done|rewrite decide_False by done];
          (destruct (_ X (s_comb (st f)) _ _ _) as [c y]; apply pair_equal_spec in Hb as [<- <-]; by exists y). }
      split; [apply W3; [lia|]; intros f Hf; destruct (Hbody f Hf) as (y & -> & _); done|].
      exists (fun f => s_comb (st f)). rewrite W0, W1. split; [done|]. split; [done|]. intros f Hf. destruct (Hbody f Hf) as (y & -> & Hy). done.
    - revert op0 Hop0 gets0 gives0. apply (proj2 (A := wired T g ma p)). clear HA H. rename HB into H. block_of H Hk.
      change (kind_allp =? kind_pverb) with false in Hpr. change (kind_allp =? kind_delay) with false in Hpr. change (kind_allp =? kind_comb) with false in Hpr. rewrite Nat.eqb_refl in Hpr.
      destruct (fx_loop _ _ _ _ _ _ _ _ _ _ (proj2 Hnf) Hpr Hold Houts) as (st & w & W0 & W1 & W2 & W3).
      exists (fun f => rd ins 0 f), (fun f => rd ins 1 f), (fun f => rd ins 2 f), (fun f => default f32_zero (lastw 0 (w f))).
      do 3 (split; [apply Hins; lia|]).
      assert (Hbody : forall f, f < nframes -> exists y, w f = [(0, y)] /\
        x_allp_next X (s_allp (st f)) (denorm kind_allp 1 (rd ins 1 f)) (denorm kind_allp 2 (rd ins 2 f)) (rd ins 0 f) = (s_allp (st (S f)), y)).
      { intros f Hf. pose proof (W2 f Hf) as Hb. unfold allp_frame in Hb. destruct (x_allp_next X (s_allp (st f)) _ _ _) as [c y]. apply pair_equal_spec in Hb as [<- <-]. by exists y. }
      split; [apply W3; [lia|]; intros f Hf; destruct (Hbody f Hf) as (y & -> & _); done|].
      exists (fun f => s_allp (st f)). rewrite W0, W1. split; [done|]. split; [done|]. intros f Hf. destruct (Hbody f Hf) as (y & -> & Hy). done.
  Qed.

  Ltac pick Hpr := repeat match type of Hpr with (if ?c then _ else _) = _ => first [change c with false in Hpr|change c with true in Hpr]; cbv iota in Hpr end.
  Ltac start Hs Hq Hnf E :=
    intros Hs Hq Hnf E p; pose proof (fx_ran _ _ _ _ _ Hs Hq Hnf E) as H; cbv zeta in H; fold p in H.
  Ltac one_of H := let op := fresh "op" in let Hop := fresh "Hop" in let x := fresh "gets" in let y := fresh "gives" in
    match type of H with ?W /\ _ => split; [apply H|]; intros op Hop x y; revert op Hop x y; apply (proj2 (A := W)) end.

  (** An envelope is the input times the value of the envelope. The times are those that arrive, times 1, 10 or 100; shapes and the sustain level are
      limited to the range from 0 to 1. *)
  Theorem C65_ad g ma n nframes n' : serves g ma n -> en_queue n = [] -> 0 < nframes <= block_size -> step n (EBlock nframes) = Some n' ->
    let p := ex_prog (en_exec n') in wired T g ma p /\
    forall op, op ∈ np_ops p ->
    let gets := arrives T mix g ma p nframes (en_heap n') op in
    let gives := leaves p nframes (en_heap n') op in
    nid_kind (op_node op) = kind_ad ->
    exists inp trig atk dcy ashp dshp mult out eoet,
      gets 0 inp /\ gets 1 trig /\ gets 2 atk /\ gets 3 dcy /\ gets 4 ashp /\ gets 5 dshp /\ np_atoms p !! (op_at op).1 = Some mult /\
      gives 0 out /\ gives 1 eoet /\
      let times := q2f (inject_Z (time_factor (atom_i f2i mult))) in
      let limit v := fclamp v (q2f 0) (q2f 1) in
      let in_ms v := fmul times v in
      through (s_ad (node_state n (op_node op))) (s_ad (node_state n' (op_node op))) nframes (fun f e e' => exists v,
        x_ad_tick X e (denorm kind_ad 1 (trig f)) (in_ms (denorm kind_ad 2 (atk f))) (limit (denorm kind_ad 4 (ashp f)))
                  (in_ms (denorm kind_ad 3 (dcy f))) (fsub (q2f 1) (limit (denorm kind_ad 5 (dshp f)))) = (e', (v, eoet f)) /\
        out f = fmul (denorm kind_ad 0 (inp f)) v).
  Proof.
    start Hs Hq Hnf E. block_of H Hk. pick Hpr.
    destruct (fx_loop _ _ _ _ _ _ _ _ _ _ (proj2 Hnf) Hpr Hold Houts) as (st & w & W0 & W1 & W2 & W3).
    destruct (Hats 0 ltac:(lia)) as (mult & Ha & Hmult). rewrite Nat.add_0_r in Hmult. unfold at_i in W2. rewrite Ha in W2. cbn [from_option] in W2.
    exists (fun f => rd ins 0 f), (fun f => rd ins 1 f), (fun f => rd ins 2 f), (fun f => rd ins 3 f), (fun f => rd ins 4 f), (fun f => rd ins 5 f), mult,
      (fun f => default f32_zero (lastw 0 (w f))), (fun f => default f32_zero (lastw 1 (w f))).
    do 6 (split; [apply Hins; lia|]). split; [done|]. cbv zeta.
    assert (Hm : env_mult q2f (atom_i f2i mult) = q2f (inject_Z (time_factor (atom_i f2i mult)))).
    { unfold env_mult, time_factor. destruct (atom_i f2i mult) as [|[q|q|]|q]; try done; destruct q; done. }
    assert (Hbody : forall f, f < nframes -> exists v y, w f = [(0, fmul (denorm kind_ad 0 (rd ins 0 f)) v); (1, y)] /\
      x_ad_tick X (s_ad (st f)) (denorm kind_ad 1 (rd ins 1 f)) (fmul (env_mult q2f (atom_i f2i mult)) (denorm kind_ad 2 (rd ins 2 f))) (unit_clamp q2f fclamp (denorm kind_ad 4 (rd ins 4 f)))
                  (fmul (env_mult q2f (atom_i f2i mult)) (denorm kind_ad 3 (rd ins 3 f))) (fsub (q2f 1) (unit_clamp q2f fclamp (denorm kind_ad 5 (rd ins 5 f)))) = (s_ad (st (S f)), (v, y))).
    { intros f Hf. pose proof (W2 f Hf) as Hb. unfold ad_frame in Hb. destruct (x_ad_tick X (s_ad (st f)) _ _ _ _ _) as [e [v y]]. apply pair_equal_spec in Hb as [<- <-]. by exists v, y. }
    split; [apply W3; [lia|]; intros f Hf; destruct (Hbody f Hf) as (v & y & -> & _); done|].
    split; [apply W3; [lia|]; intros f Hf; destruct (Hbody f Hf) as (v & y & -> & _); done|].
    exists (fun f => s_ad (st f)). rewrite W0, W1. split; [done|]. split; [done|]. intros f Hf. destruct (Hbody f Hf) as (v & y & -> & Hy). exists v. by rewrite <- Hm.
  Qed.

  Theorem C65_adsr g ma n nframes n' : serves g ma n -> en_queue n = [] -> 0 < nframes <= block_size -> step n (EBlock nframes) = Some n' ->
    let p := ex_prog (en_exec n') in wired T g ma p /\
    forall op, op ∈ np_ops p ->
    let gets := arrives T mix g ma p nframes (en_heap n') op in
    let gives := leaves p nframes (en_heap n') op in
    nid_kind (op_node op) = kind_adsr ->
    exists inp gate atk dcy sus rel ashp dshp rshp mult out eoet,
      gets 0 inp /\ gets 1 gate /\ gets 2 atk /\ gets 3 dcy /\ gets 4 sus /\ gets 5 rel /\ gets 6 ashp /\ gets 7 dshp /\ gets 8 rshp /\
      np_atoms p !! (op_at op).1 = Some mult /\ gives 0 out /\ gives 1 eoet /\
      let times := q2f (inject_Z (time_factor (atom_i f2i mult))) in
      let limit v := fclamp v (q2f 0) (q2f 1) in
      let in_ms v := fmul times v in
      through (s_adsr (node_state n (op_node op))) (s_adsr (node_state n' (op_node op))) nframes (fun f e e' => exists v,
        x_adsr_tick X e (denorm kind_adsr 1 (gate f))
          [in_ms (denorm kind_adsr 2 (atk f)); limit (denorm kind_adsr 6 (ashp f));
           in_ms (denorm kind_adsr 3 (dcy f)); fsub (q2f 1) (limit (denorm kind_adsr 7 (dshp f)));
           in_ms (denorm kind_adsr 5 (rel f)); fsub (q2f 1) (limit (denorm kind_adsr 8 (rshp f)));
           limit (denorm kind_adsr 4 (sus f))] = (e', (v, eoet f)) /\
        out f = fmul (denorm kind_adsr 0 (inp f)) v).
  Proof.
    start Hs Hq Hnf E. block_of H Hk. pick Hpr.
    destruct (fx_loop _ _ _ _ _ _ _ _ _ _ (proj2 Hnf) Hpr Hold Houts) as (st & w & W0 & W1 & W2 & W3).
    destruct (Hats 0 ltac:(lia)) as (mult & Ha & Hmult). rewrite Nat.add_0_r in Hmult. unfold at_i in W2. rewrite Ha in W2. cbn [from_option] in W2.
    exists (fun f => rd ins 0 f), (fun f => rd ins 1 f), (fun f => rd ins 2 f), (fun f => rd ins 3 f), (fun f => rd ins 4 f), (fun f => rd ins 5 f),
      (fun f => rd ins 6 f), (fun f => rd ins 7 f), (fun f => rd ins 8 f), mult,
      (fun f => default f32_zero (lastw 0 (w f))), (fun f => default f32_zero (lastw 1 (w f))).
    do 9 (split; [apply Hins; lia|]). split; [done|]. cbv zeta.
    assert (Hm : env_mult q2f (atom_i f2i mult) = q2f (inject_Z (time_factor (atom_i f2i mult)))).
    { unfold env_mult, time_factor. destruct (atom_i f2i mult) as [|[q|q|]|q]; try done; destruct q; done. }
    assert (Hbody : forall f, f < nframes -> exists v y, w f = [(0, fmul (denorm kind_adsr 0 (rd ins 0 f)) v); (1, y)] /\
      let dn j := denorm kind_adsr j (rd ins j f) in let mu := env_mult q2f (atom_i f2i mult) in let uc := unit_clamp q2f fclamp in
      x_adsr_tick X (s_adsr (st f)) (dn 1) [fmul mu (dn 2); uc (dn 6); fmul mu (dn 3); fsub (q2f 1) (uc (dn 7)); fmul mu (dn 5); fsub (q2f 1) (uc (dn 8)); uc (dn 4)]
        = (s_adsr (st (S f)), (v, y))).
    { intros f Hf. pose proof (W2 f Hf) as Hb. unfold adsr_frame in Hb. cbv zeta in *. destruct (x_adsr_tick X (s_adsr (st f)) _ _) as [e [v y]]. apply pair_equal_spec in Hb as [<- <-]. by exists v, y. }
    split; [apply W3; [lia|]; intros f Hf; destruct (Hbody f Hf) as (v & y & -> & _); done|].
    split; [apply W3; [lia|]; intros f Hf; destruct (Hbody f Hf) as (v & y & -> & _); done|].
    exists (fun f => s_adsr (st f)). rewrite W0, W1. split; [done|]. split; [done|]. intros f Hf. destruct (Hbody f Hf) as (v & y & -> & Hy). exists v. by rewrite <- Hm.
  Qed.

  (** The LFO starts anew when it is triggered; its time is limited to 0.1 to 300000 milliseconds, the frequency is 1000 divided by it. *)
  Theorem C65_lfo g ma n nframes n' : serves g ma n -> en_queue n = [] -> 0 < nframes <= block_size -> step n (EBlock nframes) = Some n' ->
    let p := ex_prog (en_exec n') in wired T g ma p /\
    forall op, op ∈ np_ops p ->
    let gets := arrives T mix g ma p nframes (en_heap n') op in
    let gives := leaves p nframes (en_heap n') op in
    nid_kind (op_node op) = kind_tslfo ->
    exists time trig rev out, gets 0 time /\ gets 1 trig /\ gets 2 rev /\ gives 0 out /\
      through (s_trig (node_state n (op_node op)), s_lfo (node_state n (op_node op))) (s_trig (node_state n' (op_node op)), s_lfo (node_state n' (op_node op))) nframes
        (fun f '(t, o) '(t', o') => exists hit, x_check X t (denorm kind_tslfo 1 (trig f)) = (t', hit) /\
          x_lfo_next X (x_lfo_set X (if hit then x_lfo_reset X o else o)
                          (fdiv (q2f 1000) (fclamp (denorm kind_tslfo 0 (time f)) (q2f (1 # 10)) (q2f 300000))) (denorm kind_tslfo 2 (rev f))) = (o', out f)).
  Proof.
    start Hs Hq Hnf E. block_of H Hk. pick Hpr.
    destruct (fx_loop _ _ _ _ _ _ _ _ _ _ (proj2 Hnf) Hpr Hold Houts) as (st & w & W0 & W1 & W2 & W3).
    exists (fun f => rd ins 0 f), (fun f => rd ins 1 f), (fun f => rd ins 2 f), (fun f => default f32_zero (lastw 0 (w f))).
    do 3 (split; [apply Hins; lia|]).
    assert (Hbody : forall f, f < nframes -> exists hit y, w f = [(0, y)] /\ x_check X (s_trig (st f)) (denorm kind_tslfo 1 (rd ins 1 f)) = (s_trig (st (S f)), hit) /\
      x_lfo_next X (x_lfo_set X (if hit then x_lfo_reset X (s_lfo (st f)) else s_lfo (st f))
                      (fdiv (q2f 1000) (fclamp (denorm kind_tslfo 0 (rd ins 0 f)) (q2f (1 # 10)) (q2f 300000))) (denorm kind_tslfo 2 (rd ins 2 f))) = (s_lfo (st (S f)), y)).
    { intros f Hf. pose proof (W2 f Hf) as Hb. unfold tslfo_frame in Hb. destruct (x_check X _ _) as [t hit].
      destruct (x_lfo_next X _) as [o y] eqn:Eo in Hb. apply pair_equal_spec in Hb as [<- <-]. by exists hit, y. }
    split; [apply W3; [lia|]; intros f Hf; destruct (Hbody f Hf) as (h & y & -> & _); done|].
    exists (fun f => (s_trig (st f), s_lfo (st f))). rewrite W0, W1. split; [done|]. split; [done|]. intros f Hf. destruct (Hbody f Hf) as (h & y & -> & H1 & H2). by exists h.
  Qed.

  (** An external parameter node puts out the three parameters of its letter as the host has set them at the start of the block, slewed, and times
      the attenuverters; as long as the host has given no parameters the outputs are left as they are. *)
  Theorem C65_external g ma n nframes n' : serves g ma n -> en_queue n = [] -> 0 < nframes <= block_size -> step n (EBlock nframes) = Some n' ->
    let p := ex_prog (en_exec n') in wired T g ma p /\
    forall op, op ∈ np_ops p ->
    let gets := arrives T mix g ma p nframes (en_heap n') op in
    let gives := leaves p nframes (en_heap n') op in
    forall letter, letter < 6 -> nid_kind (op_node op) = kind_exta + letter ->
    let k := kind_exta + letter in
    let s := node_state n (op_node op) in let s' := node_state n' (op_node op) in
    s_blocks s' = S (s_blocks s) /\
    match host (op_node op) (s_blocks s) with
    | None => forall c, c < 3 -> samples (en_heap n') (out_buf p op c) = samples (en_heap n) (out_buf p op c)
    | Some par => exists slew atv1 atv2 atv3 out1 out2 out3, gets 0 slew /\ gets 1 atv1 /\ gets 2 atv2 /\ gets 3 atv3 /\
        gives 0 out1 /\ gives 1 out2 /\ gives 2 out3 /\
        through (s_slew1 s, s_slew2 s, s_slew3 s) (s_slew1 s', s_slew2 s', s_slew3 s') nframes (fun f '(a, b, c) '(a', b', c') => exists x y z,
          x_slew_next X a (par letter 0) (denorm k 0 (slew f)) = (a', x) /\ out1 f = fmul (denorm k 1 (atv1 f)) x /\
          x_slew_next X b (par letter 1) (denorm k 0 (slew f)) = (b', y) /\ out2 f = fmul (denorm k 2 (atv2 f)) y /\
          x_slew_next X c (par letter 2) (denorm k 0 (slew f)) = (c', z) /\ out3 f = fmul (denorm k 3 (atv3 f)) z)
    end.
  Proof.
    start Hs Hq Hnf E. destruct H as [Hw H]. split; [exact Hw|]. intros op Hop gets gives letter Hlt Hk k s s'.
    assert (HX : nid_kind (op_node op) ∈ fx_kinds).
    { rewrite Hk. unfold fx_kinds. apply elem_of_app. right. apply elem_of_seq. lia. }
    destruct (H op Hop HX) as (ats & ins & old & outs & Hats & Hins & Hpr & Hold & Houts). fold s s' in Hpr.
    assert (Hni : kind_ins T (op_node op) = 4 /\ kind_outs T (op_node op) = 3).
    { unfold kind_ins, kind_outs. rewrite Hk. destruct letter as [|[|[|[|[|[|]]]]]]; [split; vm_compute; reflexivity..|lia]. }
    destruct Hni as [Hni Hno].
    assert (Hpr' : (match host (op_node op) (s_blocks s) with
      | Some q => frames (ext_frame denorm fmul X k (q letter) ins) (next_block X s) 0 nframes old
      | None => (next_block X s, old) end) = (s', outs)).
    { rewrite <- Hpr. unfold fx_process. cbv beta zeta. rewrite Hk. replace (kind_exta + letter - kind_exta) with letter by lia. fold k. clear -Hlt. subst k. destruct letter as [|[|[|[|[|[|]]]]]]; [reflexivity..|lia]. }
    clear Hpr. rename Hpr' into Hpr. destruct (host (op_node op) (s_blocks s)) as [par|].
    - destruct (fx_loop _ _ _ _ _ _ _ _ _ _ (proj2 Hnf) Hpr Hold Houts) as (st & w & W0 & W1 & W2 & W3).
      assert (Hbody : forall f, f < nframes -> exists x y z, w f = [(0, fmul (denorm k 1 (rd ins 1 f)) x); (1, fmul (denorm k 2 (rd ins 2 f)) y); (2, fmul (denorm k 3 (rd ins 3 f)) z)] /\
        s_blocks (st (S f)) = s_blocks (st f) /\
        x_slew_next X (s_slew1 (st f)) (par letter 0) (denorm k 0 (rd ins 0 f)) = (s_slew1 (st (S f)), x) /\
        x_slew_next X (s_slew2 (st f)) (par letter 1) (denorm k 0 (rd ins 0 f)) = (s_slew2 (st (S f)), y) /\
        x_slew_next X (s_slew3 (st f)) (par letter 2) (denorm k 0 (rd ins 0 f)) = (s_slew3 (st (S f)), z)).
      { intros f Hf. pose proof (W2 f Hf) as Hb. unfold ext_frame in Hb. destruct (x_slew_next X (s_slew1 (st f)) _ _) as [a x]. destruct (x_slew_next X (s_slew2 (st f)) _ _) as [b y].
        destruct (x_slew_next X (s_slew3 (st f)) _ _) as [c z]. apply pair_equal_spec in Hb as [<- <-]. by exists x, y, z. }
      split.
      { rewrite <- W1. assert (HB : forall f, f <= nframes -> s_blocks (st f) = S (s_blocks s)); [|by apply HB].
        induction f as [|f IH]; intros Hf; [by rewrite W0|]. destruct (Hbody f ltac:(lia)) as (x & y & z & _ & -> & _). apply IH. lia. }
      exists (fun f => rd ins 0 f), (fun f => rd ins 1 f), (fun f => rd ins 2 f), (fun f => rd ins 3 f), (fun f => default f32_zero (lastw 0 (w f))), (fun f => default f32_zero (lastw 1 (w f))), (fun f => default f32_zero (lastw 2 (w f))).
      do 4 (split; [apply Hins; lia|]).
      do 3 (split; [apply W3; [lia|]; intros f Hf; destruct (Hbody f Hf) as (x & y & z & -> & _); done|]).
      exists (fun f => (s_slew1 (st f), s_slew2 (st f), s_slew3 (st f))). rewrite W0, W1. split; [done|]. split; [done|]. intros f Hf. destruct (Hbody f Hf) as (x & y & z & -> & _ & H1 & H2 & H3). by exists x, y, z.
    - apply pair_equal_spec in Hpr as [<- <-]. split; [done|]. intros c Hc. destruct (Hold c ltac:(lia)) as (b & B1 & B2 & _). destruct (Houts c ltac:(lia)) as (b' & C1 & C2). congruence.
  Qed.

  (** A quantizer puts out the pitch of the key that it snaps to, with the octave added, and a trigger when the pitch changes. *)
  Theorem C65_quantizers g ma n nframes n' : serves g ma n -> en_queue n = [] -> 0 < nframes <= block_size -> step n (EBlock nframes) = Some n' ->
    let p := ex_prog (en_exec n') in wired T g ma p /\
    forall op, op ∈ np_ops p ->
    let gets := arrives T mix g ma p nframes (en_heap n') op in
    let gives := leaves p nframes (en_heap n') op in
    let s := node_state n (op_node op) in let s' := node_state n' (op_node op) in
    (nid_kind (op_node op) = kind_quant -> exists freq oct keys out t, gets 0 freq /\ gets 1 oct /\ np_atoms p !! (op_at op).1 = Some keys /\ gives 0 out /\ gives 1 t /\
      through (x_keys X (s_quant s) (atom_i f2i keys), s_change s) (s_quant s', s_change s') nframes (fun f '(q, c) '(q', c') => exists pitch,
        x_snap X q (freq f) = (q', pitch) /\ x_change_next X c pitch = (c', t f) /\ out f = fadd pitch (denorm kind_quant 1 (oct f)))) /\
    (nid_kind (op_node op) = kind_cqnt -> exists inp oct keys omin omax out t, gets 0 inp /\ gets 1 oct /\ np_atoms p !! (op_at op).1 = Some keys /\
      np_atoms p !! ((op_at op).1 + 1) = Some omin /\ np_atoms p !! ((op_at op).1 + 2) = Some omax /\ gives 0 out /\ gives 1 t /\
      through (x_ckeys X (s_cqnt s) (atom_i f2i keys) (atom_i f2i omin) (atom_i f2i omax), s_change s) (s_cqnt s', s_change s') nframes (fun f '(q, c) '(q', c') => exists pitch,
        x_csnap X q (denorm kind_cqnt 0 (inp f)) = (q', pitch) /\ x_change_next X c pitch = (c', t f) /\ out f = fadd pitch (denorm kind_cqnt 1 (oct f)))).
  Proof.
    start Hs Hq Hnf E. assert (HA := H). assert (HB := H). split; [apply H|]. intros op0 Hop0 gets0 gives0 s0 s0'. split.
    - subst s0 s0'. revert op0 Hop0 gets0 gives0. apply (proj2 (A := wired T g ma p)). clear HB H. rename HA into H. block_of H Hk. pick Hpr.
      destruct (fx_loop _ _ _ _ _ _ _ _ _ _ (proj2 Hnf) Hpr Hold Houts) as (st & w & W0 & W1 & W2 & W3).
      destruct (Hats 0 ltac:(lia)) as (keys & Ha & Hkeys). rewrite Nat.add_0_r in Hkeys. unfold at_i in W0. rewrite Ha in W0. cbn [from_option] in W0.
      exists (fun f => rd ins 0 f), (fun f => rd ins 1 f), keys, (fun f => default f32_zero (lastw 0 (w f))), (fun f => default f32_zero (lastw 1 (w f))).
      do 2 (split; [apply Hins; lia|]). split; [done|].
      assert (Hbody : forall f, f < nframes -> exists y t, w f = [(1, t); (0, fadd y (denorm kind_quant 1 (rd ins 1 f)))] /\
        x_snap X (s_quant (st f)) (rd ins 0 f) = (s_quant (st (S f)), y) /\ x_change_next X (s_change (st f)) y = (s_change (st (S f)), t)).
      { intros f Hf. pose proof (W2 f Hf) as Hb. unfold quant_frame in Hb. destruct (x_snap X (s_quant (st f)) _) as [q y]. destruct (x_change_next X (s_change (st f)) y) as [c t] eqn:Ec.
        apply pair_equal_spec in Hb as [<- <-]. by exists y, t. }
      do 2 (split; [apply W3; [lia|]; intros f Hf; destruct (Hbody f Hf) as (y & t & -> & _); done|]).
      exists (fun f => (s_quant (st f), s_change (st f))). rewrite W0, W1. split; [done|]. split; [done|]. intros f Hf. destruct (Hbody f Hf) as (y & t & -> & H1 & H2). by exists y.
    - subst s0 s0'. revert op0 Hop0 gets0 gives0. apply (proj2 (A := wired T g ma p)). clear HA H. rename HB into H. block_of H Hk. pick Hpr.
      destruct (fx_loop _ _ _ _ _ _ _ _ _ _ (proj2 Hnf) Hpr Hold Houts) as (st & w & W0 & W1 & W2 & W3).
      destruct (Hats 0 ltac:(lia)) as (keys & Ha & Hkeys). rewrite Nat.add_0_r in Hkeys. destruct (Hats 1 ltac:(lia)) as (omin & Ha1 & Hmin). destruct (Hats 2 ltac:(lia)) as (omax & Ha2 & Hmax).
      unfold at_i in W0. rewrite Ha, Ha1, Ha2 in W0. cbn [from_option] in W0.
      exists (fun f => rd ins 0 f), (fun f => rd ins 1 f), keys, omin, omax, (fun f => default f32_zero (lastw 0 (w f))), (fun f => default f32_zero (lastw 1 (w f))).
      do 2 (split; [apply Hins; lia|]). do 3 (split; [done|]).
      assert (Hbody : forall f, f < nframes -> exists y t, w f = [(1, t); (0, fadd y (denorm kind_cqnt 1 (rd ins 1 f)))] /\
        x_csnap X (s_cqnt (st f)) (denorm kind_cqnt 0 (rd ins 0 f)) = (s_cqnt (st (S f)), y) /\ x_change_next X (s_change (st f)) y = (s_change (st (S f)), t)).
      { intros f Hf. pose proof (W2 f Hf) as Hb. unfold cqnt_frame in Hb. destruct (x_csnap X (s_cqnt (st f)) _) as [q y]. destruct (x_change_next X (s_change (st f)) y) as [c t] eqn:Ec.
        apply pair_equal_spec in Hb as [<- <-]. by exists y, t. }
      do 2 (split; [apply W3; [lia|]; intros f Hf; destruct (Hbody f Hf) as (y & t & -> & _); done|]).
      exists (fun f => (s_cqnt (st f), s_change (st f))). rewrite W0, W1. split; [done|]. split; [done|]. intros f Hf. destruct (Hbody f Hf) as (y & t & -> & H1 & H2). by exists y.
  Qed.

  (** The Test node puts out its parameter and what it knows about its connections: whether its first output and its input are connected, and the
      set of its connected outputs. It triggers in the first frame of a block in which "trig" is above zero, but only once. *)
  Theorem C65_test g ma n nframes n' : serves g ma n -> en_queue n = [] -> 0 < nframes <= block_size -> step n (EBlock nframes) = Some n' ->
    let p := ex_prog (en_exec n') in wired T g ma p /\
    forall op, op ∈ np_ops p ->
    let gets := arrives T mix g ma p nframes (en_heap n') op in
    let gives := leaves p nframes (en_heap n') op in
    nid_kind (op_node op) = kind_test ->
    let s := node_state n (op_node op) in let s' := node_state n' (op_node op) in
    exists par trig tsig set, np_atoms p !! (op_at op).1 = Some par /\ np_atoms p !! ((op_at op).1 + 1) = Some trig /\
      gives 0 (fun _ => atom_f par) /\ gives 1 tsig /\
      (feeds_out T g op 0 -> gives 2 (fun _ => q2f 1)) /\ (~ feeds_out T g op 0 -> gives 2 (fun _ => q2f 0)) /\
      (connected T g op 0 -> gives 3 (fun _ => q2f 1)) /\ (~ connected T g op 0 -> gives 3 (fun _ => q2f 0)) /\
      mask_of set (feeds_out T g op) /\ gives 5 (fun _ => n2f set) /\
      let fires := (0 <? atom_i f2i trig)%Z in
      s_fired s' = s_fired s || fires /\
      through (s_pulse s) (s_pulse s') nframes (fun f u u' => x_pulse_next X (if (f =? 0) && fires && negb (s_fired s) then x_fire X u else u) = (u', tsig f)).
  Proof.
    start Hs Hq Hnf E. block_of H Hk. intros s s'. pick Hpr. fold s s' in Hpr.
    destruct (Hats 0 ltac:(lia)) as (par & Ha & Hpar). rewrite Nat.add_0_r in Hpar. destruct (Hats 1 ltac:(lia)) as (trig & Ha1 & Htrig).
    unfold at_i in Hpr. rewrite Ha, Ha1 in Hpr. cbn [from_option] in Hpr.
    destruct (test_arm (s_fired s) (atom_i f2i trig)) as [fired trigger] eqn:Earm.
    assert (Harm : fired = s_fired s || (0 <? atom_i f2i trig)%Z /\ trigger = (0 <? atom_i f2i trig)%Z && negb (s_fired s)).
    { unfold test_arm in Earm. destruct (s_fired s), (0 <? atom_i f2i trig)%Z, (atom_i f2i trig =? 0)%Z; cbn in Earm; injection Earm as <- <-; done. }
    destruct Harm as [-> ->]. clear Earm.
    match type of Hpr with context [frames ?b ?x ?y ?z ?o] => destruct (frames b x y z o) as [[tr s1] outs1] eqn:EF end. apply pair_equal_spec in Hpr as [Hs1 ->].
    destruct (fx_loop _ _ _ _ _ _ _ _ _ _ (proj2 Hnf) EF Hold Houts) as (st & w & W0 & W1 & W2 & W3).
    set (fires := (0 <? atom_i f2i trig)%Z) in *.
    assert (Hbody : forall f, f < nframes -> exists t,
      w f = [(0, atom_f par); (1, t); (2, if negb (N.land (op_outc op) 1 =? 0)%N then q2f 1 else q2f 0); (3, if negb (N.land (op_inc op) 1 =? 0)%N then q2f 1 else q2f 0); (5, n2f (op_outc op))] /\
      x_pulse_next X (if (st f).1 then x_fire X (s_pulse (st f).2) else s_pulse (st f).2) = (s_pulse (st (S f)).2, t) /\ (st (S f)).1 = false /\ s_fired (st (S f)).2 = s_fired (st f).2).
    { intros f Hf. pose proof (W2 f Hf) as Hb. unfold test_frame in Hb. destruct (st f) as [tr0 sf]. cbn [fst snd]. destruct (x_pulse_next X _) as [u t].
      apply pair_equal_spec in Hb as [<- <-]. by exists t. }
    assert (Hfst : forall f, f < nframes -> (st f).1 = (f =? 0) && fires && negb (s_fired s)).
    { intros [|f] Hf; [by rewrite W0|]. destruct (Hbody f ltac:(lia)) as (t & _ & _ & -> & _). done. }
    assert (Hfired : forall f, f <= nframes -> s_fired (st f).2 = s_fired s || fires).
    { induction f as [|f IH]; intros Hf; [by rewrite W0|]. destruct (Hbody f ltac:(lia)) as (t & _ & _ & _ & ->). apply IH. lia. }
    destruct (bit_tests (op_outc op)) as (_ & _ & _ & TO & _). destruct (bit_tests (op_inc op)) as (_ & _ & _ & TI & _).
    pose proof (feeds_bit g ma p op 0 Hw Hop) as BO. pose proof (connected_bit g ma p op 0 Hw Hop) as BI. change (N.of_nat 0) with 0%N in BO, BI. rewrite <- TO in BO. rewrite <- TI in BI.
    exists par, trig, (fun f => default f32_zero (lastw 1 (w f))), (op_outc op). split; [done|]. split; [done|].
    do 2 (split; [apply W3; [lia|]; intros f Hf; destruct (Hbody f Hf) as (t & -> & _); done|]).
    split; [intros HH; apply W3; [lia|]; intros f Hf; destruct (Hbody f Hf) as (t & -> & _); apply BO in HH; by rewrite HH|].
    split; [intros HH; apply W3; [lia|]; intros f Hf; destruct (Hbody f Hf) as (t & -> & _); destruct (negb (N.land (op_outc op) 1 =? 0)%N); [by exfalso; apply HH, BO|done]|].
    split; [intros HH; apply W3; [lia|]; intros f Hf; destruct (Hbody f Hf) as (t & -> & _); apply BI in HH; by rewrite HH|].
    split; [intros HH; apply W3; [lia|]; intros f Hf; destruct (Hbody f Hf) as (t & -> & _); destruct (negb (N.land (op_inc op) 1 =? 0)%N); [by exfalso; apply HH, BI|done]|].
    split; [intros j; by apply (feeds_bit g ma p op j Hw Hop)|].
    split; [apply W3; [lia|]; intros f Hf; destruct (Hbody f Hf) as (t & -> & _); done|].
    assert (Hend : s' = (st nframes).2) by (by rewrite W1, <- Hs1). cbv zeta. split; [rewrite Hend; by apply Hfired|].
    exists (fun f => s_pulse (st f).2). rewrite W0, Hend. split; [done|]. split; [done|]. intros f Hf. destruct (Hbody f Hf) as (t & -> & Ht & _). rewrite <- Hfst by done. done.
  Qed.

  (** Mux9 follows its selection input exactly if this is connected, and Scope shows exactly the inputs that are connected. *)
  Theorem C65_looks g ma p op : wired T g ma p -> op ∈ np_ops p ->
    (mux9_slct_connected (op_inc op) = true <-> connected T g op 0) /\
    let '(a, b, c) := scope_connected (op_inc op) in
    (a = true <-> connected T g op 0) /\ (b = true <-> connected T g op 1) /\ (c = true <-> connected T g op 2).
  Proof.
    intros Hw Hop. destruct (bit_tests (op_inc op)) as (T1 & _ & _ & T4 & T5 & T6). unfold mux9_slct_connected, scope_connected. rewrite T1, T4, T5, T6.
    pose proof (fun j => connected_bit g ma p op j Hw Hop) as B. pose proof (B 0) as B0. pose proof (B 1) as B1. pose proof (B 2) as B2.
    change (N.of_nat 0) with 0%N in B0. change (N.of_nat 1) with 1%N in B1. change (N.of_nat 2) with 2%N in B2. done.
  Qed.
End fx.
Print Assumptions C65_reverb.
Print Assumptions C65_delay.
Print Assumptions C65_filters.
Print Assumptions C65_ad.
Print Assumptions C65_adsr.
Print Assumptions C65_lfo.
Print Assumptions C65_external.
Print Assumptions C65_quantizers.
Print Assumptions C65_test.
Print Assumptions C65_looks.

(** ** A concrete history: Inp, a reverb that is fed on its right side only, and Out, under each other; two blocks *)
Definition demo_lib : fxlib :=
  FxLib (fun d w m => d + w * m)%Z
    Z (fun v ps l r => (v + l, (100 * l + v, 1000 * r + Z.of_nat (length ps)))%Z)
    Z (fun l t => l)%Z (fun l k => l)%Z (fun l x => x)%Z Z (fun c t => (c, 0)) Z (fun c _ _ v => (c, v)) (fun c _ _ v => (c, v)) Z (fun c _ _ v => (c, v))
    Z (fun e _ _ _ _ _ => (e, (e, e))) Z (fun e _ _ => (e, (e, e))) Z (fun t _ => (t, false)) Z (fun o => o) (fun o _ _ => o) (fun o => (o, o))
    Z (fun s x _ => (s, x)) Z (fun q _ => q) (fun q x => (q, x)) Z (fun q _ _ _ => q) (fun q x => (q, x)) Z (fun c x => (c, x)) Z (fun u => u) (fun u => (u, u)).
Definition demo_fxs : fxs demo_lib := @FxS demo_lib 7%Z 0%Z 0%Z 0%Z 0%Z 0%Z 0%Z 0%Z 0%Z 0%Z 0%Z 0%Z 0%Z 0%Z 0%Z 0%Z false 0.
Definition fx_def (k i : nat) : f32 := 1%Z.
Local Notation XT := (hexo_table fx_def (fun _ _ v => v) (fun _ _ v => v) Qnum).
Local Notation xrest := (fx_rest (fun _ _ v => v) Qnum Z.add Z.mul Z.sub Z.div (fun x lo hi => Z.max lo (Z.min hi x)) (fun v => v) Z.of_N (fun a => match a with AParam v => v | _ => 0%Z end)
  demo_lib (fun _ _ => None) silent_rest).
Local Notation xsem := (path_sem (fun _ _ v => v) Z.add Z.mul (Z.max 0) Z.abs (fun v => v) xrest).
Local Notation xst := (device * ((node_id -> fxs demo_lib) * nat))%type.
Local Notation xstep := (engine_step XT (fun z => z) (fun a => a) (fun _ _ _ => 1%Z) Z.add (fun v a x => v + a * x)%Z xsem).
Local Notation xserves := (serves XT (fun z => z) (fun a => a) (fun _ _ _ => 1%Z) Z.add (fun v a x => v + a * x)%Z xsem).
Local Notation xstate := (grid * gmap (node_id * nat) (option f32) * engine xst)%type.
Definition fx_checked (s : xstate) (o : eop) : option xstate :=
  let '(g, ma, n) := s in
  let* n' := xstep n o in
  let ok := match o with EMx o' => match matrix_step XT (fun z => z) (fun a => a) (en_heap n) (en_mx n) o' with Some (_, _, ms) => length (en_queue n) + length ms <=? 512 | None => false end | _ => true end in
  if ok && (length (created (mx_conf (en_mx n'))) <=? 256) then
    Some (if publishes XT n o then lay_grid (mx_lay (en_mx n')) else g, if publishes XT n o then cf_modamt (mx_conf (en_mx n')) else ma, n')
  else None.
Lemma fx_checked_ok os : forall (s s' : xstate), xserves s.1.1 s.1.2 s.2 -> foldm fx_checked s os = Some s' -> xserves s'.1.1 s'.1.2 s'.2.
Proof.
  induction os as [|o os IH]; intros [[g ma] n] s' Hn; cbn [foldm]; [by intros [= <-]|].
  destruct (fx_checked (g, ma, n) o) as [s1|] eqn:E; cbn [mbind option_bind]; [|done]. apply IH. unfold fx_checked in E. cbn [fst snd] in Hn, E.
  destruct (xstep n o) as [n1|] eqn:E1; cbn [mbind option_bind] in E; [|done].
  match type of E with (if ?a && ?b then _ else _) = _ => destruct a eqn:E2; cbn [andb] in E; [|done]; destruct b eqn:E3; [|done] end.
  injection E as <-. cbn [fst snd]. apply serves_next; [exact Hn| |exact E1|by apply Nat.leb_le in E3].
  intros o' h m ms -> Em. rewrite Em in E2. by apply Nat.leb_le in E2.
Qed.

Definition fx_steps : list eop :=
  [EMx (MxLay (LPlace 0 0 (Cell (NId kind_inp 0) 0 0 None (Some 1) (Some 0) None None None)));
   EMx (MxLay (LPlace 0 1 (Cell (NId kind_pverb 0) 0 1 None None (Some 0) (Some 1) None None)));
   EMx (MxLay (LPlace 0 2 (Cell (NId kind_out 0) 0 2 None None None (Some 0) None None)));
   EMx (MxSet (NId kind_out 0, 3) (ASetting 1)); EMx MxSync; EDrain 5; EBlock 2].
Definition fx_start : xstate :=
  (lay_grid (mx_lay (matrix_new 3 4)), ∅, engine_new 3 4 1 (Device (fun c f => 100 * Z.of_nat c + Z.of_nat f + 10)%Z ∅, (fun _ => demo_fxs, 0))).
(* Both sides hear 10, 11, 12, ... of the device; the reverb starts the second block with 7 + 10 + 11 *)
Definition fx_seen (n' : engine xst) : list (option f32) := (fun f => dv_out (en_st n').1 !! (0, f)) <$> seq 0 4.
Example C65_case : exists g ma n n', foldm fx_checked fx_start fx_steps = Some (g, ma, n) /\ xserves g ma n /\ en_queue n = [] /\
  op_node <$> np_ops (ex_prog (en_exec n)) = [NId kind_inp 0; NId kind_pverb 0; NId kind_out 0] /\
  s_verb (node_state demo_lib n (NId kind_pverb 0)) = 28%Z /\
  xstep n (EBlock 3) = Some n' /\ fx_seen n' = [Some (10 + (1000 + 28)); Some (11 + (1100 + 38)); Some (12 + (1200 + 49)); None]%Z.
Proof.
  assert (H : (s ← foldm fx_checked fx_start fx_steps; n' ← xstep s.2 (EBlock 3); Some (op_node <$> np_ops (ex_prog (en_exec s.2)), en_queue s.2, s_verb (node_state demo_lib s.2 (NId kind_pverb 0)), fx_seen n')) =
    Some ([NId kind_inp 0; NId kind_pverb 0; NId kind_out 0], [], 28%Z, [Some (10 + (1000 + 28)); Some (11 + (1100 + 38)); Some (12 + (1200 + 49)); None]%Z))
    by (vm_compute; reflexivity).
  destruct (foldm fx_checked fx_start fx_steps) as [[[g ma] n]|] eqn:E; [|discriminate H]. cbn [mbind option_bind snd] in H.
  destruct (xstep n (EBlock 3)) as [n'|] eqn:E'; [|discriminate H]. cbn [mbind option_bind] in H. apply (inj Some) in H. apply pair_equal_spec in H as [H H3]. apply pair_equal_spec in H as [H H2]. apply pair_equal_spec in H as [H0 H1].
  exists g, ma, n, n'. split; [reflexivity|]. split; [|split; [exact H1|split; [exact H0|split; [exact H2|split; [exact E'|exact H3]]]]].
  change (xserves (g, ma, n).1.1 (g, ma, n).1.2 (g, ma, n).2). eapply fx_checked_ok; [|exact E]. constructor.
Qed.
