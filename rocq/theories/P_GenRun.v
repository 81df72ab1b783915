(** The oscillators BOsc, VOsc and BowStri in a running patch (C66) *)
From Coq Require Import QArith.
From Verif Require Import Base M_Atom M_Graph M_Dir M_Grid S_Grid M_Layout S_Layout M_Prog M_Conf M_Exec M_Sync M_Engine M_Nodes M_Path M_Fx M_Gen.
From Verif Require Import S_Conf S_Sync S_Prog S_Own S_Flow S_Path S_Fx L_Conf L_Sync L_Own L_Own2 L_Own3 L_Flow L_Flow2 L_Path P_Nodes P_Path L_Fx.
Open Scope nat_scope.
Local Opaque block_size.

Section fits.
  Context (denorm : nat -> nat -> f32 -> f32) (O : fops f32) (X : genlib f32) (srate : f32) (f2i : f32 -> Z).
  Context {R : Type}.
  Context (other : node_id -> R -> nat -> N -> N -> list satom -> list (list f32) -> list (list f32) -> list (list f32) -> R * list (list f32)).
  Local Notation process := (gen_process denorm O X srate f2i).
  Lemma gprocess_fits n s nf oc ic ats ins outs : Forall (fun b : list f32 => length b = block_size) outs ->
    length (process n s nf oc ic ats ins outs).2 = length outs /\ Forall (fun b : list f32 => length b = block_size) (process n s nf oc ic ats ins outs).2.
  Proof.
    intros H. unfold gen_process. cbv beta zeta.
    repeat match goal with |- context [if ?b then _ else _] => destruct b end; try done.
    all: match goal with |- context [frames ?B ?s ?f ?n ?o] => pose proof (frames_length B n s f o) as H1; pose proof (frames_fits B n s f o H) as H2; destruct (frames B s f n o) as [? ?] end; done.
  Qed.
  Lemma gen_fits : node_fits other -> node_fits (gen_rest denorm O X srate f2i other).
  Proof.
    intros Ho n st k oc ic ats ps is os H. unfold gen_rest. destruct (decide _).
    - pose proof (gprocess_fits n (st.1 n) k oc ic ats is os H) as HP. by destruct (process _ _ _ _ _ _ _ _).
    - pose proof (Ho n st.2 k oc ic ats ps is os H) as HP. by destruct (other _ _ _ _ _ _ _ _ _).
  Qed.
End fits.

Lemma chain_spec (X : genlib f32) fs : forall y fs' z, body_chain X fs y = (fs', z) ->
  length fs' = length fs /\ exists ys : nat -> f32, ys 0 = y /\ ys (length fs) = z /\
    forall i x x', fs !! i = Some x -> fs' !! i = Some x' -> g_tick X x (ys i) = (x', ys (S i)).
Proof.
  induction fs as [|f fs IH]; intros y fs' z E; cbn [body_chain] in E.
  - injection E as <- <-. split; [done|]. exists (fun _ => y). do 2 (split; [done|]). intros i x x' H. by rewrite lookup_nil in H.
  - destruct (g_tick X f y) as [f1 y1] eqn:E1. destruct (body_chain X fs y1) as [fs1 y2] eqn:E2. apply pair_equal_spec in E as [<- <-].
    destruct (IH _ _ _ E2) as (Hl & ys & Y1 & Y2 & Y3). split; [cbn [length]; by rewrite Hl|].
    exists (fun i => match i with 0 => y | S i => ys i end). split; [done|]. split; [done|].
    intros [|i] x x' H1 H2; cbn in H1, H2.
    + injection H1 as <-. injection H2 as <-. by rewrite Y1.
    + by apply Y3.
Qed.

Section gen.
  Context (def : nat -> nat -> f32) (norm denorm : nat -> nat -> f32 -> f32) (q2f : Q -> f32).
  Local Notation T := (hexo_table def norm denorm q2f).
  Context (i2f : Z -> f32) (load_sample : satom -> satom).
  Context (finc : f32 -> f32 -> nat -> f32) (fadd : f32 -> f32 -> f32) (mix : f32 -> f32 -> f32 -> f32).
  Context (fmul : f32 -> f32 -> f32) (fmax0 fabs : f32 -> f32) (f2i : f32 -> Z).
  Context (O : fops f32) (X : genlib f32) (srate : f32).
  Context {R : Type}.
  Context (other : node_id -> R -> nat -> N -> N -> list satom -> list (list f32) -> list (list f32) -> list (list f32) -> R * list (list f32)).
  Context (Hother : node_fits other).
  Local Notation process := (gen_process denorm O X srate f2i).
  Local Notation rest := (gen_rest denorm O X srate f2i other).
  Local Notation sem := (path_sem denorm fadd fmul fmax0 fabs f2i rest).
  Local Notation serves := (serves T i2f load_sample finc fadd mix sem).
  Local Notation step := (engine_step T i2f load_sample finc fadd mix sem).

  (** the state that a node is in *)
  Definition osc_state (n : engine (device * ((node_id -> gens X) * R))) (id : node_id) : gens X := (en_st n).2.1 id.

  Lemma sem_gen nd s nf oc ic ats own ins old : nid_kind nd ∈ gen_kinds ->
    sem nd s nf oc ic ats own ins old =
      let '(x, outs) := process nd (s.2.1 nd) nf oc ic ats ins old in
      ((s.1, (fun m => if decide (m = nd) then x else s.2.1 m, s.2.2)), outs).
  Proof.
    intros Hk. unfold path_sem.
    assert (HN : (nid_kind nd =? kind_out) = false /\ (nid_kind nd =? kind_inp) = false /\ (nid_kind nd =? kind_amp) = false /\ (nid_kind nd =? kind_mix3) = false).
    { unfold gen_kinds in Hk. repeat (apply elem_of_cons in Hk as [->|Hk]; [done|]). by apply elem_of_nil in Hk. }
    destruct HN as (-> & -> & -> & ->). unfold gen_rest. rewrite decide_True by done. by destruct (process _ _ _ _ _ _ _ _).
  Qed.
  Lemma sem_keeps nd s nf oc ic ats own ins old s' outs id : id <> nd -> sem nd s nf oc ic ats own ins old = (s', outs) -> s'.2.1 id = s.2.1 id.
  Proof.
    intros Hid. unfold path_sem. destruct (_ =? kind_out); [by intros [= <- _]|].
    destruct (_ =? kind_inp); [by intros [= <- _]|]. destruct (_ =? kind_amp); [by intros [= <- _]|]. destruct (_ =? kind_mix3); [by intros [= <- _]|].
    unfold gen_rest. destruct (decide (nid_kind nd ∈ _)).
    - destruct (process _ _ _ _ _ _ _ _). intros [= <- _]. cbn [snd fst]. by rewrite decide_False.
    - destruct (other _ _ _ _ _ _ _ _ _). by intros [= <- _].
  Qed.

  (** a node that runs in the block goes from its state before to its state after it *)
  Lemma gen_ran g ma n nframes n' : serves g ma n -> en_queue n = [] -> 0 < nframes <= block_size -> step n (EBlock nframes) = Some n' ->
    let p := ex_prog (en_exec n') in wired T g ma p /\
    forall op, op ∈ np_ops p -> nid_kind (op_node op) ∈ gen_kinds -> exists ats ins old outs,
      (forall j, j < kind_ats T (op_node op) -> exists a, ats !! j = Some a /\ np_atoms p !! ((op_at op).1 + j) = Some a) /\
      (forall j, j < kind_ins T (op_node op) -> arrives T mix g ma p nframes (en_heap n') op j (fun f => rd ins j f)) /\
      process (op_node op) (osc_state n (op_node op)) nframes (op_outc op) (op_inc op) ats ins old = (osc_state n' (op_node op), outs) /\
      (forall j, j < kind_outs T (op_node op) -> exists b, old !! j = Some b /\ samples (en_heap n) (out_buf p op j) = Some b /\ length b = block_size) /\
      (forall j, j < kind_outs T (op_node op) -> exists b, outs !! j = Some b /\ samples (en_heap n') (out_buf p op j) = Some b).
  Proof.
    intros Hs0 Hq [Hnf Hbs] E. pose proof (gen_fits denorm O X srate f2i other Hother) as Hrest.
    pose proof (C51_published def norm denorm q2f i2f load_sample finc fadd mix fmul fmax0 fabs f2i rest Hrest g ma n Hs0 Hq) as Hw.
    pose proof (block_ran def norm denorm q2f i2f load_sample finc fadd mix fmul fmax0 fabs f2i rest Hrest g ma n nframes n' (serves_small _ _ _ _ _ _ _ _ _ _ Hs0) Hw Hnf E) as Hb.
    split; [apply (b_wired _ _ _ _ _ _ _ _ _ _ _ _ _ _ _ _ Hb)|].
    intros op Hop Hk. apply elem_of_list_lookup in Hop as Hi. destruct Hi as [i Hi].
    destruct (b_flow _ _ _ _ _ _ _ _ _ _ _ _ _ _ _ _ Hb) as [(sts & H0 & Hend & Hsts) _].
    assert (Hnd : NoDup (op_node <$> np_ops (ex_prog (en_exec n')))) by apply (w_order _ _ _ _ (b_wired _ _ _ _ _ _ _ _ _ _ _ _ _ _ _ _ Hb)).
    assert (Hkeep : forall k s s', k <= length (np_ops (ex_prog (en_exec n'))) -> forall d, d <= k ->
        (forall i', d <= i' < k -> i' <> i) -> sts !! d = Some s -> sts !! k = Some s' -> s'.2.1 (op_node op) = s.2.1 (op_node op)).
    { intros k. induction k as [|k IH]; intros s s' Hk' d Hd Hne S1 S2; [assert (d = 0) as -> by lia; congruence|].
      destruct (decide (d = S k)) as [->|Hdk]; [congruence|].
      destruct (lookup_lt_is_Some_2 (np_ops (ex_prog (en_exec n'))) k) as [op' Hop']; [lia|].
      destruct (Hsts _ _ Hop') as (s1 & s2 & S3 & S4 & (ats & own & ins & old & outs & _ & _ & _ & _ & _ & _ & _ & _ & _ & _ & Hsem)).
      assert (s2 = s') as -> by congruence. rewrite (sem_keeps _ _ _ _ _ _ _ _ _ _ _ (op_node op) ltac:(intros Heq; apply (Hne k); [lia|]; eapply (NoDup_lookup _ _ _ (op_node op) Hnd); [by rewrite list_lookup_fmap, Hop', Heq|by rewrite list_lookup_fmap, Hi]) Hsem).
      eapply (IH s s1 ltac:(lia) d ltac:(lia)); [|done|done]. intros i' Hi'. apply Hne. lia. }
    destruct (Hsts _ _ Hi) as (s & s' & S1 & S2 & (ats & own & ins & old & outs & La & Lo & Li & Lold & Louts & Ha & Hown & Hins & Hold & Houts & Hsem)).
    pose proof (lookup_lt_Some _ _ _ Hi) as Hlen.
    assert (Hs : s.2.1 (op_node op) = osc_state n (op_node op)) by (eapply (Hkeep i _ _ ltac:(lia) 0); [lia|lia|done|done]).
    assert (Hs' : osc_state n' (op_node op) = s'.2.1 (op_node op)) by (eapply (Hkeep (length (np_ops (ex_prog (en_exec n')))) _ _ ltac:(lia) (S i)); [lia|lia|done|done]).
    exists ats, ins, old, outs. rewrite sem_gen in Hsem by done. rewrite <- Hs, Hs'.
    split; [|split; [|split; [|split]]].
    - intros j Hj. destruct (lookup_lt_is_Some_2 ats j) as [a Hat]; [lia|]. exists a. split; [done|]. rewrite <- Hat. symmetry. apply Ha. lia.
    - intros j Hj. eapply (arrives_ok def norm denorm q2f fadd mix fmul fmax0 fabs f2i rest n n' nframes g ma op j ats own ins old outs s s' Hb); try done; try congruence; try lia.
      rewrite sem_gen by done. done.
    - destruct (process _ _ _ _ _ _ _ _) as [x o]. apply pair_equal_spec in Hsem as [<- ->]. cbn [snd fst]. by rewrite decide_True.
    - intros j Hj. destruct (lookup_lt_is_Some_2 old j) as [b Hb']; [lia|]. exists b. split; [done|]. rewrite <- Hold by lia. split; [done|].
      rewrite Hold in Hb' by lia. unfold samples in Hb'. apply bind_Some in Hb' as (z & _ & Hz). by eapply (b_old _ _ _ _ _ _ _ _ _ _ _ _ _ _ _ _ Hb).
    - intros j Hj. destruct (lookup_lt_is_Some_2 outs j) as [b Hb']; [lia|]. exists b. split; [done|]. rewrite <- Houts by lia. done.
  Qed.

  (** the loop of a block: its states and what it leaves in the output buffers *)
  Lemma gen_loop {S} (body : S -> nat -> S * list (nat * f32)) s s' nframes old outs p h h' op : nframes <= block_size ->
    frames body s 0 nframes old = (s', outs) ->
    (forall j, j < kind_outs T (op_node op) -> exists b, old !! j = Some b /\ samples h (out_buf p op j) = Some b /\ length b = block_size) ->
    (forall j, j < kind_outs T (op_node op) -> exists b, outs !! j = Some b /\ samples h' (out_buf p op j) = Some b) ->
    exists st w, st 0 = s /\ st nframes = s' /\ (forall f, f < nframes -> body (st f) f = (st (Datatypes.S f), w f)) /\
      forall j v, j < kind_outs T (op_node op) -> (forall f, f < nframes -> lastw j (w f) = Some (v f)) -> leaves p nframes h' op j v.
  Proof.
    intros Hbs E Hold Houts. apply frames_spec in E as (_ & st & w & W1 & W2 & W3 & W4). cbn [plus] in *. exists st, w.
    split; [done|]. split; [done|]. split; [intros f Hf; apply W3; lia|]. intros j v Hj Hv.
    destruct (Hold j Hj) as (b & B1 & _ & B3). destruct (Houts j Hj) as (b1 & C1 & C2). destruct (W4 j b B1) as (b2 & D1 & D2 & _ & D4).
    assert (b2 = b1) as -> by congruence. exists b1. split; [done|]. intros f Hf. rewrite D4 by lia. by rewrite Hv.
  Qed.

  Ltac member := unfold gen_kinds; repeat (first [apply elem_of_list_here|apply elem_of_list_further]).
  (* the block of a node of kind [k]: [ats], [ins] and the states and writes of its loop *)
  Ltac block_of H Hk :=
    let op := fresh "op" in let Hop := fresh "Hop" in
    destruct H as [Hw H]; split; [exact Hw|]; intros op Hop gets gives Hk;
    destruct (H op Hop ltac:(rewrite Hk; member)) as (ats & ins & old & outs & Hats & Hins & Hpr & Hold & Houts);
    unfold gen_process in Hpr; cbv beta zeta in Hpr; rewrite Hk in Hpr;
    assert (Hni : kind_ins T (op_node op) = nt_ins T (nid_kind (op_node op))) by reflexivity;
    assert (Hno : kind_outs T (op_node op) = nt_outs T (nid_kind (op_node op))) by reflexivity;
    assert (Hna : kind_ats T (op_node op) = nt_ats T (nid_kind (op_node op))) by reflexivity;
    rewrite Hk in Hni, Hno, Hna;
    (match type of Hni with _ = ?e => let v := eval vm_compute in e in change (kind_ins T (op_node op) = v) in Hni end);
    (match type of Hno with _ = ?e => let v := eval vm_compute in e in change (kind_outs T (op_node op) = v) in Hno end);
    (match type of Hna with _ = ?e => let v := eval vm_compute in e in change (kind_ats T (op_node op) = v) in Hna end).
  Ltac pick Hpr := repeat match type of Hpr with (if ?c then _ else _) = _ => first [change c with false in Hpr|change c with true in Hpr]; cbv iota in Hpr end.
  Ltac start Hs Hq Hnf E :=
    intros Hs Hq Hnf E p; pose proof (gen_ran _ _ _ _ _ Hs Hq Hnf E) as H; cbv zeta in H; fold p in H.

  (* the LED reads the last frame that the loop wrote *)
  Lemma led_last p nframes h' op outs v : 0 < nframes -> 0 < kind_outs T (op_node op) ->
    (forall j, j < kind_outs T (op_node op) -> exists b, outs !! j = Some b /\ samples h' (out_buf p op j) = Some b) ->
    leaves p nframes h' op 0 v -> rd outs 0 (nframes - 1) = v (nframes - 1).
  Proof.
    intros Hnf H0 Houts (b & B1 & B2). destruct (Houts 0 H0) as (b' & C1 & C2). assert (b' = b) as -> by congruence.
    unfold rd. rewrite C1. cbn [mbind option_bind]. rewrite B2 by lia. done.
  Qed.

  (** A basic oscillator plays the wave that is set, at the frequency of its inputs "freq" and "det" together, and goes on from where it was; the
      pulse width matters for pulses only. Its LED shows the last sample. *)
  Theorem C66_basic g ma n nframes n' : serves g ma n -> en_queue n = [] -> 0 < nframes <= block_size -> step n (EBlock nframes) = Some n' ->
    let p := ex_prog (en_exec n') in wired T g ma p /\
    forall op, op ∈ np_ops p ->
    let gets := arrives T mix g ma p nframes (en_heap n') op in
    let gives := leaves p nframes (en_heap n') op in
    nid_kind (op_node op) = kind_bosc ->
    exists freq det pw wave out,
      gets 0 freq /\ gets 1 det /\ gets 2 pw /\ np_atoms p !! (op_at op).1 = Some wave /\ gives 0 out /\
      gs_led (osc_state n' (op_node op)) = out (nframes - 1) /\
      through (gs_blep (osc_state n (op_node op))) (gs_blep (osc_state n' (op_node op))) nframes (fun f o o' =>
        let w := atom_i f2i wave in
        let hz := denorm kind_bosc 0 (o_add O (freq f) (det f)) in
        let period := o_div O (o_q O 1) srate in
        let width := denorm kind_bosc 2 (pw f) in
        (w = 0%Z -> g_sin X o hz period = (o', out f)) /\
        (w = 1%Z -> g_tri X o hz period = (o', out f)) /\
        (w = 2%Z -> g_saw X o hz period = (o', out f)) /\
        (w = 3%Z -> g_pulse_no_dc X o hz period width = (o', out f)) /\
        (~ (0 <= w <= 3)%Z -> g_pulse X o hz period width = (o', out f))).
  Proof.
    start Hs Hq Hnf E. block_of H Hk. pick Hpr.
    match type of Hpr with context [frames ?b ?x ?y ?z ?o] => destruct (frames b x y z o) as [s1 outs1] eqn:EF end. apply pair_equal_spec in Hpr as [Hs1 ->].
    destruct (gen_loop _ _ _ _ _ _ _ _ _ _ (proj2 Hnf) EF Hold Houts) as (st & w & W0 & W1 & W2 & W3).
    destruct (Hats 0 ltac:(lia)) as (wave & Ha & Hwave). rewrite Nat.add_0_r in Hwave. unfold at_i in W2. rewrite Ha in W2. cbn [from_option] in W2.
    set (out := fun f => default f32_zero (lastw 0 (w f))).
    exists (fun f => rd ins 0 f), (fun f => rd ins 1 f), (fun f => rd ins 2 f), wave, out.
    do 3 (split; [apply Hins; lia|]). split; [done|].
    assert (Hbody : forall f, f < nframes -> exists y, w f = [(0, y)] /\
      bosc_wave O X (atom_i f2i wave) srate (gs_blep (st f)) (denorm kind_bosc 0 (o_add O (rd ins 0 f) (rd ins 1 f))) (denorm kind_bosc 2 (rd ins 2 f)) = (gs_blep (st (S f)), y)).
    { intros f Hf. pose proof (W2 f Hf) as Hb. unfold bosc_body, denorm_freq in Hb. destruct (bosc_wave _ _ _ _ _ _ _) as [o y]. apply pair_equal_spec in Hb as [<- <-]. by exists y. }
    assert (Hout : leaves p nframes (en_heap n') op 0 out).
    { apply W3; [lia|]. intros f Hf. subst out. cbv beta. destruct (Hbody f Hf) as (y & -> & _). done. }
    split; [done|]. split; [rewrite <- Hs1; cbn [gs_led with_led]; eapply (led_last p nframes (en_heap n') op); [lia|lia|done|done]|].
    exists (fun f => gs_blep (st f)). rewrite W0, W1, <- Hs1. split; [done|]. split; [done|]. intros f Hf. destruct (Hbody f Hf) as (y & Hy & Hw'). subst out. cbv beta zeta. rewrite Hy. change (default f32_zero (lastw 0 [(0, y)])) with y.
    unfold bosc_wave in Hw'. cbv zeta in Hw'.
    split; [intros Hz; by rewrite Hz in Hw'|]. split; [intros Hz; by rewrite Hz in Hw'|]. split; [intros Hz; by rewrite Hz in Hw'|]. split; [intros Hz; by rewrite Hz in Hw'|].
    intros Hz. destruct (atom_i f2i wave) as [|[[q|q|]|[q|q|]|]|q]; try done; exfalso; lia.
  Qed.

  (** A vector oscillator: the frequency and the limited shape parameters of a frame. Without oversampling it takes one step per frame. With it, it takes four,
      each of a quarter of the time and distorted by itself, which are then filtered down to one sample. *)
  Theorem C66_vector g ma n nframes n' : serves g ma n -> en_queue n = [] -> 0 < nframes <= block_size -> step n (EBlock nframes) = Some n' ->
    let p := ex_prog (en_exec n') in wired T g ma p /\
    forall op, op ∈ np_ops p ->
    let gets := arrives T mix g ma p nframes (en_heap n') op in
    let gives := leaves p nframes (en_heap n') op in
    nid_kind (op_node op) = kind_vosc ->
    exists freq det d v vs damt dist ovr out,
      gets 0 freq /\ gets 1 det /\ gets 2 d /\ gets 3 v /\ gets 4 vs /\ gets 5 damt /\
      np_atoms p !! (op_at op).1 = Some dist /\ np_atoms p !! ((op_at op).1 + 1) = Some ovr /\ gives 0 out /\
      gs_led (osc_state n' (op_node op)) = out (nframes - 1) /\
      let s := osc_state n (op_node op) in let s' := osc_state n' (op_node op) in
      let limit hi x := o_clamp O x (o_q O 0) (o_q O hi) in
      let quarter := o_div O (o_q O 1) (o_mul O srate (o_q O 4)) in
      through (gs_vps s, gs_over s) (gs_vps s', gs_over s') nframes (fun f '(o, ov) '(o', ov') =>
        let hz := denorm kind_vosc 0 (o_add O (freq f) (det f)) in
        let bend := limit 1%Q (denorm kind_vosc 2 (d f)) in
        let shape := g_limit_v X bend (o_add O (limit 1%Q (denorm kind_vosc 3 (v f))) (limit 20%Q (denorm kind_vosc 4 (vs f)))) in
        let dirt y := g_distort X y (limit 1%Q (denorm kind_vosc 5 (damt f))) (atom_i f2i dist mod 256)%Z in
        (atom_i f2i ovr <> 1%Z -> ov' = ov /\ exists y, g_vps_next X o hz (o_mul O quarter (o_q O 4)) bend shape = (o', y) /\ out f = dirt y) /\
        (atom_i f2i ovr = 1%Z -> exists o1 o2 o3 y1 y2 y3 y4,
          g_vps_next X o hz quarter bend shape = (o1, y1) /\ g_vps_next X o1 hz quarter bend shape = (o2, y2) /\
          g_vps_next X o2 hz quarter bend shape = (o3, y3) /\ g_vps_next X o3 hz quarter bend shape = (o', y4) /\
          g_down X ov [dirt y1; dirt y2; dirt y3; dirt y4] = (ov', out f))).
  Proof.
    start Hs Hq Hnf E. block_of H Hk. pick Hpr.
    match type of Hpr with context [frames ?b ?x ?y ?z ?o] => destruct (frames b x y z o) as [s1 outs1] eqn:EF end. apply pair_equal_spec in Hpr as [Hs1 ->].
    destruct (gen_loop _ _ _ _ _ _ _ _ _ _ (proj2 Hnf) EF Hold Houts) as (st & w & W0 & W1 & W2 & W3).
    destruct (Hats 0 ltac:(lia)) as (dist & Ha & Hdist). rewrite Nat.add_0_r in Hdist. destruct (Hats 1 ltac:(lia)) as (ovr & Ha1 & Hovr).
    unfold at_i in W2. rewrite Ha, Ha1 in W2. cbn [from_option] in W2.
    set (out := fun f => default f32_zero (lastw 0 (w f))).
    exists (fun f => rd ins 0 f), (fun f => rd ins 1 f), (fun f => rd ins 2 f), (fun f => rd ins 3 f), (fun f => rd ins 4 f), (fun f => rd ins 5 f), dist, ovr, out.
    do 6 (split; [apply Hins; lia|]). do 2 (split; [done|]).
    assert (Hbody : forall f, f < nframes -> exists y, w f = [(0, y)] /\
      vosc_frame O X (atom_i f2i ovr =? 1)%Z (atom_i f2i dist mod 256) srate (gs_vps (st f), gs_over (st f)) (denorm kind_vosc 0 (o_add O (rd ins 0 f) (rd ins 1 f)))
        (denorm kind_vosc 3 (rd ins 3 f)) (denorm kind_vosc 2 (rd ins 2 f)) (denorm kind_vosc 4 (rd ins 4 f)) (denorm kind_vosc 5 (rd ins 5 f)) = (gs_vps (st (S f)), gs_over (st (S f)), y)).
    { intros f Hf. pose proof (W2 f Hf) as Hb. unfold vosc_body, denorm_freq in Hb. cbv beta zeta in Hb. destruct (vosc_frame _ _ _ _ _ _ _ _ _ _ _) as [[o ov] y]. apply pair_equal_spec in Hb as [<- <-]. by exists y. }
    assert (Hout : leaves p nframes (en_heap n') op 0 out).
    { apply W3; [lia|]. intros f Hf. subst out. cbv beta. destruct (Hbody f Hf) as (y & -> & _). done. }
    split; [done|]. split; [rewrite <- Hs1; cbn [gs_led with_led]; eapply (led_last p nframes (en_heap n') op); [lia|lia|done|done]|]. cbv zeta.
    exists (fun f => (gs_vps (st f), gs_over (st f))). rewrite W0, W1, <- Hs1. split; [done|]. split; [done|]. intros f Hf. destruct (Hbody f Hf) as (y & Hy & Hw'). subst out. cbv beta zeta. rewrite Hy. change (default f32_zero (lastw 0 [(0, y)])) with y.
    unfold vosc_frame, vosc_over, oversampling in Hw'. cbv zeta in Hw'. change (inject_Z (Z.of_nat 4)) with 4%Q in Hw'.
    destruct (Z.eqb_spec (atom_i f2i ovr) 1) as [Hz|Hz]; (split; [|]); try done; intros _.
    - destruct (g_vps_next X (gs_vps (st f)) _ _ _ _) as [o1 y1]. destruct (g_vps_next X o1 _ _ _ _) as [o2 y2] eqn:E2. destruct (g_vps_next X o2 _ _ _ _) as [o3 y3] eqn:E3. destruct (g_vps_next X o3 _ _ _ _) as [o4 y4] eqn:E4.
      destruct (g_down X _ _) as [ov1 z] eqn:E5. apply pair_equal_spec in Hw' as [Hw1 <-]. apply pair_equal_spec in Hw1 as [<- <-].
      by exists o1, o2, o3, y1, y2, y3, y4.
    - destruct (g_vps_next X _ _ _ _ _) as [o1 y1]. apply pair_equal_spec in Hw' as [Hw1 <-]. apply pair_equal_spec in Hw1 as [<- <-]. split; [done|]. by exists y1.
  Qed.

  (** A bowed string: the waves that come back from the nut and the bridge at the lengths that the frequency and the position of the bow give; the bow adds
      the same wave to both; the six filters of the body hear the bridge. *)
  Theorem C66_bowed g ma n nframes n' : serves g ma n -> en_queue n = [] -> 0 < nframes <= block_size -> step n (EBlock nframes) = Some n' ->
    let p := ex_prog (en_exec n') in wired T g ma p /\
    forall op, op ∈ np_ops p ->
    let gets := arrives T mix g ma p nframes (en_heap n') op in
    let gives := leaves p nframes (en_heap n') op in
    nid_kind (op_node op) = kind_bowstri ->
    exists freq det vel force pos out,
      gets 0 freq /\ gets 1 det /\ gets 2 vel /\ gets 3 force /\ gets 4 pos /\ gives 0 out /\
      gs_led (osc_state n' (op_node op)) = out (nframes - 1) /\
      through (gs_string (osc_state n (op_node op))) (gs_string (osc_state n' (op_node op))) nframes (fun f s s' =>
        let hz := denorm kind_bowstri 0 (o_add O (freq f) (o_add O (tune_correction O (freq f)) (det f))) in
        let lens := string_lengths O srate hz (denorm kind_bowstri 4 (pos f)) in
        let nut := o_neg O (g_tap X (st_nut s) lens.1) in
        exists b, g_pole_next X (st_pole s) (g_tap X (st_bridge s) lens.2) = (st_pole s', b) /\
        let bridge := o_neg O b in
        let waves := bow_joint O (denorm kind_bowstri 2 (vel f)) (denorm kind_bowstri 3 (force f)) nut bridge in
        st_bridge s' = g_feed X (st_bridge s) waves.1 /\ st_nut s' = g_feed X (st_nut s) waves.2 /\
        length (st_body s') = length (st_body s) /\
        exists ys : nat -> f32, ys 0 = bridge /\ ys (length (st_body s)) = out f /\
          forall i x x', st_body s !! i = Some x -> st_body s' !! i = Some x' -> g_tick X x (ys i) = (x', ys (S i))).
  Proof.
    start Hs Hq Hnf E. block_of H Hk. pick Hpr.
    destruct (gen_loop _ _ _ _ _ _ _ _ _ _ (proj2 Hnf) Hpr Hold Houts) as (st & w & W0 & W1 & W2 & W3).
    set (out := fun f => default f32_zero (lastw 0 (w f))).
    exists (fun f => rd ins 0 f), (fun f => rd ins 1 f), (fun f => rd ins 2 f), (fun f => rd ins 3 f), (fun f => rd ins 4 f), out.
    do 5 (split; [apply Hins; lia|]).
    assert (Hbody : forall f, f < nframes -> exists y, w f = [(0, y)] /\ gs_led (st (S f)) = y /\
      string_frame O X srate (gs_string (st f)) (denorm kind_bowstri 0 (o_add O (rd ins 0 f) (o_add O (tune_correction O (rd ins 0 f)) (rd ins 1 f))))
        (denorm kind_bowstri 2 (rd ins 2 f)) (denorm kind_bowstri 3 (rd ins 3 f)) (denorm kind_bowstri 4 (rd ins 4 f)) = (gs_string (st (S f)), y)).
    { intros f Hf. pose proof (W2 f Hf) as Hb. unfold bowstri_body, denorm_freq in Hb. cbv beta zeta in Hb. destruct (string_frame _ _ _ _ _ _ _ _) as [o y]. apply pair_equal_spec in Hb as [<- <-]. by exists y. }
    split; [apply W3; [lia|]; intros f Hf; subst out; cbv beta; destruct (Hbody f Hf) as (y & -> & _); done|].
    split.
    { rewrite <- W1. destruct (Hbody (nframes - 1) ltac:(lia)) as (y & Hy & Hl & _). replace (S (nframes - 1)) with nframes in Hl by lia. subst out. cbv beta. rewrite Hl, Hy. done. }
    exists (fun f => gs_string (st f)). rewrite W1, W0. split; [done|]. split; [done|]. intros f Hf. destruct (Hbody f Hf) as (y & Hy & _ & Hw'). subst out. cbv beta zeta. rewrite Hy. change (default f32_zero (lastw 0 [(0, y)])) with y.
    unfold string_frame in Hw'. destruct (string_lengths O srate _ _) as [nl bl]. cbn [fst snd]. destruct (g_pole_next X _ _) as [pole b]. destruct (bow_joint O _ _ _ _) as [tb tn] eqn:EJ.
    destruct (body_chain X _ _) as [body z] eqn:EB. apply pair_equal_spec in Hw' as [<- <-]. cbn [st_nut st_bridge st_pole st_body].
    exists b. split; [done|]. rewrite EJ. cbn [fst snd]. split; [done|]. split; [done|]. by apply chain_spec.
  Qed.
End gen.
Print Assumptions C66_basic.
Print Assumptions C66_vector.
Print Assumptions C66_bowed.

(** ** A concrete history: a vector oscillator, oversampled as it is by default, a basic oscillator and a bowed string, each above an Out; two blocks *)
Definition demo_ops : fops f32 :=
  FOps (fun q => (Qnum q * 1000) / Zpos (Qden q))%Z Z.add Z.sub Z.mul Z.div Z.opp Z.max (fun x lo hi => Z.max lo (Z.min hi x)) Z.abs (fun x => x) (fun x => (x <=? 0)%Z).
Definition demo_gen : genlib f32 :=
  GenLib Z (fun o f _ => (o + f, o)%Z) (fun o f _ => (o + f, o)%Z) (fun o f _ => (o + f, 10 * o)%Z) (fun o f _ _ => (o + f, o)%Z) (fun o f _ _ => (o + f, o)%Z)
    Z (fun o f i d v => (o + f, o)%Z) (fun d v => v) (fun s a _ => s) Z (fun v bs => (v + 1, foldr Z.add 0 bs)%Z)
    Z (fun l _ => l) (fun _ x => x) Z (fun p x => (x, p + x)%Z) Z (fun b x => (x, b + x)%Z).
Definition demo_gens : gens demo_gen := @GenS demo_gen 3%Z 5%Z 0%Z (@String_ f32 demo_gen 7%Z 9%Z 1%Z [0; 0; 0; 0; 0; 0]%Z) 0%Z.
Definition gen_def (k i : nat) : f32 := 1%Z.
Local Notation XT := (hexo_table gen_def (fun _ _ v => v) (fun _ _ v => v) Qnum).
Local Notation xrest := (gen_rest (fun _ _ v => v) demo_ops demo_gen 10%Z (fun v => v) silent_rest).
Local Notation xsem := (path_sem (fun _ _ v => v) Z.add Z.mul (Z.max 0) Z.abs (fun v => v) xrest).
Local Notation xst := (device * ((node_id -> gens demo_gen) * nat))%type.
Local Notation xstep := (engine_step XT (fun z => z) (fun a => a) (fun _ _ _ => 1%Z) Z.add (fun v a x => v + a * x)%Z xsem).
Local Notation xserves := (serves XT (fun z => z) (fun a => a) (fun _ _ _ => 1%Z) Z.add (fun v a x => v + a * x)%Z xsem).
Local Notation xstate := (grid * gmap (node_id * nat) (option f32) * engine xst)%type.
Definition gen_checked (s : xstate) (o : eop) : option xstate :=
  let '(g, ma, n) := s in
  let* n' := xstep n o in
  let ok := match o with EMx o' => match matrix_step XT (fun z => z) (fun a => a) (en_heap n) (en_mx n) o' with Some (_, _, ms) => length (en_queue n) + length ms <=? 512 | None => false end | _ => true end in
  if ok && (length (created (mx_conf (en_mx n'))) <=? 256) then
    Some (if publishes XT n o then lay_grid (mx_lay (en_mx n')) else g, if publishes XT n o then cf_modamt (mx_conf (en_mx n')) else ma, n')
  else None.
Lemma gen_checked_ok os : forall (s s' : xstate), xserves s.1.1 s.1.2 s.2 -> foldm gen_checked s os = Some s' -> xserves s'.1.1 s'.1.2 s'.2.
Proof.
  induction os as [|o os IH]; intros [[g ma] n] s' Hn; cbn [foldm]; [by intros [= <-]|].
  destruct (gen_checked (g, ma, n) o) as [s1|] eqn:E; cbn [mbind option_bind]; [|done]. apply IH. unfold gen_checked in E. cbn [fst snd] in Hn, E.
  destruct (xstep n o) as [n1|] eqn:E1; cbn [mbind option_bind] in E; [|done].
  match type of E with (if ?a && ?b then _ else _) = _ => destruct a eqn:E2; cbn [andb] in E; [|done]; destruct b eqn:E3; [|done] end.
  injection E as <-. cbn [fst snd]. apply serves_next; [exact Hn| |exact E1|by apply Nat.leb_le in E3].
  intros o' h m ms -> Em. rewrite Em in E2. by apply Nat.leb_le in E2.
Qed.


Definition gen_steps : list eop :=
  [EMx (MxLay (LPlace 0 0 (Cell (NId kind_vosc 0) 0 0 None None (Some 0) None None None)));
   EMx (MxLay (LPlace 0 1 (Cell (NId kind_out 0) 0 1 None None None (Some 0) None None)));
   EMx (MxLay (LPlace 1 0 (Cell (NId kind_bosc 0) 1 0 None None (Some 0) None None None)));
   EMx (MxLay (LPlace 1 1 (Cell (NId kind_out 1) 1 1 None None None (Some 0) None None)));
   EMx (MxLay (LPlace 2 0 (Cell (NId kind_bowstri 0) 2 0 None None (Some 0) None None None)));
   EMx (MxLay (LPlace 2 1 (Cell (NId kind_out 2) 2 1 None None None (Some 0) None None)));
   EMx (MxSet (NId kind_bosc 0, 3) (ASetting 2)); EMx MxSync; EDrain 5; EBlock 2].
Definition gen_start : xstate :=
  (lay_grid (mx_lay (matrix_new 3 4)), ∅, engine_new 3 4 1 (Device (fun c f => 0)%Z ∅, (fun _ => demo_gens, 0))).
Definition gen_seen (n' : engine xst) : list f32 := (fun k => gs_led (osc_state demo_gen n' (NId k 0))) <$> gen_kinds.
Example C66_case : exists g ma n n', foldm gen_checked gen_start gen_steps = Some (g, ma, n) /\ xserves g ma n /\ en_queue n = [] /\
  (forall k, k ∈ gen_kinds -> NId k 0 ∈ op_node <$> np_ops (ex_prog (en_exec n))) /\
  gs_vps (osc_state demo_gen n (NId kind_vosc 0)) = 21%Z /\ gs_over (osc_state demo_gen n (NId kind_vosc 0)) = 2%Z /\
  xstep n (EBlock 3) = Some n' /\ gen_seen n' = [110; 160; -1976124632627072]%Z.
Proof.
  assert (H : (s ← foldm gen_checked gen_start gen_steps; n' ← xstep s.2 (EBlock 3); Some (bool_decide (Forall (fun k => NId k 0 ∈ op_node <$> np_ops (ex_prog (en_exec s.2))) gen_kinds), en_queue s.2, gs_vps (osc_state demo_gen s.2 (NId kind_vosc 0)), gs_over (osc_state demo_gen s.2 (NId kind_vosc 0)), gen_seen n')) =
    Some (true, [], 21%Z, 2%Z, [110; 160; -1976124632627072]%Z))
    by (vm_compute; reflexivity).
  destruct (foldm gen_checked gen_start gen_steps) as [[[g ma] n]|] eqn:E; [|discriminate H]. cbn [mbind option_bind snd] in H.
  destruct (xstep n (EBlock 3)) as [n'|] eqn:E'; [|discriminate H]. cbn [mbind option_bind] in H. apply (inj Some) in H. apply pair_equal_spec in H as [H H4]. apply pair_equal_spec in H as [H H3]. apply pair_equal_spec in H as [H H2]. apply pair_equal_spec in H as [H0 H1].
  exists g, ma, n, n'. split; [reflexivity|]. split; [|split; [exact H1|split; [|split; [exact H2|split; [exact H3|split; [exact E'|exact H4]]]]]].
  - change (xserves (g, ma, n).1.1 (g, ma, n).1.2 (g, ma, n).2). eapply gen_checked_ok; [|exact E]. constructor.
  - apply bool_decide_eq_true in H0. intros k Hk. eapply Forall_forall in H0; [exact H0|exact Hk].
Qed.
