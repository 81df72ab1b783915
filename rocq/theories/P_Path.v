(** What is heard is what is connected (C51) *)
From Coq Require Import QArith.
From Verif Require Import Base M_Atom M_Graph M_Dir M_Grid S_Grid M_Layout S_Layout M_Prog M_Conf M_Exec M_Sync M_Engine M_Nodes M_Path.
From Verif Require Import S_Conf S_Sync S_Prog S_Own S_Flow S_Path L_Conf L_Sync L_Own L_Own2 L_Own3 L_Flow L_Flow2 L_Path P_Nodes.
Open Scope nat_scope.
Local Opaque block_size.

Lemma write_frames_length n v old : length (write_frames n v old) = length old.
Proof. apply imap_length. Qed.
Lemma write_frames_lookup n v old f : f < length old -> f < n -> write_frames n v old !! f = Some (v f).
Proof.
  intros H1 H2. unfold write_frames. rewrite list_lookup_imap. destruct (lookup_lt_is_Some_2 old f H1) as [x Hx]. rewrite Hx. cbn [fmap option_fmap option_map].
  destruct (Nat.ltb_spec f n); [done|lia].
Qed.
Lemma write_out_fits n j v outs : Forall (fun b : list f32 => length b = block_size) outs ->
  length (write_out n j v outs) = length outs /\ Forall (fun b : list f32 => length b = block_size) (write_out n j v outs).
Proof.
  intros H. unfold write_out. rewrite alter_length. split; [done|]. apply Forall_alter; [done|]. intros b _ Hb. by rewrite write_frames_length.
Qed.

Section path.
  Context (def : nat -> nat -> f32) (norm denorm : nat -> nat -> f32 -> f32) (q2f : Q -> f32).
  Local Notation T := (hexo_table def norm denorm q2f).
  Context (i2f : Z -> f32) (load_sample : satom -> satom).
  Context (finc : f32 -> f32 -> nat -> f32) (fadd : f32 -> f32 -> f32) (mix : f32 -> f32 -> f32 -> f32).
  Context (fmul : f32 -> f32 -> f32) (fmax0 fabs : f32 -> f32) (f2i : f32 -> Z).
  Context {R : Type}.
  Context (rest : node_id -> R -> nat -> N -> N -> list satom -> list (list f32) -> list (list f32) -> list (list f32) -> R * list (list f32)).
  Context (Hrest : node_fits rest).
  Local Notation sem := (path_sem denorm fadd fmul fmax0 fabs f2i rest).
  Local Notation reachable := (small_reachable T i2f load_sample finc fadd mix sem).
  Local Notation serves := (serves T i2f load_sample finc fadd mix sem).
  Local Notation step := (engine_step T i2f load_sample finc fadd mix sem).

  Lemma path_fits : node_fits sem.
  Proof.
    intros n st k oc ic ats ps is os H. unfold path_sem.
    destruct (_ =? kind_out); [done|]. destruct (_ =? kind_inp).
    { cbn [snd]. unfold inp_process. destruct (write_out_fits k 0 (fun f => fmul (denorm kind_inp 0 (rd is 0 f)) (dv_in st.1 0 f)) os H) as [H1 H2].
      destruct (write_out_fits k 1 (fun f => fmul (denorm kind_inp 0 (rd is 0 f)) (dv_in st.1 1 f)) _ H2) as [H3 H4]. by rewrite H3. }
    destruct (_ =? kind_amp); [by apply write_out_fits|]. destruct (_ =? kind_mix3); [by apply write_out_fits|].
    pose proof (Hrest n st.2 k oc ic ats ps is os H) as Hr. by destruct (rest n st.2 k oc ic ats ps is os).
  Qed.

  (** A block that the engine processed, and what it says *)
  Record block (n n' : engine (device * R)) (nframes : nat) g modamt : Prop := Block {
    b_wired : wired T g modamt (ex_prog (en_exec n'));
    b_flow : dataflow T mix sem (ex_prog (en_exec n')) nframes (en_heap n) (en_heap n') (en_st n) (en_st n');
    b_size : forall b c, h_bufs (en_heap n') !! b = Some c -> length c = block_size;
    b_old : forall b c, h_bufs (en_heap n) !! b = Some c -> length c = block_size;
  }.
  Lemma block_ran g modamt n nframes n' : reachable n -> wired T g modamt (ex_prog (en_exec n)) -> 0 < nframes -> step n (EBlock nframes) = Some n' ->
    block n n' nframes g modamt.
  Proof.
    intros Hn Hw Hnf E. pose proof (C28_table_ok def norm denorm q2f) as HT.
    pose proof (fi_own _ _ (small_flow T HT i2f load_sample finc fadd mix sem path_fits n Hn)) as Ho.
    pose proof (own_step T HT i2f load_sample finc fadd mix sem path_fits _ _ _ Ho E) as Ho'.
    assert (Hh : hok (en_heap n) (owned (ex_prog (en_exec n)) ++ sent_bufs (en_queue n) ++ mjoin (owned <$> en_trash n))).
    { eapply hok_perm; [|apply (oi_heap _ _ Ho)]. solve_Permutation. }
    pose proof E as E'. cbn [engine_step] in E'. destruct (exec_process _ _ _ _ _ _ _) as [[[[h1 e1] st1] fed]|] eqn:Ed; cbn [mbind option_bind] in E'; [|done]. injection E' as <-.
    destruct (process_flow T fadd mix sem path_fits g modamt _ _ _ _ _ _ _ _ _ Hw (oi_run _ _ Ho) Hh Hnf Ed) as [H1 H2].
    split; [done|done| |]; [apply (oi_heap _ _ Ho')|apply (oi_heap _ _ Ho)].
  Qed.

  Lemma arrives_ok n n' nframes g modamt op j ats own ins old outs s s' : block n n' nframes g modamt -> nframes <= block_size ->
    op ∈ np_ops (ex_prog (en_exec n')) -> j < length ins -> length ins = kind_ins T (op_node op) -> length own = length ins ->
    (forall j, j < length own -> own !! j = samples (en_heap n') (own_buf (ex_prog (en_exec n')) op j)) ->
    (forall j, j < length ins -> ins !! j = samples (en_heap n') (read_buf (ex_prog (en_exec n')) op j)) ->
    sem (op_node op) s nframes (op_outc op) (op_inc op) ats own ins old = (s', outs) ->
    arrives T mix g modamt (ex_prog (en_exec n')) nframes (en_heap n') op j (fun f => rd ins j f).
  Proof.
    intros Hb Hnf Hop Hj Hl Hl' Hown Hins _. set (p := ex_prog (en_exec n')) in *.
    destruct (lookup_lt_is_Some_2 own j) as [o Ho]; [lia|]. pose proof (Hown j) as H1. rewrite Ho in H1. symmetry in H1. specialize (H1 ltac:(lia)).
    destruct (lookup_lt_is_Some_2 ins j Hj) as [i Hi]. pose proof (Hins j Hj) as H2. rewrite Hi in H2.
    assert (Hrd : forall f, rd ins j f = default f32_zero (i !! f)) by (intros f; unfold rd; by rewrite Hi).
    assert (Hli : length i = block_size).
    { symmetry in H2. unfold samples in H2. apply bind_Some in H2 as (b & _ & H2). by eapply b_size. }
    assert (Hif : forall f, f < nframes -> exists x, i !! f = Some x /\ rd ins j f = x).
    { intros f Hf. destruct (lookup_lt_is_Some_2 i f) as [x Hx]; [lia|]. exists x. split; [done|]. by rewrite Hrd, Hx. }
    exists o. split; [by rewrite H1|]. destruct (w_read _ _ _ _ (b_wired _ _ _ _ _ Hb) op j Hop ltac:(lia)) as [_ [[Hno Hr]|(q & d & e & src & Hw & He & Hs & Hsn & Hm)]].
    - left. split; [done|]. fold p in Hr. rewrite Hr, H1 in H2. injection H2 as ->. intros f Hf. destruct (Hif f Hf) as (x & Hx & ->). done.
    - right. exists q, d, e, src. fold p in Hm. destruct (mjoin (modamt !! (op_node op, j))) as [a|].
      + destruct Hm as (k & mo & HM & Hr). pose proof HM as (M1 & M2 & M3 & M4 & M5 & M6). assert (Hmo : mo ∈ np_mods p) by (by eapply elem_of_list_lookup_2).
        destruct (proj2 (b_flow _ _ _ _ _ Hb) mo Hmo M3) as (ow & sig & res & S1 & S2 & S3 & S4).
        rewrite M4, H1 in S1. injection S1 as <-. rewrite M6 in S2. rewrite Hr in H2. cbn in H2. rewrite S3 in H2. injection H2 as ->.
        exists sig. repeat (split; [done|]). intros f Hf. destruct (S4 f Hf) as (v & x & V1 & V2 & V3). exists x. split; [done|].
        exists k, mo, v. split; [done|]. split; [done|]. by rewrite Hrd, V3.
      + rewrite Hm in H2. exists i. repeat (split; [done|]). intros f Hf. destruct (Hif f Hf) as (x & Hx & Hx'). eauto.
  Qed.

  Lemma out_frames mono ins nframes o : forall c f, foldl (out_frame denorm fmul mono ins) o (seq 0 nframes) !! (c, f) =
    if decide (f < nframes /\ c < 2) then Some (fmul (denorm kind_out 2 (rd ins 2 f)) (rd ins (if mono then 0 else c) f)) else o !! (c, f).
  Proof.
    induction nframes as [|m IH]; intros c f; [cbn; rewrite decide_False by lia; done|].
    rewrite seq_S, foldl_app. cbn [foldl plus]. unfold out_frame at 1. destruct (decide (f = m)) as [->|Hne].
    - destruct (decide (c < 2)) as [Hc|Hc].
      + rewrite decide_True by lia. destruct c as [|[|c]]; [| |lia].
        * rewrite lookup_insert_ne by congruence. rewrite lookup_insert. by destruct mono.
        * by rewrite lookup_insert.
      + rewrite !lookup_insert_ne by (intros [= ]; lia). rewrite IH, !decide_False by lia. done.
    - rewrite !lookup_insert_ne by congruence. rewrite IH. destruct (decide (f < m /\ c < 2)); [rewrite decide_True by lia|rewrite decide_False by lia]; done.
  Qed.

  Lemma kind_outs_out op : is_out op -> kind_ins T (op_node op) = 3 /\ kind_ats T (op_node op) = 1.
  Proof. unfold is_out, kind_ins, kind_ats. intros ->. done. Qed.

  Lemma sem_other nd s nframes oc ic ats own ins old s' outs : nid_kind nd <> kind_out ->
    sem nd s nframes oc ic ats own ins old = (s', outs) -> s'.1 = s.1.
  Proof.
    intros Hk. unfold path_sem. destruct (Nat.eqb_spec (nid_kind nd) kind_out); [done|].
    destruct (_ =? kind_inp); [by intros [= <- <-]|]. destruct (_ =? kind_amp); [by intros [= <- <-]|]. destruct (_ =? kind_mix3); [by intros [= <- <-]|].
    destruct (rest _ _ _ _ _ _ _ _ _) as [r o]. by intros [= <- <-].
  Qed.

  (** the device is only changed by the Out nodes *)
  Lemma device_kept n n' nframes g modamt (sts : list (device * R)) (a b : nat) : block n n' nframes g modamt ->
    (forall i op, np_ops (ex_prog (en_exec n')) !! i = Some op -> exists s s', sts !! i = Some s /\ sts !! S i = Some s' /\
       node_ran T sem (ex_prog (en_exec n')) nframes (en_heap n) (en_heap n') op s s') ->
    a <= b -> b <= length (np_ops (ex_prog (en_exec n'))) ->
    (forall i op, a <= i < b -> np_ops (ex_prog (en_exec n')) !! i = Some op -> ~ is_out op) ->
    forall s s', sts !! a = Some s -> sts !! b = Some s' -> s'.1 = s.1.
  Proof.
    intros Hb Hsts Hab. induction Hab as [|b Hab IH]; intros Hlen Hno s s' Hs Hs'.
    - congruence.
    - destruct (lookup_lt_is_Some_2 (np_ops (ex_prog (en_exec n'))) b) as [op Hop]; [lia|].
      destruct (Hsts _ _ Hop) as (s1 & s2 & S1 & S2 & (ats & own & ins & old & outs & _ & _ & _ & _ & _ & _ & _ & _ & _ & _ & Hsem)).
      assert (s2 = s') as -> by congruence. rewrite (sem_other _ _ _ _ _ _ _ _ _ _ _ (Hno b op ltac:(lia) Hop) Hsem).
      apply IH; [lia| |done|done]. intros i op' Hi. apply Hno. lia.
  Qed.

  (** As soon as all messages were handled, the running program is that of the board that was published last. *)
  Theorem C51_published g modamt n : serves g modamt n -> en_queue n = [] -> wired T g modamt (ex_prog (en_exec n)).
  Proof. intros Hs Hq. pose proof (serves_inv T (C28_table_ok def norm denorm q2f) i2f load_sample finc fadd mix sem path_fits _ _ _ Hs) as H. by rewrite Hq in H. Qed.

  (** And then, in every block, the device is given what arrives at the last Out node of the program: the channels 1 and 2, or the first channel
      on both in the mono mode, times the volume. *)
  Theorem C51_heard g ma n nframes n' : serves g ma n -> en_queue n = [] -> 0 < nframes <= block_size -> step n (EBlock nframes) = Some n' ->
    let p := ex_prog (en_exec n') in wired T g ma p /\
    forall i op, np_ops p !! i = Some op -> is_out op -> (forall k op', i < k -> np_ops p !! k = Some op' -> ~ is_out op') ->
    exists ch1 ch2 vol a, arrives T mix g ma p nframes (en_heap n') op 0 ch1 /\ arrives T mix g ma p nframes (en_heap n') op 1 ch2 /\
      arrives T mix g ma p nframes (en_heap n') op 2 vol /\ np_atoms p !! (op_at op).1 = Some a /\
      forall f, f < nframes ->
        dv_out (en_st n').1 !! (0, f) = Some (fmul (denorm kind_out 2 (vol f)) (ch1 f)) /\
        dv_out (en_st n').1 !! (1, f) = Some (fmul (denorm kind_out 2 (vol f)) (if (0 <? atom_i f2i a)%Z then ch1 f else ch2 f)).
  Proof.
    intros Hs0 Hq [Hnf Hbs] E. pose proof (block_ran g ma n nframes n' (serves_small _ _ _ _ _ _ _ _ _ _ Hs0) (C51_published _ _ _ Hs0 Hq) Hnf E) as Hb. split; [apply (b_wired _ _ _ _ _ Hb)|].
    intros i op Hi Ho Hlast. destruct (kind_outs_out _ Ho) as [Hk1 Hk2]. destruct (b_flow _ _ _ _ _ Hb) as [(sts & _ & Hend & Hsts) _].
    destruct (Hsts _ _ Hi) as (s & s' & S1 & S2 & (ats & own & ins & old & outs & La & Lo & Li & _ & _ & Ha & Hown & Hins & _ & _ & Hsem)).
    assert (Hop : op ∈ np_ops (ex_prog (en_exec n'))) by (by eapply elem_of_list_lookup_2). rewrite Hk2 in La.
    assert (Harr : forall j, j < 3 -> arrives T mix g ma (ex_prog (en_exec n')) nframes (en_heap n') op j (fun f => rd ins j f)).
    { intros j Hj. apply (arrives_ok n n' nframes g ma op j ats own ins old outs s s'); try done; congruence || lia. }
    destruct (lookup_lt_is_Some_2 ats 0) as [a Hat]; [lia|]. exists (fun f => rd ins 0 f), (fun f => rd ins 1 f), (fun f => rd ins 2 f), a.
    split; [apply Harr; lia|]. split; [apply Harr; lia|]. split; [apply Harr; lia|].
    split; [by rewrite <- Hat, (Ha 0), Nat.add_0_r by lia|].
    assert (Hdev : (en_st n').1 = s'.1).
    { eapply (device_kept n n' nframes g ma sts (S i)); [done|done| |done| |done|done].
      - pose proof (lookup_lt_Some _ _ _ Hi). lia.
      - intros k op' Hk. apply Hlast. lia. }
    unfold path_sem in Hsem. rewrite Ho, Nat.eqb_refl in Hsem. injection Hsem as <- _. rewrite Hdev. cbn [fst out_process dv_out].
    intros f Hf. rewrite !out_frames, !decide_True by lia. unfold at_i. rewrite Hat. cbn [from_option]. split; [by destruct (0 <? _)%Z|]. by destruct (0 <? _)%Z.
  Qed.

  (** Other channels, frames behind the block, and everything if there is no Out node, are left as they are. *)
  Theorem C51_nothing_else n nframes n' c f : reachable n -> 0 < nframes -> step n (EBlock nframes) = Some n' ->
    2 <= c \/ nframes <= f \/ (forall op, op ∈ np_ops (ex_prog (en_exec n')) -> ~ is_out op) ->
    dv_out (en_st n').1 !! (c, f) = dv_out (en_st n).1 !! (c, f).
  Proof.
    intros Hn Hnf E Hcf. destruct (fi_run _ _ (small_flow T (C28_table_ok def norm denorm q2f) i2f load_sample finc fadd mix sem path_fits n Hn)) as (g & ma & Hw).
    pose proof (block_ran g ma n nframes n' Hn Hw Hnf E) as Hb. destruct (b_flow _ _ _ _ _ Hb) as [(sts & H0 & Hend & Hsts) _].
    assert (forall i s, i <= length (np_ops (ex_prog (en_exec n'))) -> sts !! i = Some s -> dv_out s.1 !! (c, f) = dv_out (en_st n).1 !! (c, f)) as H.
    { induction i as [|i IH]; intros s Hi Hs; [congruence|]. destruct (lookup_lt_is_Some_2 (np_ops (ex_prog (en_exec n'))) i) as [op Hop]; [lia|].
      destruct (Hsts _ _ Hop) as (s1 & s2 & S1 & S2 & (ats & own & ins & old & outs & _ & _ & _ & _ & _ & _ & _ & _ & _ & _ & Hsem)).
      assert (s2 = s) as -> by congruence. rewrite <- (IH s1 ltac:(lia) S1). destruct (decide (nid_kind (op_node op) = kind_out)) as [Hk|Hk].
      - unfold path_sem in Hsem. rewrite Hk, Nat.eqb_refl in Hsem. injection Hsem as <- _. cbn [fst out_process dv_out]. rewrite out_frames.
        destruct Hcf as [Hc|[Hc|Hc]]; [rewrite decide_False by lia; done..|]. destruct (Hc op); [by eapply elem_of_list_lookup_2|done].
      - by rewrite (sem_other _ _ _ _ _ _ _ _ _ _ _ Hk Hsem). }
    by apply (H (length (np_ops (ex_prog (en_exec n'))))).
  Qed.

  Lemma leaves_ok n n' nframes g modamt op j v (old outs : list (list f32)) : block n n' nframes g modamt -> nframes <= block_size ->
    j < length old -> length outs = length old -> (forall j, j < length old -> old !! j = samples (en_heap n) (out_buf (ex_prog (en_exec n')) op j)) ->
    (forall j, j < length outs -> outs !! j = samples (en_heap n') (out_buf (ex_prog (en_exec n')) op j)) ->
    (exists b, old !! j = Some b /\ outs !! j = Some (write_frames nframes v b)) ->
    leaves (ex_prog (en_exec n')) nframes (en_heap n') op j v.
  Proof.
    intros Hb Hnf Hj Hl Hold Houts (b & B1 & B2). exists (write_frames nframes v b). split; [rewrite <- Houts by lia; done|].
    intros f Hf. apply write_frames_lookup; [|done]. rewrite Hold in B1 by done. unfold samples in B1. apply bind_Some in B1 as (x & _ & B1).
    rewrite (b_old _ _ _ _ _ Hb _ _ B1). lia.
  Qed.

  (** The nodes that the signals go through: each Inp, Amp and Mix3 node of the program puts out, in this block, *)
  Theorem C51_through g ma n nframes n' : serves g ma n -> en_queue n = [] -> 0 < nframes <= block_size -> step n (EBlock nframes) = Some n' ->
    let p := ex_prog (en_exec n') in wired T g ma p /\
    forall op, op ∈ np_ops p ->
    let gets := arrives T mix g ma p nframes (en_heap n') op in
    let gives := leaves p nframes (en_heap n') op in
    (* the channels of the device times the volume, *)
    (nid_kind (op_node op) = kind_inp -> exists vol, gets 0 vol /\
       forall c, c < 2 -> gives c (fun f => fmul (denorm kind_inp 0 (vol f)) (dv_in (en_st n).1 c f))) /\
    (* the signal times the attenuation (of which a negative value counts as zero or as positive) times the gain, *)
    (nid_kind (op_node op) = kind_amp -> exists inp gain att a, gets 0 inp /\ gets 1 gain /\ gets 2 att /\ np_atoms p !! (op_at op).1 = Some a /\
       gives 0 (fun f => fmul (fmul (inp f) (denorm kind_amp 2 (if (0 <? atom_i f2i a)%Z then fmax0 (att f) else fabs (att f)))) (denorm kind_amp 1 (gain f)))) /\
    (* the sum of the channels times their volumes, times the output volume *)
    (nid_kind (op_node op) = kind_mix3 -> exists ch1 ch2 ch3 vol1 vol2 vol3 ovol,
       gets 0 ch1 /\ gets 1 ch2 /\ gets 2 ch3 /\ gets 3 vol1 /\ gets 4 vol2 /\ gets 5 vol3 /\ gets 6 ovol /\
       gives 0 (fun f => fmul (fadd (fadd (fmul (ch1 f) (denorm kind_mix3 3 (vol1 f))) (fmul (ch2 f) (denorm kind_mix3 4 (vol2 f))))
                                    (fmul (ch3 f) (denorm kind_mix3 5 (vol3 f)))) (denorm kind_mix3 6 (ovol f)))).
  Proof.
    intros Hs0 Hq [Hnf Hbs] E. pose proof (block_ran g ma n nframes n' (serves_small _ _ _ _ _ _ _ _ _ _ Hs0) (C51_published _ _ _ Hs0 Hq) Hnf E) as Hb. split; [apply (b_wired _ _ _ _ _ Hb)|].
    intros op Hop gets gives. apply elem_of_list_lookup in Hop as Hi. destruct Hi as [i Hi]. destruct (b_flow _ _ _ _ _ Hb) as [(sts & H0 & _ & Hsts) _].
    destruct (Hsts _ _ Hi) as (s & s' & S1 & S2 & (ats & own & ins & old & outs & La & Lo & Li & Lold & Louts & Ha & Hown & Hins & Hold & Houts & Hsem)).
    assert (Harr : forall j, j < length ins -> gets j (fun f => rd ins j f)).
    { intros j Hj. unfold gets. apply (arrives_ok n n' nframes g ma op j ats own ins old outs s s'); try done; congruence || lia. }
    assert (Hin : dv_in s.1 = dv_in (en_st n).1).
    { clear -Hsts S1 H0 Hi. apply lookup_lt_Some in Hi. revert s S1. induction i as [|i IH]; intros s S1; [congruence|].
      destruct (lookup_lt_is_Some_2 (np_ops (ex_prog (en_exec n'))) i) as [op' Hop']; [lia|].
      destruct (Hsts _ _ Hop') as (s1 & s2 & S3 & S4 & (ats & own & ins & old & outs & _ & _ & _ & _ & _ & _ & _ & _ & _ & _ & Hsem)).
      assert (s2 = s) as -> by congruence. rewrite <- (IH ltac:(lia) s1 S3). destruct (decide (nid_kind (op_node op') = kind_out)) as [Hk|Hk].
      - unfold path_sem in Hsem. rewrite Hk, Nat.eqb_refl in Hsem. by injection Hsem as <- _.
      - by rewrite (sem_other _ _ _ _ _ _ _ _ _ _ _ Hk Hsem). }
    unfold gives. split; [|split]; intros Hk; unfold kind_ins, kind_outs, kind_ats in *; rewrite Hk in La, Lo, Li, Lold, Louts; unfold path_sem in Hsem; rewrite Hk in Hsem.
    - change (kind_inp =? kind_out) with false in Hsem. rewrite Nat.eqb_refl in Hsem. injection Hsem as <- Ho. change (length old = 2) in Lold; change (length outs = 2) in Louts; change (length ins = 1) in Li.
      exists (fun f => rd ins 0 f). split; [apply Harr; lia|]. intros c Hc. eapply leaves_ok; [done|done| | |exact Hold|exact Houts|]; [lia|lia|].
      destruct (lookup_lt_is_Some_2 old c) as [b Hbc]; [lia|]. exists b. split; [done|]. rewrite <- Ho. unfold inp_process, write_out. rewrite Hin.
      destruct c as [|[|c]]; [| |lia].
      + rewrite list_lookup_alter_ne by lia. rewrite list_lookup_alter, Hbc. done.
      + rewrite list_lookup_alter, list_lookup_alter_ne, Hbc by lia. done.
    - change (kind_amp =? kind_out) with false in Hsem. change (kind_amp =? kind_inp) with false in Hsem. rewrite Nat.eqb_refl in Hsem. injection Hsem as <- Ho. change (length old = 1) in Lold; change (length outs = 1) in Louts; change (length ins = 3) in Li; change (length ats = 1) in La.
      destruct (lookup_lt_is_Some_2 ats 0) as [a Hat]; [lia|]. exists (fun f => rd ins 0 f), (fun f => rd ins 1 f), (fun f => rd ins 2 f), a.
      split; [apply Harr; lia|]. split; [apply Harr; lia|]. split; [apply Harr; lia|].
      split; [by rewrite <- Hat, (Ha 0), Nat.add_0_r by lia|].
      eapply leaves_ok; [done|done| | |exact Hold|exact Houts|]; [lia|lia|].
      destruct (lookup_lt_is_Some_2 old 0) as [b Hbc]; [lia|]. exists b. split; [done|]. rewrite <- Ho. unfold amp_process, write_out.
      rewrite list_lookup_alter, Hbc. cbn [fmap option_fmap option_map]. unfold at_i. rewrite Hat. cbn [from_option]. by destruct (0 <? _)%Z.
    - change (kind_mix3 =? kind_out) with false in Hsem. change (kind_mix3 =? kind_inp) with false in Hsem. change (kind_mix3 =? kind_amp) with false in Hsem.
      rewrite Nat.eqb_refl in Hsem. injection Hsem as <- Ho. change (length old = 1) in Lold; change (length outs = 1) in Louts; change (length ins = 7) in Li.
      exists (fun f => rd ins 0 f), (fun f => rd ins 1 f), (fun f => rd ins 2 f), (fun f => rd ins 3 f), (fun f => rd ins 4 f), (fun f => rd ins 5 f), (fun f => rd ins 6 f).
      do 7 (split; [apply Harr; lia|]).
      eapply leaves_ok; [done|done| | |exact Hold|exact Houts|]; [lia|lia|].
      destruct (lookup_lt_is_Some_2 old 0) as [b Hbc]; [lia|]. exists b. split; [done|]. rewrite <- Ho. unfold mix3_process, write_out.
      rewrite list_lookup_alter, Hbc. done.
  Qed.
End path.
Print Assumptions C51_published.
Print Assumptions C51_heard.
Print Assumptions C51_nothing_else.
Print Assumptions C51_through.

(** ** A concrete history: Inp, Amp with a gain of 3 and Out with a volume of 2, in mono, under each other. The signal input of Amp is modulated. *)
Definition path_def (k i : nat) : f32 := if (k =? kind_amp) && (i =? 1) then 3%Z else if (k =? kind_out) && (i =? 2) then 2%Z else 1%Z.
Local Notation XT := (hexo_table path_def (fun _ _ v => v) (fun _ _ v => v) Qnum).
Definition silent_rest (n : node_id) (r : nat) (nframes : nat) (oc ic : N) (ats : list satom) (own ins outs : list (list f32)) : nat * list (list f32) := (r, outs).
Lemma silent_fits : node_fits silent_rest.
Proof. by intros n r k oc ic ats ps is os H. Qed.
Local Notation xsem := (path_sem (fun _ _ v => v) Z.add Z.mul (Z.max 0) Z.abs (fun v => v) silent_rest).
Local Notation xstep := (engine_step XT (fun z => z) (fun a => a) (fun _ _ _ => 1%Z) Z.add (fun v a x => v + a * x)%Z xsem).
Local Notation xserves := (serves XT (fun z => z) (fun a => a) (fun _ _ _ => 1%Z) Z.add (fun v a x => v + a * x)%Z xsem).
Local Notation xstate := (grid * gmap (node_id * nat) (option f32) * engine (device * nat))%type.
Definition serves_checked (s : xstate) (o : eop) : option xstate :=
  let '(g, ma, n) := s in
  let* n' := xstep n o in
  let ok := match o with EMx o' => match matrix_step XT (fun z => z) (fun a => a) (en_heap n) (en_mx n) o' with Some (_, _, ms) => length (en_queue n) + length ms <=? 512 | None => false end | _ => true end in
  if ok && (length (created (mx_conf (en_mx n'))) <=? 256) then
    Some (if publishes XT n o then lay_grid (mx_lay (en_mx n')) else g, if publishes XT n o then cf_modamt (mx_conf (en_mx n')) else ma, n')
  else None.
Lemma serves_checked_ok os : forall (s s' : xstate), xserves s.1.1 s.1.2 s.2 -> foldm serves_checked s os = Some s' -> xserves s'.1.1 s'.1.2 s'.2.
Proof.
  induction os as [|o os IH]; intros [[g ma] n] s' Hn; cbn [foldm]; [by intros [= <-]|].
  destruct (serves_checked (g, ma, n) o) as [s1|] eqn:E; cbn [mbind option_bind]; [|done]. apply IH. unfold serves_checked in E. cbn [fst snd] in Hn, E.
  destruct (xstep n o) as [n1|] eqn:E1; cbn [mbind option_bind] in E; [|done].
  match type of E with (if ?a && ?b then _ else _) = _ => destruct a eqn:E2; cbn [andb] in E; [|done]; destruct b eqn:E3; [|done] end.
  injection E as <-. cbn [fst snd]. apply serves_next; [exact Hn| |exact E1|by apply Nat.leb_le in E3].
  intros o' h m ms -> Em. rewrite Em in E2. by apply Nat.leb_le in E2.
Qed.

Definition path_steps : list eop :=
  [EMx (MxLay (LPlace 0 0 (Cell (NId kind_inp 0) 0 0 None (Some 1) (Some 0) None None None)));
   EMx (MxLay (LPlace 0 1 (Cell (NId kind_amp 0) 0 1 None None (Some 0) (Some 0) None None)));
   EMx (MxLay (LPlace 0 2 (Cell (NId kind_out 0) 0 2 None None None (Some 0) None None)));
   EMx (MxSet (NId kind_out 0, 3) (ASetting 1)); EMx (MxModamt (NId kind_amp 0, 0) (Some 5%Z)); EMx MxSync; EDrain 5].
Definition path_start : xstate :=
  (lay_grid (mx_lay (matrix_new 3 4)), ∅, engine_new 3 4 1 (Device (fun c f => 100 * Z.of_nat c + Z.of_nat f + 10)%Z ∅, 0)).
(* the device hears 1 + 5 * (10, 11, 12), times 3, times 2, on both channels *)
Definition path_seen (n' : engine (device * nat)) : list (list (option f32)) := (fun c => (fun f => dv_out (en_st n').1 !! (c, f)) <$> seq 0 4) <$> [0; 1; 2].
Example C51_case : exists g ma n n', foldm serves_checked path_start path_steps = Some (g, ma, n) /\ xserves g ma n /\ en_queue n = [] /\
  op_node <$> np_ops (ex_prog (en_exec n)) = [NId kind_inp 0; NId kind_amp 0; NId kind_out 0] /\
  xstep n (EBlock 3) = Some n' /\ path_seen n' = [[Some 306; Some 336; Some 366; None]; [Some 306; Some 336; Some 366; None]; [None; None; None; None]]%Z.
Proof.
  assert (H : (s ← foldm serves_checked path_start path_steps; n' ← xstep s.2 (EBlock 3); Some (op_node <$> np_ops (ex_prog (en_exec s.2)), en_queue s.2, path_seen n')) =
    Some ([NId kind_inp 0; NId kind_amp 0; NId kind_out 0], [], [[Some 306; Some 336; Some 366; None]; [Some 306; Some 336; Some 366; None]; [None; None; None; None]]%Z))
    by (vm_compute; reflexivity).
  destruct (foldm serves_checked path_start path_steps) as [[[g ma] n]|] eqn:E; [|discriminate H]. cbn [mbind option_bind snd] in H.
  destruct (xstep n (EBlock 3)) as [n'|] eqn:E'; [|discriminate H]. cbn [mbind option_bind] in H. apply (inj Some) in H. apply pair_equal_spec in H as [H H3]. apply pair_equal_spec in H as [H1 H2].
  exists g, ma, n, n'. split; [reflexivity|]. split; [|split; [exact H2|split; [exact H1|split; [exact E'|exact H3]]]].
  change (xserves (g, ma, n).1.1 (g, ma, n).1.2 (g, ma, n).2). eapply serves_checked_ok; [|exact E]. constructor.
Qed.
