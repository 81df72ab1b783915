(** Proofs for C60: the frames of several blocks *)
From Verif Require Import Base M_Atom M_Graph M_Dir M_Grid S_Grid M_Layout S_Layout M_Prog M_Conf M_Exec M_Sync M_Engine.
From Verif Require Import S_Conf S_Sync S_Prog S_Own S_Flow L_Conf L_Sync L_Own L_Own2 L_Own3 L_Flow L_Flow2 S_Settle L_Settle L_Settle2 L_Settle4 L_Settle5.
From Verif Require Import P_Settle S_Split L_Split L_Split2.
Open Scope nat_scope.
Local Opaque block_size.

Section chain.
  Context (T : ntable) (mix : f32 -> f32 -> f32 -> f32).
  Context {S : Type} (step : node_id -> N -> N -> list satom -> S -> list f32 -> list f32 -> S * list f32).
  Local Notation St := (node_id -> S).
  Local Notation ok := (frame_ok T mix step).

  Fixpoint chain (p : nprog) (own : nat -> nat -> f32) (st : St) (ms : list (nat -> f32)) (st' : St) : Prop :=
    match ms with
    | [] => forall x, st x = st' x
    | m :: ms => exists st1, ok p (own 0) st st1 m /\ chain p (fun t => own (Datatypes.S t)) st1 ms st'
    end.

  Lemma ok_cong p own own' st st2 st' m : (forall x, st x = st2 x) -> (forall k b, np_inp p !! k = Some b -> own k = own' k) ->
    ok p own st st' m -> ok p own' st2 st' m.
  Proof.
    intros Hs Ho [H1 H2 H3 H4 H5]. assert (Hf : forall op, op_frame T step p st2 m op = op_frame T step p st m op).
    { intros op. unfold op_frame. by rewrite Hs. }
    constructor.
    - intros k b Hk. rewrite <- (Ho k b Hk). by apply H1.
    - intros op Hop. rewrite Hf. by apply H2.
    - intros x Hx. rewrite <- Hs. by apply H3.
    - intros op j b Hop Hj Hb. rewrite Hf. by apply H4.
    - done.
  Qed.
  Lemma chain_cong p ms : forall own own' st st2 st', (forall x, st x = st2 x) ->
    (forall t k b, np_inp p !! k = Some b -> own t k = own' t k) -> chain p own st ms st' -> chain p own' st2 ms st'.
  Proof.
    induction ms as [|m ms IH]; intros own own' st st2 st' Hs Ho; cbn [chain].
    - intros H x. by rewrite <- Hs.
    - intros (st1 & H1 & H2). exists st1. split; [eapply ok_cong; [exact Hs| |exact H1]; intros k b; apply Ho|].
      eapply IH; [done| |exact H2]. intros t. apply Ho.
  Qed.
  Lemma chain_app p ms : forall own st st1 ms2 st2, chain p own st ms st1 -> chain p (fun t => own (length ms + t)) st1 ms2 st2 ->
    chain p own st (ms ++ ms2) st2.
  Proof.
    induction ms as [|m ms IH]; intros own st st1 ms2 st2; cbn [chain app].
    - intros H H2. eapply chain_cong; [|..|exact H2]; [done|done].
    - intros (st0 & H1 & H2) H3. exists st0. split; [done|]. by eapply IH.
  Qed.
  Lemma chain_seq p (sts : nat -> St) m n : forall own k, (forall f, f < n -> ok p (own f) (sts (k + f)) (sts (Datatypes.S (k + f))) (m (k + f))) ->
    chain p own (sts k) (m <$> seq k n) (sts (k + n)).
  Proof.
    induction n as [|n IH]; intros own k H; cbn [seq fmap list_fmap chain].
    - by rewrite Nat.add_0_r.
    - exists (sts (Datatypes.S k)). split.
      + specialize (H 0 ltac:(lia)). by rewrite Nat.add_0_r in H.
      + replace (k + Datatypes.S n) with (Datatypes.S k + n) by lia. apply IH. intros f Hf.
        replace (Datatypes.S k + f) with (k + Datatypes.S f) by lia. apply H. lia.
  Qed.

  Lemma chain_unique g modamt p ms1 : wired T g modamt p -> forall ms2 own st1 st2 st1' st2', length ms1 = length ms2 -> (forall x, st1 x = st2 x) ->
    chain p own st1 ms1 st1' -> chain p own st2 ms2 st2' ->
    (forall x, st1' x = st2' x) /\ forall op j, op ∈ np_ops p -> j < kind_outs T (op_node op) ->
      (fun m => val m (out_buf p op j)) <$> ms1 = (fun m => val m (out_buf p op j)) <$> ms2.
  Proof.
    intros Hw. induction ms1 as [|m1 ms1 IH]; intros [|m2 ms2] own st1 st2 st1' st2' Hl Hs; cbn in Hl; try lia; cbn [chain].
    - intros H1 H2. split; [|done]. intros x. by rewrite <- H1, <- H2.
    - intros (sa & A1 & A2) (sb & B1 & B2). destruct (frame_unique T mix step g modamt p _ _ _ _ _ _ _ Hw Hs A1 B1) as [Hab Hv].
      destruct (IH ms2 _ _ _ _ _ ltac:(lia) Hab A2 B2) as [H1 H2]. split; [done|].
      intros op j Ho Hj. cbn. f_equal; [|by apply H2]. unfold val. destruct (out_buf p op j) as [b|] eqn:Eb; [|done]. by eapply Hv.
  Qed.
End chain.

Section play.
  Context (T : ntable) (HT : table_ok T) (i2f : Z -> f32) (load_sample : satom -> satom).
  Context (finc : f32 -> f32 -> nat -> f32) (fadd : f32 -> f32 -> f32) (mix : f32 -> f32 -> f32 -> f32).
  Context {S : Type} (step : node_id -> N -> N -> list satom -> S -> list f32 -> list f32 -> S * list f32).
  Local Notation sem := (frame_sem step).
  Local Notation calm := (calm_reachable T i2f load_sample finc fadd mix sem).
  Local Notation small := (small_reachable T i2f load_sample finc fadd mix sem).
  Local Notation estep := (engine_step T i2f load_sample finc fadd mix sem).

  Lemma small_le n : small n -> length (created (mx_conf (en_mx n))) <= 256.
  Proof. intros [w h slope st|m o n' _ _ H]; [|done]. cbn. lia. Qed.

  (** the signals in a list of frames *)
  Definition signals (p : nprog) (ms : list (nat -> f32)) : list (list (list f32)) :=
    (fun op => (fun j => (fun m => val m (out_buf p op j)) <$> ms) <$> seq 0 (kind_outs T (op_node op))) <$> np_ops p.

  Lemma signals_app p ms ms' : zip_with (zip_with app) (signals p ms) (signals p ms') = signals p (ms ++ ms').
  Proof.
    unfold signals. induction (np_ops p) as [|op ops IH]; cbn; [done|]. f_equal; [|done].
    induction (seq 0 _) as [|j js IHj]; cbn; [done|]. f_equal; [|done]. by rewrite fmap_app.
  Qed.

  Lemma play_frames slope bs : Forall (fun k => 1 <= k <= 128) bs -> forall n, calm slope n -> small n -> monitor_ready (en_exec n) ->
    exists n' ms, play T i2f load_sample finc fadd mix sem n bs = Some (n', signals (ex_prog (en_exec n)) ms) /\ length ms = sum_list bs /\
      chain T mix step (ex_prog (en_exec n)) (traj fadd (en_exec n)) (en_st n) ms (en_st n') /\
      (length (np_params (ex_prog (en_exec n'))) = length (np_params (ex_prog (en_exec n)))) /\
      forall k, k < length (np_params (ex_prog (en_exec n))) -> np_params (ex_prog (en_exec n')) !! k =
        if sum_list bs =? 0 then np_params (ex_prog (en_exec n)) !! k else Some (traj fadd (en_exec n) (sum_list bs - 1) k).
  Proof.
    induction bs as [|nf bs IH]; intros Hbs n Hn Hsm Hmo.
    - exists n, []. split; [|done]. cbn [play].
      f_equal.
    - inversion Hbs as [|? ? Hnf Hbs']; subst. cbn [play].
      destruct (C18_never_fails T HT i2f load_sample finc fadd mix sem (frame_fits step) slope n Hn) as (_ & Hp & _).
      destruct (Hp nf Hnf Hmo) as [n1 E1]. rewrite E1. cbn [mbind option_bind].
      destruct (block_step T HT i2f load_sample finc fadd mix sem (frame_fits step) slope n nf n1 Hn E1) as (_ & Hmo1 & _).
      assert (Hn1 : calm slope n1) by exact (calm_next _ _ _ _ _ _ _ _ n (EBlock nf) n1 Hn I E1).
      destruct (set_reach T HT i2f load_sample finc fadd mix sem (frame_fits step) slope n Hn) as [[Hm Hh Hq Hr] Hs _ _ _].
      destruct (small_flow T HT i2f load_sample finc fadd mix sem (frame_fits step) n Hsm) as [_ _ (g & ma & Hw)].
      pose proof E1 as E1'. cbn [engine_step] in E1'.
      destruct (exec_process _ _ _ _ _ _ _) as [[[[h1 e1] st1] fed]|] eqn:Ed; cbn [mbind option_bind] in E1'; [|done].
      assert (Hsm1 : small n1). { apply (small_step _ _ _ _ _ _ _ n (EBlock nf) n1 Hsm E1). injection E1' as <-. cbn. by apply small_le. }
      injection E1' as <-. cbn [en_exec en_st en_heap] in *.
      destruct (block_frames T fadd mix step g ma _ _ _ nf (sent_bufs (en_queue n) ++ mjoin (owned <$> en_trash n)) _ _ _ _ Hw Hr Hs
        ltac:(eapply hok_perm; [|exact Hh]; solve_Permutation) Hnf Ed) as ((ps & fb & P) & V2 & V3 & Hbuf & sts & S0 & Sn & Hf).
      destruct (IH Hbs' _ Hn1 Hsm1 (Hmo1 Hmo)) as (n2 & ms & E2 & L2 & C2 & Lp & Q2). cbn [en_exec en_st en_heap] in *.
      rewrite E2. cbn [mbind option_bind]. exists n2, ((col h1 <$> seq 0 nf) ++ ms).
      assert (Hlen : length (np_params (ex_prog e1)) = length (np_params (ex_prog (en_exec n)))).
      { apply Nat.le_antisymm; apply Nat.nlt_ge; intros Hlt.
        - assert (Hs1 : sinv h1 e1) by (apply (set_reach T HT i2f load_sample finc fadd mix sem (frame_fits step) slope _ Hn1)).
          destruct (set_reach T HT i2f load_sample finc fadd mix sem (frame_fits step) slope _ Hn1) as [[_ _ _ Hr1] _ _ _ _]. cbn in Hr1.
          rewrite (rn_par _ Hr), (rn_par _ Hr1), P in Hlt. cbn in Hlt. lia.
        - destruct (set_reach T HT i2f load_sample finc fadd mix sem (frame_fits step) slope _ Hn1) as [[_ _ _ Hr1] _ _ _ _]. cbn in Hr1.
          rewrite (rn_par _ Hr), (rn_par _ Hr1), P in Hlt. cbn in Hlt. lia. }
      split; [|split; [|split; [|split]]].
      + f_equal. f_equal. rewrite <- signals_app. f_equal.
        * unfold heard, signals. cbn [en_exec en_heap]. rewrite P. cbn [np_ops prog_with_fb prog_with_params].
          apply list_fmap_ext. intros i op Hi. apply list_fmap_ext. intros k j [-> Hj]%lookup_seq. cbn [Nat.add] in *.
          change (out_buf (prog_with_fb (prog_with_params (ex_prog (en_exec n)) ps) fb) op k) with (out_buf (ex_prog (en_exec n)) op k).
          assert (Ho : op ∈ np_ops (ex_prog (en_exec n))) by (by eapply elem_of_list_lookup_2).
          destruct (w_sizes _ _ _ _ Hw op Ho) as [[Z1 Z2] _].
          destruct (lookup_lt_is_Some_2 (np_out (ex_prog (en_exec n))) ((op_out op).1 + k) ltac:(lia)) as [b Hb].
          fold (out_buf (ex_prog (en_exec n)) op k) in Hb. destruct (Hbuf op k b Ho Hj Hb) as (c & Hc & Hl).
          rewrite Hb. cbn. rewrite Hc. cbn. apply list_eq. intros f. rewrite !list_lookup_fmap. destruct (decide (f < nf)) as [Hlt|Hge].
          -- rewrite lookup_take by done. rewrite lookup_seq_lt by done. cbn. unfold col. rewrite Hc. cbn.
             destruct (lookup_lt_is_Some_2 c f) as [v ->]; [|done]. rewrite Hl. change block_size with 128. lia.
          -- rewrite lookup_take_ge by lia. by rewrite lookup_seq_ge by lia.
        * unfold signals. rewrite P. done.
      + rewrite app_length, fmap_length, seq_length, L2. done.
      + eapply chain_app.
        * eapply (chain_cong T mix step _ _ _ (traj fadd (en_exec n)) (sts 0)); [done| |]; [intros; reflexivity|].
          apply (chain_seq T mix step _ sts (col h1) nf _ 0). intros f Hlt. apply Hf, Hlt.
        * rewrite fmap_length, seq_length. eapply chain_cong; [| |].
          -- intros x. symmetry. apply Sn.
          -- intros t k b Hk. apply V2. rewrite (rn_par _ Hr). eapply lookup_lt_Some, Hk.
          -- clear -C2 P. rewrite P in C2. revert C2. generalize (traj fadd e1) as own. generalize st1 as st.
             induction ms as [|m ms IHm]; intros st own; cbn [chain]; [done|]. intros (sx & [F1 F2 F3 F4 F5] & H2). exists sx.
             split; [by constructor|]. by apply IHm.
      + by rewrite Lp.
      + intros k Hk. rewrite Q2 by lia. assert (Hsum : sum_list (nf :: bs) = nf + sum_list bs) by reflexivity. rewrite !Hsum.
        assert (Hne : nf + sum_list bs =? 0 = false) by (apply Nat.eqb_neq; lia). rewrite Hne.
        destruct (Nat.eqb_spec (sum_list bs) 0) as [->|Hn0].
        * rewrite V3 by done. by rewrite Nat.add_0_r.
        * rewrite V2 by done. do 2 f_equal. lia.
  Qed.
End play.
