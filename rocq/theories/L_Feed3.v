(** Reported values: the invariant *)
From Coq Require Import Sorted.
From Verif Require Import Base M_Atom M_Graph M_Dir M_Grid S_Grid M_Layout S_Layout M_Prog M_Conf M_Exec M_Sync M_Engine M_Feed S_Feed.
From Verif Require Import S_Conf S_Sync S_Prog S_Own L_Conf L_Prog L_Sync L_Fill L_Wire L_Own L_Own2 L_Own3 L_Flow L_Settle3 L_Feed L_Feed2.
Open Scope nat_scope.
Local Opaque block_size ctx_size.

(** ** LED and phase values of a block *)
Lemma ctx_set_length i v ctx : length (ctx_set i v ctx) = length ctx.
Proof. destruct v; cbn; [apply insert_length|done]. Qed.
Lemma ctx_set_at i v ctx : i < length ctx -> ctx_set i v ctx !! i = match v with Some v => Some v | None => ctx !! i end.
Proof. intros H. destruct v; cbn; [by apply list_lookup_insert|done]. Qed.
Lemma ctx_set_ne i j v ctx : i <> j -> ctx_set i v ctx !! j = ctx !! j.
Proof. intros H. destruct v; cbn; [by apply list_lookup_insert_ne|done]. Qed.

Lemma ctx_fold ps : forall ctx ctx', foldm ctx_ran ctx ps = Some ctx' -> NoDup ((fun x : nodeop * ran => op_idx x.1) <$> ps) ->
  length ctx' = length ctx /\
  (forall op r, (op, r) ∈ ps ->
     ctx' !! (op_idx op * 2) = match r.2.1 with Some v => Some v | None => ctx !! (op_idx op * 2) end /\
     ctx' !! (op_idx op * 2 + 1) = match r.2.2 with Some v => Some v | None => ctx !! (op_idx op * 2 + 1) end) /\
  (forall i, (forall x, x ∈ ps -> op_idx x.1 <> i) -> ctx' !! (i * 2) = ctx !! (i * 2) /\ ctx' !! (i * 2 + 1) = ctx !! (i * 2 + 1)).
Proof.
  induction ps as [|[op0 r0] ps IH]; intros ctx ctx'; cbn [foldm].
  - intros [= <-] _. split; [done|]. split; [|done]. intros op r Hx. by apply elem_of_nil in Hx.
  - destruct (ctx_ran ctx (op0, r0)) as [c1|] eqn:E1; cbn [mbind option_bind]; [|done]. intros E. cbn. rewrite NoDup_cons. intros [Hx Hnd].
    destruct (IH _ _ E Hnd) as (L & H1 & H2). unfold ctx_ran in E1. cbn [fst snd] in E1.
    destruct (Nat.leb_spec (op_idx op0 * 2 + 2) (length ctx)); [|done]. injection E1 as <-.
    rewrite !ctx_set_length in L. split; [done|].
    assert (Hfresh : forall x, x ∈ ps -> op_idx x.1 <> op_idx op0).
    { intros x Hin Heq. apply Hx. rewrite <- Heq. by apply (elem_of_list_fmap_1 (fun x : nodeop * ran => op_idx x.1)). }
    split.
    + intros op r [[= -> ->]|Hin]%elem_of_cons.
      * destruct (H2 (op_idx op0) Hfresh) as [-> ->]. rewrite ctx_set_ne by lia. rewrite !ctx_set_at by (rewrite ?ctx_set_length; lia).
        rewrite ctx_set_ne by lia. done.
      * destruct (H1 op r Hin) as [-> ->]. pose proof (Hfresh _ Hin) as Hne. cbn in Hne.
        rewrite !ctx_set_ne by lia. done.
    + intros i Hi. destruct (H2 i) as [-> ->]; [intros x Hin; apply Hi; by right|].
      pose proof (Hi _ (elem_of_list_here _ _)) as Hne. cbn in Hne. rewrite !ctx_set_ne by lia. done.
Qed.

(** ** Numbers of programs *)
Definition nprogs (ms : list gmsg) : nat := length (mjoin (msg_progs <$> ms)).
Lemma nprogs_cons m ms : nprogs (m :: ms) = length (msg_progs m) + nprogs ms.
Proof. unfold nprogs. cbn. apply app_length. Qed.

Definition infos : Type := nat -> list node_id * pview.

Section inv.
  Context (T : ntable) (HT : table_ok T) (i2f : Z -> f32) (load_sample : satom -> satom).
  Context (finc : f32 -> f32 -> nat -> f32) (fadd : f32 -> f32 -> f32) (mix : f32 -> f32 -> f32 -> f32).
  Context {St : Type}.
  Context (node_sem : node_id -> St -> nat -> N -> N -> list satom ->
                      list (list f32) -> list (list f32) -> list (list f32) ->
                      St * list (list f32) * (option f32 * option f32)).
  Context (Hk : keeps_outs node_sem).
  Local Notation outs_of := (n_outs T).
  Local Notation vinv := (vinv T).
  Local Notation is_rep := (is_rep T).
  Local Notation blk_ok := (blk_ok T).
  Local Notation total ids := (psum outs_of ids (length ids)).

  Definition qrel (info : infos) (next : nat) (m : gmsg) (x : option nat) : Prop :=
    match msg_progs m with
    | [] => x = None
    | p :: _ => exists k, x = Some k /\ k < next /\ pv p = (info k).2
    end.
  Lemma qrel_le info a b m x : a <= b -> qrel info a m x -> qrel info b m x.
  Proof. intros Hab. unfold qrel. destruct (msg_progs m); [done|]. intros (k & ? & ? & ?). exists k. split; [done|]. split; [lia|done]. Qed.

  Fixpoint sent_ok (info : infos) (next : nat) (ms : list gmsg) : Prop :=
    match ms with
    | [] => True
    | m :: ms =>
        match msg_progs m with
        | [] => sent_ok info next ms
        | p :: _ => pv p = (info next).2 /\ np_fb p = replicate (total (info next).1) f32_zero /\ sent_ok info (S next) ms
        end
    end.
  Lemma sent_ok_plain info next ms : Forall plain ms -> sent_ok info next ms.
  Proof. induction 1 as [|m ms Hm _ IH]; [done|]. cbn. unfold plain in Hm. by rewrite Hm. Qed.
  Lemma nprogs_plain ms : Forall plain ms -> nprogs ms = 0.
  Proof. induction 1 as [|m ms Hm _ IH]; [done|]. rewrite nprogs_cons. unfold plain in Hm. by rewrite Hm, IH. Qed.

  Lemma push_cons h q m ms h' q' : queue_push h q (m :: ms) = Some (h', q') ->
    exists h1, queue_push h1 (if length q <? queue_size then q ++ [m] else q) ms = Some (h', q').
  Proof.
    cbn [queue_push]. destruct (length q <? queue_size); [by exists h|].
    destruct (msg_drop h m) as [h1|]; cbn [mbind option_bind]; [|done]. by exists h1.
  Qed.
  Lemma push_app a : forall b h q h' q', queue_push h q (a ++ b) = Some (h', q') ->
    exists h1 q1, queue_push h q a = Some (h1, q1) /\ queue_push h1 q1 b = Some (h', q').
  Proof.
    induction a as [|m a IH]; intros b h q h' q'; [by exists h, q|]. cbn [app queue_push].
    destruct (length q <? queue_size); [apply IH|].
    destruct (msg_drop h m) as [h1|]; cbn [mbind option_bind]; [apply IH|done].
  Qed.

  Lemma feed_sent_eq next ids tb held m : feed_sent (next, ids, tb, held) m =
    match msg_progs m with
    | [] => (next, (if length ids <? queue_size then ids ++ [None] else ids), tb, held)
    | p :: _ => (S next, (if length ids <? queue_size then ids ++ [Some next] else ids), <[next := tb_create (np_fb p)]> tb,
                 match m with MNewProg _ _ => Some next | _ => held end)
    end.
  Proof. by destruct m. Qed.

  Lemma sent_fold info ms : forall next ids tb held q h h' q', queue_push h q ms = Some (h', q') ->
    Forall2 (qrel info next) q ids -> sent_ok info next ms ->
    exists ids' tb' held', foldl feed_sent (next, ids, tb, held) ms = (next + nprogs ms, ids', tb', held') /\
      Forall2 (qrel info (next + nprogs ms)) q' ids' /\
      (forall k, k < next -> tb' !! k = tb !! k) /\
      (forall k, next <= k < next + nprogs ms -> tb' !! k = Some (tb_create (replicate (total (info k).1) f32_zero))) /\
      (Forall plain ms -> tb' = tb /\ held' = held).
  Proof.
    induction ms as [|m ms IH]; intros next ids tb held q h h' q' E Hq Hs.
    - cbn in *. injection E as <- <-. exists ids, tb, held. unfold nprogs. cbn. rewrite Nat.add_0_r. split; [done|]. split; [done|]. split; [done|]. split; [lia|done].
    - apply push_cons in E as [h1 E]. cbn [foldl]. rewrite feed_sent_eq. cbn [sent_ok] in Hs. rewrite nprogs_cons.
      pose proof (Forall2_length _ _ _ Hq) as Hlen. rewrite <- Hlen.
      destruct (msg_progs m) as [|p ps] eqn:Em.
      + set (ids1 := if length q <? queue_size then ids ++ [None] else ids).
        destruct (IH next ids1 tb held _ h1 h' q' E) as (ids' & tb' & held' & E' & A1 & A2 & A3 & A4); [|done|].
        { subst ids1. destruct (length q <? queue_size); [|done]. apply Forall2_app; [done|]. constructor; [|done]. unfold qrel. by rewrite Em. }
        cbn [length Nat.add]. exists ids', tb', held'. split; [done|]. split; [done|]. split; [done|]. split; [done|].
        intros [Hp1 Hp2]%Forall_cons. by apply A4.
      + assert (ps = []) as -> by (destruct m; cbn in Em; congruence). destruct Hs as (Hs1 & Hs2 & Hs3). cbn [length].
        set (ids1 := if length q <? queue_size then ids ++ [Some next] else ids).
        destruct (IH (S next) ids1 (<[next:=tb_create (np_fb p)]> tb) (match m with MNewProg _ _ => Some next | _ => held end) _ h1 h' q' E)
          as (ids' & tb' & held' & E' & A1 & A2 & A3 & A4); [|done|].
        { assert (Hq' : Forall2 (qrel info (S next)) q ids) by (eapply Forall2_impl; [exact Hq|]; intros; eapply qrel_le; [|done]; lia).
          subst ids1. destruct (length q <? queue_size); [|done]. apply Forall2_app; [done|]. constructor; [|done].
          unfold qrel. rewrite Em. exists next. split; [done|]. split; [lia|done]. }
        exists ids', tb', held'. rewrite E'. replace (next + (1 + nprogs ms)) with (S next + nprogs ms) by lia.
        split; [done|]. split; [done|]. split; [|split].
        * intros k Hk'. rewrite A2 by lia. apply lookup_insert_ne. lia.
        * intros k Hk'. destruct (decide (k = next)) as [->|Hne]; [|apply A3; lia].
          rewrite A2 by lia. by rewrite lookup_insert, Hs2.
        * intros [Hp1 _]%Forall_cons. unfold plain in Hp1. congruence.
  Qed.

  Lemma taken_view info next q ids : Forall2 (qrel info next) q ids -> forall cur v, cur < next -> v = (info cur).2 ->
    feed_taken cur ids < next /\ foldl mview v q = (info (feed_taken cur ids)).2.
  Proof.
    induction 1 as [|m x q ids Hm _ IH]; intros cur v Hc ->; [done|]. unfold feed_taken. cbn [foldl]. apply IH.
    - unfold qrel in Hm. destruct (msg_progs m); [by subst|]. destruct Hm as (k & -> & Hk' & _). done.
    - unfold qrel in Hm. destruct m; cbn in *; try (by subst); destruct Hm as (k & -> & _ & ->); done.
  Qed.

  (** numbers grow along the queue *)
  Definition grows (cur next : nat) (ids : list (option nat)) : Prop :=
    Forall (fun k => k < next) (cur :: omap id ids) /\ StronglySorted lt (cur :: omap id ids).
  Lemma grows_enq cur next ids b : grows cur next ids -> grows cur (S next) (if b : bool then ids ++ [Some next] else ids).
  Proof.
    intros [H1 H2]. assert (H1' : Forall (fun k => k < S next) (cur :: omap id ids)).
    { eapply Forall_impl; [exact H1|]. cbn. lia. }
    destruct b; [|done]. unfold grows. rewrite omap_app. cbn [omap list_omap id]. rewrite app_comm_cons. split.
    - apply Forall_app. split; [done|]. repeat constructor.
    - clear H1'. revert H1 H2. generalize (cur :: omap id ids). intros l. induction l as [|x l IH]; intros H1 H2; cbn.
      + repeat constructor.
      + inversion H1; subst. inversion H2; subst. constructor; [by apply IH|]. apply Forall_app. split; [done|]. by repeat constructor.
  Qed.
  Lemma grows_skip cur next ids b : grows cur next ids -> grows cur next (if b : bool then ids ++ [None] else ids).
  Proof. destruct b; [|done]. unfold grows. rewrite omap_app. cbn [omap list_omap id]. by rewrite app_nil_r. Qed.
  Lemma sent_grows cur ms : forall next ids tb held, grows cur next ids ->
    let '(next', ids', _, _) := foldl feed_sent (next, ids, tb, held) ms in grows cur next' ids'.
  Proof.
    induction ms as [|m ms IH]; intros next ids tb held H; [done|]. cbn [foldl]. rewrite feed_sent_eq.
    destruct (msg_progs m); apply IH; [by apply grows_skip|by apply grows_enq].
  Qed.
  Lemma taken_grows next ids : forall cur k, grows cur next ids -> cur <= feed_taken cur (take k ids) /\ grows (feed_taken cur (take k ids)) next (drop k ids).
  Proof.
    induction ids as [|x ids IH]; intros cur k H; destruct k as [|k]; try done. cbn [take drop]. unfold feed_taken. cbn [foldl].
    destruct x as [y|]; cbn [default id]; [|by apply IH].
    assert (Hy : cur < y /\ grows y next ids).
    { destruct H as [H1 H2]. cbn [omap list_omap id] in *. inversion H1; subst. inversion H2 as [|? ? Hs Hf]; subst. inversion Hf; subst. done. }
    destruct Hy as [Hy Hg]. destruct (IH y k Hg) as [J1 J2]. split; [|done]. unfold feed_taken in J1. lia.
  Qed.

  (** ** The triple buffers *)
  Definition slot_ok (i : list node_id * pview) (s : list f32) : Prop :=
    length s = total i.1 /\
    forall j n o, i.1 !! j = Some n -> n ∉ vnodes i.2 -> o < outs_of n -> s !! (psum outs_of i.1 j + o) = Some f32_zero.

  Record tb_ok (i : list node_id * pview) (ob : option blk) (t : tbuf) : Prop := {
    to_ne1 : tb_in t <> tb_mid t;
    to_ne2 : tb_mid t <> tb_out t;
    to_ne3 : tb_in t <> tb_out t;
    to_in : slot_ok i (tb_slot t (tb_in t));
    to_mid : slot_ok i (tb_slot t (tb_mid t));
    to_out : slot_ok i (tb_slot t (tb_out t));
    to_rep : is_rep i.1 (valof ob) (tb_slot t (if tb_new t then tb_mid t else tb_out t));
  }.

  Lemma rep_slot i ob s : (forall b, ob = Some b -> blk_ok i.2 b) -> is_rep i.1 (valof ob) s -> slot_ok i s.
  Proof.
    intros Hb [H1 H2]. split; [done|]. intros j n o Hj Hn Ho. rewrite (H2 j n o Hj Ho). f_equal. destruct ob as [b|]; [|done].
    unfold valof. rewrite head_filter_none; [done|]. by rewrite (bo_nodes _ _ _ (Hb b eq_refl)).
  Qed.
  Lemma zero_rep ids : is_rep ids (valof None) (replicate (total ids) f32_zero).
  Proof.
    split; [apply replicate_length|]. intros j n o Hj Ho. apply lookup_replicate. split; [done|].
    pose proof (psum_bound outs_of ids j n Hj). lia.
  Qed.
  Lemma create_ok i : tb_ok i None (tb_create (replicate (total i.1) f32_zero)).
  Proof.
    assert (Hs : slot_ok i (replicate (total i.1) f32_zero)) by (by apply (rep_slot i None); [|apply zero_rep]).
    constructor; cbn; try done. apply zero_rep.
  Qed.
  Lemma update_ok i ob t : tb_ok i ob t -> tb_ok i ob (tb_update t) /\ is_rep i.1 (valof ob) (tb_read (tb_update t)) /\
    tb_in (tb_update t) = tb_in t /\ tb_slot (tb_update t) = tb_slot t.
  Proof.
    intros [H1 H2 H3 H4 H5 H6 H7]. unfold tb_update, tb_read. destruct (tb_new t) eqn:E; cbn.
    - split; [|done]. constructor; cbn; done.
    - split; [|done]. constructor; try done. by rewrite E.
  Qed.
  Lemma write_ok i ob t v : tb_ok i ob t -> slot_ok i v -> tb_ok i ob (tb_write t v) /\ tb_slot (tb_write t v) (tb_in (tb_write t v)) = v.
  Proof.
    intros [H1 H2 H3 H4 H5 H6 H7] Hv. unfold tb_write. cbn. rewrite Nat.eqb_refl. split; [|done].
    constructor; cbn; try done.
    - by rewrite Nat.eqb_refl.
    - destruct (Nat.eqb_spec (tb_mid t) (tb_in t)); [congruence|done].
    - destruct (Nat.eqb_spec (tb_out t) (tb_in t)); [congruence|done].
    - destruct (tb_new t).
      + destruct (Nat.eqb_spec (tb_mid t) (tb_in t)); [congruence|done].
      + destruct (Nat.eqb_spec (tb_out t) (tb_in t)); [congruence|done].
  Qed.
  Lemma publish_ok i ob ob' t : tb_ok i ob t -> is_rep i.1 (valof ob') (tb_slot t (tb_in t)) -> tb_ok i ob' (tb_publish t).
  Proof. intros [H1 H2 H3 H4 H5 H6 H7] Hr. constructor; cbn; done. Qed.

  (** ** The invariant *)
  Definition all_blks (s : feed St) : list blk := fd_log s ++ option_list (fd_pend s).

  Record finv (info : infos) (s : feed St) : Prop := {
    fi_mx : mx_inv T (en_mx (fd_en s));
    fi_info : forall k, vinv (info k).1 (info k).2;
    fi_queue : Forall2 (qrel info (fd_next s)) (en_queue (fd_en s)) (fd_ids s);
    fi_ord : grows (fd_cur s) (fd_next s) (fd_ids s);
    fi_le : forall b, b ∈ all_blks s -> b_prog b <= fd_cur s;
    fi_prog : pv (ex_prog (en_exec (fd_en s))) = (info (fd_cur s)).2;
    fi_log : forall b, b ∈ all_blks s -> b_prog b < fd_next s /\ blk_ok (info (b_prog b)).2 b;
    fi_tb : forall k, k < fd_next s -> exists t, fd_tb s !! k = Some t /\
       tb_ok (info k) (last (filter (fun b => b_prog b = k) (fd_log s))) t;
    fi_pend : forall b t, fd_pend s = Some b -> fd_tb s !! fd_cur s = Some t ->
       b_prog b = fd_cur s /\ is_rep (info (fd_cur s)).1 (valof (Some b)) (tb_slot t (tb_in t));
    fi_held : match fd_held s with
       | None => forall n, conf_inst (feed_conf s) n = None
       | Some k => S k = fd_next s /\ (info k).1 `prefix_of` created (feed_conf s) /\ outs_at T (info k).1 (feed_conf s) /\
           (forall n, n ∈ (info k).1 -> is_Some (conf_inst (feed_conf s) n))
       end;
    fi_len : length (fd_ctx s) = ctx_size;
    fi_ctx : forall k j n, fd_held s = Some k -> length (info k).1 <= 256 -> (info k).1 !! j = Some n ->
       (forall v, last (leds n (computed s)) = Some v -> fd_ctx s !! (j * 2) = Some v) /\
       (forall v, last (phases n (computed s)) = Some v -> fd_ctx s !! (j * 2 + 1) = Some v);
  }.

  Lemma fi_cur info s : finv info s -> fd_cur s < fd_next s.
  Proof. intros I. destruct (fi_ord _ _ I) as [H _]. by inversion H. Qed.
  Lemma finv_new w h slope st : exists info, finv info (feed_new w h slope st).
  Proof.
    exists (fun _ => ([], pv prog_empty)). constructor; cbn [feed_new fd_en fd_next fd_ids fd_cur fd_tb fd_held fd_vals fd_ctx fd_pend fd_log].
    - apply mx_inv_new.
    - intros _. apply vinv_empty.
    - constructor.
    - split; repeat constructor.
    - intros b Hb. by apply elem_of_nil in Hb.
    - done.
    - intros b Hb. by apply elem_of_nil in Hb.
    - intros k Hk'. assert (k = 0) as -> by lia. exists (tb_create []). split; [by rewrite lookup_singleton|]. apply (create_ok ([], pv prog_empty)).
    - done.
    - done.
    - apply replicate_length.
    - done.
  Qed.
End inv.
