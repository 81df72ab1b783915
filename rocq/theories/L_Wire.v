(** A built program is wired like the layout once it is installed *)
From Verif Require Import Base M_Atom M_Graph M_Dir M_Grid S_Grid M_Layout M_Prog M_Conf M_Exec M_Sync.
From Verif Require Import S_Conf S_Sync S_Prog L_Grid L_Conf L_Conf2 L_Prog L_Sync L_Build L_Fill.
Open Scope nat_scope.

Section wire.
  Context (T : ntable) (HT : table_ok T).

  Lemma laid_inst_inv c c1 n ni : laid T c c1 -> conf_inst c1 n = Some ni ->
    exists j, created c !! j = Some n /\ inst_ok T (cf_modamt c) (created c) 0 (RLens 0 0 0) 0 j n ni.
  Proof.
    intros Hl Hn. destruct (inst_node T c1 _ _ (ld_inv _ _ _ Hl) Hn) as (i & Hi & Hnode & _).
    assert (Hci : created c !! i = Some n).
    { rewrite <- (ld_ids _ _ _ Hl). unfold created. by rewrite list_lookup_fmap, Hnode. }
    destruct (ld_inst _ _ _ Hl i _ Hci) as (d2 & Hd2 & Hok2). rewrite Hn in Hd2. injection Hd2 as <-. by exists i.
  Qed.

  (** the operation of a node *)
  Lemma op_laid c c1 es j n : laid T c c1 -> created c !! j = Some n ->
    let op := opf c1 es n in
    op_node op = n /\
    op_out op = (psum (n_outs T) (created c) j, psum (n_outs T) (created c) j + n_outs T n) /\
    op_in op = (psum (n_ins T) (created c) j, psum (n_ins T) (created c) j + n_ins T n) /\
    op_at op = (psum (n_ats T) (created c) j, psum (n_ats T) (created c) j + n_ats T n) /\
    op_mod op = (psum (n_mods T (cf_modamt c)) (created c) j, psum (n_mods T (cf_modamt c)) (created c) j + n_mods T (cf_modamt c) n) /\
    op_inputs op = omap (entry_for c1 n) es /\
    op_inc (op0 c1 n) = 0%N /\ op_outc (op0 c1 n) = 0%N /\ op_in (op0 c1 n) = op_in op /\ op_out (op0 c1 n) = op_out op.
  Proof.
    intros Hl Hj. cbn zeta. destruct (opf_static c1 es n) as (-> & -> & -> & -> & ->). rewrite opf_inputs.
    destruct (ld_inst _ _ _ Hl j n Hj) as (ni & Hni & Hok). unfold op0. rewrite Hni. cbn.
    rewrite (io_id _ _ _ _ _ _ _ _ _ Hok), (io_out _ _ _ _ _ _ _ _ _ Hok), (io_in _ _ _ _ _ _ _ _ _ Hok),
      (io_at _ _ _ _ _ _ _ _ _ Hok), (io_mod _ _ _ _ _ _ _ _ _ Hok). done.
  Qed.

  Lemma entry_iff c c1 e oi ii md : laid T c c1 ->
    entry c1 e = Some (oi, ii, md) <->
    exists js jd, created c !! js = Some (e_from e) /\ created c !! jd = Some (e_to e) /\
      e_from_out e < n_outs T (e_from e) /\ e_to_input e < n_ins T (e_to e) /\
      oi = psum (n_outs T) (created c) js + e_from_out e /\ ii = psum (n_ins T) (created c) jd + e_to_input e /\
      md = mod_entry (cf_modamt c) (e_to e) (psum (n_mods T (cf_modamt c)) (created c) jd) (e_to_input e).
  Proof.
    intros Hl. unfold entry.
    assert (Hmg : forall jd d, inst_ok T (cf_modamt c) (created c) 0 (RLens 0 0 0) 0 jd (e_to e) d -> e_to_input e < n_ins T (e_to e) ->
       mjoin (ni_mod_global d (e_to_input e)) = mod_entry (cf_modamt c) (e_to e) (psum (n_mods T (cf_modamt c)) (created c) jd) (e_to_input e)).
    { intros jd d Hok Hlt. unfold ni_mod_global. rewrite (io_len _ _ _ _ _ _ _ _ _ Hok).
      pose proof (tok_ins T HT (nid_kind (e_to e))) as Hm. unfold n_ins in Hlt.
      destruct (Nat.ltb_spec max_node_inputs (e_to_input e)); [lia|].
      by rewrite (io_map _ _ _ _ _ _ _ _ _ Hok) by done. }
    split.
    - destruct (conf_inst c1 (e_from e)) as [s|] eqn:Es; [|done].
      destruct (conf_inst c1 (e_to e)) as [d|] eqn:Ed; [|done].
      destruct (laid_inst_inv _ _ _ _ Hl Es) as (js & Hjs & Oks). destruct (laid_inst_inv _ _ _ _ Hl Ed) as (jd & Hjd & Okd).
      unfold local2global. rewrite (io_in _ _ _ _ _ _ _ _ _ Okd), (io_out _ _ _ _ _ _ _ _ _ Oks). cbn [fst snd rl_in rl_out Nat.add].
      destruct (Nat.ltb_spec (psum (n_ins T) (created c) jd + e_to_input e) (psum (n_ins T) (created c) jd + n_ins T (e_to e))); [|done].
      destruct (Nat.ltb_spec (psum (n_outs T) (created c) js + e_from_out e) (psum (n_outs T) (created c) js + n_outs T (e_from e))); [|done].
      rewrite (Hmg jd) by (done || lia). intros [= <- <- <-]. exists js, jd. repeat (split; [first [done|lia]|]). done.
    - intros (js & jd & Hjs & Hjd & Ho & Hi & -> & -> & ->).
      destruct (ld_inst _ _ _ Hl js _ Hjs) as (s & -> & Oks). destruct (ld_inst _ _ _ Hl jd _ Hjd) as (d & -> & Okd).
      unfold local2global. rewrite (io_in _ _ _ _ _ _ _ _ _ Okd), (io_out _ _ _ _ _ _ _ _ _ Oks). cbn [fst snd rl_in rl_out Nat.add].
      rewrite !(proj2 (Nat.ltb_lt _ _)) by lia. by rewrite (Hmg jd).
  Qed.

  Lemma mod_entry_some modamt n m0 q m : mod_entry modamt n m0 q = Some m -> q < n_ins T n -> m0 <= m < m0 + n_mods T modamt n.
  Proof.
    unfold mod_entry. destruct (mjoin (modamt !! (n, q))) as [a|] eqn:E; [|done]. intros [= <-] Hq.
    pose proof (rank_bound T modamt n q a E Hq). lia.
  Qed.

  Lemma rank_filter modamt n q : length (filter (fun j => is_Some (mjoin (modamt !! (n, j)))) (seq 0 q)) = rank modamt n q.
  Proof.
    induction q as [|q IH]; [done|]. rewrite seq_S, filter_app, app_length. cbn [rank]. rewrite IH. f_equal.
    cbn [Nat.add]. rewrite filter_cons. destruct (mjoin (modamt !! (n, q))) eqn:E.
    - rewrite decide_True by (by eexists). done.
    - rewrite decide_False by (intros [? ?]; done). done.
  Qed.
  Lemma modulated_length modamt n : length (modulated T modamt n) = n_mods T modamt n.
  Proof. apply rank_filter. Qed.
  Lemma modulated_rank modamt n q : is_Some (mjoin (modamt !! (n, q))) -> q < n_ins T n ->
    modulated T modamt n !! rank modamt n q = Some q.
  Proof.
    intros Ha Hq. unfold modulated. unfold n_ins in Hq.
    replace (nt_ins T (nid_kind n)) with (q + S (nt_ins T (nid_kind n) - S q)) by lia.
    rewrite seq_app, filter_app, lookup_app_r by (rewrite rank_filter; lia).
    rewrite rank_filter, Nat.sub_diag. cbn [seq Nat.add]. by rewrite filter_cons_True.
  Qed.
  Lemma modulated_inv modamt n k q : modulated T modamt n !! k = Some q ->
    is_Some (mjoin (modamt !! (n, q))) /\ q < n_ins T n /\ k = rank modamt n q.
  Proof.
    intros Hk. pose proof (elem_of_list_lookup_2 _ _ _ Hk) as Hin. unfold modulated in Hin.
    apply elem_of_list_filter in Hin as [Ha Hq]. apply elem_of_seq in Hq.
    assert (Hlt : q < n_ins T n) by (unfold n_ins; lia). split; [done|]. split; [done|].
    pose proof (modulated_rank modamt n q Ha Hlt) as Hr.
    eapply (NoDup_lookup (modulated T modamt n)); [|done|done]. apply NoDup_filter, NoDup_seq.
  Qed.

  (** the position of a created node is determined *)
  Lemma created_inj c c1 j j' n : laid T c c1 -> created c !! j = Some n -> created c !! j' = Some n -> j = j'.
  Proof. intros Hl H1 H2. by eapply (NoDup_lookup _ _ _ _ (ld_nodup _ _ _ Hl)). Qed.

  Lemma op_entries c c1 es j n io : laid T c c1 -> created c !! j = Some n -> io ∈ op_inputs (opf c1 es n) ->
    exists e js, e ∈ es /\ e_to e = n /\ created c !! js = Some (e_from e) /\
      e_from_out e < n_outs T (e_from e) /\ e_to_input e < n_ins T n /\
      io = (psum (n_outs T) (created c) js + e_from_out e, psum (n_ins T) (created c) j + e_to_input e,
            mod_entry (cf_modamt c) n (psum (n_mods T (cf_modamt c)) (created c) j) (e_to_input e)).
  Proof.
    intros Hl Hj. destruct (op_laid c c1 es j n Hl Hj) as (_ & _ & _ & _ & _ & -> & _).
    intros (e & He & Hent)%elem_of_list_omap. unfold entry_for in Hent. destruct (decide (e_to e = n)) as [Ht|]; [|done].
    destruct io as [[oi ii] md]. apply (entry_iff c c1 e oi ii md Hl) in Hent as (js & jd & H1 & H2 & H3 & H4 & -> & -> & ->).
    rewrite Ht in *. pose proof (created_inj _ _ _ _ _ Hl H2 Hj) as ->. by exists e, js.
  Qed.

  Lemma built_op_wf c c1 order es p n : laid T c c1 -> built T c c1 order es p -> n ∈ created c ->
    op_wf (length (np_out p)) (length (np_inp p)) (length (np_atoms p)) (length (np_mods p)) (opf c1 es n).
  Proof.
    intros Hl Hb Hn. apply elem_of_list_lookup in Hn as [j Hj].
    destruct (op_laid c c1 es j n Hl Hj) as (H1 & H2 & H3 & H4 & H5 & _ & _).
    pose proof (psum_bound (n_outs T) _ _ _ Hj). pose proof (psum_bound (n_ins T) _ _ _ Hj).
    pose proof (psum_bound (n_ats T) _ _ _ Hj). pose proof (psum_bound (n_mods T (cf_modamt c)) _ _ _ Hj).
    constructor.
    - rewrite H2. unfold range_in. cbn. rewrite (bt_len_out _ _ _ _ _ _ Hb). lia.
    - rewrite H3. unfold range_in. cbn. rewrite (bt_len_in _ _ _ _ _ _ Hb). lia.
    - rewrite H4. unfold range_in. cbn. rewrite (bt_len_at _ _ _ _ _ _ Hb). lia.
    - rewrite H5. unfold range_in. cbn. rewrite (bt_len_mod _ _ _ _ _ _ Hb). lia.
    - apply Forall_forall. intros io Hio. destruct (op_entries _ _ _ _ _ _ Hl Hj Hio) as (e & js & _ & _ & Hjs & Ho & Hi & ->).
      unfold entry_wf. cbn. rewrite (bt_len_out _ _ _ _ _ _ Hb), (bt_len_in _ _ _ _ _ _ Hb), (bt_len_mod _ _ _ _ _ _ Hb).
      pose proof (psum_bound (n_outs T) _ _ _ Hjs). split; [lia|]. split; [lia|].
      intros m Hm. apply mod_entry_some in Hm; [lia|done].
    - apply Forall_forall. intros io Hio. destruct (op_entries _ _ _ _ _ _ Hl Hj Hio) as (e & js & _ & _ & Hjs & Ho & Hi & ->).
      rewrite H3. cbn. lia.
    - apply Forall_forall. intros io Hio. destruct (op_entries _ _ _ _ _ _ Hl Hj Hio) as (e & js & _ & _ & Hjs & Ho & Hi & ->).
      rewrite H5. cbn. intros m Hm. by apply mod_entry_some in Hm.
  Qed.

  Lemma psum_disj (f : node_id -> nat) ids j j' n n' : ids !! j = Some n -> ids !! j' = Some n' -> j <> j' ->
    disj (psum f ids j, psum f ids j + f n) (psum f ids j', psum f ids j' + f n').
  Proof.
    intros Hj Hj' Hne x Hx Hx'. cbn in *.
    destruct (psum_inj f ids j j' n n' (x - psum f ids j) (x - psum f ids j') Hj Hj'); lia || done.
  Qed.

  Lemma ops_disj c c1 es n n' : laid T c c1 -> n ∈ created c -> n' ∈ created c -> n <> n' ->
    disj (op_out (opf c1 es n)) (op_out (opf c1 es n')) /\ disj (op_in (opf c1 es n)) (op_in (opf c1 es n')) /\
    disj (op_at (opf c1 es n)) (op_at (opf c1 es n')) /\ disj (op_mod (opf c1 es n)) (op_mod (opf c1 es n')).
  Proof.
    intros Hl [j Hj]%elem_of_list_lookup [j' Hj']%elem_of_list_lookup Hne.
    assert (j <> j') by congruence.
    destruct (op_laid c c1 es j n Hl Hj) as (_ & -> & -> & -> & -> & _).
    destruct (op_laid c c1 es j' n' Hl Hj') as (_ & -> & -> & -> & -> & _).
    repeat split; by apply psum_disj.
  Qed.

  (** what the last entry for a place of an operation is *)
  Lemma last_filter_unique {A} (P : A -> Prop) `{!forall x, Decision (P x)} (l : list A) x :
    x ∈ l -> P x -> (forall y, y ∈ l -> P y -> y = x) -> last (filter P l) = Some x.
  Proof.
    intros Hx HP Hu. assert (Hin : x ∈ filter P l) by (apply elem_of_list_filter; done).
    destruct (last (filter P l)) as [y|] eqn:E.
    - f_equal. apply last_Some_elem_of, elem_of_list_filter in E as [Hy Hyl]. by apply Hu.
    - apply last_None in E. rewrite E in Hin. by apply elem_of_nil in Hin.
  Qed.

  Lemma list_filter_iff' {A} (P Q : A -> Prop) `{!forall x, Decision (P x)} `{!forall x, Decision (Q x)} (l : list A) :
    (forall x, x ∈ l -> P x <-> Q x) -> filter P l = filter Q l.
  Proof.
    induction l as [|x l IH]; intros HPQ; [done|].
    assert (IH' : filter P l = filter Q l) by (apply IH; intros y Hy; apply HPQ; by right).
    pose proof (HPQ x (elem_of_list_here _ _)) as Hx. rewrite !filter_cons.
    destruct (decide (P x)), (decide (Q x)); [by f_equal|tauto|tauto|done].
  Qed.
  Lemma last_filter_some {A} (P : A -> Prop) `{!forall x, Decision (P x)} (l : list A) y :
    last (filter P l) = Some y -> y ∈ l /\ P y.
  Proof. intros [Hy Hyl]%last_Some_elem_of%elem_of_list_filter. done. Qed.

  Lemma good_wire g order q d e : good_order g order -> connects g q d e -> e_from e ∈ order /\ e_to e ∈ order.
  Proof.
    intros (_ & Hon & _) (cc & q' & c' & Hb & Hn & Hnb & Hb' & Hn' & _ & <- & _ & <-). split; apply Hon; (split; [done|]).
    - by exists q', c'.
    - by exists q, cc.
  Qed.

  Lemma wire_entry (es : list edge_t) c c1 e n j : laid T c c1 -> created c !! j = Some n -> wire_in T (.∈ es) e -> e_to e = n ->
    forall js, created c !! js = Some (e_from e) ->
    (psum (n_outs T) (created c) js + e_from_out e, psum (n_ins T) (created c) j + e_to_input e,
       mod_entry (cf_modamt c) n (psum (n_mods T (cf_modamt c)) (created c) j) (e_to_input e))
      ∈ op_inputs (opf c1 es n).
  Proof.
    intros Hl Hj (Hc & Ho & Hi) Ht js Hjs. destruct (op_laid c c1 es j n Hl Hj) as (_ & _ & _ & _ & _ & -> & _).
    apply elem_of_list_omap. exists e. split; [done|].
    unfold entry_for. rewrite decide_True by done. subst n.
    apply (proj2 (entry_iff c c1 e _ _ _ Hl)). exists js, j. done.
  Qed.

  Lemma entry_wire (es : list edge_t) c c1 e oi ii md : laid T c c1 -> e ∈ es -> entry c1 e = Some (oi, ii, md) -> wire_in T (.∈ es) e.
  Proof.
    intros Hl He Hent. apply (proj1 (entry_iff c c1 e _ _ _ Hl)) in Hent as (js & jd & _ & _ & Ho & Hi & _).
    done.
  Qed.

  Lemma assign_wired_by es c c1 order p : laid T c c1 -> built T c c1 order es p -> NoDup order ->
    (forall e, e ∈ es -> e_from e ∈ order /\ e_to e ∈ order) -> (forall n, n ∈ order -> n ∈ created c) ->
    exists cur mods,
      let p' := NProg (np_inp p) cur (np_out p) (np_params p) (np_atoms p) (np_ops p) mods true (np_fb p) in
      prog_assign p = Some p' /\ length cur = length (np_inp p) /\ length mods = length (np_mods p) /\
      (forall m, (fun mo => (mo_buf mo, mo_amt mo)) <$> mods !! m = (fun mo => (mo_buf mo, mo_amt mo)) <$> np_mods p !! m) /\
      (forall i b, cur !! i = Some (Some b) -> b ∈ np_inp p \/ b ∈ np_out p \/ b ∈ mo_buf <$> np_mods p) /\
      op_node <$> np_ops p = order /\ wired_by T (.∈ es) (cf_modamt c) p'.
  Proof.
    intros Hl Hb Hnd Hwin Hord. pose proof (bt_ops _ _ _ _ _ _ Hb) as Hops.
    assert (Hop : forall op, op ∈ np_ops p -> exists j n, n ∈ order /\ created c !! j = Some n /\ op = opf c1 es n).
    { rewrite Hops. intros op (n & -> & Hn)%elem_of_list_fmap. destruct (proj1 (elem_of_list_lookup _ _) (Hord n Hn)) as [j Hj]. by exists j, n. }
    assert (Hcl : length (np_cur p) = length (np_inp p)) by (rewrite (bt_cur _ _ _ _ _ _ Hb); by rewrite replicate_length).
    destruct (assign_ops_spec (np_inp p) (np_out p) (length (np_atoms p)) (np_ops p) (np_cur p) (np_mods p))
      as (cur & mods & E & L1 & L2 & C1 & C2 & M1 & M2).
    - done.
    - rewrite Hcl. apply Forall_forall. intros op Ho. destruct (Hop op Ho) as (j & n & Hn & Hj & ->).
      eapply built_op_wf; [done|done|by apply Hord].
    - intros i j op op' Hi Hj Hij. rewrite Hops in Hi, Hj. rewrite list_lookup_fmap in Hi, Hj.
      destruct (order !! i) as [n|] eqn:En; [|done]. destruct (order !! j) as [n'|] eqn:En'; [|done].
      cbn in Hi, Hj. injection Hi as <-. injection Hj as <-.
      assert (n <> n') as Hne. { intros ->. apply Hij. by apply (NoDup_lookup order i j n' Hnd). }
      pose proof (elem_of_list_lookup_2 _ _ _ En) as Hin1. pose proof (elem_of_list_lookup_2 _ _ _ En') as Hin2.
      by destruct (ops_disj c c1 es n n' Hl (Hord n Hin1) (Hord n' Hin2) Hne) as (_ & H1 & _ & H2).
    - exists cur, mods. cbn zeta. unfold prog_assign. rewrite E. cbn [mbind option_bind]. split; [done|]. split; [lia|]. split; [done|].
      assert (Hcase : forall m mo, np_mods p !! m = Some mo -> mods !! m = Some mo \/
         exists op, op ∈ np_ops p /\ (op_mod op).1 <= m < (op_mod op).2 /\ mods !! m = Some (mod_wired (np_inp p) (np_out p) mo (to_mod m (op_inputs op)))).
      { intros m mo Hmo. destruct (decide (Exists (fun op => (op_mod op).1 <= m < (op_mod op).2) (np_ops p))) as [Hx|Hx].
        - apply Exists_exists in Hx as (op & Ho & Hm). right. exists op. split; [done|]. split; [done|]. by apply M2.
        - left. apply M1; [done|]. intros op Ho Hm. apply Hx, Exists_exists. by exists op. }
      split.
      { intros m. destruct (np_mods p !! m) as [mo|] eqn:Em.
        - destruct (Hcase m mo Em) as [->|(op & _ & _ & ->)]; [done|]. cbn. unfold mod_wired. by destruct (to_mod _ _) as [[[? ?] ?]|].
        - apply lookup_ge_None in Em. by rewrite (lookup_ge_None_2 mods m) by lia. }
      split.
      { intros i b Hib. assert (Hi : i < length cur) by (by eapply lookup_lt_Some).
        destruct (decide (Exists (fun op => (op_in op).1 <= i < (op_in op).2) (np_ops p))) as [Hx|Hx].
        - apply Exists_exists in Hx as (op & Ho & Hm). rewrite (C2 op i Ho Hm) in Hib.
          unfold src_buf in Hib. destruct (to_input i (op_inputs op)) as [[[oi ii] [m|]]|].
          + right. right. destruct (np_mods p !! m) as [mo|] eqn:Em; [|done]. cbn in Hib. injection Hib as <-.
            apply elem_of_list_fmap. exists mo. split; [done|]. by eapply elem_of_list_lookup_2.
          + right. left. injection Hib as Hib. by eapply elem_of_list_lookup_2.
          + left. injection Hib as Hib. by eapply elem_of_list_lookup_2.
        - rewrite C1 in Hib; [|lia|]. 2: { intros op Ho Hm. apply Hx, Exists_exists. by exists op. }
          rewrite (bt_cur _ _ _ _ _ _ Hb) in Hib. apply lookup_replicate in Hib as [? _]. done. }
      assert (Hpos : forall n j, created c !! j = Some n -> forall op, op ∈ np_ops p -> op_node op = n -> op = opf c1 es n /\ n ∈ order).
      { intros n j Hj op Ho Hn. destruct (Hop op Ho) as (j' & n' & Hn' & Hj' & ->).
        destruct (op_laid c c1 es j' n' Hl Hj') as (Hnode & _). rewrite Hnode in Hn. by subst n'. }
      split.
      { rewrite Hops, <- list_fmap_compose.
        replace (op_node ∘ opf c1 es <$> order) with order; [done|]. rewrite <- (list_fmap_id order) at 1. apply list_fmap_ext.
        intros i n Hi. cbn. assert (Hn : n ∈ created c) by (apply Hord; by eapply elem_of_list_lookup_2).
        apply elem_of_list_lookup in Hn as [j Hj]. by destruct (op_laid c c1 es j n Hl Hj) as (-> & _). }
      constructor; cbn [np_ops np_inp np_out np_atoms np_mods np_cur].
      + (* sizes *) intros op Ho. destruct (Hop op Ho) as (j & n & Hn & Hj & ->).
        pose proof (built_op_wf c c1 order es p n Hl Hb (Hord n Hn)) as Hw.
        destruct (op_laid c c1 es j n Hl Hj) as (-> & H1 & H2 & H3 & H4 & _).
        pose proof (ow_out _ _ _ _ _ Hw) as W1. pose proof (ow_in _ _ _ _ _ Hw) as W2. pose proof (ow_at _ _ _ _ _ Hw) as W3.
        pose proof (ow_mod _ _ _ _ _ Hw) as W4. unfold range_in, range_of in *. rewrite H1, H2, H3, H4, ?L2 in *. cbn in *.
        rewrite modulated_length. unfold kind_outs, kind_ins, kind_ats, n_outs, n_ins, n_ats in *. repeat split; lia.
      + (* disjoint *) intros op op' Ho Ho' Hne. destruct (Hop op Ho) as (j & n & Hn & Hj & ->). destruct (Hop op' Ho') as (j' & n' & Hn' & Hj' & ->).
        apply (ops_disj c c1 es n n' Hl); [by apply Hord..|]. intros ->. done.
      + (* reads *) intros op q Ho Hq. destruct (Hop op Ho) as (j & n & Hn & Hj & ->).
        destruct (op_laid c c1 es j n Hl Hj) as (Hnode & _ & Hin & _ & Hmod & Hinp & _). rewrite Hnode in *.
        pose proof (psum_bound (n_ins T) _ _ _ Hj) as Hbd. unfold kind_ins in Hq. fold (n_ins T n) in Hq.
        unfold read_buf, own_buf, out_buf. cbn [np_cur np_inp np_out]. rewrite Hin. cbn [fst].
        assert (Hlt : psum (n_ins T) (created c) j + q < length (np_inp p)) by (rewrite (bt_len_in _ _ _ _ _ _ Hb); lia).
        rewrite (C2 _ _ Ho) by (rewrite Hin; cbn; lia).
        destruct (lookup_lt_is_Some_2 _ _ Hlt) as [ib Hib].
        destruct (to_input _ (op_inputs (opf c1 es n))) as [[[oi ii] md]|] eqn:Eti.
        * pose proof (last_filter_some _ _ _ Eti) as [Hio Hii]. cbn in Hii. subst ii.
          destruct (op_entries _ _ _ _ _ _ Hl Hj Hio) as (e & js & He & Ht & Hjs & Ho' & Hi' & [= -> Hqe Hmd]).
          assert (e_to_input e = q) as Heq by lia. rewrite Heq in *.
          destruct (Hwin e He) as [Hfo Hto].
          destruct (op_laid c c1 es js _ Hl Hjs) as (Hnode' & Hso & _).
          pose proof (psum_bound (n_outs T) _ _ _ Hjs) as Hbo.
          destruct (lookup_lt_is_Some_2 (np_out p) (psum (n_outs T) (created c) js + e_from_out e)) as [ob Hob].
          { rewrite (bt_len_out _ _ _ _ _ _ Hb). lia. }
          assert (Hwr : wire_in T (.∈ es) e). { split; [done|]. unfold kind_outs, kind_ins. rewrite Ht, Heq. done. }
          assert (Hsrc : opf c1 es (e_from e) ∈ np_ops p). { rewrite Hops. by apply elem_of_list_fmap_1. }
          destruct (mjoin (cf_modamt c !! (n, q))) as [a|] eqn:Ema.
          -- unfold mod_entry in Hmd. rewrite Ema in Hmd. subst md. cbn [src_buf].
             set (m := psum (n_mods T (cf_modamt c)) (created c) j + rank (cf_modamt c) n q) in *.
             pose proof (rank_bound T _ _ _ _ Ema Hq) as Hr. pose proof (psum_bound (n_mods T (cf_modamt c)) _ _ _ Hj) as Hbm.
             destruct (lookup_lt_is_Some_2 (np_mods p) m) as [mo Hmo]. { rewrite (bt_len_mod _ _ _ _ _ _ Hb). lia. }
             assert (Hmr : (op_mod (opf c1 es n)).1 <= m < (op_mod (opf c1 es n)).2) by (rewrite Hmod; cbn; lia).
             pose proof (M2 _ m mo Ho Hmr Hmo) as Hm2.
             assert (Htm : to_mod m (op_inputs (opf c1 es n)) = to_input (psum (n_ins T) (created c) j + q) (op_inputs (opf c1 es n))).
             { unfold to_mod, to_input. f_equal. apply list_filter_iff'. intros y Hy.
               destruct (op_entries _ _ _ _ _ _ Hl Hj Hy) as (e' & js' & He' & Ht' & Hjs' & Hoo' & Hii' & ->). cbn. split.
               - unfold mod_entry. destruct (mjoin (cf_modamt c !! (n, e_to_input e'))) as [a'|] eqn:Ea'; [|done]. intros [= Hyy].
                 f_equal. destruct (decide (e_to_input e' < q)) as [Hlt'|].
                 { pose proof (rank_lt _ _ _ _ _ Ea' Hlt'). unfold m in Hyy. lia. }
                 destruct (decide (q < e_to_input e')) as [Hlt'|]; [|lia].
                 pose proof (rank_lt _ _ _ _ _ Ema Hlt'). unfold m in Hyy. lia.
               - intros Hyy. assert (e_to_input e' = q) as -> by lia. unfold mod_entry. by rewrite Ema. }
             rewrite Htm, Eti in Hm2. cbn [mod_wired] in Hm2. rewrite Hob, Hib in Hm2.
             rewrite Hmo. cbn. split; [by eexists|]. right. exists e, (opf c1 es (e_from e)).
             split; [done|]. split; [by rewrite Ht, Heq|]. split; [done|]. split; [done|].
             exists (rank (cf_modamt c) n q), (ModOp (mo_amt mo) (mo_buf mo) (Some ob) (Some ib)). split; [|done].
             split; [rewrite Hnode; apply modulated_rank; [by eexists|done]|]. split; [rewrite Hmod; done|].
             unfold own_buf, out_buf. cbn [mo_in mo_out np_inp np_out]. rewrite Hin, Hso. cbn [fst].
             split; [by eexists|]. split; [done|]. split; [by eexists|]. done.
          -- unfold mod_entry in Hmd. rewrite Ema in Hmd. subst md. cbn [src_buf mjoin option_join]. rewrite Hob.
             split; [by eexists|]. right. exists e, (opf c1 es (e_from e)).
             split; [done|]. split; [by rewrite Ht, Heq|]. split; [done|]. split; [done|]. rewrite Hso. cbn [fst]. by rewrite Hob.
        * cbn. rewrite Hib. split; [by eexists|]. left. split; [|done]. intros e Hwr [= Ht Hqe].
          destruct (Hwin e (proj1 Hwr)) as [Hfo Hto].
          destruct (proj1 (elem_of_list_lookup _ _) (Hord _ Hfo)) as [js Hjs].
          pose proof (wire_entry es c c1 e n j Hl Hj Hwr Ht js Hjs) as Hio.
          unfold to_input in Eti. apply last_None in Eti.
          assert (Hx : (psum (n_outs T) (created c) js + e_from_out e, psum (n_ins T) (created c) j + e_to_input e,
             mod_entry (cf_modamt c) n (psum (n_mods T (cf_modamt c)) (created c) j) (e_to_input e))
            ∈ filter (fun io : nat * nat * option nat => io.1.2 = psum (n_ins T) (created c) j + q) (op_inputs (opf c1 es n))).
          { apply elem_of_list_filter. split; [cbn; by rewrite Hqe|done]. }
          rewrite Eti in Hx. by apply elem_of_nil in Hx.
      + (* modulators *) intros m mo Hm. assert (Hlt : m < length (np_mods p)) by (rewrite <- L2; by eapply lookup_lt_Some).
        destruct (lookup_lt_is_Some_2 _ _ Hlt) as [mo0 Hmo0].
        pose proof (proj1 (Forall_lookup _ _) (bt_mods _ _ _ _ _ _ Hb) m mo0 Hmo0) as [_ Hnone].
        destruct (Hcase m mo0 Hmo0) as [Hx|(op & Ho & Hr & Hx)]; rewrite Hm in Hx; injection Hx as ->; [by left|].
        destruct (to_mod m (op_inputs op)) as [[[oi ii] md]|] eqn:Etm; [|by left]. right.
        destruct (Hop op Ho) as (j & n & Hn & Hj & ->).
        apply last_filter_some in Etm as [Hio Hmd]. cbn in Hmd. subst md.
        destruct (op_entries _ _ _ _ _ _ Hl Hj Hio) as (e & js & He & Ht & Hjs & Ho' & Hi' & [= -> -> Hme]).
        destruct (Hwin e He) as [Hfo Hto].
        exists e, (opf c1 es (e_from e)), (opf c1 es n), (rank (cf_modamt c) n (e_to_input e)).
        destruct (op_laid c c1 es j n Hl Hj) as (Hnode & _ & Hin & _ & Hmod & _).
        destruct (op_laid c c1 es js _ Hl Hjs) as (Hnode' & Hso & _).
        pose proof (psum_bound (n_ins T) _ _ _ Hj) as Hbi. pose proof (psum_bound (n_outs T) _ _ _ Hjs) as Hbo.
        destruct (lookup_lt_is_Some_2 (np_out p) (psum (n_outs T) (created c) js + e_from_out e)) as [ob Hob].
        { rewrite (bt_len_out _ _ _ _ _ _ Hb). lia. }
        destruct (lookup_lt_is_Some_2 (np_inp p) (psum (n_ins T) (created c) j + e_to_input e)) as [ib Hib].
        { rewrite (bt_len_in _ _ _ _ _ _ Hb). lia. }
        split. { split; [done|]. unfold kind_outs, kind_ins. by rewrite Ht. }
        split. { rewrite Hops. by apply elem_of_list_fmap_1. }
        split; [done|]. split; [done|]. split; [congruence|].
        unfold mod_entry in Hme. destruct (mjoin (cf_modamt c !! (n, e_to_input e))) as [a|] eqn:Ema; [|done]. injection Hme as Hme.
        split; [rewrite Hmod; done|].
        split; [rewrite Hnode; apply modulated_rank; [by eexists|done]|].
        unfold own_buf, out_buf. cbn [np_mods np_inp np_out mod_wired mo_in mo_out]. rewrite Hin, Hso, Hmod. cbn [fst].
        split; [rewrite <- Hme; done|]. rewrite Hob, Hib. split; [by eexists|]. split; [done|]. split; [by eexists|]. done.
      + (* input flags *) intros op q Ho. destruct (Hop op Ho) as (j & n & Hn & Hj & ->).
        destruct (op_laid c c1 es j n Hl Hj) as (Hnode & _ & Hin & _ & _ & _ & Hz & _ & Hin0 & _).
        rewrite opf_inc, Hz, Hin0, Hin. cbn [fst]. rewrite Hnode. split.
        * intros [Hf|(e & oi & ii & md & He & Hent & Hr & Hq)]; [by rewrite N.bits_0 in Hf|].
          unfold entry_for in Hent. destruct (decide (e_to e = n)) as [Ht|]; [|done].
          pose proof (entry_wire es c c1 e _ _ _ Hl He Hent) as Hw. exists e. split; [done|].
          apply (proj1 (entry_iff c c1 e _ _ _ Hl)) in Hent as (js & jd & _ & Hjd & _ & _ & _ & -> & _).
          rewrite Ht in Hjd. pose proof (created_inj _ _ _ _ _ Hl Hjd Hj) as ->. rewrite Ht. f_equal. lia.
        * intros (e & Hw & [= Ht Hq]). right. destruct (Hwin e (proj1 Hw)) as [Hfo Hto].
          destruct (proj1 (elem_of_list_lookup _ _) (Hord _ Hfo)) as [js Hjs]. destruct Hw as (Hcon & Hw1 & Hw2).
          eexists e, _, _, _. split; [done|]. unfold entry_for. rewrite decide_True by done.
          split; [apply (proj2 (entry_iff c c1 e _ _ _ Hl)); exists js, j; rewrite Ht; by rewrite Ht in Hw2|].
          rewrite Ht in Hw2. unfold kind_ins in Hw2. fold (n_ins T n) in Hw2. unfold in_range. cbn [fst snd].
          split; [|lia]. apply andb_true_iff. split; [apply Nat.leb_le; lia|apply Nat.ltb_lt; lia].
      + (* output flags *) intros op q Ho. destruct (Hop op Ho) as (j & n & Hn & Hj & ->).
        destruct (op_laid c c1 es j n Hl Hj) as (Hnode & Hout & _ & _ & _ & _ & _ & Hz & _ & Hout0).
        rewrite opf_outc, Hz, Hout0, Hout. cbn [fst]. rewrite Hnode. split.
        * intros [Hf|(e & oi & ii & md & He & Hent & Hr & Hq)]; [by rewrite N.bits_0 in Hf|].
          pose proof (entry_wire es c c1 e _ _ _ Hl He Hent) as Hw. exists e. split; [done|].
          apply (proj1 (entry_iff c c1 e _ _ _ Hl)) in Hent as (js & jd & Hjs & _ & Hlt & _ & -> & _ & _).
          unfold in_range in Hr. cbn [fst snd] in Hr. apply andb_true_iff in Hr as [R1 R2]. apply Nat.leb_le in R1. apply Nat.ltb_lt in R2.
          destruct (psum_inj (n_outs T) (created c) js j (e_from e) n (e_from_out e) (psum (n_outs T) (created c) js + e_from_out e - psum (n_outs T) (created c) j) Hjs Hj) as [-> H2];
            [lia|lia|lia|]. rewrite Hj in Hjs. injection Hjs as ->. f_equal. lia.
        * intros (e & Hw & [= Hf Hq]). right. destruct (Hwin e (proj1 Hw)) as [Hfo Hto].
          destruct (proj1 (elem_of_list_lookup _ _) (Hord _ Hto)) as [jd Hjd]. destruct Hw as (Hcon & Hw1 & Hw2).
          eexists e, _, _, _. split; [done|].
          split; [apply (proj2 (entry_iff c c1 e _ _ _ Hl)); exists j, jd; rewrite Hf; by rewrite Hf in Hw1|].
          rewrite Hf in Hw1. unfold kind_outs in Hw1. fold (n_outs T n) in Hw1. unfold in_range. cbn [fst snd].
          split; [|lia]. apply andb_true_iff. split; [apply Nat.leb_le; lia|apply Nat.ltb_lt; lia].
  Qed.
  Lemma good_wires g order e : good_order g order -> e ∈ grid_edges g -> e_from e ∈ order /\ e_to e ∈ order.
  Proof. intros Hgo (q & d & He)%grid_edges_elem. by eapply good_wire. Qed.

  Lemma wire_grid g e : wire_in T (.∈ grid_edges g) e <-> exists q d, wire T g q d e.
  Proof.
    unfold wire_in, wire. rewrite grid_edges_elem. split; [intros ((q & d & H1) & H2 & H3)|intros (q & d & H1 & H2 & H3)].
    - by exists q, d.
    - split; [|done]. by exists q, d.
  Qed.

  Lemma wired_by_grid g modamt p : good_order g (op_node <$> np_ops p) -> wired_by T (.∈ grid_edges g) modamt p -> wired T g modamt p.
  Proof.
    intros Hgo [H1 H2 H3 H4 H5 H6]. constructor; [done|done|done| | | |].
    - intros op j Ho Hj. destruct (H3 op j Ho Hj) as [Hs [[Hn Hr]|(e & src & He & Hk & Hx)]]; (split; [done|]).
      + left. split; [|done]. intros q d e He. apply Hn, wire_grid. by exists q, d.
      + right. apply wire_grid in He as (q & d & He). by exists q, d, e, src.
    - intros m mo Hm. destruct (H4 m mo Hm) as [?|(e & src & dst & k & He & Hx)]; [by left|right].
      apply wire_grid in He as (q & d & He). by exists q, d, e, src, dst, k.
    - intros op j Ho. rewrite (H5 op j Ho). split.
      + intros (e & (q & d & He)%wire_grid & Hk). by exists q, d, e.
      + intros (q & d & e & He & Hk). exists e. split; [|done]. apply wire_grid. by exists q, d.
    - intros op j Ho. rewrite (H6 op j Ho). split.
      + intros (e & (q & d & He)%wire_grid & Hk). by exists q, d, e.
      + intros (q & d & e & He & Hk). exists e. split; [|done]. apply wire_grid. by exists q, d.
  Qed.
End wire.

Section install.
  Context (T : ntable) (HT : table_ok T) (finc : f32 -> f32 -> nat -> f32).

  Lemma swap_zip_length {A} (xs ys : list A) : length (swap_zip xs ys).1 = length xs /\ length (swap_zip xs ys).2 = length ys.
  Proof.
    revert ys. induction xs as [|x xs IH]; intros [|y ys]; cbn; [done..|].
    destruct (IH ys) as [H1 H2]. destruct (swap_zip xs ys) as [a b]. cbn in *. lia.
  Qed.

  Lemma built_with_inp c c1 order es p inp : built T c c1 order es p -> length inp = length (np_inp p) ->
    built T c c1 order es (with_inp p inp).
  Proof. intros [] Hl. constructor; cbn; try done; congruence. Qed.

  Lemma prog_swap_self p prev : np_locked p = false ->
    exists inp, (prog_swap p prev).1 = with_inp p inp /\ length inp = length (np_inp p).
  Proof.
    intros Hu. unfold prog_swap. rewrite Hu.
    set (prev' := if np_locked prev then prog_unlock prev else prev).
    destruct (swap_zip_length (np_inp prev') (np_inp p)) as [H1 H2].
    destruct (swap_zip _ _) as [a b]. cbn in *. by exists b.
  Qed.

  (** the parts of an installed program that come from the message *)
  Definition same_content (p p' : nprog) : Prop :=
    np_out p' = np_out p /\ np_params p' = np_params p /\ np_atoms p' = np_atoms p /\ np_ops p' = np_ops p /\ np_fb p' = np_fb p /\
    length (np_inp p') = length (np_inp p) /\ length (np_cur p') = length (np_inp p) /\ length (np_mods p') = length (np_mods p) /\
    (forall m, (fun mo => (mo_buf mo, mo_amt mo)) <$> np_mods p' !! m = (fun mo => (mo_buf mo, mo_amt mo)) <$> np_mods p !! m).

  Lemma install_wired_by es c c1 order p copy hx e hx' e' t :
    laid T c c1 -> built T c c1 order es p -> NoDup order -> (forall x, x ∈ es -> e_from x ∈ order /\ e_to x ∈ order) ->
    (forall n, n ∈ order -> n ∈ created c) ->
    exec_message finc hx e (MNewProg p copy) = Some (hx', e', t) ->
    op_node <$> np_ops (ex_prog e') = order /\ wired_by T (.∈ es) (cf_modamt c) (ex_prog e') /\ same_content p (ex_prog e').
  Proof.
    intros Hl Hb Hnd Hwin Hord. unfold exec_message. destruct (prog_init_inputs hx p) as [h1|]; cbn [mbind option_bind]; [|done].
    assert (Hsw : exists inp prev', (if copy then prog_swap p (ex_prog e) else (p, ex_prog e)) = (with_inp p inp, prev') /\ length inp = length (np_inp p)).
    { destruct copy.
      - destruct (prog_swap_self p (ex_prog e) (bt_unlocked _ _ _ _ _ _ Hb)) as (inp & H1 & H2).
        destruct (prog_swap p (ex_prog e)) as [a b]. cbn in H1. subst a. by exists inp, b.
      - exists (np_inp p), (ex_prog e). split; [by destruct p|done]. }
    destruct Hsw as (inp & prev' & -> & Hlen).
    pose proof (built_with_inp _ _ _ _ _ _ Hb Hlen) as Hb'.
    destruct (assign_wired_by T HT es c c1 order _ Hl Hb' Hnd Hwin Hord) as (cur & mods & E & L1 & L2 & Hsame & _ & Ho & Hw).
    cbn zeta in *. rewrite E. cbn [mbind option_bind]. intros [= <- <- <-]. split; [done|]. split; [done|].
    cbn in *. split_and!; try done. cbn. congruence.
  Qed.

  Lemma install_wired g c c1 order p copy hx e hx' e' t :
    laid T c c1 -> built T c c1 order (grid_edges g) p -> good_order g order -> (forall n, n ∈ order -> n ∈ created c) ->
    exec_message finc hx e (MNewProg p copy) = Some (hx', e', t) ->
    wired T g (cf_modamt c) (ex_prog e') /\ same_content p (ex_prog e').
  Proof.
    intros Hl Hb Hgo Hord E. assert (Hwin : forall x, x ∈ grid_edges g -> e_from x ∈ order /\ e_to x ∈ order) by (intros x Hx; by eapply good_wires).
    destruct (install_wired_by _ _ _ _ _ _ _ _ _ _ _ Hl Hb (proj1 Hgo) Hwin Hord E) as (Ho & Hw & Hs).
    split; [|done]. apply wired_by_grid; [by rewrite Ho|done].
  Qed.

  Lemma built_carries c c1 c' order es p p' : laid T c c1 -> same_values c1 c' -> built T c c1 order es p ->
    (forall n, n ∈ order -> n ∈ created c) -> same_content p p' -> carries T c' p'.
  Proof.
    intros Hl (_ & _ & Hpv & Hma & _ & Hav & _) Hb Hord (_ & Ep & Ea & Eo & _ & _ & _ & _ & Em).
    pose proof (bt_ops _ _ _ _ _ _ Hb) as Hops.
    assert (Hop : forall op, op ∈ np_ops p' -> exists j n, n ∈ order /\ created c !! j = Some n /\ op = opf c1 es n).
    { rewrite Eo, Hops. intros op (n & -> & Hn)%elem_of_list_fmap. destruct (proj1 (elem_of_list_lookup _ _) (Hord n Hn)) as [j Hj]. by exists j, n. }
    constructor.
    - intros op q Ho Hq. destruct (Hop op Ho) as (j & n & Hn & Hj & ->). destruct (op_laid T c c1 es j n Hl Hj) as (Hnode & _ & Hin & _).
      rewrite Hnode in *. rewrite Ep, Hin. cbn [fst].
      pose proof (bt_param _ _ _ _ _ _ Hb _ _ (ld_param _ _ _ Hl j n q Hj Hq)) as Hp. cbn in Hp. rewrite Hp, Hpv.
      split; [by eexists|]. symmetry. apply (ld_pval _ _ _ Hl); [by apply Hord|done].
    - intros op q Ho Hq. destruct (Hop op Ho) as (j & n & Hn & Hj & ->). destruct (op_laid T c c1 es j n Hl Hj) as (Hnode & _ & _ & Hat & _).
      rewrite Hnode in *. rewrite Ea, Hat. cbn [fst].
      pose proof (bt_atom _ _ _ _ _ _ Hb _ _ (ld_atom _ _ _ Hl j n q Hj Hq)) as Hp. cbn in Hp. rewrite Hp, Hav.
      split; [by eexists|]. symmetry. apply (ld_aval _ _ _ Hl); [by apply Hord|done].
    - intros op k q Ho Hk. destruct (Hop op Ho) as (j & n & Hn & Hj & ->). destruct (op_laid T c c1 es j n Hl Hj) as (Hnode & _ & _ & _ & Hm & _).
      rewrite Hnode in *. rewrite Hm. cbn [fst]. rewrite Hma, (ld_modamt _ _ _ Hl) in *.
      destruct (modulated_inv _ _ _ _ _ Hk) as ([a Ha] & Hq & ->).
      split; [by eexists|].
      pose proof (ld_param _ _ _ Hl j n q Hj Hq) as Hpar. rewrite Ha in *.
      pose proof (bt_amt _ _ _ _ _ _ Hb _ _ _ _ Hpar eq_refl) as Hp. cbn in Hp. rewrite <- Hp.
      specialize (Em (psum (n_mods T (cf_modamt c)) (created c) j + rank (cf_modamt c) n q)).
      destruct (np_mods p' !! _), (np_mods p !! _); cbn in *; try done. injection Em as _ ->. done.
  Qed.
End install.
