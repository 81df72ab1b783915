(** The audio side of the constructor: every change of a value is sent (C31) *)
From Coq Require Import QArith.
From stdpp Require Import strings.
From Verif Require Import Base M_Atom M_Graph S_Graph M_Grid M_Prog M_Conf M_Exec M_Nodes M_Synth S_Nodes S_Grid S_Conf S_Sync S_Prog S_Synth S_Settle.
From Verif Require Import L_Graph L_Conf L_Conf3 L_Sync L_Settle L_Settle3 L_Settle6 P_Nodes L_Synth L_Synth2 L_Synth3 L_Synth4 L_Synth5 L_Synth6.
Open Scope list_scope.
Open Scope nat_scope.
Local Opaque node_rows.

Section view.
  Context (T : ntable) (HT : table_ok T) (i2f : Z -> f32) (load_sample : satom -> satom) (feq : f32 -> f32 -> bool).
  Notation opos := (list (node_id * (nat * nat) * (nat * nat))).
  Notation view := (list f32 * list satom)%type.

  (** what the frontend knows of the audio thread is right *)
  Definition vw (c : nconf) (A : view) (O : opos) : Prop := conf_fine T c /\ fr T c A /\ Forall (where_ok T c) O.
  Definition vcall (c c' : nconf) (ms : list gmsg) : Prop :=
    forall A O, vw c A O -> vw c' (foldl applied A ms) (foldl oapplied O ms).

  Lemma vcall_refl c : vcall c c [].
  Proof. by intros A O H. Qed.
  Lemma vcall_trans a b c ms ms' : vcall a b ms -> vcall b c ms' -> vcall a c (ms ++ ms').
  Proof. intros H1 H2 A O H. rewrite !foldl_app. by apply H2, H1. Qed.

  Lemma set_param_v c p a : let cm := conf_set_param T i2f load_sample c p a in vcall c cm.1 cm.2.
  Proof.
    cbn zeta. intros A O ([Hc Hd] & Hf & Hw). destruct (grows_set_param T i2f load_sample c p a) as [Hg Hm].
    pose proof (fr_set_param T i2f load_sample c p a A Hf) as [_ Hf']. pose proof (set_param_inv T i2f load_sample c p a Hc) as Hc'.
    pose proof (set_param_values T i2f load_sample c p a) as (S1 & _). split; [|split; [done|]].
    - constructor; [done|]. unfold created. by rewrite S1.
    - rewrite (oapplied_none _ _ Hm). eapply Forall_impl; [exact Hw|]. intros x. by apply where_grows.
  Qed.
  Lemma set_modamt_v c p v : let cm := conf_set_modamt T c p v in vcall c cm.1.1 cm.1.2.
  Proof.
    cbn zeta. intros A O ([Hc Hd] & Hf & Hw). destruct (grows_set_modamt T c p v) as [Hg Hm].
    pose proof (fr_set_modamt T c p v A Hf) as [_ Hf']. pose proof (set_modamt_inv T c p v Hc) as Hc'.
    pose proof (set_modamt_values T c p v) as (S1 & _). split; [|split; [done|]].
    - constructor; [done|]. unfold created. by rewrite S1.
    - rewrite (oapplied_none _ _ Hm). eapply Forall_impl; [exact Hw|]. intros x. by apply where_grows.
  Qed.

  Lemma update_entry_v n c e c' ms b : update_entry T i2f load_sample feq n c e = Some (c', ms, b) -> vcall c c' ms.
  Proof.
    destruct e as [name [v ma]]. unfold update_entry. destruct (inp_param n name) as [q|]; cbn [mbind option_bind]; [|done].
    intros E. apply (inj Some) in E. revert E.
    match goal with |- context [if ?x || ?y then _ else _] => destruct (x || y); [|intros [= <- <- <-]; apply vcall_refl]; destruct y end.
    - pose proof (set_param_v c (n, pa_idx q) v) as H1. destruct (conf_set_param _ _ _ _ _ _) as [c1 ms1]. cbn [fst snd] in *.
      pose proof (set_modamt_v c1 (n, pa_idx q) ma) as H2. destruct (conf_set_modamt _ _ _ _) as [[c2 ms2] b2]. cbn [fst snd] in *.
      intros [= <- <- <-]. by eapply vcall_trans.
    - pose proof (set_param_v c (n, pa_idx q) v) as H1. destruct (conf_set_param _ _ _ _ _ _) as [c1 ms1]. cbn [fst snd] in *.
      by intros [= <- <- <-].
  Qed.
  Lemma update_entries_v n es : forall c ms b c' ms' r, update_entries T i2f load_sample feq n c ms b es = (c', ms', r) ->
    exists ms1, ms' = ms ++ ms1 /\ vcall c c' ms1.
  Proof.
    induction es as [|e es IH]; intros c ms b c' ms' r; cbn [update_entries].
    - intros [= <- <- _]. exists []. rewrite app_nil_r. split; [done|apply vcall_refl].
    - destruct (update_entry _ _ _ _ n c e) as [[[c1 ms1] b1]|] eqn:E.
      + intros H. destruct (IH _ _ _ _ _ _ H) as (ms2 & -> & H2). exists (ms1 ++ ms2). rewrite app_assoc. split; [done|].
        eapply vcall_trans; [by eapply update_entry_v|done].
      + intros [= <- <- _]. exists []. rewrite app_nil_r. split; [done|apply vcall_refl].
  Qed.
  Lemma update_node_v it s n s' ms r : update_node T i2f load_sample feq it s n = (s', ms, r) -> vcall (sy_conf s) (sy_conf s') ms.
  Proof.
    unfold update_node. destruct (sy_nodes s !! n) as [cfg|]; [|intros [= <- <- _]; apply vcall_refl].
    destruct (update_entries _ _ _ _ _ _ _ _ _) as [[c ms1] r1] eqn:E. intros [= <- <- _]. cbn.
    by destruct (update_entries_v _ _ _ _ _ _ _ _ E) as (ms2 & -> & H).
  Qed.

  Lemma walk_v bs it only f : forall s r s' ms res, walk T i2f load_sample feq f bs it only s r = Some (s', ms, res) -> vcall (sy_conf s) (sy_conf s') ms.
  Proof.
    induction f as [|f IH]; intros s r s' ms res; cbn [walk]; [done|].
    destruct (bs !! r) as [b|]; cbn [mbind option_bind]; [|done].
    destruct (foldm _ _ (bn_ops b)) as [w|]; cbn [mbind option_bind]; [|done].
    destruct (ws_err w); [intros [= <- <- _]; apply vcall_refl|].
    set (s0 := Synth (sy_conf s) _ _).
    destruct (if only && ws_par w then _ else _) as [[s1 ms1] res1] eqn:E1.
    assert (H1 : vcall (sy_conf s) (sy_conf s1) ms1).
    { destruct (only && ws_par w); [|injection E1 as <- <- _; apply vcall_refl]. by apply update_node_v in E1. }
    destruct res1 as [e|b1]; [by intros [= <- <- _]|]. clear E1. generalize (ws_edge w || b1). revert s1 ms1 H1.
    induction (ws_after w) as [|r0 rs IHr]; intros s1 ms1 H1 b2; cbn [walk_all]; [by intros [= <- <- _]|].
    destruct (walk _ _ _ _ f bs it only s1 r0) as [[[s2 ms2] res2]|] eqn:E2; cbn [mbind option_bind]; [|done]. apply IH in E2.
    destruct res2 as [e|b3].
    - intros [= <- <- _]. by eapply vcall_trans.
    - apply IHr. by eapply vcall_trans.
  Qed.

  Lemma create_v c n : cf_idx c !! n = None -> vcall c (default c (conf_create T c n)) [].
  Proof.
    intros Hn A O (Hc & Hf & Hw). cbn [foldl]. destruct (conf_create T c n) as [c'|] eqn:E; [|done].
    change (default c (Some c')) with c'. destruct (fr_create T HT c n c' A (cn_inv _ _ Hc) Hf E) as [_ Hf'].
    assert (Hni : n ∉ created c).
    { intros [i Hi]%elem_of_list_lookup. unfold created in Hi. rewrite list_lookup_fmap in Hi. destruct (cf_nodes c !! i) as [[n' oi]|] eqn:Ei; [|done].
      cbn in Hi. injection Hi as ->. destruct (ci_dom T c (cn_inv _ _ Hc) _ _ _ Ei). congruence. }
    destruct (create_fine T HT c n c' Hc Hni E) as [Hc' _]. split; [done|]. split; [done|].
    eapply Forall_impl; [exact Hw|]. intros x. apply where_grows. by eapply grows_create.
  Qed.
  Lemma ensure_v it ns : forall s ms s' ms' err, ensure_nodes T i2f load_sample feq it s ms ns = (s', ms', err) ->
    exists ms1, ms' = ms ++ ms1 /\ vcall (sy_conf s) (sy_conf s') ms1.
  Proof.
    induction ns as [|n ns IH]; intros s ms s' ms' err; cbn [ensure_nodes].
    - intros [= <- <- _]. exists []. rewrite app_nil_r. split; [done|apply vcall_refl].
    - set (s1 := match cf_idx (sy_conf s) !! n with Some _ => s | None => _ end).
      assert (H1 : vcall (sy_conf s) (sy_conf s1) []).
      { unfold s1. destruct (cf_idx (sy_conf s) !! n) eqn:E; [apply vcall_refl|]. by apply create_v. }
      destruct (update_node _ _ _ _ it s1 n) as [[s2 ms2] r] eqn:E2. apply update_node_v in E2.
      pose proof (vcall_trans _ _ _ _ _ H1 E2) as H2. cbn [app] in H2. destruct r as [e|b].
      + intros [= <- <- _]. by exists ms2.
      + intros H. destruct (IH _ _ _ _ _ H) as (ms3 & -> & H3). exists (ms2 ++ ms3). rewrite app_assoc. split; [done|]. by eapply vcall_trans.
  Qed.
  Lemma program_v h c order es h' c' p : conf_program T h c order es = Some (h', c', p) -> vcall c c' [MNewProg p true].
  Proof.
    intros E A O (Hc & Hf & Hw). cbn [foldl applied oapplied]. destruct (fr_program T HT _ _ _ _ _ _ _ A Hc Hf E) as [_ Hf'].
    split; [|split; [done|by eapply program_where]].
    destruct (program_conf T _ _ _ _ _ _ _ E) as (h1 & c1 & p1 & E1 & Hs & Hi). pose proof (rebuild_fine T HT _ _ _ _ _ Hc E1) as [Hc1 Hd1].
    constructor; [by apply Hi|]. destruct Hs as (_ & _ & _ & _ & _ & _ & Sn). unfold created in *. by rewrite Sn.
  Qed.

  Lemma upload_v h s it bs r h' s' ms res : synth_upload T i2f load_sample feq h s it bs r = Some (h', s', ms, res) -> res = None \/ res = Some SynCycle /\ sy_conf s' = sy_conf s /\ ms = [] ->
    vcall (sy_conf s) (sy_conf s') ms.
  Proof.
    intros E [->|(-> & -> & ->)]; [|apply vcall_refl]. revert E. unfold synth_upload.
    destruct (walk_upload _ _ _ _ bs it false s r) as [[[s1 ms1] res1]|] eqn:E1; cbn [mbind option_bind]; [|done]. apply walk_v in E1.
    destruct res1 as [e|b]; [done|]. destruct (foldm _ _ _) as [go|]; cbn [mbind option_bind]; [|done].
    destruct (gord_calculate_order go []) as [[[go' ordered] ok]|]; cbn [mbind option_bind]; [|done].
    destruct ok; cbn [negb]; [|done].
    destruct (ensure_nodes _ _ _ _ _ _ _ _) as [[s2 ms2] err] eqn:E2. destruct (ensure_v _ _ _ _ _ _ _ E2) as (ms3 & -> & E3). cbn [sy_conf] in E3.
    destruct err; [done|]. destruct (conf_rebuild T h (sy_conf s2)) as [[[h1 c1] p1]|] eqn:Er; cbn [mbind option_bind]; [|done].
    destruct (until_error _) as [es err] eqn:Ee.
    destruct (foldm conf_connect _ es) as [[c2 p2]|] eqn:Ec; cbn [mbind option_bind]; [|done].
    destruct err; [done|]. destruct (conf_fill c2 p2) as [p3|] eqn:Ef; cbn [mbind option_bind]; [|done]. intros [= <- <- <-].
    cbn [sy_conf with_conf]. rewrite <- app_assoc. eapply vcall_trans; [exact E1|]. eapply vcall_trans; [exact E3|].
    eapply (program_v h _ (rev ordered) es h1 c2). unfold conf_program. rewrite Er. cbn [mbind option_bind]. rewrite Ec. cbn [mbind option_bind]. by rewrite Ef.
  Qed.
End view.

Lemma handled_view A ms : (foldl handled A ms).1.2 = (foldl applied (A.1.2, A.2) ms).1 /\ (foldl handled A ms).2 = (foldl applied (A.1.2, A.2) ms).2 /\
  otri <$> (foldl handled A ms).1.1 = foldl oapplied (otri <$> A.1.1) ms.
Proof.
  revert A. induction ms as [|m ms IH]; intros A; [done|]. cbn [foldl]. destruct (IH (handled A m)) as (-> & -> & ->).
  assert (((handled A m).1.2, (handled A m).2) = applied (A.1.2, A.2) m) as -> by (by destruct m).
  assert (otri <$> (handled A m).1.1 = oapplied (otri <$> A.1.1) m) as -> by (by destruct m). done.
Qed.

Section history.
  Context (def : nat -> nat -> f32) (norm denorm : nat -> nat -> f32 -> f32) (q2f : Q -> f32).
  Context (i2f : Z -> f32) (load_sample : satom -> satom) (feq : f32 -> f32 -> bool).
  Notation T := (hexo_table def norm denorm q2f).
  Notation HT := (C28_table_ok def norm denorm q2f).
  Notation sinv := (sinv def norm denorm q2f).
  Notation vw := (vw T).
  Notation synth_run := (synth_run T i2f load_sample feq).
  Notation synth_step := (synth_step T i2f load_sample feq).

  Lemma step_v h s D k h' s' ms res : fair_call k -> sinv D s -> complete D -> described T k -> synth_step h s k = Some (h', s', ms, res) ->
    forall A O, vw (sy_conf s) A O -> vw (sy_conf s') (foldl applied A ms) (foldl oapplied O ms).
  Proof.
    intros Hf Hs Hc Hd E A O HA. destruct k as [it ks r|it it' ks r|].
    - destruct Hd as [D' Hd]. destruct (desc_told _ _ _ _ _ _ _ Hd) as (bs & l & Hm & Hl & Hbs & _ & _). cbn [M_Synth.synth_step fair_call] in *.
      destruct (synth_upload _ _ _ _ h s it (brun ks) r) as [[[[h1 s1] ms1] err]|] eqn:E1; cbn [mbind option_bind] in E; [|done]. injection E as <- <- <- <-.
      eapply (upload_v T HT); [exact E1| |done].
      destruct (upload_spec def norm denorm q2f i2f load_sample feq (brun ks) bs Hbs h it D s r l Hf Hs Hc Hl)
        as [[Hc' (h2 & s2 & ms2 & p & _ & E2 & _)]|[Hc' (s2 & _ & E2 & _ & K)]]; rewrite E2 in E1; apply (inj Some) in E1.
      + injection E1 as _ _ _ <-. by left.
      + injection E1 as _ <- <- <-. by right.
    - destruct Hd as [D' Hd], Hf as [Hf Hf']. destruct (desc_told _ _ _ _ _ _ _ Hd) as (bs & l & Hm & Hl & Hbs & _ & _). cbn [M_Synth.synth_step] in *.
      unfold synth_update in E.
      destruct (walk_upload_spec def norm denorm q2f i2f load_sample feq (brun ks) bs Hbs it true r l D s Hf Hl Hs) as (s1 & ms1 & b & E1 & S1 & _).
      rewrite E1 in E. cbn [mbind option_bind] in E. apply walk_v in E1. destruct b.
      + destruct (synth_upload _ _ _ _ h s1 it' (brun ks) r) as [[[[h2 s2] ms2] err]|] eqn:E2; cbn [mbind option_bind] in E; [|done]. injection E as <- <- <- <-.
        eapply vcall_trans; [exact E1| |exact HA]. eapply (upload_v T HT); [exact E2|].
        destruct (upload_spec def norm denorm q2f i2f load_sample feq (brun ks) bs Hbs h it' _ s1 r l Hf' S1 (kept_complete _ _ _ _ _ _ _ Hc) Hl)
          as [[Hc' (h3 & s3 & ms3 & p & _ & E3 & _)]|[Hc' (s3 & _ & E3 & _ & K)]]; rewrite E3 in E2; apply (inj Some) in E2.
        * injection E2 as _ _ _ <-. by left.
        * injection E2 as _ <- <- <-. by right.
      + injection E as _ <- <- _. by apply E1.
    - cbn in E. injection E as _ <- <- _. cbn. split; [apply good_fine, good_new|]. split; [apply fr_new|constructor].
  Qed.
  Lemma tells_described os : forall D, tells T os D -> Forall (described T) os.*1.
  Proof.
    induction os as [|[k res] os IH] using rev_ind; intros D Ht; [constructor|]. rewrite fmap_app. apply Forall_app.
    destruct (tells_init _ _ _ _ _ _ _ _ Ht) as [D1 H1]. split; [by eapply IH|]. constructor; [|constructor]. cbn.
    inversion Ht as [Hx|????? D' ? _ H2 Hx|?????? D' ? _ H2 _ Hx|?????? D' _ H2 Hx|??? _ Hx]; subst; [by destruct os|..];
      apply app_inj_tail in Hx as [_ Hx]; injection Hx as <- _; cbn; try done; by exists D'.
  Qed.
  Lemma run_v ks : Forall fair_call ks -> forall h0 h s sent rs D, synth_run h0 synth_new ks = Some (h, s, sent, rs) -> tells T (zip ks rs) D ->
    vw (sy_conf s) (foldl applied ([], []) sent) (foldl oapplied [] sent).
  Proof.
    induction ks as [|k ks IH] using rev_ind; intros Hf h0 h s sent rs D Hr Ht.
    - cbn in Hr. injection Hr as <- <- <- <-. split; [apply good_fine, good_new|]. split; [apply fr_new|constructor].
    - apply Forall_app in Hf as [Hf Hk]. rewrite Forall_singleton in Hk. rewrite run_snoc in Hr.
      apply bind_Some in Hr as ([[[h1 s1] ms1] rs1] & E1 & Hr). apply bind_Some in Hr as ([[[h2 s2] ms] r] & E2 & Hr). injection Hr as <- <- <- <-.
      pose proof (run_length _ _ _ _ _ _ _ _ _ _ _ _ _ _ E1) as Hl. rewrite zip_with_app in Ht by done. cbn in Ht.
      pose proof (tells_described _ _ Ht) as Hd. rewrite fmap_app in Hd. apply Forall_app in Hd as [_ Hd]. cbn in Hd. rewrite Forall_singleton in Hd. cbn in Hd.
      destruct (tells_init _ _ _ _ _ _ _ _ Ht) as [D1 H1]. destruct (run_inv _ _ _ _ _ _ _ _ Hf _ _ _ _ _ _ E1 H1) as [S1 C1].
      rewrite !foldl_app. eapply step_v; [exact Hk|exact S1|exact C1|exact Hd|exact E2|]. by eapply IH.
  Qed.
  (** where a value of a node is, in the running program *)
  Lemma view_values c sent : vw c (foldl applied ([], []) sent) (foldl oapplied [] sent) -> let A := foldl handled ([], [], []) sent in
    forall op, op ∈ A.1.1 ->
      (forall j, j < nt_ins T (nid_kind (op_node op)) -> exists v, conf_get_param T c (op_node op, j) = Some (AParam v) /\ A.1.2 !! ((op_in op).1 + j) = Some v) /\
      (forall j, j < nt_ats T (nid_kind (op_node op)) -> exists a, conf_get_param T c (op_node op, nt_at_id T (nid_kind (op_node op)) j) = Some a /\ A.2 !! ((op_at op).1 + j) = Some a).
  Proof.
    intros (_ & Hf & Hw) A op Hop. destruct (handled_view ([], [], []) sent) as (V1 & V2 & V3). fold A in V1, V2, V3. cbn [fst snd fmap list_fmap] in V1, V2, V3.
    rewrite <- V3 in Hw. rewrite V1, V2. pose proof (proj1 (Forall_forall _ _) Hw (otri op) (elem_of_list_fmap_1 _ _ _ Hop)) as (k & Hk & E1 & E2 & W1 & W2).
    cbn [otri fst snd] in *. split.
    - intros j Hj. destruct (W1 j Hj) as (x & Hx & Hix). destruct (fr_pos _ _ _ Hf _ _ _ Hx) as (_ & _ & _ & _ & Hv & HA). rewrite Hix in HA.
      exists (npa_value x). split.
      + unfold conf_get_param. rewrite is_atom_input by done. by rewrite Hv.
      + by rewrite E1.
    - intros j Hj. destruct (W2 j Hj) as (x & Hx & Hix). destruct (fr_atom _ _ _ Hf _ _ _ Hx) as (_ & _ & _ & _ & _ & _ & Hv & HA). rewrite Hix in HA.
      exists (nat_value x). split.
      + unfold conf_get_param. by rewrite (is_atom_atom T HT) by done.
      + by rewrite E2.
  Qed.
End history.
