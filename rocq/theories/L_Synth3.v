(** Values and orders of a described synthesizer (C31) *)
From Coq Require Import QArith.
From stdpp Require Import strings.
From Verif Require Import Base M_Atom M_Graph S_Graph M_Grid M_Prog M_Conf M_Exec M_Nodes M_Synth S_Nodes S_Grid S_Conf S_Sync S_Prog S_Synth.
From Verif Require Import L_Graph L_Conf L_Conf3 L_Sync P_Nodes L_Synth L_Synth2.
Open Scope list_scope.
Open Scope nat_scope.
Local Opaque node_rows.

Section values.
  Context (T : ntable) (HT : table_ok T) (i2f : Z -> f32) (load_sample : satom -> satom) (feq : f32 -> f32 -> bool).
  Notation has_value := (has_value T i2f load_sample feq).

  Definition same_at (c c' : nconf) (q : node_id * nat) : Prop :=
    cf_pvals c' !! q = cf_pvals c !! q /\ cf_avals c' !! q = cf_avals c !! q /\ cf_modamt c' !! q = cf_modamt c !! q.
  Lemma same_at_refl c q : same_at c c q.
  Proof. done. Qed.
  Lemma same_at_trans c1 c2 c3 q : same_at c1 c2 q -> same_at c2 c3 q -> same_at c1 c3 q.
  Proof. intros (A & B & C) (D & E & F). unfold same_at. by rewrite D, E, F. Qed.
  Lemma same_at_value c c' n i v ma : same_at c c' (n, i) -> has_value c n i v ma -> has_value c' n i v ma.
  Proof. intros (A & B & C) [(w & H1 & H2) H3]. unfold S_Synth.has_value, conf_get_param, conf_get_modamt in *. rewrite A, B, C. split; [by exists w|done]. Qed.

  Definition quiet (c : nconf) (q : node_id * nat) : Prop :=
    (forall w, cf_pvals c !! q = Some w -> q.2 < kind_ins T q.1 /\ w = nt_def T (nid_kind q.1) q.2) /\
    (forall w, cf_avals c !! q = Some w -> exists j, j < kind_ats T q.1 /\ q.2 = nt_at_id T (nid_kind q.1) j /\ w = nt_adef T (nid_kind q.1) j) /\
    mjoin (cf_modamt c !! q) = None.
  Lemma quiet_same c c' q : same_at c c' q -> quiet c q -> quiet c' q.
  Proof. intros (A & B & C). unfold quiet. by rewrite A, B, C. Qed.

  Lemma set_param_msgs c p a : Forall no_prog (conf_set_param T i2f load_sample c p a).2.
  Proof.
    unfold conf_set_param. destruct (is_atom T p).
    - destruct (cf_atoms c !! p); repeat constructor.
    - destruct (cf_params c !! p); repeat constructor.
  Qed.
  Lemma set_modamt_msgs c p v : Forall no_prog (conf_set_modamt T c p v).1.2.
  Proof.
    unfold conf_set_modamt. destruct (is_atom T p); [constructor|]. destruct (conf_get_modamt c p), v; try constructor.
    destruct (let* q := _ in _); repeat constructor.
  Qed.

  Lemma amt_eqb_as a b : amt_eqb feq a b = true -> amt_as feq a b.
  Proof. destruct a as [a|], b as [b|]; cbn; try done; [|by left]. intros H. right. by exists a, b. Qed.

  Lemma update_entry_spec n c name i v ma : conf_fine T c -> pname n i name ->
    exists c' ms b, update_entry T i2f load_sample feq n c (name, (v, ma)) = Some (c', ms, b) /\
      conf_fine T c' /\ created c' = created c /\ has_value c' n i v ma /\ (forall q, q <> (n, i) -> same_at c c' q) /\ Forall no_prog ms.
  Proof.
    intros [Hc Hnd] (q & Hq & <-). set (p := (n, pa_idx q)). unfold update_entry. rewrite Hq. cbn [mbind option_bind]. fold p.
    pose proof (set_param_values T i2f load_sample c p v) as (S1 & S2 & S3 & S4 & S5 & _ & _).
    pose proof (set_param_inv T i2f load_sample c p v Hc) as Hc1. pose proof (set_param_msgs c p v) as Hm1.
    pose proof (get_set_same T i2f load_sample c p v) as Hgs.
    destruct (conf_set_param T i2f load_sample c p v) as [c1 ms1]. cbn [fst snd] in *.
    assert (Hs1 : forall q', q' <> p -> same_at c c1 q').
    { intros q' Hne. unfold same_at. rewrite S3, S4, S5. by destruct (is_atom T p); rewrite ?lookup_insert_ne by done. }
    set (cm := negb (is_atom T p) && negb (amt_eqb feq (conf_get_modamt c p) ma)).
    assert (Hcm : cm = false -> is_atom T p = false -> amt_as feq (conf_get_modamt c p) ma).
    { unfold cm. intros H Ha. rewrite Ha in H. cbn in H. apply amt_eqb_as. by destruct (amt_eqb _ _ _). }
    set (cv := match conf_get_param T c p with Some old => negb (atom_eqb feq old v) | None => true end).
    destruct (cv || cm) eqn:E.
    - destruct cm eqn:Ecm.
      + pose proof (set_modamt_values T c1 p ma) as (M1 & M2 & M3 & M4 & _ & _ & M5).
        pose proof (set_modamt_inv T c1 p ma Hc1) as Hc2. pose proof (set_modamt_msgs c1 p ma) as Hm2.
        pose proof (get_modamt T c1 p ma p) as Hgm.
        assert (Ha : is_atom T p = false) by (unfold cm in Ecm; by destruct (is_atom T p)).
        pose proof (modamt_modamt T c1 p ma p Ha) as Hgm2. rewrite decide_True in Hgm2 by done.
        destruct (conf_set_modamt T c1 p ma) as [[c2 ms2] b2]. cbn [fst snd] in *.
        exists c2, (ms1 ++ ms2), b2. split; [done|]. split_and!.
        * constructor; [done|]. unfold created. by rewrite M1, S1.
        * unfold created. by rewrite M1, S1.
        * split.
          -- exists (stored T i2f load_sample p v). split; [|by left]. etransitivity; [exact Hgm|exact Hgs].
          -- intros _. left. exact Hgm2.
        * intros q' Hne. eapply same_at_trans; [by apply Hs1|]. unfold same_at. rewrite M3, M4, M5, Ha. by rewrite lookup_insert_ne by done.
        * by apply Forall_app.
      + exists c1, ms1, false. split; [done|]. split_and!.
        * constructor; [done|]. unfold created. by rewrite S1.
        * unfold created. by rewrite S1.
        * split.
          -- exists (stored T i2f load_sample p v). split; [done|by left].
          -- intros Ha. unfold conf_get_modamt. rewrite S3. by apply Hcm.
        * done.
        * done.
    - apply orb_false_elim in E as [E1 E2]. exists c, [], false. split; [done|]. split_and!; [done|done| |done|constructor].
      split; [|by apply Hcm]. unfold cv in E1. destruct (conf_get_param T c p) as [old|] eqn:Eo; [|done]. exists old. split; [done|]. right.
      by destruct (atom_eqb feq old v).
  Qed.

  Lemma update_entries_spec n : known n -> forall es c ms b, conf_fine T c -> NoDup es.*1 -> (forall name vm, (name, vm) ∈ es -> exists i, pname n i name) ->
    exists c' ms' b', update_entries T i2f load_sample feq n c ms b es = (c', ms ++ ms', inr b') /\
      conf_fine T c' /\ created c' = created c /\
      (forall name i v ma, (name, (v, ma)) ∈ es -> pname n i name -> has_value c' n i v ma) /\
      (forall q, (forall name vm, (name, vm) ∈ es -> q.1 = n -> ~ pname n q.2 name) -> same_at c c' q) /\ Forall no_prog ms'.
  Proof.
    intros Hn. induction es as [|[name [v ma]] es IH]; intros c ms b Hc Hnd Hp.
    - exists c, [], b. cbn. rewrite app_nil_r. split_and!; [done|done|done|by intros ? ? ? ? ?%elem_of_nil|done|constructor].
    - cbn [update_entries]. destruct (Hp name (v, ma)) as [i Hi]; [by left|].
      destruct (update_entry_spec n c name i v ma Hc Hi) as (c1 & ms1 & b1 & E & Hc1 & Hcr & Hv & Ho & Hm). rewrite E.
      apply NoDup_cons in Hnd as [Hni Hnd].
      destruct (IH c1 (ms ++ ms1) (b || b1) Hc1 Hnd) as (c2 & ms2 & b2 & E2 & Hc2 & Hcr2 & Hv2 & Ho2 & Hm2).
      { intros name' vm Hin. apply (Hp name' vm). by right. }
      exists c2, (ms1 ++ ms2), b2. rewrite E2, app_assoc. split; [done|]. split_and!; [done|by rewrite Hcr2| | |by apply Forall_app].
      + intros name' i' v' ma' [Heq|Hin]%elem_of_cons Hi'; [|by eapply Hv2]. injection Heq as -> -> ->.
        assert (i' = i) as -> by (by eapply pname_fun). eapply same_at_value; [|exact Hv]. apply Ho2. cbn. intros name' vm' Hin _ Hpn.
        assert (name' = name) as -> by exact (pname_inj _ _ _ _ Hn Hpn Hi). apply Hni. apply elem_of_list_fmap. by exists (name, vm').
      + intros q Hq. eapply same_at_trans; [apply Ho|apply Ho2].
        * intros ->. by apply (Hq name (v, ma)); [left|..].
        * intros name' vm' Hin. apply (Hq name' vm'). by right.
  Qed.

  Lemma create_same c n c' : conf_create T c n = Some c' -> forall q, same_at c c' q.
  Proof. unfold conf_create. destruct (nt_known T (nid_kind n)); [|done]. intros [= <-] q. done. Qed.
  Lemma create_fine c n c' : conf_fine T c -> n ∉ created c -> conf_create T c n = Some c' -> conf_fine T c' /\ created c' = created c ++ [n].
  Proof.
    intros [Hc Hd] Hn E. pose proof (create_inv T HT c n c' Hc E) as Hc'. pose proof (create_ids T c n c' E) as Hids. split; [|done].
    constructor; [done|]. rewrite Hids. apply NoDup_app. split; [done|]. split; [|by apply NoDup_singleton]. intros x Hx ->%elem_of_list_singleton. done.
  Qed.
  Lemma rebuild_quiet h c h' c' p q : conf_fine T c -> conf_rebuild T h c = Some (h', c', p) -> quiet c q -> quiet c' q.
  Proof.
    intros [Hc _] E. destruct (conf_rebuild_spec T HT h c Hc) as (h1 & c1 & p1 & E1 & Hs). rewrite E in E1. injection E1 as <- <- <-. cbn zeta in Hs.
    destruct Hs as (_ & _ & _ & Hma & _ & _ & _ & _ & V1 & V2 & _ & _ & B1 & B2). destruct q as [n i]. intros (Q1 & Q2 & Q3). cbn [fst snd] in *.
    split_and!.
    - intros w Hw. cbn [fst snd]. destruct (decide (n ∈ (cf_nodes c).*1 /\ i < kind_ins T n)) as [[Hn Hi]|Hno].
      + rewrite V1 in Hw by done. injection Hw as <-. split; [done|]. unfold pval_of. destruct (cf_pvals c !! (n, i)) eqn:Ew; cbn; [|done]. by apply Q1.
      + rewrite V2 in Hw; [by apply Q1|]. cbn. unfold kind_ins in Hno. unfold n_ins. destruct (decide (n ∈ (cf_nodes c).*1)); [right|by left]. apply Nat.nlt_ge. tauto.
    - intros w Hw. cbn [fst snd]. destruct (decide (n ∈ (cf_nodes c).*1)) as [Hn|Hn]; [|rewrite B2 in Hw; [by apply Q2|by left]].
      destruct (decide (Exists (fun j => i = nt_at_id T (nid_kind n) j) (seq 0 (kind_ats T n)))) as [He|He].
      + apply Exists_exists in He as (j & Hj%elem_of_seq & ->). rewrite B1 in Hw by (done || (unfold n_ats, kind_ats in *; lia)). injection Hw as <-.
        unfold aval_of. destruct (cf_avals c !! (n, nt_at_id T (nid_kind n) j)) eqn:Ew; cbn; [by apply Q2|].
        exists j. split_and!; [lia|done|done].
      + rewrite B2 in Hw; [by apply Q2|]. right. intros j Hj Heq. apply He, Exists_exists. exists j. cbn in Heq. split; [|done]. apply elem_of_seq.
        unfold n_ats, kind_ats in *. cbn in Hj. lia.
    - by rewrite Hma.
  Qed.
  Lemma rebuild_value h c h' c' p n i v ma : conf_fine T c -> conf_rebuild T h c = Some (h', c', p) -> has_value c n i v ma -> has_value c' n i v ma.
  Proof.
    intros [Hc _] E [(w & H1 & H2) H3]. destruct (rebuild_keeps T HT h c h' c' p Hc E) as (K1 & K2 & K3). split.
    - exists w. split; [|done]. unfold conf_get_param in *. destruct (is_atom T (n, i)); [by apply K2|].
      destruct (cf_pvals c !! (n, i)) eqn:Ew; [|done]. cbn in H1. injection H1 as <-. by rewrite (K1 _ _ Ew).
    - intros Ha. unfold conf_get_modamt. rewrite K3. by apply H3.
  Qed.
End values.
