(** Histories of calls (C31) *)
From Coq Require Import QArith.
From stdpp Require Import strings.
From Verif Require Import Base M_Atom M_Graph S_Graph M_Grid M_Prog M_Conf M_Exec M_Nodes M_Synth S_Nodes S_Grid S_Conf S_Sync S_Prog S_Synth.
From Verif Require Import L_Graph L_Conf L_Conf3 L_Sync P_Nodes L_Synth L_Synth2 L_Synth3 L_Synth4 L_Synth5.
Open Scope list_scope.
Open Scope nat_scope.
Local Opaque node_rows.

Section history.
  Context (def : nat -> nat -> f32) (norm denorm : nat -> nat -> f32 -> f32) (q2f : Q -> f32).
  Context (i2f : Z -> f32) (load_sample : satom -> satom) (feq : f32 -> f32 -> bool).
  Notation T := (hexo_table def norm denorm q2f).
  Notation sinv := (sinv def norm denorm q2f).
  Notation synth_run := (synth_run T i2f load_sample feq).
  Notation synth_step := (synth_step T i2f load_sample feq).

  Lemma run_snoc ks k : forall h s, synth_run h s (ks ++ [k]) =
    (let* (h, s, ms, rs) := synth_run h s ks in let* (h, s, ms', r) := synth_step h s k in Some (h, s, ms ++ ms', rs ++ [r])).
  Proof.
    induction ks as [|k0 ks IH]; intros h s; cbn [app M_Synth.synth_run mbind option_bind].
    - destruct (synth_step h s k) as [[[[? ?] ?] ?]|]; [|done]. cbn [mbind option_bind]. by rewrite app_nil_r.
    - destruct (synth_step h s k0) as [[[[h1 s1] ms1] r]|]; cbn [mbind option_bind]; [|done]. rewrite IH.
      destruct (synth_run h1 s1 ks) as [[[[h2 s2] ms2] rs]|]; cbn [mbind option_bind]; [|done].
      destruct (synth_step h2 s2 k) as [[[[? ?] ?] ?]|]; [|done]. cbn [mbind option_bind]. by rewrite app_assoc.
  Qed.
  Lemma run_length ks : forall h s h' s' ms rs, synth_run h s ks = Some (h', s', ms, rs) -> length rs = length ks.
  Proof.
    induction ks as [|k ks IH]; intros h s h' s' ms rs; cbn [M_Synth.synth_run]; [by intros [= _ _ _ <-]|].
    destruct (synth_step h s k) as [[[[h1 s1] ?] r]|]; cbn [mbind option_bind]; [|done].
    destruct (synth_run h1 s1 ks) as [[[[h2 s2] ms2] rs2]|] eqn:E; cbn [mbind option_bind]; [|done]. intros [= _ _ _ <-]. cbn. f_equal. by eapply IH.
  Qed.

  Lemma sinv_new g : (exists x, R g x) -> sinv [] (Synth conf_new ∅ g).
  Proof.
    intros Hg. constructor; cbn; try done.
    - apply tracks_nil.
    - apply good_fine, good_new.
    - intros n Hn. by apply elem_of_nil in Hn.
  Qed.
  Lemma complete_nil : complete [].
  Proof. by intros n i src o ?. Qed.
  Lemma desc_told ks r D' : description T ks r D' -> exists bs l, makes ks bs /\ passes bs [r] l /\
    Forall2 (bnode_ok bs) (brun ks) bs /\ told def norm denorm q2f bs false l = D' /\ told def norm denorm q2f bs true l = List.filter (fun x => negb (is_from x)) D'.
  Proof. intros (bs & l & Hm & Hl & ->). exists bs, l. split; [done|]. split; [done|]. split; [by apply brun_ok|]. done. Qed.

  Lemma tells_init os k res D : tells T (os ++ [(k, res)]) D -> exists D1, tells T os D1.
  Proof.
    inversion 1 as [Hx|os' D1 ????? H1 _ Hx|os' D1 ?????? H1 _ _ Hx|os' D1 ????? H1 _ Hx|os' D1 ? H1 Hx]; subst;
      [by destruct os|apply app_inj_tail in Hx as [-> _]; by exists D1..].
  Qed.

  Lemma step_inv h s k h' s' ms res os E0 : fair_call k -> (forall D, tells T os D -> sinv D s /\ complete D) -> (exists g, R (sy_order s) g) ->
    synth_step h s k = Some (h', s', ms, res) -> tells T (os ++ [(k, res)]) E0 -> sinv E0 s' /\ complete E0.
  Proof.
    intros Hf Hd [g Hg] E Ht. inversion Ht as [Hx|os' D1 it ks r D' res' H1 H2 Hx|os' D1 it it' ks r D' res' H1 H2 H3 Hx|os' D1 it it' ks r D' H1 H2 Hx|os' D1 res' H1 Hx]; subst.
    - by destruct os.
    - apply app_inj_tail in Hx as [-> Hx]. injection Hx as <- ->. destruct (Hd _ H1) as [Hs Hc]. cbn [fair_call] in Hf.
      destruct (desc_told _ _ _ H2) as (bs & l & Hm & Hl & Hbs & <- & _). cbn [M_Synth.synth_step] in E.
      destruct (upload_spec def norm denorm q2f i2f load_sample feq (brun ks) bs Hbs h it D1 s r l Hf Hs Hc Hl)
        as [[Hc' (h1 & s1 & ms1 & p & A & E1 & _ & S & _)]|[Hc' (s1 & A & E1 & S & _)]]; rewrite E1 in E; cbn in E.
      + apply (inj Some) in E. injection E as -> <- _ _. done.
      + apply (inj Some) in E. injection E as _ <- _ _. done.
    - apply app_inj_tail in Hx as [-> Hx]. injection Hx as <- ->. destruct (Hd _ H1) as [Hs Hc]. destruct Hf as [Hf Hf'].
      destruct (desc_told _ _ _ H2) as (bs & l & Hm & Hl & Hbs & <- & _). cbn [M_Synth.synth_step] in E.
      destruct (update_spec def norm denorm q2f i2f load_sample feq (brun ks) bs Hbs h it it' D1 s r l Hf Hf' Hs Hc Hl)
        as [(s1 & ms1 & E1 & _ & S & Hc' & _)|[[Hc' (h1 & s1 & ms1 & p & A & E1 & _ & S & _)]|[Hc' (s1 & ms1 & A & E1 & _ & S)]]]; rewrite E1 in E; apply (inj Some) in E.
      + injection E as _ _ _ <-. done.
      + injection E as _ <- _ _. done.
      + injection E as _ <- _ _. done.
    - apply app_inj_tail in Hx as [-> Hx]. injection Hx as <- <-. destruct (Hd _ H1) as [Hs Hc]. destruct Hf as [Hf Hf'].
      destruct (desc_told _ _ _ H2) as (bs & l & Hm & Hl & Hbs & _ & <-). cbn [M_Synth.synth_step] in E.
      destruct (update_spec def norm denorm q2f i2f load_sample feq (brun ks) bs Hbs h it it' D1 s r l Hf Hf' Hs Hc Hl)
        as [(s1 & ms1 & E1 & _ & S & Hc' & _)|[[Hc' (h1 & s1 & ms1 & p & A & E1 & _ & S & _)]|[Hc' (s1 & ms1 & A & E1 & _ & S)]]]; rewrite E1 in E; apply (inj Some) in E.
      + injection E as _ <- _. done.
      + by injection E.
      + by injection E.
    - apply app_inj_tail in Hx as [-> Hx]. injection Hx as <- ->. cbn in E. apply (inj Some) in E. injection E as _ <- _ _.
      split; [|apply complete_nil]. apply sinv_new. exists sg_empty. by eapply R_clear.
  Qed.
  Lemma run_inv ks : Forall fair_call ks -> forall h0 h s sent rs D, synth_run h0 synth_new ks = Some (h, s, sent, rs) -> tells T (zip ks rs) D -> sinv D s /\ complete D.
  Proof.
    induction ks as [|k ks IH] using rev_ind; intros Hf h0 h s sent rs D Hr Ht.
    - cbn in Hr. injection Hr as <- <- <- <-. cbn in Ht. inversion Ht as [Hx|??????? _ _ Hx|???????? _ _ _ Hx|??????? _ _ Hx|??? _ Hx]; subst;
        try (by destruct (app_cons_not_nil _ _ _ (eq_sym Hx))). split; [|apply complete_nil]. apply sinv_new. exists sg_empty. apply R_new.
    - apply Forall_app in Hf as [Hf Hk]. rewrite Forall_singleton in Hk. rewrite run_snoc in Hr.
      apply bind_Some in Hr as ([[[h1 s1] ms1] rs1] & E1 & Hr). apply bind_Some in Hr as ([[[h2 s2] ms] r] & E2 & Hr). injection Hr as <- <- <- <-.
      pose proof (run_length _ _ _ _ _ _ _ E1) as Hl. rewrite zip_with_app in Ht by done. cbn in Ht.
      destruct (tells_init _ _ _ _ Ht) as [D1 H1]. destruct (IH Hf _ _ _ _ _ _ E1 H1) as [S1 _].
      eapply step_inv; [exact Hk| |apply S1|exact E2|exact Ht]. intros D2 H2. by eapply IH.
  Qed.
End history.
