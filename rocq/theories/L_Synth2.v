(** The walk over the builders stores what they say (C31) *)
From Coq Require Import QArith.
From stdpp Require Import strings.
From Verif Require Import Base M_Atom M_Graph M_Grid M_Prog M_Conf M_Exec M_Nodes M_Synth S_Nodes S_Grid S_Conf S_Sync S_Prog S_Synth L_Conf L_Conf3 L_Sync P_Nodes L_Synth.
Open Scope list_scope.
Open Scope nat_scope.
Local Opaque node_rows.

(** * Paths through the builders *)
Lemma t_rt {A} (R : A -> A -> Prop) a b : clos_trans _ R a b -> clos_refl_trans _ R a b.
Proof. induction 1; [by apply rt_step|by eapply rt_trans]. Qed.

Section paths.
  Context (bs : list builder).
  Definition wf_refs : Prop := forall a b, refers bs a b -> b < length bs.

  Lemma elem_sources d b : b ∈ sources d <-> exists k i o, KInput k i b o ∈ bd_calls d.
  Proof.
    unfold sources. rewrite elem_of_list_omap. split.
    - intros (k & Hk & E). destruct k; try done. injection E as ->. by eauto.
    - intros (k & i & o & H). by exists (KInput k i b o).
  Qed.
  Lemma refers_sources a d b : bs !! a = Some d -> (refers bs a b <-> b ∈ sources d).
  Proof.
    intros Hd. rewrite elem_sources. unfold refers. split.
    - intros (d' & k & i & o & H1 & H2). rewrite Hd in H1. injection H1 as <-. by eauto.
    - intros (k & i & o & H). by exists d, k, i, o.
  Qed.

  Fixpoint pd (f : nat) (r : nat) : Prop :=
    match f with 0 => False | S f => exists d, bs !! r = Some d /\ forall b, b ∈ sources d -> pd f b end.
  Lemma pd_mono f r : pd f r -> forall f', f <= f' -> pd f' r.
  Proof.
    revert r. induction f as [|f IH]; intros r; [done|]. intros (d & Hd & H) [|f'] Hf; [lia|]. exists d. split; [done|].
    intros b Hb. apply (IH b); [by apply H|lia].
  Qed.
  Lemma pd_step f a b : pd (S f) a -> refers bs a b -> pd f b.
  Proof. intros (d & Hd & H) Hr. apply H. by apply (refers_sources a d b Hd). Qed.
  Lemma pd_acyclic f r : pd f r -> ~ clos_trans _ (refers bs) r r.
  Proof.
    revert r. induction f as [|f IH]; intros r Hp Hc; [done|].
    apply Operators_Properties.clos_trans_t1n in Hc.
    assert (exists x, refers bs r x /\ clos_refl_trans _ (refers bs) x r) as (x & H1 & H2).
    { inversion Hc as [? H|x ? H1 H2]; subst; [exists r; split; [done|apply rt_refl]|]. exists x. split; [done|].
      apply t_rt. by apply Operators_Properties.clos_t1n_trans. }
    apply (IH x); [by eapply pd_step|]. eapply Operators_Properties.clos_rt_t; [exact H2|]. by apply t_step.
  Qed.
  Lemma passes_pd rs l : passes bs rs l -> exists f, forall r, r ∈ rs -> pd f r.
  Proof.
    induction 1 as [|r rs d l1 l2 Hd _ [f1 H1] _ [f2 H2]]; [exists 0; intros r Hr; by apply elem_of_nil in Hr|].
    exists (S f1 + f2). intros x [->|Hx]%elem_of_cons.
    - apply (pd_mono (S f1)); [|lia]. by exists d.
    - apply (pd_mono f2); [by apply H2|lia].
  Qed.
  Lemma pd_bound f : forall r path, pd f r -> NoDup path -> (forall x, x ∈ path -> x < length bs) ->
    (forall x, x ∈ path -> clos_trans _ (refers bs) x r) -> pd (length bs - length path) r.
  Proof.
    induction f as [|f IH]; intros r path Hp Hnd Hlt Hpa; [done|].
    pose proof (pd_acyclic _ _ Hp) as Hac. destruct Hp as (d & Hd & Hp).
    assert (Hr : r ∉ path) by (intros Hr; by apply Hac, Hpa).
    assert (Hnd' : NoDup (r :: path)) by (by constructor).
    assert (Hlt' : forall x, x ∈ r :: path -> x < length bs) by (intros x [->|Hx]%elem_of_cons; [by eapply lookup_lt_Some|by apply Hlt]).
    assert (Hle : length (r :: path) <= length bs).
    { rewrite <- (seq_length (length bs) 0). apply submseteq_length, NoDup_submseteq; [done|]. intros x Hx. apply elem_of_seq. specialize (Hlt' x Hx). lia. }
    cbn [length] in Hle. replace (length bs - length path) with (S (length bs - length (r :: path))) by (cbn [length]; lia).
    exists d. split; [done|]. intros b Hb. apply (IH b); [by apply Hp|done|done|].
    assert (Hrb : refers bs r b) by (by apply (refers_sources r d b Hd)).
    intros x [->|Hx]%elem_of_cons; [by apply t_step|]. eapply t_trans; [by apply Hpa|by apply t_step].
  Qed.
  Lemma passes_bound r l : passes bs [r] l -> pd (length bs) r.
  Proof.
    intros [f Hf]%passes_pd. replace (length bs) with (length bs - length (@nil nat)) by (cbn; lia).
    apply (pd_bound f); [apply Hf; by left|constructor| |]; intros x Hx; by apply elem_of_nil in Hx.
  Qed.
  Lemma pd_passes f : forall rs, (forall r, r ∈ rs -> pd f r) -> exists l, passes bs rs l.
  Proof.
    induction f as [|f IH]; intros rs.
    - destruct rs as [|r rs]; [exists []; constructor|]. intros H. destruct (H r); by left.
    - induction rs as [|r rs IHr]; intros H; [exists []; constructor|].
      destruct (H r) as (d & Hd & Hs); [by left|]. destruct (IH (sources d) Hs) as [l1 H1].
      destruct IHr as [l2 H2]; [intros; apply H; by right|]. exists (d :: l1 ++ l2). by constructor.
  Qed.
  Lemma passes_fun rs l l' : passes bs rs l -> passes bs rs l' -> l = l'.
  Proof.
    intros H. revert l'. induction H as [|r rs d l1 l2 Hd _ IH1 _ IH2]; intros l' H'; inversion H' as [|r' rs' d' l1' l2' Hd' H1 H2]; subst; [done|].
    rewrite Hd in Hd'. injection Hd' as <-. by rewrite (IH1 _ H1), (IH2 _ H2).
  Qed.
  Lemma passes_app rs rs' l l' : passes bs rs l -> passes bs rs' l' -> passes bs (rs ++ rs') (l ++ l').
  Proof. intros H H'. induction H as [|r rs d l1 l2 Hd H1 IH1 H2 IH2]; [done|]. cbn. rewrite <- app_assoc. by constructor. Qed.

  Lemma not_endless_pd k : forall r path, wf_refs -> r < length bs -> ~ endless bs r -> NoDup path -> (forall x, x ∈ path -> x < length bs) ->
    (forall x, x ∈ path -> clos_trans _ (refers bs) x r) -> length path + k = length bs -> pd k r.
  Proof.
    induction k as [|k IH]; intros r path Hwf Hr He Hnd Hlt Hpa Hk.
    - exfalso. assert (Hin : r ∈ path).
      { destruct (decide (r ∈ path)) as [|Hn]; [done|]. exfalso.
        assert (Hle : length (r :: path) <= length bs); [|cbn in Hle; lia].
        rewrite <- (seq_length (length bs) 0). apply submseteq_length, NoDup_submseteq; [by constructor|].
        intros x [->|Hx]%elem_of_cons; apply elem_of_seq; [lia|]. specialize (Hlt x Hx). lia. }
      apply He. exists r. split; [apply rt_refl|]. by apply Hpa.
    - destruct (lookup_lt_is_Some_2 _ _ Hr) as [d Hd]. exists d. split; [done|]. intros b Hb.
      assert (Hrb : refers bs r b) by (by apply (refers_sources r d b Hd)).
      apply (IH b (r :: path)).
      + done.
      + by eapply Hwf.
      + intros (x & H1 & H2). apply He. exists x. split; [|done]. eapply rt_trans; [by apply rt_step|done].
      + constructor; [|done]. intros Hin. apply He. exists r. split; [apply rt_refl|]. by apply Hpa.
      + intros x [->|Hx]%elem_of_cons; [done|by apply Hlt].
      + intros x [->|Hx]%elem_of_cons; [by apply t_step|]. eapply t_trans; [by apply Hpa|by apply t_step].
      + cbn. lia.
  Qed.
  Lemma endless_not_passes r l : endless bs r -> ~ passes bs [r] l.
  Proof.
    intros (x & Hrx & Hx) Hp. apply passes_bound in Hp. revert Hp. generalize (length bs). intros f Hp.
    assert (H : exists f', pd f' x).
    { apply Operators_Properties.clos_rt_rt1n in Hrx. revert f Hp. induction Hrx as [|a b c Hab _ IH]; intros f Hp; [by exists f|].
      destruct f as [|f]; [done|]. apply (IH Hx f). by eapply pd_step. }
    destruct H as [f' H]. by apply (pd_acyclic f' x).
  Qed.
  Lemma passes_iff r : wf_refs -> r < length bs -> (exists l, passes bs [r] l) <-> ~ endless bs r.
  Proof.
    intros Hwf Hr. split.
    - intros [l Hl] He. by eapply endless_not_passes.
    - intros He. apply (pd_passes (length bs)). intros x ->%elem_of_list_singleton.
      apply (not_endless_pd (length bs) r []); try done; [constructor|..]; intros x Hx; by apply elem_of_nil in Hx.
  Qed.
End paths.

Lemma passes_elem bs rs l d : passes bs rs l -> d ∈ l -> exists r, bs !! r = Some d.
Proof.
  induction 1 as [|r rs d' l1 l2 Hd _ IH1 _ IH2]; [by intros ?%elem_of_nil|].
  intros [->|[?|?]%elem_of_app]%elem_of_cons; [by exists r|by apply IH1|by apply IH2].
Qed.
(** the sources of the passed builders are passed *)
Lemma passes_closed bs rs l : passes bs rs l -> (forall r d, r ∈ rs -> bs !! r = Some d -> d ∈ l) /\
  forall d r d', d ∈ l -> r ∈ sources d -> bs !! r = Some d' -> d' ∈ l.
Proof.
  induction 1 as [|r rs d l1 l2 Hd H1 [IH1 IH1'] H2 [IH2 IH2']].
  - split; [by intros ? ? ?%elem_of_nil|by intros ? ? ? ?%elem_of_nil].
  - split.
    + intros x e [->|Hx]%elem_of_cons He; [rewrite Hd in He; injection He as <-; by left|].
      right. apply elem_of_app. right. by eapply IH2.
    + intros x y e [->|[Hx|Hx]%elem_of_app]%elem_of_cons Hy He; right; apply elem_of_app.
      * left. by eapply IH1.
      * left. by eapply IH1'.
      * right. by eapply IH2'.
Qed.

(** * What was said *)
Definition subject (x : said) : node_id := match x with SayNode n => n | SayFrom n _ _ _ => n | SayVal n _ _ _ => n end.
Definition keep (only : bool) (D : list said) : list said := if only then List.filter (fun x => negb (is_from x)) D else D.

Lemma last_from_app D E n i : last_from (D ++ E) n i = match last_from E n i with Some x => Some x | None => last_from D n i end.
Proof. unfold last_from. by rewrite omap_app, last_app. Qed.
Lemma last_val_app D E n i : last_val (D ++ E) n i = match last_val E n i with Some x => Some x | None => last_val D n i end.
Proof. unfold last_val. by rewrite omap_app, last_app. Qed.
Lemma last_omap_none {A B} (f : A -> option B) l : (forall x, x ∈ l -> f x = None) -> last (omap f l) = None.
Proof.
  intros H. destruct (last (omap f l)) as [b|] eqn:E; [|done]. apply last_Some in E as [l' E].
  assert (Hb : b ∈ omap f l) by (rewrite E; set_solver). apply elem_of_list_omap in Hb as (x & Hx & Hf). by rewrite H in Hf.
Qed.
Lemma last_from_other D n i : (forall x, x ∈ D -> subject x <> n) -> last_from D n i = None.
Proof.
  intros H. apply last_omap_none. intros [m|m j s o|m j v a] Hx; try done. specialize (H _ Hx). cbn in H. rewrite decide_False; [done|]. by intros [-> _].
Qed.
Lemma last_val_other D n i : (forall x, x ∈ D -> subject x <> n) -> last_val D n i = None.
Proof.
  intros H. apply last_omap_none. intros [m|m j s o|m j v a] Hx; try done. specialize (H _ Hx). cbn in H. rewrite decide_False; [done|]. by intros [-> _].
Qed.
Lemma keep_app o D E : keep o (D ++ E) = keep o D ++ keep o E.
Proof. destruct o; [|done]. apply List.filter_app. Qed.
Lemma keep_nil o : keep o [] = [].
Proof. by destruct o. Qed.
Lemma elem_keep o x D : x ∈ keep o D -> x ∈ D.
Proof. destruct o; [|done]. cbn. rewrite !elem_of_list_In. by intros [? ?]%filter_In. Qed.
Lemma keep_node o n D : SayNode n ∈ keep o D <-> SayNode n ∈ D.
Proof. destruct o; [|done]. cbn. rewrite !elem_of_list_In, filter_In. cbn. naive_solver. Qed.
Lemma last_val_keep o D n i : last_val (keep o D) n i = last_val D n i.
Proof.
  destruct o; [|done]. induction D as [|x D IH]; [done|]. cbn [keep List.filter]. unfold keep in IH.
  assert (forall y E, last_val (y :: E) n i = match last_val E n i with Some z => Some z | None => last_val [y] n i end) as Hc.
  { intros y E. by rewrite <- (last_val_app [y] E). }
  destruct x as [m|m j s o|m j v a]; cbn [is_from negb].
  - by rewrite Hc, IH, <- Hc.
  - rewrite (Hc (SayFrom _ _ _ _)), IH. cbn. by destruct (last_val D n i).
  - by rewrite Hc, IH, <- Hc.
Qed.
Lemma last_from_kept D n i : last_from (keep true D) n i = None.
Proof.
  apply last_omap_none. intros x Hx. cbn in Hx. rewrite elem_of_list_In, filter_In in Hx. destruct Hx as [_ Hx]. by destruct x.
Qed.
Lemma last_from_in D n i src o : last_from D n i = Some (src, o) -> SayFrom n i src o ∈ D.
Proof.
  unfold last_from. intros [l E]%last_Some.
  assert (Hb : (src, o) ∈ omap (fun x => match x with SayFrom n' i' s o => if decide (n' = n /\ i' = i) then Some (s, o) else None | _ => None end) D) by (rewrite E; set_solver).
  apply elem_of_list_omap in Hb as ([m|m j s o'|m j v a] & Hx & Hf); try done. case_decide as Hd; [|done]. destruct Hd as [-> ->]. by injection Hf as -> ->.
Qed.

Section track.
  Context (def : nat -> nat -> f32) (norm denorm : nat -> nat -> f32 -> f32) (q2f : Q -> f32).
  Notation T := (hexo_table def norm denorm q2f).

  Definition say1 (bs : list builder) (n : node_id) (k : bcall) : option said :=
    match k with
    | KSet _ i v ma => Some (SayVal n i (AParam (nt_norm T (nid_kind n) i v)) ma)
    | KSetting _ i v => Some (SayVal n (nt_at_id T (nid_kind n) i) (ASetting v) None)
    | KInput _ i src o => (fun b => SayFrom n i (bd_node b) o) <$> bs !! src
    | KNew _ _ => None
    end.
  Lemma says_eq bs d : says T bs d = SayNode (bd_node d) :: omap (say1 bs (bd_node d)) (bd_calls d).
  Proof. done. Qed.
  Lemma say1_subject bs n k x : say1 bs n k = Some x -> subject x = n.
  Proof. destruct k; cbn; try (by intros [= <-]). destruct (bs !! src); cbn; [|done]. by intros [= <-]. Qed.
  Lemma says_subject bs d x : x ∈ says T bs d -> subject x = bd_node d.
  Proof.
    rewrite says_eq. intros [->|Hx]%elem_of_cons; [done|]. apply elem_of_list_omap in Hx as (k & _ & Hk). by eapply say1_subject.
  Qed.

  Record cfg_tracks (D : list said) (n : node_id) (cfg : ncfg) : Prop := {
    ct_edge : forall name src out, nc_edges cfg !! name = Some (src, out) ->
      exists i o, info_inputs n !! i = Some name /\ info_outputs src !! o = Some out /\ known src /\ last_from D n i = Some (src, o);
    ct_from : forall i src o, last_from D n i = Some (src, o) ->
      exists name out, info_inputs n !! i = Some name /\ info_outputs src !! o = Some out /\ nc_edges cfg !! name = Some (src, out);
    ct_param : forall name vm, nc_params cfg !! name = Some vm -> exists i, pname n i name /\ last_val D n i = Some vm;
    ct_val : forall i vm, last_val D n i = Some vm -> exists name, pname n i name /\ nc_params cfg !! name = Some vm;
  }.

  Lemma tracks_ext D D' n cfg : (forall i, last_from D' n i = last_from D n i) -> (forall i, last_val D' n i = last_val D n i) ->
    cfg_tracks D n cfg -> cfg_tracks D' n cfg.
  Proof.
    intros H1 H2 [A B C E]. constructor.
    - intros name src out H. destruct (A _ _ _ H) as (i & o & ? & ? & ? & ?). exists i, o. by rewrite H1.
    - intros i src o. rewrite H1. apply B.
    - intros name vm H. destruct (C _ _ H) as (i & ? & ?). exists i. by rewrite H2.
    - intros i vm. rewrite H2. apply E.
  Qed.

  Lemma input_inj n i j name : known n -> info_inputs n !! i = Some name -> info_inputs n !! j = Some name -> i = j.
  Proof. intros Hn Hi Hj. destruct (input_name n i name Hn Hi) as [H1 _], (input_name n j name Hn Hj) as [H2 _]. rewrite H1 in H2. by injection H2. Qed.

  Lemma last_val_one n i v ma m j : last_val [SayVal n i v ma] m j = if decide (n = m /\ i = j) then Some (v, ma) else None.
  Proof. unfold last_val. cbn. by destruct (decide _). Qed.
  Lemma last_from_one n i s o m j : last_from [SayFrom n i s o] m j = if decide (n = m /\ i = j) then Some (s, o) else None.
  Proof. unfold last_from. cbn. by destruct (decide _). Qed.

  Lemma tracks_val D n cfg i name v ma : known n -> pname n i name -> cfg_tracks D n cfg ->
    cfg_tracks (D ++ [SayVal n i v ma]) n (cfg_param cfg name v ma).
  Proof.
    intros Hn Hp [A B C E].
    assert (HF : forall j, last_from (D ++ [SayVal n i v ma]) n j = last_from D n j) by (intros j; by rewrite last_from_app).
    assert (HV : forall j, last_val (D ++ [SayVal n i v ma]) n j = if decide (i = j) then Some (v, ma) else last_val D n j).
    { intros j. rewrite last_val_app, last_val_one. destruct (decide (n = n /\ i = j)) as [[_ H]|H]; [by rewrite decide_True|]. rewrite decide_False; [done|tauto]. }
    constructor; cbn.
    - intros name' src out H. destruct (A _ _ _ H) as (j & o & ? & ? & ? & ?). exists j, o. by rewrite HF.
    - intros j src o. rewrite HF. apply B.
    - intros name' vm. destruct (decide (name = name')) as [<-|Hne].
      + rewrite lookup_insert. intros [= <-]. exists i. split; [done|]. by rewrite HV, decide_True.
      + rewrite lookup_insert_ne by done. intros H. destruct (C _ _ H) as (j & Hj & Hv). exists j. split; [done|]. rewrite HV, decide_False; [done|].
        intros <-. apply Hne. by eapply pname_inj.
    - intros j vm. rewrite HV. destruct (decide (i = j)) as [<-|Hne].
      + intros [= <-]. exists name. split; [done|]. by rewrite lookup_insert.
      + intros H. destruct (E _ _ H) as (name' & Hj & Hv). exists name'. split; [done|]. rewrite lookup_insert_ne; [done|].
        intros <-. apply Hne. by eapply pname_fun.
  Qed.
  Lemma tracks_from D n cfg i name src o out : known n -> info_inputs n !! i = Some name -> info_outputs src !! o = Some out -> known src ->
    cfg_tracks D n cfg -> cfg_tracks (D ++ [SayFrom n i src o]) n (cfg_edge cfg name src out).
  Proof.
    intros Hn Hi Ho Hs [A B C E].
    assert (HV : forall j, last_val (D ++ [SayFrom n i src o]) n j = last_val D n j) by (intros j; by rewrite last_val_app).
    assert (HF : forall j, last_from (D ++ [SayFrom n i src o]) n j = if decide (i = j) then Some (src, o) else last_from D n j).
    { intros j. rewrite last_from_app, last_from_one. destruct (decide (n = n /\ i = j)) as [[_ H]|H]; [by rewrite decide_True|]. rewrite decide_False; [done|tauto]. }
    constructor; cbn.
    - intros name' s t. destruct (decide (name = name')) as [<-|Hne].
      + rewrite lookup_insert. intros [= <- <-]. exists i, o. by rewrite HF, decide_True.
      + rewrite lookup_insert_ne by done. intros H. destruct (A _ _ _ H) as (j & p & Hj & H1 & H2 & H3). exists j, p. split; [done|]. split; [done|].
        split; [done|]. rewrite HF, decide_False; [done|]. intros <-. rewrite Hi in Hj. by injection Hj as <-.
    - intros j s p. rewrite HF. destruct (decide (i = j)) as [<-|Hne].
      + intros [= <- <-]. exists name, out. by rewrite lookup_insert.
      + intros H. destruct (B _ _ _ H) as (name' & t & Hj & H1 & H2). exists name', t. split; [done|]. split; [done|]. rewrite lookup_insert_ne; [done|].
        intros <-. apply Hne. exact (input_inj _ _ _ _ Hn Hi Hj).
    - intros name' vm H. destruct (C _ _ H) as (j & Hj & Hv). exists j. by rewrite HV.
    - intros j vm. rewrite HV. apply E.
  Qed.

  Lemma ops_track xs bs only n ops calls : Forall2 (bnode_ok bs) xs bs -> Forall2 (op_ok bs n) ops calls -> known n ->
    forall D w, ws_err w = None -> cfg_tracks D n (ws_cfg w) ->
    exists w', foldm (walk_op T xs only n) w ops = Some w' /\ ws_err w' = None /\
      cfg_tracks (D ++ keep only (omap (say1 bs n) calls)) n (ws_cfg w') /\
      ws_after w' = ws_after w ++ omap (fun k => match k with KInput _ _ src _ => Some src | _ => None end) calls /\
      (ws_par w' = false -> ws_par w = false /\ forall i, last_val (omap (say1 bs n) calls) n i = None) /\
      (only = true -> ws_edge w' = ws_edge w).
  Proof.
    intros HF Hops Hn. induction Hops as [|op k ops calls Hop _ IH]; intros D w Hw Hc.
    - exists w. cbn [omap foldm]. rewrite keep_nil, !app_nil_r. by split_and!.
    - cbn [foldm]. unfold walk_op at 2. rewrite Hw.
      change (omap (say1 bs n) (k :: calls)) with (omap (say1 bs n) ([k] ++ calls)). rewrite omap_app, keep_app, app_assoc.
      destruct op as [name v ma|name v|name src out], k as [kk ii|b i v' ma'|b i v'|b i src' o]; try done; cbn [op_ok] in Hop.
      + destruct Hop as (-> & -> & Hi). destruct (input_name n i name Hn Hi) as [_ (q & Hq & Hqi)]. rewrite Hq. cbn [mbind option_bind].
        destruct (IH (D ++ [SayVal n i (AParam (nt_norm T (nid_kind n) i v)) ma])
          (WState (cfg_param (ws_cfg w) name (AParam (nt_norm T (nid_kind n) (pa_idx q) v)) ma) true (ws_edge w) (ws_after w) None)) as (w' & E & H1 & H2 & H3 & H4 & H5).
        { done. }
        { cbn. rewrite Hqi. apply tracks_val; [done|by exists q|done]. }
        exists w'. rewrite E. cbn [ws_after ws_par ws_edge] in *. split_and!; [done|done| |done|by intros [? _]%H4|done].
        destruct only; exact H2.
      + destruct Hop as (-> & Hi). cbn [mbind option_bind].
        destruct (atom_param_by_idx n i) as [q|] eqn:Hq; [|done]. cbn in Hi. injection Hi as <-.
        destruct (IH (D ++ [SayVal n (nt_at_id T (nid_kind n) i) (ASetting v) None])
          (WState (cfg_param (ws_cfg w) (pa_name q) (ASetting v) None) true (ws_edge w) (ws_after w) None)) as (w' & E & H1 & H2 & H3 & H4 & H5).
        { done. }
        { cbn [ws_cfg]. rewrite (at_id_eq _ _ _ _ n i q Hq). apply tracks_val; [done|by eapply atom_name|done]. }
        exists w'. rewrite E. cbn [ws_after ws_par ws_edge] in *. split_and!; [done|done| |done|by intros [? _]%H4|done].
        destruct only; exact H2.
      + destruct Hop as (-> & Hi & d & Hd & Ho). destruct (Forall2_lookup_r _ _ _ _ _ HF Hd) as (x & Hx & Hbo). rewrite Hx. cbn [mbind option_bind].
        assert (Hone : omap (say1 bs n) [KInput b i src o] = [SayFrom n i (bd_node d) o]) by (cbn; by rewrite Hd).
        rewrite Hone. destruct only.
        * destruct (IH D (WState (ws_cfg w) (ws_par w) (ws_edge w) (ws_after w ++ [src]) None)) as (w' & E & H1 & H2 & H3 & H4 & H5); [done|done|].
          exists w'. rewrite E. cbn [ws_after ws_par ws_edge] in *. cbn [keep List.filter is_from negb]. rewrite app_nil_r.
          split_and!; [done|done|exact H2| | |done].
          -- rewrite H3, <- app_assoc. done.
          -- intros [? Hl]%H4. split; [done|]. intros j. rewrite last_val_app, Hl. done.
        * destruct (IH (D ++ [SayFrom n i (bd_node d) o]) (WState (cfg_edge (ws_cfg w) name (bn_id x) out) (ws_par w) true (ws_after w ++ [src]) None)) as (w' & E & H1 & H2 & H3 & H4 & H5).
          { done. }
          { cbn. rewrite (bo_id _ _ _ Hbo). apply tracks_from; try done. apply Hbo. }
          exists w'. rewrite E. cbn [ws_after ws_par ws_edge] in *.
          split_and!; [done|done|exact H2| | |done].
          -- rewrite H3, <- app_assoc. done.
          -- intros [? Hl]%H4. split; [done|]. intros j. rewrite last_val_app, Hl. done.
  Qed.

  (** * The state of the constructor *)
  Record tracks (D : list said) (nodes : gmap node_id ncfg) : Prop := {
    tk_cfg : forall n cfg, nodes !! n = Some cfg -> known n /\ cfg_tracks D n cfg;
    tk_named : forall n, is_Some (nodes !! n) <-> named D n;
    tk_subj : forall x, x ∈ D -> named D (subject x);
  }.
  Lemma tracks_empty n : cfg_tracks [] n (NCfg ∅ ∅).
  Proof. by constructor. Qed.
  Lemma tracks_nil : tracks [] ∅.
  Proof.
    constructor.
    - intros n cfg H. by rewrite lookup_empty in H.
    - intros n. rewrite lookup_empty. split; [by intros [? ?]|by intros ?%elem_of_nil].
    - by intros x ?%elem_of_nil.
  Qed.
  Lemma tracks_get D nodes n : tracks D nodes -> cfg_tracks D n (default (NCfg ∅ ∅) (nodes !! n)).
  Proof.
    intros H. destruct (nodes !! n) as [cfg|] eqn:E; cbn; [by apply (tk_cfg _ _ H)|].
    assert (Hs : forall x, x ∈ D -> subject x <> n).
    { intros x Hx <-. apply (tk_subj _ _ H), (tk_named _ _ H) in Hx. rewrite E in Hx. by destruct Hx. }
    eapply tracks_ext; [..|apply tracks_empty]; intros i; [by rewrite last_from_other|by rewrite last_val_other].
  Qed.
  Lemma tracks_put D nodes n cfg X : tracks D nodes -> known n -> (forall x, x ∈ X -> subject x = n) -> SayNode n ∈ X ->
    cfg_tracks (D ++ X) n cfg -> tracks (D ++ X) (<[n := cfg]> nodes).
  Proof.
    intros H Hn HX Hin Hc.
    assert (Hm : forall m, named (D ++ X) m <-> m = n \/ named D m).
    { intros m. unfold named. rewrite elem_of_app. split; [|intros [->|?]; [by right|by left]].
      intros [?|Hx]; [by right|]. left. by apply HX in Hx. }
    constructor.
    - intros m cfg'. destruct (decide (n = m)) as [<-|Hne].
      + rewrite lookup_insert. by intros [= <-].
      + rewrite lookup_insert_ne by done. intros Hg. destruct (tk_cfg _ _ H _ _ Hg) as [Hk Ht]. split; [done|].
        assert (Ho : forall x, x ∈ X -> subject x <> m) by (intros x Hx; by rewrite (HX x Hx)).
        eapply tracks_ext; [..|exact Ht]; intros i; [by rewrite last_from_app, last_from_other|by rewrite last_val_app, last_val_other].
    - intros m. rewrite Hm, lookup_insert_is_Some, (tk_named _ _ H). destruct (decide (n = m)); naive_solver.
    - intros x [Hx|Hx]%elem_of_app; apply Hm; [right; by apply (tk_subj _ _ H)|left; by apply HX].
  Qed.
End track.
