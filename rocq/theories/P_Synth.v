(** Synthesizers built without a matrix (C31) *)
From Coq Require Import QArith.
From stdpp Require Import strings.
From Verif Require Import Base M_Atom M_Graph S_Graph M_Grid M_Prog M_Conf M_Exec M_Nodes M_Synth S_Nodes S_Grid S_Conf S_Sync S_Prog S_Synth S_Settle.
From Verif Require Import L_Graph L_Conf L_Conf3 L_Sync L_Settle L_Settle6 P_Nodes L_Synth L_Synth2 L_Synth3 L_Synth4 L_Synth5 L_Synth6 L_Synth7.
Open Scope list_scope.
Open Scope nat_scope.

(** A list of builder calls makes one list of builders. What the builder [r] describes is defined unless the builders take inputs from each
    other in a circle, and is determined by the calls. *)
Theorem C31_described (T : ntable) (cs : list bcall) :
  exists bs, makes cs bs /\ (forall bs', makes cs bs' -> bs' = bs) /\
    forall r, r < length bs -> ((exists D, description T cs r D) <-> ~ endless bs r) /\
      forall D D', description T cs r D -> description T cs r D' -> D = D'.
Proof.
  destruct (makes_fun (fun _ _ => 0%Z) (fun _ _ x => x) (fun _ _ x => x) cs) as [[bs Hm] Hu]. exists bs. split; [done|]. split; [by eauto|]. intros r Hr.
  pose proof (brun_ok (fun _ _ => 0%Z) (fun _ _ x => x) (fun _ _ x => x) _ _ Hm) as Hbs. pose proof (refs_ok _ _ Hbs) as Hwf. split.
  - rewrite <- (passes_iff bs r Hwf Hr). split.
    + intros (D & bs' & l & Hm' & Hl & _). rewrite (Hu _ _ Hm' Hm) in Hl. by exists l.
    + intros [l Hl]. by exists (mjoin (says T bs <$> l)), bs, l.
  - intros D D' (b1 & l1 & M1 & P1 & ->) (b2 & l2 & M2 & P2 & ->). rewrite (Hu _ _ M1 Hm), (Hu _ _ M2 Hm) in *. f_equal.
    by rewrite (passes_fun _ _ _ _ P1 P2).
Qed.
Print Assumptions C31_described.

Section theorems.
  Context (def : nat -> nat -> f32) (norm denorm : nat -> nat -> f32 -> f32) (q2f : Q -> f32).
  Context (i2f : Z -> f32) (load_sample : satom -> satom) (feq : f32 -> f32 -> bool).
  Notation T := (hexo_table def norm denorm q2f).
  Notation synth_run := (synth_run T i2f load_sample feq).
  Notation synth_step := (synth_step T i2f load_sample feq).

  (** After any history of calls, with hash maps iterated in any order, an upload succeeds if and only if what was said so far has no
      circle. It then sends one program, as the last message. Once the audio thread has taken it, it plays what was said. Otherwise
      nothing is sent. *)
  Theorem C31_upload ks h0 h s sent rs D it cs r D' :
    Forall fair_call ks -> synth_run h0 synth_new ks = Some (h, s, sent, rs) -> tells T (zip ks rs) D ->
    fair it -> description T cs r D' ->
    (said_acyclic (D ++ D') -> exists h' s' ms p,
       synth_step h s (SUpload it cs r) = Some (h', s', ms ++ [MNewProg p true], inr true) /\ Forall no_prog ms /\
       (few (D ++ D') -> forall finc hx e hx' e' t, exec_message finc hx e (MNewProg p true) = Some (hx', e', t) ->
          plays T i2f load_sample feq (D ++ D') (cf_modamt (sy_conf s')) (ex_prog e'))) /\
    (~ said_acyclic (D ++ D') -> exists s', synth_step h s (SUpload it cs r) = Some (h, s', [], inl SynCycle) /\ sy_conf s' = sy_conf s).
  Proof.
    intros Hf Hr Ht Hi Hd. destruct (run_inv def norm denorm q2f i2f load_sample feq ks Hf _ _ _ _ _ _ Hr Ht) as [Hs Hc].
    destruct (desc_told def norm denorm q2f _ _ _ Hd) as (bs & l & Hm & Hl & Hbs & <- & _). cbn [M_Synth.synth_step].
    destruct (upload_spec def norm denorm q2f i2f load_sample feq (brun cs) bs Hbs h it D s r l Hi Hs Hc Hl)
      as [[Hc' (h1 & s1 & ms1 & p & A & E1 & M & S & _ & P)]|[Hc' (s1 & A & E1 & S & K)]]; rewrite E1; cbn [mbind option_bind]; (split; [intros A'|intros A']); try done.
    - exists h1, s1, ms1, p. done.
    - exists s1. done.
  Qed.

  (** Whatever was sent so far, the audio thread, once it has handled it, holds for each node that it runs the values that the
      constructor's configurator has for its inputs and atoms. *)
  Theorem C31_audio_values ks h0 h s sent rs D :
    Forall fair_call ks -> synth_run h0 synth_new ks = Some (h, s, sent, rs) -> tells T (zip ks rs) D ->
    let A := foldl handled ([], [], []) sent in
    forall op, op ∈ A.1.1 -> let n := op_node op in
      (forall j, j < nt_ins T (nid_kind n) -> exists v, conf_get_param T (sy_conf s) (n, j) = Some (AParam v) /\ A.1.2 !! ((op_in op).1 + j) = Some v) /\
      (forall j, j < nt_ats T (nid_kind n) -> exists a, conf_get_param T (sy_conf s) (n, nt_at_id T (nid_kind n) j) = Some a /\ A.2 !! ((op_at op).1 + j) = Some a).
  Proof.
    intros Hf Hr Ht. apply (view_values def norm denorm q2f). exact (run_v def norm denorm q2f i2f load_sample feq ks Hf _ _ _ _ _ _ Hr Ht).
  Qed.

  (** [update_params] either changes values only: then no program is sent, and every parameter that was mentioned has the value it was given,
      also in the audio thread if its node runs. Or it uploads like above. *)
  Theorem C31_update ks h0 h s sent rs D it it' cs r D' :
    Forall fair_call ks -> synth_run h0 synth_new ks = Some (h, s, sent, rs) -> tells T (zip ks rs) D ->
    fair it -> fair it' -> description T cs r D' ->
    (exists s' ms, synth_step h s (SUpdate it it' cs r) = Some (h, s', ms, inr false) /\ Forall no_prog ms /\
       (forall n i v ma, last_val D' n i = Some (v, ma) -> has_value T i2f load_sample feq (sy_conf s') n i v ma) /\
       let A := foldl handled ([], [], []) (sent ++ ms) in
       forall op, op ∈ A.1.1 ->
         (forall j v ma, j < nt_ins T (nid_kind (op_node op)) -> last_val D' (op_node op) j = Some (v, ma) ->
            exists w, A.1.2 !! ((op_in op).1 + j) = Some w /\ (w = atom_f i2f v \/ atom_eqb feq (AParam w) v = true)) /\
         (forall j v ma, j < nt_ats T (nid_kind (op_node op)) -> last_val D' (op_node op) (nt_at_id T (nid_kind (op_node op)) j) = Some (v, ma) ->
            exists w, A.2 !! ((op_at op).1 + j) = Some w /\ (w = load_sample v \/ atom_eqb feq w v = true))) \/
    (said_acyclic (D ++ D') /\ exists h' s' ms p,
       synth_step h s (SUpdate it it' cs r) = Some (h', s', ms ++ [MNewProg p true], inr true) /\ Forall no_prog ms /\
       (few (D ++ D') -> forall finc hx e hx' e' t, exec_message finc hx e (MNewProg p true) = Some (hx', e', t) ->
          plays T i2f load_sample feq (D ++ D') (cf_modamt (sy_conf s')) (ex_prog e'))) \/
    (~ said_acyclic (D ++ D') /\ exists s' ms, synth_step h s (SUpdate it it' cs r) = Some (h, s', ms, inl SynCycle) /\ Forall no_prog ms).
  Proof.
    intros Hf Hr Ht Hi Hi' Hd. pose proof (run_v def norm denorm q2f i2f load_sample feq ks Hf _ _ _ _ _ _ Hr Ht) as HV. destruct (run_inv def norm denorm q2f i2f load_sample feq ks Hf _ _ _ _ _ _ Hr Ht) as [Hs Hc].
    destruct (desc_told def norm denorm q2f _ _ _ Hd) as (bs & l & Hm & Hl & Hbs & <- & _). cbn [M_Synth.synth_step].
    destruct (update_spec def norm denorm q2f i2f load_sample feq (brun cs) bs Hbs h it it' D s r l Hi Hi' Hs Hc Hl)
      as [(s1 & ms1 & E1 & M & _ & _ & H)|[[Hc' (h1 & s1 & ms1 & p & A & E1 & M & _ & _ & P)]|[Hc' (s1 & ms1 & A & E1 & M & S)]]]; rewrite E1.
    - left. exists s1, ms1. split; [done|]. split; [done|].
      assert (Hval : forall n i v ma, last_val (told def norm denorm q2f bs false l) n i = Some (v, ma) -> has_value T i2f load_sample feq (sy_conf s1) n i v ma).
      { intros n i v ma Hv. apply H; [by rewrite last_val_app, Hv|by rewrite Hv]. }
      split; [done|]. cbn zeta. intros op Hop.
      assert (HV1 : vw T (sy_conf s1) (foldl applied ([], []) (sent ++ ms1)) (foldl oapplied [] (sent ++ ms1))).
      { rewrite !foldl_app. apply (step_v def norm denorm q2f i2f load_sample feq h s D (SUpdate it it' cs r) h s1 ms1 (inr false)); try done. by eexists. }
      destruct (view_values def norm denorm q2f _ _ HV1 op Hop) as [V1 V2]. split.
      + intros j v ma Hj Hv. destruct (V1 j Hj) as (w & Hg & Hw). exists w. split; [done|].
        destruct (Hval _ _ _ _ Hv) as [(w' & Hw' & Hor) _]. rewrite Hg in Hw'. injection Hw' as <-. destruct Hor as [Hor|Hor]; [left|by right].
        unfold stored in Hor. rewrite is_atom_input in Hor by done. by injection Hor.
      + intros j v ma Hj Hv. destruct (V2 j Hj) as (w & Hg & Hw). exists w. split; [done|].
        destruct (Hval _ _ _ _ Hv) as [(w' & Hw' & Hor) _]. rewrite Hg in Hw'. injection Hw' as <-. destruct Hor as [Hor|Hor]; [left|by right].
        unfold stored in Hor. by rewrite (is_atom_atom T (C28_table_ok def norm denorm q2f)) in Hor by done.
    - right. left. split; [done|]. by exists h1, s1, ms1, p.
    - right. right. split; [done|]. by exists s1, ms1.
  Qed.

  (** Calls whose builders are not circular never crash, whatever came before. *)
  Theorem C31_runs ks h0 : Forall fair_call ks -> Forall (described T) ks ->
    exists h s sent rs D, synth_run h0 synth_new ks = Some (h, s, sent, rs) /\ tells T (zip ks rs) D.
  Proof.
    induction ks as [|k ks IH] using rev_ind; intros Hf Hd.
    - exists h0, synth_new, [], [], []. split; [done|]. constructor.
    - rewrite Forall_app, Forall_singleton in Hf, Hd. destruct Hf as [Hf Hk], Hd as [Hd Hdk].
      destruct (IH Hf Hd) as (h & s & sent & rs & D & Hr & Ht). setoid_rewrite run_snoc. rewrite Hr. cbn [mbind option_bind].
      pose proof (run_length _ _ _ _ _ _ _ _ _ _ _ _ _ _ Hr) as Hl.
      assert (Hz : forall r, zip (ks ++ [k]) (rs ++ [r]) = zip ks rs ++ [(k, r)]) by (intros r; by rewrite zip_with_app).
      destruct k as [it cs r|it it' cs r|].
      + destruct Hdk as [D' Hdk].
        assert (exists h' s' ms res, synth_step h s (SUpload it cs r) = Some (h', s', ms, res)) as (h' & s' & ms & res & E).
        { destruct (C31_upload ks h0 h s sent rs D it cs r D' Hf Hr Ht Hk Hdk) as [C1 C2].
          destruct (run_inv def norm denorm q2f i2f load_sample feq ks Hf _ _ _ _ _ _ Hr Ht) as [Hs Hc].
          destruct (desc_told def norm denorm q2f _ _ _ Hdk) as (bs & l & Hm & Hl' & Hbs & <- & _).
          destruct (upload_spec def norm denorm q2f i2f load_sample feq (brun cs) bs Hbs h it D s r l Hk Hs Hc Hl')
            as [[_ (h1 & s1 & ms1 & p & A & _)]|[_ (s1 & A & _)]].
          - destruct (C1 A) as (h2 & s2 & ms2 & p2 & E & _). by eauto.
          - destruct (C2 A) as (s2 & E & _). by eauto. }
        rewrite E. cbn [mbind option_bind]. exists h', s', (sent ++ ms), (rs ++ [res]), (D ++ D'). split; [done|]. rewrite Hz. by econstructor.
      + destruct Hdk as [D' Hdk], Hk as [Hk Hk'].
        destruct (C31_update ks h0 h s sent rs D it it' cs r D' Hf Hr Ht Hk Hk' Hdk) as [(s' & ms & E & _)|[(_ & h' & s' & ms & p & E & _)|(_ & s' & ms & E & _)]];
          rewrite E; cbn [mbind option_bind]; eexists _, _, _, _, _; (split; [done|]); rewrite Hz.
        * by econstructor.
        * by eapply tells_reload.
        * by eapply tells_reload.
      + cbn. eexists _, _, _, _, _. split; [done|]. rewrite Hz. by econstructor.
  Qed.

  (** C31, refuted for circular builders: the walk over the builders does not end, at whatever depth it is stopped. The program overflows its
      stack instead of returning the error for cycles. *)
  Theorem C31_circular_builders_refuted ks h0 h s sent rs D it cs bs r :
    Forall fair_call ks -> synth_run h0 synth_new ks = Some (h, s, sent, rs) -> tells T (zip ks rs) D ->
    fair it -> makes cs bs -> endless bs r ->
    (forall depth only, walk T i2f load_sample feq depth (brun cs) it only s r = None) /\ synth_step h s (SUpload it cs r) = None.
  Proof.
    intros Hf Hr Ht Hi Hm He. destruct (run_inv def norm denorm q2f i2f load_sample feq ks Hf _ _ _ _ _ _ Hr Ht) as [Hs _].
    assert (Hw : forall f only, walk T i2f load_sample feq f (brun cs) it only s r = None).
    { intros f only. eapply walk_endless; [by apply brun_ok|done|exact Hs|done]. }
    split; [done|]. cbn [M_Synth.synth_step]. unfold synth_upload, walk_upload. by rewrite Hw.
  Qed.
End theorems.
Print Assumptions C31_upload.
Print Assumptions C31_audio_values.
Print Assumptions C31_update.
Print Assumptions C31_runs.
Print Assumptions C31_circular_builders_refuted.

(** * Concrete cases *)
Definition ex_T : ntable := hexo_table (fun _ _ => 5%Z) (fun _ _ v => v) (fun _ _ v => v) (fun _ => 7%Z).
Definition ex_step := synth_step ex_T (fun z => z) (fun a => a) Z.eqb.
Definition ex_run := synth_run ex_T (fun z => z) (fun a => a) Z.eqb (Heap ∅ 0) synth_new.
(** two orders of iteration *)
Definition ex_it : iters := Iters map_to_list (fun _ => map_to_list) (fun _ => map_to_list).
Definition ex_it' : iters := Iters (fun m => rev (map_to_list m)) (fun _ m => rev (map_to_list m)) (fun _ m => rev (map_to_list m)).
Lemma ex_fair : fair ex_it.
Proof. by repeat split. Qed.
Lemma ex_fair' : fair ex_it'.
Proof. repeat split; cbn; intros; by rewrite <- Permutation_rev. Qed.

(** sin(0) with a frequency goes into amp(0), with a modulation amount, and this into both channels of out(0) *)
Definition ex_calls : list bcall :=
  [KNew 12 0; KNew 1 0; KNew 25 0; KSet 0 0 440%Z None; KSet 1 0 1%Z (Some 3%Z); KInput 1 0 0 0; KInput 2 0 1 0; KInput 2 1 1 0].
Definition ex_says : list said :=
  [SayNode (NId 25 0); SayFrom (NId 25 0) 0 (NId 1 0) 0; SayFrom (NId 25 0) 1 (NId 1 0) 0;
   SayNode (NId 1 0); SayVal (NId 1 0) 0 (AParam 1%Z) (Some 3%Z); SayFrom (NId 1 0) 0 (NId 12 0) 0; SayNode (NId 12 0); SayVal (NId 12 0) 0 (AParam 440%Z) None;
   SayNode (NId 1 0); SayVal (NId 1 0) 0 (AParam 1%Z) (Some 3%Z); SayFrom (NId 1 0) 0 (NId 12 0) 0; SayNode (NId 12 0); SayVal (NId 12 0) 0 (AParam 440%Z) None].

(** the builders of a list of calls, computed *)
Definition add_builder (bs : list builder) (k : bcall) : list builder :=
  let has (b i : nat) (c : node_id -> nat) := match bs !! b with Some d => i <? c (bd_node d) | None => false end in
  match k with
  | KNew kind inst => if (0 <? kind) && (kind <=? length node_rows) && (inst <? 256) then bs ++ [Builder (NId kind inst) []] else bs
  | KSet b i _ _ => if has b i in_count then alter (add_call k) b bs else bs
  | KSetting b i _ => if has b i at_count then alter (add_call k) b bs else bs
  | KInput b i src o => if has b i in_count && has src o out_count then alter (add_call k) b bs else bs
  end.
Lemma has_spec (bs : list builder) b i c : match bs !! b with Some d => i <? c (bd_node d) | None => false end = true <->
  exists d, bs !! b = Some d /\ i < c (bd_node d).
Proof.
  destruct (bs !! b) as [d|]; [|split; [done|by intros (d & ? & _)]]. rewrite Nat.ltb_lt. split; [by eauto|]. intros (d' & [= <-] & ?). done.
Qed.
Local Opaque node_rows.
Lemma add_builder_makes ks bs k : makes ks bs -> makes (ks ++ [k]) (add_builder bs k).
Proof.
  intros H. destruct k as [kind inst|b i v ma|b i v|b i src o]; cbn [add_builder].
  - destruct (_ && _ && _) eqn:E.
    + rewrite !andb_true_iff, !Nat.ltb_lt, Nat.leb_le in E. destruct E as [[E1 E2] E3]. by apply makes_new.
    + apply makes_bad; [done|]. intros [[H1 H2] H3]. rewrite !andb_false_iff, !Nat.ltb_ge, Nat.leb_gt in E. lia.
  - match goal with |- context [if ?b then _ else _] => destruct b eqn:E end.
    + constructor; [done|]. exact (proj1 (has_spec bs b i in_count) E).
    + apply makes_bad; [done|]. intros Hi. apply (proj2 (has_spec bs b i in_count)) in Hi. rewrite Hi in E. done.
  - match goal with |- context [if ?b then _ else _] => destruct b eqn:E end.
    + constructor; [done|]. exact (proj1 (has_spec bs b i at_count) E).
    + apply makes_bad; [done|]. intros Hi. apply (proj2 (has_spec bs b i at_count)) in Hi. rewrite Hi in E. done.
  - match goal with |- context [if ?b then _ else _] => destruct b eqn:E end.
    + apply andb_true_iff in E as [E1 E2]. constructor; [done|exact (proj1 (has_spec bs b i in_count) E1)|exact (proj1 (has_spec bs src o out_count) E2)].
    + apply makes_bad; [done|]. intros [Hi Ho]. apply (proj2 (has_spec bs b i in_count)) in Hi. apply (proj2 (has_spec bs src o out_count)) in Ho.
      rewrite Hi, Ho in E. done.
Qed.
Lemma builders_make ks : makes ks (foldl add_builder [] ks).
Proof. induction ks as [|k ks IH] using rev_ind; [constructor|]. rewrite foldl_app. cbn [foldl]. by apply add_builder_makes. Qed.
Local Transparent node_rows.

Lemma ex_described : description ex_T ex_calls 2 ex_says.
Proof.
  eexists _, _. split; [apply builders_make|]. split.
  - eapply passes_cons; [by vm_compute| |constructor]. eapply (passes_cons _ 1); [by vm_compute| |eapply (passes_cons _ 1); [by vm_compute| |constructor]].
    + eapply (passes_cons _ 0); [by vm_compute|vm_compute; constructor|constructor].
    + eapply (passes_cons _ 0); [by vm_compute|vm_compute; constructor|constructor].
  - by vm_compute.
Qed.
(** the hypotheses of the theorems are met by a history of an upload, an update and a clear *)
Example ex_history : let ks := [SUpload ex_it ex_calls 2; SUpdate ex_it' ex_it ex_calls 2; SClear; SUpload ex_it' ex_calls 2] in
  Forall fair_call ks /\ Forall (described ex_T) ks.
Proof.
  split; repeat constructor; cbn; first [apply ex_fair|apply ex_fair'|by exists ex_says; apply ex_described].
Qed.
Example ex_acyclic : said_acyclic ([] ++ ex_says) /\ few ([] ++ ex_says).
Proof.
  split.
  - set (rank := fun n => match nid_kind n with 12 => 0 | 1 => 1 | _ => 2 end).
    assert (H : forall a b, feeds_said ([] ++ ex_says) a b -> rank a < rank b).
    { intros a b (i & o & Hi%last_from_in). unfold ex_says, app in Hi. rewrite !elem_of_cons in Hi. rewrite elem_of_nil in Hi.
      repeat destruct Hi as [Hi|Hi]; try done; injection Hi as -> -> -> ->; cbn; lia. }
    assert (Ht : forall a b, clos_trans _ (feeds_said ([] ++ ex_says)) a b -> rank a < rank b).
    { intros a b. induction 1 as [? ? ?|? ? ? _ ? _ ?]; [by apply H|lia]. }
    intros n Hn%Ht. lia.
  - exists [NId 25 0; NId 1 0; NId 12 0]. split; [|cbn; lia]. unfold named. intros n Hn. unfold ex_says, app in Hn. rewrite !elem_of_cons, elem_of_nil in Hn.
    repeat destruct Hn as [Hn|Hn]; try done; injection Hn as ->; set_solver.
Qed.
(** the program for the two orders of iteration, after the audio thread has taken it *)
Definition ex_played (it : iters) : option (list node_id * list (list (nat * nat * option nat))) :=
  x ← ex_step (Heap ∅ 0) synth_new (SUpload it ex_calls 2);
  let '(h, _, ms, _) := x in
  match last ms with
  | Some m => y ← exec_message (fun _ _ _ => 0%Z) h (exec_new 10) m; Some (op_node <$> np_ops (ex_prog y.1.2), (fun op => op_inputs op) <$> np_ops (ex_prog y.1.2))
  | None => None
  end.
Example C31_example : ex_played ex_it = Some ([NId 12 0; NId 1 0; NId 25 0], [[]; [(0, 3, Some 0)]; [(1, 7, None); (1, 6, None)]]) /\
  ex_played ex_it' = Some ([NId 12 0; NId 1 0; NId 25 0], [[]; [(0, 3, Some 0)]; [(1, 6, None); (1, 7, None)]]).
Proof. split; by vm_compute. Qed.

(** after the upload, an update of the frequency of sin(0) reaches the audio thread *)
Example C31_update_example :
  (x ← ex_run [SUpload ex_it ex_calls 2; SUpdate ex_it' ex_it [KNew 12 0; KSet 0 0 880%Z None] 0];
   let '(_, _, sent, rs) := x in
   let A := foldl handled ([], [], []) sent in
   Some (rs, op_node <$> A.1.1, (fun op => A.1.2 !! (op_in op).1) <$> A.1.1))
  = Some ([inr true; inr false], [NId 12 0; NId 1 0; NId 25 0], [Some 880%Z; Some 1%Z; Some 5%Z]).
Proof. by vm_compute. Qed.

(** two builders for amp(0), the second takes its input from the first *)
Definition loop_calls : list bcall := [KNew 1 0; KNew 1 0; KInput 1 0 0 0].
Definition loop_says : list said := [SayNode (NId 1 0); SayFrom (NId 1 0) 0 (NId 1 0) 0; SayNode (NId 1 0)].
Lemma loop_described : description ex_T loop_calls 1 loop_says.
Proof.
  eexists _, _. split; [apply builders_make|]. split.
  - eapply passes_cons; [by vm_compute| |constructor]. eapply (passes_cons _ 0); [by vm_compute|vm_compute; constructor|constructor].
  - by vm_compute.
Qed.
Lemma single_described : description ex_T [KNew 1 0] 0 [SayNode (NId 1 0)].
Proof.
  eexists _, _. split; [apply builders_make|]. split.
  - eapply passes_cons; [by vm_compute| |constructor]. vm_compute. constructor.
  - by vm_compute.
Qed.

(** C31, refuted for uploads after a rejected one: the nodes of a rejected graph are kept. The next upload, of a graph without a circle, is
    rejected too. *)
Theorem C31_rejected_graph_stays_refuted : exists h s sent rs, ex_run [SUpload ex_it loop_calls 1] = Some (h, s, sent, rs) /\ rs = [inl SynCycle] /\
  description ex_T [KNew 1 0] 0 [SayNode (NId 1 0)] /\ said_acyclic [SayNode (NId 1 0)] /\
  exists s', ex_step h s (SUpload ex_it [KNew 1 0] 0) = Some (h, s', [], inl SynCycle).
Proof.
  destruct (ex_run [SUpload ex_it loop_calls 1]) as [[[[h s] sent] rs]|] eqn:E; [|vm_compute in E; done].
  exists h, s, sent, rs. split; [done|].
  assert (Hf : Forall fair_call [SUpload ex_it loop_calls 1]) by (constructor; [apply ex_fair|done]).
  assert (Hrs : rs = [inl SynCycle]) by (vm_compute in E; apply (inj Some) in E; by injection E). split; [done|].
  split; [apply single_described|]. split.
  { intros n Hn. apply Operators_Properties.clos_trans_tn1 in Hn. inversion Hn as [? (i & o & Hi%last_from_in)|? ? (i & o & Hi%last_from_in) _];
      apply elem_of_list_singleton in Hi; done. }
  assert (Ht : tells ex_T (zip [SUpload ex_it loop_calls 1] rs) ([] ++ loop_says)).
  { rewrite Hrs. change (zip _ _) with ([] ++ [(SUpload ex_it loop_calls 1, @inl synerr bool SynCycle)]). apply tells_upload; [constructor|apply loop_described]. }
  unfold ex_run, ex_step in *.
  destruct (C31_upload _ _ _ _ (fun z => z) (fun a => a) Z.eqb _ _ _ _ _ _ _ ex_it _ _ _ Hf E Ht ex_fair single_described) as [_ C].
  destruct C as (s' & H & _); [|by exists s']. intros Ha. apply (Ha (NId 1 0)). apply t_step. exists 0, 0. by vm_compute.
Qed.
Print Assumptions C31_rejected_graph_stays_refuted.

(** C31, refuted for [update_params] with new inputs: it returns [Ok(false)] and does not make the connection. *)
Theorem C31_update_drops_inputs_refuted : exists h s sent h' s' ms, ex_run [SUpload ex_it [KNew 12 0; KNew 1 0] 1; SUpload ex_it [KNew 12 0] 0] = Some (h, s, sent, [inr true; inr true]) /\
  ex_step h s (SUpdate ex_it ex_it [KNew 12 0; KNew 1 0; KInput 1 0 0 0] 1) = Some (h', s', ms, inr false) /\ ms = [] /\
  nc_edges <$> sy_nodes s' !! NId 1 0 = Some ∅.
Proof.
  assert (H : (x ← ex_run [SUpload ex_it [KNew 12 0; KNew 1 0] 1; SUpload ex_it [KNew 12 0] 0];
               y ← ex_step x.1.1.1 x.1.1.2 (SUpdate ex_it ex_it [KNew 12 0; KNew 1 0; KInput 1 0 0 0] 1);
               Some (x.2, y.2, length y.1.2, nc_edges <$> sy_nodes y.1.1.2 !! NId 1 0)) = Some ([inr true; inr true], inr false, 0, Some ∅)) by (by vm_compute).
  destruct (ex_run _) as [[[[h s] sent] rs]|]; [|done]. cbn [mbind option_bind fst snd] in H.
  destruct (ex_step h s _) as [[[[h' s'] ms] r]|] eqn:E; [|done]. cbn [mbind option_bind fst snd] in H. apply (inj Some) in H. injection H as -> -> H1 H2.
  exists h, s, sent, h', s', ms. split; [done|]. split; [done|]. split; [|done]. by destruct ms.
Qed.
Print Assumptions C31_update_drops_inputs_refuted.

(** the hypotheses of the theorem about circular builders are met: sin(0) feeds amp(0), which feeds back into sin(0) *)
Example circular_example : exists bs, makes [KNew 12 0; KNew 1 0; KInput 1 0 0 0; KInput 0 0 1 0] bs /\ endless bs 1.
Proof.
  eexists. split; [apply builders_make|]. exists 1. split; [apply rt_refl|]. eapply (t_trans _ _ 1 0 1); apply t_step.
  - eexists _, 1, 0, 0. split; [by vm_compute|]. vm_compute. by left.
  - eexists _, 0, 0, 0. split; [by vm_compute|]. vm_compute. by left.
Qed.
