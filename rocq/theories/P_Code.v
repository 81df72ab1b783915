(** C59: the code nodes run the block programs that were checked. *)
From stdpp Require Import strings.
From Verif Require Import Base M_Block S_Block M_Comp S_Comp M_Code S_Code L_Block L_Block2 L_Block3 L_Comp L_Comp6 L_Code.
Open Scope list_scope.
Open Scope nat_scope.

(** The generation of a program tells whether it was changed. *)
Theorem C59_generation (types : string -> option btype) (fuel : nat) (st st' : bfun * list bsnap) (o : bop) (e : option berr) :
  noticed st.1 o -> bf_step types fuel st o = Some (st', e) ->
  f_gen st.1 <= f_gen st'.1 /\ (differ st.1 st'.1 -> f_gen st.1 < f_gen st'.1).
Proof.
  intros Hn H. destruct (step_gen _ _ _ _ _ _ Hn H) as [H1 H2]. split; [done|]. intros Hd.
  destruct (decide (f_gen st'.1 = f_gen st.1)) as [E|E]; [|lia]. by destruct (extends_differ _ _ (H2 E)).
Qed.
Print Assumptions C59_generation.

(** After a program was changed and a check of it answers that all is fine, the code that runs is the compiled program: at once and
    until the next edit. In between there may be more edits and checks, if none of the checks failed. *)
Theorem C59_current (types : string -> option btype) (is_number : string -> bool) (tr0 tr tr2 : list (hop * hres)) (s0 s1 s2 s : hub)
    (id fuel : nat) (takes : bool) (f : bfun) :
  types_ok types ->
  calls types is_number (plain types) hub_new tr0 s0 ->
  calls types is_number (good types) s0 tr s1 -> Forall (fun c => ~ fails id c) tr ->
  program s1 id = Some f -> differ (prog_or_new s0 id) f ->
  hub_step types is_number fuel s1 (HCheck id takes) = Some (s2, HOk) ->
  calls types is_number (plain types) s2 tr2 s -> Forall (fun c => ~ is_edit id c) tr2 ->
  program s id = Some f /\ exists code, running s id = Some code /\ compiles_to types is_number f (inr code).
Proof.
  intros Hty H0 H1 Hf Hp Hd Hc H2 Hne.
  assert (hinv s0) as Hi0 by (eapply calls_hinv; [exact Hty| |exact H0|apply hinv_new]; done).
  assert (hinv s1) as Hi1 by (eapply calls_hinv; [exact Hty| |exact H1|done]; by intros ? ? [? _]).
  assert (hinv s2) as Hi2 by (eapply hinv_step; [exact Hty|exact Hi1| |exact Hc]; done).
  pose proof (calls_since types is_number Hty _ id _ _ _ H1 Hf Hi0 (since_start types is_number id s0 Hi0)) as Hs.
  assert (since types is_number (prog_or_new s0 id) id s2) as Hs2.
  { refine (since_step types is_number _ id fuel s1 _ s2 HOk Hi1 Hs _ Hc _); [done|by intros [_ []]]. }
  destruct (quiet_calls types is_number Hty _ _ _ id H2 Hi2 (check_seen _ _ _ _ _ _ _ _ Hi1 Hc) Hne) as (Hseen & _ & E1 & E2 & _).
  assert (program s2 id = Some f) as Hp2. { rewrite (no_edit_step types is_number fuel s1 (HCheck id takes) s2 HOk id); [done|done|done|done|by rewrite Hp]. }
  assert (is_Some (hb_funs s2 !! id)) as [sl Hsl]. { unfold program in Hp2. by destruct (hb_funs s2 !! id). }
  assert (program s id = Some f) as Hpf. { unfold program in *. by rewrite E2 by (by eexists). }
  split; [exact Hpf|]. unfold since in Hs2. unfold program in Hp2. rewrite Hsl in Hs2, Hp2. cbn in Hp2. injection Hp2 as Ef. rewrite Ef in Hs2.
  destruct Hs2 as (_ & G2 & G3).
  assert (f_gen f <> f_gen (prog_or_new s0 id)) as Hg. { intros E. by destruct (extends_differ _ _ (G2 E)). }
  destruct (G3 ltac:(rewrite <- Ef; exact (check_seen _ _ _ _ _ _ _ _ Hi1 Hc _ Hsl)) Hg) as (c & g & fu & Hr & Hcg & (_ & Htg & Hlg) & Hx).
  exists c. split.
  - unfold running, sent in *. by rewrite E1.
  - exists fu. by rewrite (compile_ext _ _ _ g f).
Qed.
Print Assumptions C59_current.

(** If no check of a program failed from the start, then after each check the compiled program runs, or it was never changed and nothing
    was sent. *)
Theorem C59_always (types : string -> option btype) (is_number : string -> bool) (tr tr2 : list (hop * hres)) (s1 s2 s : hub)
    (id fuel : nat) (takes : bool) (f : bfun) :
  types_ok types ->
  calls types is_number (good types) hub_new tr s1 -> Forall (fun c => ~ fails id c) tr ->
  hub_step types is_number fuel s1 (HCheck id takes) = Some (s2, HOk) ->
  calls types is_number (plain types) s2 tr2 s -> Forall (fun c => ~ is_edit id c) tr2 ->
  program s1 id = Some f ->
  program s id = Some f /\
  ((no_blocks f /\ sent s id = []) \/ exists code, running s id = Some code /\ compiles_to types is_number f (inr code)).
Proof.
  intros Hty H1 Hf Hc H2 Hne Hp.
  assert (hinv s1) as Hi1 by (eapply calls_hinv; [exact Hty| |exact H1|apply hinv_new]; by intros ? ? [? _]).
  assert (hinv s2) as Hi2 by (eapply hinv_step; [exact Hty|exact Hi1| |exact Hc]; done).
  pose proof (calls_since types is_number Hty _ id _ _ _ H1 Hf hinv_new (since_start types is_number id _ hinv_new)) as Hs.
  assert (since types is_number (prog_or_new hub_new id) id s2) as Hs2.
  { refine (since_step types is_number _ id fuel s1 _ s2 HOk Hi1 Hs _ Hc _); [done|by intros [_ []]]. }
  change (prog_or_new hub_new id) with bfun_new in *.
  destruct (quiet_calls types is_number Hty _ _ _ id H2 Hi2 (check_seen _ _ _ _ _ _ _ _ Hi1 Hc) Hne) as (Hseen & _ & E1 & E2 & _).
  assert (program s2 id = Some f) as Hp2. { rewrite (no_edit_step types is_number fuel s1 (HCheck id takes) s2 HOk id); [done|done|done|done|by rewrite Hp]. }
  assert (is_Some (hb_funs s2 !! id)) as [sl Hsl]. { unfold program in Hp2. by destruct (hb_funs s2 !! id). }
  assert (program s id = Some f) as Hpf. { unfold program in *. by rewrite E2 by (by eexists). }
  split; [exact Hpf|]. unfold since in Hs2. unfold program in Hp2. rewrite Hsl in Hs2, Hp2. cbn in Hp2. injection Hp2 as Ef. rewrite Ef in Hs2.
  destruct Hs2 as (_ & G2 & G3). destruct (decide (f_gen f = 0)) as [E|E].
  - left. split.
    { intros a p. rewrite (extends_reads bfun_new f a p (G2 E)). unfold bf_block_at. cbn [bfun_new f_areas]. destruct a as [|[|a]]; [|done|done]. apply lookup_empty. }
    destruct (decide (sent s id = [])) as [Es|Es]; [done|].
    assert (sent_pos s2) as Hpos.
    { eapply sent_pos_step; [exact Hi1| |exact Hc]. eapply sent_pos_calls; [exact Hty| |apply hinv_new|apply sent_pos_new].
      eapply calls_weaken; [|exact H1]. by intros ? ? [? _]. }
    unfold sent in Es. rewrite E1 in Es. destruct (Hpos _ Es) as (sl' & Hx & Hgt). rewrite Hsl in Hx. injection Hx as <-.
    destruct (Hi2 _ _ Hsl) as (_ & _ & _ & Hle). rewrite Ef, E in Hle. lia.
  - right. destruct (G3 ltac:(rewrite <- Ef; exact (check_seen _ _ _ _ _ _ _ _ Hi1 Hc _ Hsl)) E) as (c & g & fu & Hr & Hcg & (_ & Htg & Hlg) & Hx).
    exists c. split; [unfold running, sent in *; by rewrite E1|]. exists fu. by rewrite (compile_ext _ _ _ g f).
Qed.
Print Assumptions C59_always.

(** The first check after a change (since the check before, or since the start) compiles the program as it is, answers what came of it,
    and sends the code exactly if it was compiled and taken. *)
Theorem C59_reported (types : string -> option btype) (is_number : string -> bool) (tr0 tr : list (hop * hres)) (s0 s1 s2 s3 : hub)
    (id fuel0 fuel : nat) (takes0 takes : bool) (r0 r : hres) (f : bfun) :
  types_ok types ->
  calls types is_number (plain types) hub_new tr0 s0 ->
  s1 = hub_new \/ hub_step types is_number fuel0 s0 (HCheck id takes0) = Some (s1, r0) ->
  calls types is_number (good types) s1 tr s2 -> Forall (fun c => ~ is_check id c) tr ->
  program s2 id = Some f -> differ (prog_or_new s1 id) f ->
  hub_step types is_number fuel s2 (HCheck id takes) = Some (s3, r) ->
  exists out, compiles_to types is_number f out /\
    match out with
    | inl e => r = HCompile e /\ sent s3 id = sent s2 id
    | inr code => if takes then r = HOk /\ sent s3 id = sent s2 id ++ [code] else r = HJit /\ sent s3 id = sent s2 id
    end.
Proof.
  intros Hty H0 Hb H1 Hn Hp Hd Hc.
  assert (hinv s0) as Hi0 by (eapply calls_hinv; [exact Hty| |exact H0|apply hinv_new]; done).
  assert (hinv s1) as Hi1. { destruct Hb as [->|Hb]; [apply hinv_new|]. eapply hinv_step; [exact Hty|exact Hi0| |exact Hb]. done. }
  assert (hinv s2) as Hi2 by (eapply calls_hinv; [exact Hty| |exact H1|done]; by intros ? ? [? _]).
  assert (seen_is (f_gen (prog_or_new s1 id)) id s1) as Hseen.
  { destruct Hb as [->|Hb]; [done|]. pose proof (check_seen _ _ _ _ _ _ _ _ Hi0 Hb) as Hs. unfold seen_is, prog_or_new, program. unfold seen_all in Hs.
    destruct (hb_funs s1 !! id) as [sl|]; [|done]. cbn. by apply Hs. }
  destruct (seen_is_calls _ _ _ _ _ _ _ _ H1 Hn Hseen) as [Hseen2 _].
  assert (Forall (fun c => ~ fails id c) tr) as Hnf. { eapply Forall_impl; [exact Hn|]. intros c Hx [Hy _]. by apply Hx. }
  pose proof (calls_since types is_number Hty _ id _ _ _ H1 Hnf Hi1 (since_start types is_number id s1 Hi1)) as Hs.
  unfold program in Hp. destruct (hb_funs s2 !! id) as [sl|] eqn:Hsl; [|done]. cbn in Hp. injection Hp as Ef.
  unfold since in Hs. unfold seen_is in Hseen2. rewrite Hsl in Hs, Hseen2. rewrite Ef in Hs. destruct Hs as (_ & G2 & _).
  assert (f_gen f <> f_gen (prog_or_new s1 id)) as Hg. { intros E. by destruct (extends_differ _ _ (G2 E)). }
  destruct (step_check _ _ _ _ _ _ _ _ _ Hi2 Hsl Hc) as [(E & _ & _)|(_ & _ & out & Hco & Ho)]; [rewrite Ef in E; congruence|].
  rewrite Ef in Hco. exists out. split; [by exists fuel|]. destruct out as [e|c].
  - destruct Ho as [-> Es]. unfold sent. by rewrite Es.
  - destruct takes; destruct Ho as [-> Es]; unfold sent; rewrite Es; [by rewrite lookup_insert|done].
Qed.
Print Assumptions C59_reported.

(** Checks without an edit in between send nothing again and answer that all is fine. *)
Theorem C59_quiet (types : string -> option btype) (is_number : string -> bool) (tr0 tr : list (hop * hres)) (s0 s1 s2 : hub)
    (id fuel : nat) (takes : bool) (r : hres) :
  types_ok types ->
  calls types is_number (plain types) hub_new tr0 s0 ->
  hub_step types is_number fuel s0 (HCheck id takes) = Some (s1, r) ->
  calls types is_number (plain types) s1 tr s2 -> Forall (fun c => ~ is_edit id c) tr ->
  sent s2 id = sent s1 id /\ forall c, c ∈ tr -> is_check id c -> c.2 = HOk.
Proof.
  intros Hty H0 Hc H1 Hne.
  assert (hinv s0) as Hi0 by (eapply calls_hinv; [exact Hty| |exact H0|apply hinv_new]; done).
  assert (hinv s1) as Hi1 by (eapply hinv_step; [exact Hty|exact Hi0| |exact Hc]; done).
  destruct (quiet_calls types is_number Hty _ _ _ id H1 Hi1 (check_seen _ _ _ _ _ _ _ _ Hi0 Hc) Hne) as (_ & _ & E1 & _ & Hf).
  split; [unfold sent; by rewrite E1|]. intros c Hin Hck. rewrite Forall_forall in Hf. destruct (c.2) eqn:E; [done| |]; destruct (Hf c Hin); (split; [done|by rewrite E]).
Qed.
Print Assumptions C59_quiet.

(** A call is about one program: the others, and the code that runs for them, stay. A program is changed by edits only: asking for it again
    returns the one that was edited. A check that fails keeps the code that runs. *)
Theorem C59_others (types : string -> option btype) (is_number : string -> bool) (tr : list (hop * hres)) (s s' : hub) (o : hop) (fuel id : nat) (r : hres) :
  types_ok types ->
  calls types is_number (plain types) hub_new tr s -> hub_step types is_number fuel s o = Some (s', r) ->
  (about o <> id -> program s' id = program s id /\ sent s' id = sent s id) /\
  ((forall b, o <> HEdit id b) -> prog_or_new s' id = prog_or_new s id) /\
  ((forall t, o <> HCheck id t) \/ r <> HOk -> sent s' id = sent s id).
Proof.
  intros Hty H0 H.
  assert (hinv s) as Hi by (eapply calls_hinv; [exact Hty| |exact H0|apply hinv_new]; done).
  destruct (decide (about o = id)) as [Ha|Ha].
  2:{ destruct (step_other _ _ _ _ _ _ _ _ Ha H) as [E1 E2]. unfold prog_or_new, program, sent. by rewrite E1, E2. }
  split; [done|]. destruct o as [id'|id'|id' b|id' t]; cbn [about] in Ha; subst id'.
  - cbn [hub_step] in H. by injection H as <- <-.
  - destruct (step_fetch _ _ _ _ _ _ _ H) as [E1 E2]. unfold prog_or_new, program, sent. rewrite E1, E2. split; [|done]. intros _. by destruct (hb_funs s !! id).
  - destruct (step_edit _ _ _ _ _ _ _ _ H) as [E1 _]. unfold sent. rewrite E1. split; [intros Hx; by destruct (Hx b)|done].
  - destruct (hb_funs s !! id) as [sl|] eqn:Ep.
    + unfold prog_or_new, program, sent.
      destruct (step_check _ _ _ _ _ _ _ _ _ Hi Ep H) as [(_ & -> & ->)|(_ & E & out & _ & Ho)]; [by rewrite Ep|]. rewrite E, Ep. split; [done|].
      intros Hx. destruct Hx as [Hx|Hx]; [by destruct (Hx t)|]. destruct out as [e|c]; [by destruct Ho as [_ ->]|]. destruct t; destruct Ho as [-> E2]; [done|by rewrite E2].
    + destruct (step_check_none _ _ _ _ _ _ _ _ Ep H) as [-> ->]. done.
Qed.
Print Assumptions C59_others.

(** ** Cases *)
Definition cd_types : string -> option btype := lang_of [].
Definition cd_num : string -> bool := fun s => String.eqb s "0.5".
Fixpoint cd_run (s : hub) (ops : list hop) : option (list (hop * hres) * hub) :=
  match ops with
  | [] => Some ([], s)
  | o :: ops => let* (s1, r) := hub_step cd_types cd_num 100 s o in let* (tr, s2) := cd_run s1 ops in Some ((o, r) :: tr, s2)
  end.
Definition cd_plain (o : hop) : bool := match o with HEdit _ (BInst _ _ _ _ _ | BRemove _ _ _ | BRetrieve _ _ _ _ | BShift _ _ _ _ _ | BMove _ _ _ _ _ _) => true | HEdit _ _ => false | _ => true end.
Definition cd_good (o : hop) : bool := match o with HEdit _ (BInst _ _ _ _ _ | BRemove _ _ _ | BShift _ _ _ _ _) => true | HEdit _ _ => false | _ => true end.
Lemma cd_calls ops : forall s tr s', cd_run s ops = Some (tr, s') -> forallb cd_plain ops = true -> calls cd_types cd_num (plain cd_types) s tr s'.
Proof.
  induction ops as [|o ops IH]; intros s tr s' H Hp; cbn [cd_run] in H; [injection H as <- <-; constructor|].
  apply bind_Some in H as ([s1 r] & E1 & H). apply bind_Some in H as ([tr2 s2] & E2 & H). injection H as <- <-.
  cbn [forallb] in Hp. apply andb_prop in Hp as [Hp1 Hp2]. econstructor; [|exact E1|by apply IH].
  intros id b f -> _. destruct b; done.
Qed.
Lemma cd_calls_good ops : forall s tr s', cd_run s ops = Some (tr, s') -> forallb cd_good ops = true -> calls cd_types cd_num (good cd_types) s tr s'.
Proof.
  induction ops as [|o ops IH]; intros s tr s' H Hp; cbn [cd_run] in H; [injection H as <- <-; constructor|].
  apply bind_Some in H as ([s1 r] & E1 & H). apply bind_Some in H as ([tr2 s2] & E2 & H). injection H as <- <-.
  cbn [forallb] in Hp. apply andb_prop in Hp as [Hp1 Hp2]. econstructor; [|exact E1|by apply IH].
  intros id b f -> _. destruct b; done.
Qed.
Lemma cd_types_ok : types_ok cd_types.
Proof. intros t ty H. apply (lang_wf [] ltac:(intros n Hn; by apply elem_of_nil in Hn) t ty) in H. tauto. Qed.
Lemma cd_not (f : bfun) (fuel : nat) (r r' : cerr + jast) : compile cd_types cd_num fuel f = Some r' -> r <> r' -> ~ compiles_to cd_types cd_num f r.
Proof.
  intros H Hne [fu H']. apply Hne. apply (inj Some). rewrite <- (compile_more _ _ _ _ _ H (fuel + fu) ltac:(lia)).
  by rewrite (compile_more _ _ _ _ _ H' (fuel + fu) ltac:(lia)).
Qed.

Definition cd_tr (s : hub) (ops : list hop) : list (hop * hres) := match cd_run s ops with Some (tr, _) => tr | None => [] end.
Definition cd_end (s : hub) (ops : list hop) : hub := match cd_run s ops with Some (_, s) => s | None => s end.
Definition cd_ran (s : hub) (ops : list hop) : bool := match cd_run s ops with Some _ => true | None => false end.
Definition cd_code (s : hub) (id : nat) : jast := default XZero (running s id).
Lemma cd_reach s ops : cd_ran s ops = true -> forallb cd_plain ops = true -> calls cd_types cd_num (plain cd_types) s (cd_tr s ops) (cd_end s ops).
Proof. unfold cd_ran, cd_tr, cd_end. destruct (cd_run s ops) as [[tr s']|] eqn:E; [|discriminate]. intros _. exact (cd_calls _ _ _ _ E). Qed.
Lemma cd_reach_good s ops : cd_ran s ops = true -> forallb cd_good ops = true -> calls cd_types cd_num (good cd_types) s (cd_tr s ops) (cd_end s ops).
Proof. unfold cd_ran, cd_tr, cd_end. destruct (cd_run s ops) as [[tr s']|] eqn:E; [|discriminate]. intros _. exact (cd_calls_good _ _ _ _ E). Qed.

(** A program is made and checked, then changed and checked: [cd_s0] is after the first check, [cd_s1] before the second. *)
Definition cd_s0 : hub := cd_end hub_new [HNode 3; HFetch 3; HEdit 3 (BInst 0 0 1 "value" (Some "0.5")); HCheck 3 true].
Definition cd_ops1 : list hop := [HFetch 3; HEdit 3 (BInst 0 1 1 "set" (Some "sig1")); HEdit 3 (BShift 0 0 1 0 true)].
Definition cd_s1 : hub := cd_end cd_s0 cd_ops1.
Definition cd_s2 : hub := cd_end cd_s1 [HCheck 3 true].
Example C59_case : (exists tr0, calls cd_types cd_num (plain cd_types) hub_new tr0 cd_s0) /\
  (exists tr, calls cd_types cd_num (good cd_types) cd_s0 tr cd_s1 /\ tr = (fun o => (o, HOk)) <$> cd_ops1) /\
  (exists f, program cd_s1 3 = Some f /\ differ (prog_or_new cd_s0 3) f) /\
  hub_step cd_types cd_num 100 cd_s1 (HCheck 3 true) = Some (cd_s2, HOk) /\ (exists c, running cd_s2 3 = Some c /\ running cd_s0 3 <> Some c) /\ length (sent cd_s2 3) = 2.
Proof.
  split; [eexists; apply cd_reach; vm_compute; reflexivity|].
  split; [eexists; split; [apply cd_reach_good; vm_compute; reflexivity|vm_compute; reflexivity]|].
  split; [exists (prog_or_new cd_s1 3); split; [vm_compute; reflexivity|exists 0, (1, 1)%Z; vm_compute; discriminate]|].
  split; [vm_compute; reflexivity|].
  split; [exists (cd_code cd_s2 3); split; [vm_compute; reflexivity|vm_compute; discriminate]|]. vm_compute. reflexivity.
Qed.

(** *** Without the conditions it is false *)

(** An error is answered once: the next check answers that all is fine, and the code that runs is still the one from before. *)
Definition cd_bad : list hop :=
  [HNode 3; HFetch 3; HEdit 3 (BInst 0 0 1 "value" (Some "0.5")); HCheck 3 true; HEdit 3 (BInst 0 0 5 "value" (Some "x")); HCheck 3 true; HCheck 3 true].
Theorem C59_error_once_refuted : exists types is_number tr s id f e code, types_ok types /\
  calls types is_number (good types) hub_new (tr ++ [(HCheck id true, HCompile e); (HCheck id true, HOk)]) s /\
  program s id = Some f /\ compiles_to types is_number f (inl e) /\ running s id = Some code /\ ~ compiles_to types is_number f (inr code).
Proof.
  exists cd_types, cd_num, (take 5 (cd_tr hub_new cd_bad)), (cd_end hub_new cd_bad), 3, (prog_or_new (cd_end hub_new cd_bad) 3), (BadLiteralNumber "x"),
    (cd_code (cd_end hub_new cd_bad) 3).
  assert (compile cd_types cd_num 100 (prog_or_new (cd_end hub_new cd_bad) 3) = Some (inl (BadLiteralNumber "x"))) as Hc by (vm_compute; reflexivity).
  split; [exact cd_types_ok|].
  split. { assert (take 5 (cd_tr hub_new cd_bad) ++ [(HCheck 3 true, HCompile (BadLiteralNumber "x")); (HCheck 3 true, HOk)] = cd_tr hub_new cd_bad) as -> by (vm_compute; reflexivity).
    apply cd_reach_good; vm_compute; reflexivity. }
  split; [vm_compute; reflexivity|]. split; [exists 100; exact Hc|]. split; [vm_compute; reflexivity|]. apply (cd_not _ 100 _ _ Hc). discriminate.
Qed.
Print Assumptions C59_error_once_refuted.

(** A chain that is cut out with [retrieve_block_chain_at] goes on running. *)
Definition cd_cut : list hop := [HNode 3; HFetch 3; HEdit 3 (BInst 0 0 1 "value" (Some "0.5")); HCheck 3 true; HEdit 3 (BRetrieve 0 0 1 true); HCheck 3 true].
Lemma cd_empty ops : (fun a => map_to_list (a_blocks a)) <$> f_areas (prog_or_new (cd_end hub_new ops) 3) = [[]] -> no_blocks (prog_or_new (cd_end hub_new ops) 3).
Proof.
  intros E i p. unfold bf_block_at. destruct (f_areas (prog_or_new (cd_end hub_new ops) 3)) as [|a [|a' l]]; try discriminate E.
  injection E as E. apply map_to_list_empty_iff in E. destruct i as [|i]; cbn [lookup list_lookup mbind option_bind]; [rewrite E; apply lookup_empty|reflexivity].
Qed.
Definition cd_none : jast := XStmts [XStmts []; XVar "_res_"].
Theorem C59_retrieve_refuted : exists types is_number tr s id f code, types_ok types /\
  calls types is_number (plain types) hub_new (tr ++ [(HCheck id true, HOk)]) s /\ (forall c, c ∈ tr -> c.2 = HOk) /\
  program s id = Some f /\ no_blocks f /\ running s id = Some code /\ ~ compiles_to types is_number f (inr code).
Proof.
  exists cd_types, cd_num, ((fun o => (o, HOk)) <$> take 5 cd_cut), (cd_end hub_new cd_cut), 3, (prog_or_new (cd_end hub_new cd_cut) 3), (cd_code (cd_end hub_new cd_cut) 3).
  split; [exact cd_types_ok|].
  split. { assert (((fun o => (o, HOk)) <$> take 5 cd_cut) ++ [(HCheck 3 true, HOk)] = cd_tr hub_new cd_cut) as -> by (vm_compute; reflexivity).
    apply cd_reach; vm_compute; reflexivity. }
  split. { intros c Hc. apply elem_of_list_fmap in Hc as (o & -> & _). reflexivity. }
  split; [vm_compute; reflexivity|]. split; [apply cd_empty; vm_compute; reflexivity|]. split; [vm_compute; reflexivity|].
  apply (cd_not _ 100 _ (inr cd_none)); [vm_compute; reflexivity|vm_compute; discriminate].
Qed.
Print Assumptions C59_retrieve_refuted.

(** So does a block that was lost by moving it to an area that does not exist. *)
Definition cd_lost : list hop := [HNode 3; HFetch 3; HEdit 3 (BInst 0 0 1 "value" (Some "0.5")); HCheck 3 true; HEdit 3 (BMove 0 0 1 7 0 0); HCheck 3 true].
Theorem C59_lost_refuted : exists types is_number tr s id f code, types_ok types /\
  calls types is_number (plain types) hub_new (tr ++ [(HCheck id true, HOk)]) s /\ (forall c, c ∈ tr -> c.2 = HOk) /\
  program s id = Some f /\ no_blocks f /\ running s id = Some code /\ ~ compiles_to types is_number f (inr code).
Proof.
  exists cd_types, cd_num, ((fun o => (o, HOk)) <$> take 5 cd_lost), (cd_end hub_new cd_lost), 3, (prog_or_new (cd_end hub_new cd_lost) 3), (cd_code (cd_end hub_new cd_lost) 3).
  split; [exact cd_types_ok|].
  split. { assert (((fun o => (o, HOk)) <$> take 5 cd_lost) ++ [(HCheck 3 true, HOk)] = cd_tr hub_new cd_lost) as -> by (vm_compute; reflexivity).
    apply cd_reach; vm_compute; reflexivity. }
  split. { intros c Hc. apply elem_of_list_fmap in Hc as (o & -> & _). reflexivity. }
  split; [vm_compute; reflexivity|]. split; [apply cd_empty; vm_compute; reflexivity|]. split; [vm_compute; reflexivity|].
  apply (cd_not _ 100 _ (inr cd_none)); [vm_compute; reflexivity|vm_compute; discriminate].
Qed.
Print Assumptions C59_lost_refuted.
