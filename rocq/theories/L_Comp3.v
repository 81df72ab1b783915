(** Names of variables and the types of the language, for the proof about the compiler. *)
From Coq Require Import Ascii.
From stdpp Require Import strings pretty.
From Verif Require Import Base M_Block S_Block L_Block L_Block2 L_Block3 M_Comp S_Comp L_Comp.
Open Scope string_scope.
Open Scope list_scope.
Open Scope nat_scope.

(** ** Names *)
Definition is_dig (c : ascii) : bool := let n := nat_of_ascii c in (48 <=? n) && (n <=? 57).
Fixpoint all_dig (s : string) : bool := match s with EmptyString => true | String c s => is_dig c && all_dig s end.
Lemma pretty_go_dig x : forall s, all_dig s = true -> all_dig (pretty_N_go x s) = true.
Proof.
  induction (N.lt_wf_0 x) as [x _ IH]; intros s Hs. destruct (decide (0 < x)%N) as [H|H].
  - rewrite pretty_N_go_step by done. apply IH; [by apply N.div_lt|]. cbn [all_dig]. rewrite Hs, andb_true_r.
    unfold pretty_N_char. by repeat case_match.
  - by assert (x = 0)%N as -> by lia.
Qed.
Lemma pretty_dig (n : nat) : all_dig (pretty n) = true.
Proof.
  unfold pretty, pretty_nat, pretty, pretty_N. destruct (decide _); [done|]. by apply pretty_go_dig.
Qed.
Lemma split_dig c t t' : is_dig c = false -> forall s s', all_dig s = true -> all_dig s' = true -> s +:+ String c t = s' +:+ String c t' -> s = s' /\ t = t'.
Proof.
  intros Hc. induction s as [|d s IH]; intros [|d' s'] Hs Hs' H; cbn in *; rewrite ?andb_true_iff in *.
  - by injection H as ->.
  - injection H as <- _. destruct Hs' as [Hd _]. by rewrite Hd in Hc.
  - injection H as -> _. destruct Hs as [Hd _]. by rewrite Hd in Hc.
  - injection H as <- H. destruct (IH s') as [-> ->]; [tauto|tauto|done|done].
Qed.
Lemma idout_inj i o i' o' : idout i o = idout i' o' -> i = i' /\ o = o'.
Proof. intros H. apply split_dig in H as [H1 H2]; [|done|apply pretty_dig|apply pretty_dig]. split; [by apply (inj pretty) in H1|done]. Qed.
Lemma tmp_inj i o i' o' : tmp_name i o = tmp_name i' o' -> i = i'.
Proof.
  unfold tmp_name. intros H. cbn [String.append] in H. injection H as H. apply split_dig in H as [H1 _]; [|done|apply pretty_dig|apply pretty_dig].
  by apply (inj pretty) in H1.
Qed.
Lemma tmp_res i o : tmp_name i o <> "_res_".
Proof. done. Qed.
Lemma tmp_pct i o s : tmp_name i o <> "%" +:+ s.
Proof. done. Qed.
Lemma tmp_reserved i o : reserved (tmp_name i o) = true.
Proof. done. Qed.
Lemma pct_inj i j : "%" +:+ pretty i = "%" +:+ pretty j -> i = (j : nat).
Proof. cbn [String.append]. intros H. injection H as H. by apply (inj pretty) in H. Qed.

(** ** Types *)
Definition ins_ok (ins : list string) : Prop := (NoDup ins /\ "" ∉ ins) \/ Forall (fun s => s = "") ins.
Definition outs_ok (outs : list string) : Prop := (NoDup outs /\ "" ∉ outs) \/ length outs <= 1.
Inductive shape : string -> list string -> list string -> Prop :=
| shape_src t : t = "zero" \/ t = "value" \/ t = "get" -> shape t [] [""]
| shape_fwd : shape "->" [""] [""]
| shape_split t outs : t = "->2" \/ t = "->3" -> 2 <= length outs -> Forall (fun s => s = "") outs -> shape t [""] outs
| shape_set : shape "set" [""] []
| shape_arith t ins : arith t -> length ins = 2 -> ins_ok ins -> shape t ins [""]
| shape_call t ins outs : is_call t -> t ∉ ["<a>"; "<r>"; "<res>"] -> ins_ok ins -> outs_ok outs -> shape t ins outs.
Definition type_shape (types : string -> option btype) : Prop := forall t ty, types t = Some ty -> t <> "if" ->
  t_areas ty = 0 /\ exists ins outs, t_inputs ty = Some <$> ins /\ t_outputs ty = Some <$> outs /\ shape t ins outs.

Lemma not_special_call t : t ∉ special -> is_call t /\ t ∉ ["<a>"; "<r>"; "<res>"].
Proof.
  unfold special, is_call, forwards, arith. rewrite !not_elem_of_cons. intros H. split_and!; naive_solver.
Qed.
Lemma differ_cut l : names_differ l -> NoDup (cut2 <$> l) /\ "" ∉ cut2 <$> l.
Proof.
  intros [H1 H2]. split; [exact H1|]. intros Hin. apply elem_of_list_fmap in Hin as (x & Hx & Hl). destruct x as [|a [|b x]]; [done| |]; by cbn in Hx.
Qed.
Lemma lang_shape lib : lib_ok lib -> type_shape (lang_of lib).
Proof.
  intros Hlib t ty Ht Hif. destruct (decide (t ∈ special)) as [Hs|Hs].
  - rewrite (lang_special _ _ Hlib Hs) in Ht. unfold special in Hs. repeat (apply elem_of_cons in Hs as [->|Hs]); [..|by apply elem_of_nil in Hs];
      (discriminate Ht || done || (injection Ht as <-; split; [done|])).
    all: eexists _, _; split; [reflexivity|split; [reflexivity|]].
    + apply shape_src. tauto.
    + apply shape_src. tauto.
    + apply shape_fwd.
    + apply shape_split; [tauto|cbn; lia|by repeat constructor].
    + apply shape_split; [tauto|cbn; lia|by repeat constructor].
    + apply shape_set.
    + apply shape_src. tauto.
    + apply shape_arith; [by left|done|right; by repeat constructor].
    + apply shape_arith; [by right; left|done|left; split; [|set_solver]]. apply NoDup_cons. split; [set_solver|]. apply NoDup_singleton.
    + apply shape_arith; [by right; right; left|done|right; by repeat constructor].
    + apply shape_arith; [by right; right; right|done|left; split; [|set_solver]]. apply NoDup_cons. split; [set_solver|]. apply NoDup_singleton.
  - apply not_special_call in Hs as Hc. destruct Hc as [Hc Hx]. apply lang_elem in Ht as (Hn & [Hb|(n & Hin & ->)]).
    + unfold base_types in Hb. repeat (apply elem_of_cons in Hb as [->|Hb]); [..|by apply elem_of_nil in Hb]; cbn in Hn; subst t;
        try (exfalso; apply Hs; apply (bool_decide_unpack _); vm_compute; exact I).
      all: split; [done|]; exists [], [""]; split; [done|split; [done|]]; apply shape_call; [done|done|by right|right; cbn; lia].
    + split; [done|]. exists (cut2 <$> ln_ins n), (cut2 <$> ln_outs n). split; [done|]. split; [done|]. destruct (Hlib n Hin) as (_ & _ & Hi & Ho).
      apply shape_call; [done|done| |].
      * destruct Hi as [Hi|Hi]; [left; by apply differ_cut|]. right. apply Forall_fmap. eapply Forall_impl; [exact Hi|]. by intros s ->.
      * destruct Ho as [Ho|Ho]; [left; by apply differ_cut|]. right. by rewrite fmap_length.
Qed.

Lemma shape_zero ins outs : shape "zero" ins outs -> ins = [] /\ outs = [""].
Proof. intros H. inversion H; subst; unfold is_call, arith in *; naive_solver. Qed.
Lemma shape_noset ins outs : shape "set" ins outs -> ins = [""] /\ outs = [].
Proof. intros H. inversion H; subst; unfold is_call, arith in *; naive_solver. Qed.
