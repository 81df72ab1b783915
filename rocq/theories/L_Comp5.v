(** What the translated code of a block does. *)
From Coq Require Import Ascii Sorting.Sorted.
From stdpp Require Import strings pretty.
From Verif Require Import Base M_Block S_Block L_Block L_Block2 L_Block3 M_Comp S_Comp L_Comp L_Comp2 L_Comp3 L_Comp4.
Open Scope string_scope.
Open Scope list_scope.
Open Scope nat_scope.

Global Instance is_call_dec t : Decision (is_call t).
Proof. unfold is_call, forwards, arith. apply _. Defined.

(** ** The translations, unfolded *)
Definition tall (T : cstate -> nat -> option string -> cres (bast * cstate)) :=
  fix all (st : cstate) (l : list (string * string * nat)) : cres (list (string * bast) * cstate) :=
    match l with
    | [] => cok ([], st)
    | c :: l => cbind (T st c.2 (some_out c.1.2)) (fun r => cbind (all r.2 l) (fun s => cok ((c.1.1, r.1) :: s.1, s.2)))
    end.
Definition tfirst (T : cstate -> nat -> option string -> cres (bast * cstate)) (st : cstate) (n : nat) (l : list (string * string * nat)) : cres (bast * cstate) :=
  match l with [] => cerror (BadTree n) | c :: _ => T st c.2 (some_out c.1.2) end.
Section unfold.
  Context (types : string -> option btype) (is_number : string -> bool).
  Definition tnode (st : cstate) (id : nat) (out : option string) (typ lbl : string) (cl : list (string * bast)) : cres (bast * cstate) :=
    let node := BNode id out typ lbl ((fun c : string * bast => (some_out c.1, c.2)) <$> cl) in
    match out_names types typ with
    | o0 :: o1 :: names =>
        let '(st, v) := next_tmp st o0 in
        let st := store_var st id o0 v in
        let '(st, l) := more_outs st id 1 (o1 :: names) in
        match out with
        | None => cerror (ASTMissingOutputLabel id)
        | Some o => match get_var st id o with
                    | None => cerror (NoTmpVarForOutput id o)
                    | Some v' => cok (BArea (BSet v node :: l ++ [BGet 0 v']), st)
                    end
        end
    | _ => cok (node, st)
    end.
  Lemma trans_S fuel h st n out : trans types is_number (S fuel) h st n out =
    (let* j := h !! n in
     let T := trans types is_number fuel h in
     let first := tfirst T st n (j_ch j) in
     match get_var st (j_id j) (default "" out) with
     | Some v => cok (BGet 0 v, st)
     | None =>
         if String.eqb (j_typ j) "<a>" then cbind (tall T st (j_ch j)) (fun r => cok (BArea (snd <$> r.1), r.2))
         else if String.eqb (j_typ j) "<r>" then cbind first (fun r => cok (BArea [r.1; BGet 0 "_res_"], r.2))
         else if String.eqb (j_typ j) "->" then first
         else if String.eqb (j_typ j) "value" then (if is_number (j_lbl j) then cok (BLit (j_lbl j), st) else cerror (BadLiteralNumber (j_lbl j)))
         else if String.eqb (j_typ j) "set" then cbind first (fun r => cok (BSet (j_lbl j) r.1, r.2))
         else if String.eqb (j_typ j) "<res>" then cbind first (fun r => cok (BSet "_res_" r.1, r.2))
         else if String.eqb (j_typ j) "get" then cok (BGet (j_id j) (j_lbl j), st)
         else if String.eqb (j_typ j) "->2" || String.eqb (j_typ j) "->3" then
           match j_ch j with
           | [] => cerror (BadTree n)
           | c :: _ =>
               cbind (T (CState (cs_vars st) (S (cs_cnt st))) c.2 (some_out c.1.2)) (fun r =>
               cok (BArea [BSet (tmp_name (S (cs_cnt st)) "") r.1; BGet 0 (tmp_name (S (cs_cnt st)) "")], store_var r.2 (j_id j) "" (tmp_name (S (cs_cnt st)) "")))
           end
         else cbind (tall T st (j_ch j)) (fun r => tnode r.2 (j_id j) out (j_typ j) (j_lbl j) r.1)
     end).
  Proof. reflexivity. Qed.

  Definition bjits : list bast -> cerr + list jast :=
    fix go (cs : list bast) : cerr + list jast :=
      match cs with
      | [] => inr []
      | c :: cs => ebind (bjit types c) (fun x => ebind (go cs) (fun l => inr (x :: l)))
      end.
  Lemma bjit_area cs : bjit types (BArea cs) = ebind (bjits cs) (fun l => inr (XStmts l)).
  Proof. reflexivity. Qed.
  Definition in_order : list (option string * bast) -> cerr + list jast :=
    fix go (cs : list (option string * bast)) : cerr + list jast :=
      match cs with
      | [] => inr []
      | (_, c) :: cs => ebind (bjit types c) (fun x => ebind (go cs) (fun l => inr (x :: l)))
      end.
  Definition named (typ : string) (id : nat) : list (option string * bast) -> option string -> cerr + jast :=
    fix find (cs : list (option string * bast)) (i : option string) : cerr + jast :=
      match cs with
      | [] => inl (UnassignedInput typ id i)
      | (k, c) :: cs => if decide (k = i) then bjit types c else find cs i
      end.
  Definition by_name (typ : string) (id : nat) (cs : list (option string * bast)) : list (option string) -> cerr + list jast :=
    fix go (ins : list (option string)) : cerr + list jast :=
      match ins with
      | [] => inr []
      | i :: ins => ebind (named typ id cs i) (fun x => ebind (go ins) (fun l => inr (x :: l)))
      end.
  Lemma bjit_node id out typ lbl cs : bjit types (BNode id out typ lbl cs) =
    if String.eqb typ "if" then inl UnknownError
    else if String.eqb typ "zero" then inr XZero
    else if id =? 0 then inl (NodeWithoutID typ)
    else match types typ with
    | None => inl (UnknownType typ)
    | Some ty =>
        if length (t_inputs ty) <? length cs then inl (TooManyInputs typ id)
        else match t_inputs ty with
        | Some "" :: _ => if length (t_inputs ty) =? length cs then ebind (in_order cs) (build_op typ id) else inl (WrongNumberOfChilds typ id (length cs))
        | _ => ebind (by_name typ id cs (t_inputs ty)) (build_op typ id)
        end
    end.
  Proof. reflexivity. Qed.
End unfold.

Section run.
  Context {V : Type} (zero : V) (num : string -> V) (bin : string -> V -> V -> V) (node : string -> nat -> list V -> list V) (ext : string -> V).
  Notation xrun := (xrun zero num bin node ext).
  Definition xargs : list jast -> xstate V -> option (list V * xstate V) :=
    fix go (l : list jast) (st : xstate V) : option (list V * xstate V) :=
      match l with
      | [] => Some ([], st)
      | a :: l => let* (x, st) := xrun a st in let* (xs, st) := go l st in Some (x :: xs, st)
      end.
  Definition xseq : list jast -> V -> xstate V -> option (V * xstate V) :=
    fix go (l : list jast) (last : V) (st : xstate V) : option (V * xstate V) :=
      match l with
      | [] => Some (last, st)
      | a :: l => let* (x, st) := xrun a st in go l x st
      end.
  Lemma xrun_call t id args s : xrun (XCall t id args) s = let* (xs, s) := xargs args s in Some (xcall zero node s t id xs).
  Proof. reflexivity. Qed.
  Lemma xargs_cons c l s : xargs (c :: l) s = let* (x, s) := xrun c s in let* (xs, s) := xargs l s in Some (x :: xs, s).
  Proof. reflexivity. Qed.
  Lemma xseq_cons c l x s : xseq (c :: l) x s = let* (x, s) := xrun c s in xseq l x s.
  Proof. reflexivity. Qed.
  Lemma xrun_stmts l s : xrun (XStmts l) s = xseq l zero s.
  Proof. reflexivity. Qed.
  Lemma xseq_app l l' : forall x s, xseq (l ++ l') x s = let* (y, s) := xseq l x s in xseq l' y s.
  Proof.
    induction l as [|c l IH]; intros x s; [done|]. cbn [app xseq]. destruct (xrun c s) as [[y s']|]; [|done]. cbn [mbind option_bind]. apply IH.
  Qed.
  Lemma xrun_bin o x y s : xrun (XBin o x y) s = let* (u, s) := xrun x s in let* (v, s) := xrun y s in Some (bin o u v, s).
  Proof. reflexivity. Qed.

  (** the variables of the further results *)
  Lemma set_results_other (rs : list V) : forall (env : gmap string V) i x, (forall j : nat, x <> "%" +:+ pretty j) -> set_results env i rs !! x = env !! x.
  Proof. induction rs as [|r rs IH]; intros env i x Hx; cbn [set_results]; [done|]. rewrite IH by done. rewrite lookup_insert_ne; [done|]. intros H. by apply (Hx i). Qed.
  Lemma set_results_before (rs : list V) : forall (env : gmap string V) i j, j < i -> set_results env i rs !! ("%" +:+ pretty j) = env !! ("%" +:+ pretty j).
  Proof.
    induction rs as [|r rs IH]; intros env i j Hj; cbn [set_results]; [done|]. rewrite IH by lia. rewrite lookup_insert_ne; [done|].
    intros H. apply pct_inj in H. lia.
  Qed.
  Lemma set_results_at (rs : list V) : forall (env : gmap string V) i k r, rs !! k = Some r -> set_results env i rs !! ("%" +:+ pretty (i + k)) = Some r.
  Proof.
    induction rs as [|r' rs IH]; intros env i k r Hk; [done|]. cbn [set_results]. destruct k as [|k]; cbn in Hk.
    - injection Hk as ->. rewrite Nat.add_0_r, set_results_before by lia. by rewrite lookup_insert.
    - replace (i + S k) with (S i + k) by lia. by apply IH.
  Qed.
End run.

(** ** The variables of more outputs *)
Lemma more_outs_spec id : forall names st i, NoDup names -> exists st', more_outs st id i names =
    (st', imap (fun k nm => BSet (tmp_name (cs_cnt st + 1 + k) nm) (BGet 0 ("%" +:+ pretty (i + k)))) names) /\ cs_cnt st' = cs_cnt st + length names /\
    (forall k nm, names !! k = Some nm -> cs_vars st' !! idout id nm = Some (tmp_name (cs_cnt st + 1 + k) nm)) /\
    (forall key, (forall nm, nm ∈ names -> key <> idout id nm) -> cs_vars st' !! key = cs_vars st !! key).
Proof.
  induction names as [|nm names IH]; intros st i Hn.
  - exists st. cbn. split_and!; [done|lia|done|done].
  - apply NoDup_cons in Hn as [Hnm Hn]. cbn [more_outs next_tmp]. set (st1 := store_var _ _ _ _).
    destruct (IH st1 (S i) Hn) as (st' & -> & Hc & Hv & Ho). exists st'. split.
    { f_equal. cbn [imap]. rewrite !Nat.add_0_r, (Nat.add_1_r (cs_cnt st)). f_equal. apply imap_ext. intros k x _. unfold st1. cbn [store_var cs_cnt compose].
      replace (S (cs_cnt st) + 1 + k) with (S (cs_cnt st) + S k) by lia. by replace (S i + k) with (i + S k) by lia. }
    split; [unfold st1 in Hc; cbn in *; lia|]. split.
    + intros [|k] x Hk; cbn in Hk.
      * injection Hk as <-. rewrite Ho by (intros nm' Hin Heq; apply idout_inj in Heq as [_ ->]; done). unfold st1, store_var. cbn. rewrite lookup_insert. f_equal. f_equal. lia.
      * rewrite (Hv k x Hk). unfold st1. cbn [store_var cs_cnt]. f_equal. f_equal. lia.
    + intros key Hkey. rewrite Ho by (intros nm' Hin; apply Hkey; by right). unfold st1, store_var. cbn.
      rewrite lookup_insert_ne; [done|]. intros H. eapply Hkey; [by left|done].
Qed.

Lemma list_fun {A B} (d : B) (l : list A) `{!EqDecision A} : NoDup l -> forall k : list B, length k = length l -> exists g, k = g <$> l.
Proof.
  induction 1 as [|x l Hx Hn IH]; intros k Hl.
  - destruct k; [|done]. by exists (fun _ => d).
  - destruct k as [|y k]; [done|]. destruct (IH k) as [g ->]; [by injection Hl|]. exists (fun z => if decide (z = x) then y else g z). cbn. rewrite decide_True by done.
    f_equal. apply Forall_fmap_ext_1. apply Forall_forall. intros z Hz. rewrite decide_False; [done|]. by intros ->.
Qed.
Lemma default_some_out nm : default "" (some_out nm) = nm.
Proof. unfold some_out. by destruct (String.eqb_spec nm "") as [->|]. Qed.
Lemma some_out_inj nm nm' : some_out nm = some_out nm' -> nm = nm'.
Proof. intros H. by rewrite <- (default_some_out nm), H, default_some_out. Qed.
Lemma omap_some (l : list string) : omap id (Some <$> l) = l.
Proof. induction l as [|x l IH]; cbn; [done|by f_equal]. Qed.
Lemma bjits_app types l l' : bjits types (l ++ l') = ebind (bjits types l) (fun x => ebind (bjits types l') (fun y => inr (x ++ y))).
Proof.
  induction l as [|c l IH]; cbn [app bjits]; [by destruct (bjits types l')|]. fold (bjits types). rewrite IH.
  destruct (bjit types c); cbn [ebind]; [done|]. destruct (bjits types l); cbn [ebind]; [done|]. by destruct (bjits types l').
Qed.
Lemma bjits_imap types {A} (v w : nat -> A -> string) (l : list A) : forall i,
  bjits types (imap (fun k x => BSet (v (i + k) x) (BGet 0 (w (i + k) x))) l) = inr (imap (fun k x => XAssign (v (i + k) x) (XVar (w (i + k) x))) l).
Proof.
  induction l as [|x l IH]; intros i; [done|]. cbn [imap bjits bjit ebind]. fold (bjits types).
  rewrite (imap_ext _ (fun k y => BSet (v (S i + k) y) (BGet 0 (w (S i + k) y)))).
  2:{ intros k y _. cbn. by replace (i + S k) with (S (i + k)) by lia. }
  rewrite IH. cbn [ebind]. do 2 f_equal. apply imap_ext. intros k y _. cbn. by replace (i + S k) with (S (i + k)) by lia.
Qed.

Section comp.
  Context (types : string -> option btype) (is_number : string -> bool) (f : bfun) (a : area) (Ha : f_areas f !! 0 = Some a) (Hok : area_ok a).
  Context (Hty : forall o b, a_blocks a !! o = Some b -> typed types b) (Hsh : type_shape types).
  Context (Hids : forall o o' b b', a_blocks a !! o = Some b -> a_blocks a !! o' = Some b' -> b_id b = b_id b' -> o = o').
  Context (Hp : prog_ok types is_number f).
  Context {V : Type} (zero : V) (num : string -> V) (bin : string -> V -> V -> V) (node : string -> nat -> list V -> list V) (ext : string -> V).
  Context (Hnode : node_ok types node) (val : Z * Z -> nat -> V) (Hden : denotes zero num bin node ext types f val).
  Notation xrun := (xrun zero num bin node ext).
  Notation xargs := (xargs zero num bin node ext).
  Notation xseq := (xseq zero num bin node ext).
  Notation inval := (inval a zero val).
  Notation left := (left a).

  Lemma Hif o b : a_blocks a !! o = Some b -> b_typ b <> "if".
  Proof. intros Hb. apply (po_if _ _ _ Hp o b). unfold bf_block_at. by rewrite Ha. Qed.
  Lemma facts o b : a_blocks a !! o = Some b -> exists ty ins outs, types (b_typ b) = Some ty /\ t_inputs ty = Some <$> ins /\ t_outputs ty = Some <$> outs /\
    shape (b_typ b) ins outs /\ omap id (b_inputs b) ≡ₚ ins /\ omap id (b_outputs b) ≡ₚ outs /\ length (b_inputs b) <= b_rows b /\
    length (b_outputs b) <= b_rows b /\ 1 <= b_id b /\ block_subs b = [].
  Proof. apply (block_facts types a Hty Hsh Hif). Qed.

  (** ** States of the translation *)
  Record cs_ok (st : cstate) : Prop := {
    ck_key : forall k v, cs_vars st !! k = Some v -> exists o b r nm i ex, a_blocks a !! o = Some b /\ b_outputs b !! r = Some (Some nm) /\ multi b /\
      k = idout (b_id b) nm /\ v = tmp_name i ex /\ i <= cs_cnt st;
    ck_all : forall o b r r' nm nm', a_blocks a !! o = Some b -> b_outputs b !! r = Some (Some nm) -> b_outputs b !! r' = Some (Some nm') ->
      is_Some (cs_vars st !! idout (b_id b) nm) -> is_Some (cs_vars st !! idout (b_id b) nm');
    ck_inj : forall k k' v, cs_vars st !! k = Some v -> cs_vars st !! k' = Some v -> k = k';
  }.
  Definition cs_le (st st' : cstate) : Prop := cs_vars st ⊆ cs_vars st' /\ cs_cnt st <= cs_cnt st' /\
    (forall k v, cs_vars st' !! k = Some v -> cs_vars st !! k = Some v \/ exists i ex, v = tmp_name i ex /\ cs_cnt st < i <= cs_cnt st').
  Definition stored (st : cstate) (o : Z * Z) : bool :=
    match a_blocks a !! o with
    | Some b => existsb (fun c => match c with Some nm => bool_decide (is_Some (cs_vars st !! idout (b_id b) nm)) | None => false end) (b_outputs b)
    | None => false
    end.
  Lemma stored_true st o b : a_blocks a !! o = Some b -> stored st o = true <-> exists r nm, b_outputs b !! r = Some (Some nm) /\ is_Some (cs_vars st !! idout (b_id b) nm).
  Proof.
    intros Hb. unfold stored. rewrite Hb, existsb_exists. split.
    - intros (c & Hc & Hs). destruct c as [nm|]; [|done]. apply bool_decide_eq_true in Hs. apply elem_of_list_In, elem_of_list_lookup in Hc as [r Hr]. by exists r, nm.
    - intros (r & nm & Hr & Hs). exists (Some nm). split; [by apply elem_of_list_In; eapply elem_of_list_lookup_2|by apply bool_decide_eq_true].
  Qed.
  Lemma cs_le_refl st : cs_le st st.
  Proof. split; [done|]. split; [done|]. intros k v Hk. by left. Qed.
  Lemma cs_le_trans st1 st2 st3 : cs_le st1 st2 -> cs_le st2 st3 -> cs_le st1 st3.
  Proof.
    intros (A1 & A2 & A3) (B1 & B2 & B3). split; [by etrans|]. split; [lia|]. intros k v Hk. destruct (B3 _ _ Hk) as [Hk'|(i & ex & -> & Hi)].
    - destruct (A3 _ _ Hk') as [?|(i & ex & -> & Hi)]; [by left|]. right. exists i, ex. split; [done|lia].
    - right. exists i, ex. split; [done|lia].
  Qed.
  Lemma cs_le_anti st1 st2 : cs_le st1 st2 -> cs_le st2 st1 -> st1 = st2.
  Proof.
    intros (A1 & A2 & _) (B1 & B2 & _). destruct st1, st2. cbn in *. f_equal; [|lia]. by apply (anti_symm (⊆)).
  Qed.
  Lemma stored_le st st' o : cs_le st st' -> stored st o = true -> stored st' o = true.
  Proof.
    intros (Hle & _) Hs. destruct (a_blocks a !! o) as [b|] eqn:Hb; [|unfold stored in Hs; by rewrite Hb in Hs].
    destruct (proj1 (stored_true _ _ _ Hb) Hs) as (r & nm & Hr & v & Hv). apply (stored_true _ _ _ Hb). exists r, nm. split; [done|]. exists v. by eapply lookup_weaken.
  Qed.
  Definition clean (o : Z * Z) : Prop := ~ splitter f o /\ forall q, tc (feeds f 0) q o -> ~ splitter f q.

  Record tr (st st' : cstate) (os : list (Z * Z)) (x : Z) (L : list (Z * Z)) : Prop := {
    tr_ok : cs_ok st';
    tr_le : cs_le st st';
    tr_end : forall p b, a_blocks a !! p = Some b -> ~ multi b -> (forall q, ~ feeds f 0 p q) -> cnt p L = cnt p os;
    tr_mid : forall p b q, a_blocks a !! p = Some b -> ~ multi b -> feeds f 0 p q -> cnt p L = cnt p os + cnt q L;
    tr_split : forall p b, a_blocks a !! p = Some b -> multi b -> cnt p L + Nat.b2n (stored st p) = Nat.b2n (stored st' p);
    tr_req : forall p b, p ∈ os -> a_blocks a !! p = Some b -> multi b -> stored st' p = true;
    tr_feed : forall p b q, q ∈ L -> feeds f 0 p q -> a_blocks a !! p = Some b -> multi b -> stored st' p = true;
    tr_col : forall p, p ∈ L -> (p.1 <= x)%Z;
    tr_same : (forall p, p ∈ os -> clean p) -> st' = st;
  }.
  Lemma tr_nil st x : cs_ok st -> tr st st [] x [].
  Proof.
    intros H. split; try done.
    - apply cs_le_refl.
    - intros p b Hp'. by apply elem_of_nil in Hp'.
    - intros p b q Hq. by apply elem_of_nil in Hq.
    - intros p Hp'. by apply elem_of_nil in Hp'.
  Qed.
  Lemma tr_app st1 st2 st3 os1 os2 x L1 L2 : tr st1 st2 os1 x L1 -> tr st2 st3 os2 x L2 -> tr st1 st3 (os1 ++ os2) x (L1 ++ L2).
  Proof.
    intros A B. split.
    - apply B.
    - eapply cs_le_trans; [apply A|apply B].
    - intros p b Hb Hm Hq. rewrite !cnt_app, (tr_end _ _ _ _ _ A _ _ Hb Hm Hq), (tr_end _ _ _ _ _ B _ _ Hb Hm Hq). done.
    - intros p b q Hb Hm Hq. rewrite !cnt_app, (tr_mid _ _ _ _ _ A _ _ _ Hb Hm Hq), (tr_mid _ _ _ _ _ B _ _ _ Hb Hm Hq). lia.
    - intros p b Hb Hm. rewrite cnt_app. pose proof (tr_split _ _ _ _ _ A _ _ Hb Hm). pose proof (tr_split _ _ _ _ _ B _ _ Hb Hm). lia.
    - intros p b Hin Hb Hm. apply elem_of_app in Hin as [Hin|Hin].
      + eapply stored_le; [apply B|]. exact (tr_req _ _ _ _ _ A _ _ Hin Hb Hm).
      + by eapply (tr_req _ _ _ _ _ B).
    - intros p b q Hin Hq Hb Hm. apply elem_of_app in Hin as [Hin|Hin].
      + eapply stored_le; [apply B|]. exact (tr_feed _ _ _ _ _ A _ _ _ Hin Hq Hb Hm).
      + by eapply (tr_feed _ _ _ _ _ B).
    - intros p Hin. apply elem_of_app in Hin as [Hin|Hin]; [by eapply (tr_col _ _ _ _ _ A)|by eapply (tr_col _ _ _ _ _ B)].
    - intros Hc. rewrite (tr_same _ _ _ _ _ B) by (intros p Hin; apply Hc, elem_of_app; by right).
      apply (tr_same _ _ _ _ _ A). intros p Hin. apply Hc, elem_of_app. by left.
  Qed.

  Lemma splitter_block o b : a_blocks a !! o = Some b -> splitter f o <-> multi b.
  Proof. apply (splitter_iff types f a Ha Hty Hsh Hif). Qed.
  Lemma feeders_in o b p : a_blocks a !! o = Some b -> p ∈ feeders a o b <-> feeds f 0 p o.
  Proof. apply (feeders_elem types f a Ha Hok Hty Hsh Hif). Qed.
  Lemma clean_feeders o b : a_blocks a !! o = Some b -> (forall q, tc (feeds f 0) q o -> ~ splitter f q) -> forall p, p ∈ feeders a o b -> clean p.
  Proof.
    intros Hb Hc p Hin. apply (feeders_in _ _ _ Hb) in Hin. split.
    - apply Hc. by apply tc_once.
    - intros q Hq. apply Hc. by eapply tc_r.
  Qed.

  (** the step from the inputs of a block to the block *)
  Lemma tr_node o b st st0 st1 st2 L : a_blocks a !! o = Some b -> tr st0 st1 (feeders a o b) (o.1 - 1) L ->
    cs_vars st0 = cs_vars st -> cs_cnt st <= cs_cnt st0 ->
    (~ multi b /\ st0 = st /\ st2 = st1) \/
    (multi b /\ cs_ok st2 /\ cs_le st st2 /\ (forall p, p <> o -> stored st2 p = stored st1 p) /\ stored st2 o = true /\ stored st o = false) ->
    tr st st2 [o] o.1 (o :: L).
  Proof.
    intros Hb A Hv Hc H. assert (forall p, stored st0 p = stored st p) as Hst0 by (intros p; unfold stored; by rewrite Hv).
    assert (cnt o L = 0) as Ho. { apply cnt_notin. intros Hin. apply (tr_col _ _ _ _ _ A) in Hin. lia. }
    assert (forall p, stored st1 p = true -> stored st2 p = true) as H12.
    { destruct H as [(_ & _ & ->)|(_ & _ & _ & H1 & H2 & _)]; [done|]. intros p Hp'. destruct (decide (p = o)) as [->|Hne]; [done|]. by rewrite H1. }
    assert (forall p bp q, a_blocks a !! p = Some bp -> ~ multi bp -> feeds f 0 p q -> cnt p (feeders a o b) = if decide (o = q) then 1 else 0) as Hfd.
    { intros p bp q Hb' Hm Hf. destruct (decide (o = q)) as [<-|Hne].
      - by eapply (feeders_once types f a Ha Hok Hty Hsh Hif).
      - apply cnt_notin. intros Hin. apply (feeders_in _ _ _ Hb) in Hin. apply Hne. by eapply (consumer_unique types f a Ha Hok Hty Hsh Hif p). }
    split.
    - destruct H as [(_ & _ & ->)|(_ & H & _)]; [apply A|done].
    - destruct H as [(_ & -> & ->)|(_ & _ & H & _)]; [apply A|done].
    - intros p bp Hb' Hm Hq. rewrite !cnt_cons, (tr_end _ _ _ _ _ A _ _ Hb' Hm Hq). rewrite (cnt_notin p (feeders a o b)); [done|].
      intros Hin. apply (feeders_in _ _ _ Hb) in Hin. by eapply Hq.
    - intros p bp q Hb' Hm Hq. rewrite !cnt_cons, (tr_mid _ _ _ _ _ A _ _ _ Hb' Hm Hq), (Hfd _ _ _ Hb' Hm Hq). cbn. lia.
    - intros p bp Hb' Hm. rewrite cnt_cons. pose proof (tr_split _ _ _ _ _ A _ _ Hb' Hm) as Hs. rewrite Hst0 in Hs.
      destruct (decide (o = p)) as [<-|Hne].
      + rewrite Hb in Hb'. injection Hb' as <-. destruct H as [(Hn & _)|(_ & _ & _ & _ & H1 & H2)]; [done|]. rewrite Ho, H1, H2. done.
      + destruct H as [(_ & _ & ->)|(_ & _ & _ & H & _)]; [cbn; lia|]. rewrite H by done. cbn. lia.
    - intros p bp Hin Hb' Hm. apply elem_of_list_singleton in Hin as ->. rewrite Hb in Hb'. injection Hb' as <-.
      by destruct H as [(Hn & _)|(_ & _ & _ & _ & H1 & _)].
    - intros p bp q Hin Hq Hb' Hm. apply H12. apply elem_of_cons in Hin as [->|Hin].
      + eapply (tr_req _ _ _ _ _ A); [|done|done]. by apply (feeders_in _ _ _ Hb).
      + by eapply (tr_feed _ _ _ _ _ A).
    - intros p Hin. apply elem_of_cons in Hin as [->|Hin]; [lia|]. apply (tr_col _ _ _ _ _ A) in Hin. lia.
    - intros Hcl. destruct (Hcl o) as [Hs Hu]; [by left|]. rewrite (splitter_block _ _ Hb) in Hs. destruct H as [(_ & -> & ->)|(Hm & _)]; [|done].
      apply (tr_same _ _ _ _ _ A). by apply clean_feeders.
  Qed.

  (** ** Runs *)
  Definition ins_of (b : block) : list string := match types (b_typ b) with Some ty => omap id (t_inputs ty) | None => [] end.
  Definition argv (o : Z * Z) (b : block) : list V := inval o <$> arg_rows b (ins_of b).
  Definition call_at (p : Z * Z) : option (string * nat * list V) :=
    match a_blocks a !! p with
    | Some b => if decide (is_call (b_typ b)) then Some (b_typ b, b_id b, argv p b) else None
    | None => None
    end.
  Definition calls (L : list (Z * Z)) : list (string * nat * list V) := omap call_at L.
  Definition fresh (st : cstate) (x : string) : Prop := (exists i ex, x = tmp_name i ex /\ cs_cnt st < i) \/ exists i : nat, x = "%" +:+ pretty i.
  Definition envok (st : cstate) (s : xstate V) : Prop :=
    (forall o b r nm v, a_blocks a !! o = Some b -> b_outputs b !! r = Some (Some nm) -> cs_vars st !! idout (b_id b) nm = Some v -> x_env s !! v = Some (val o r)) /\
    (forall o b, a_blocks a !! o = Some b -> b_typ b = "get" -> x_env s !! b_lbl b = None).
  Definition frame (st : cstate) (s s' : xstate V) : Prop := forall x, ~ fresh st x -> x_env s' !! x = x_env s !! x.
  Definition runs (st st' : cstate) (c : jast) (v : V) (L : list (Z * Z)) : Prop := forall s, envok st s -> exists s' l,
    xrun c s = Some (v, s') /\ envok st' s' /\ frame st s s' /\ x_log s' = x_log s ++ l /\ l ≡ₚ calls L.
  Definition runs_list (st st' : cstate) (cs : list jast) (vs : list V) (L : list (Z * Z)) : Prop := forall s, envok st s -> exists s' l,
    xargs cs s = Some (vs, s') /\ envok st' s' /\ frame st s s' /\ x_log s' = x_log s ++ l /\ l ≡ₚ calls L.

  Lemma calls_app L L' : calls (L ++ L') = calls L ++ calls L'.
  Proof. apply omap_app. Qed.
  Lemma calls_perm L L' : L ≡ₚ L' -> calls L ≡ₚ calls L'.
  Proof. apply omap_perm. Qed.
  Lemma fresh_le st st' x : cs_cnt st <= cs_cnt st' -> fresh st' x -> fresh st x.
  Proof. intros Hle [(i & ex & -> & Hi)|H]; [|by right]. left. exists i, ex. split; [done|lia]. Qed.
  Lemma frame_trans st st' s1 s2 s3 : cs_cnt st <= cs_cnt st' -> frame st s1 s2 -> frame st' s2 s3 -> frame st s1 s3.
  Proof. intros Hle H1 H2 x Hx. rewrite H2; [by apply H1|]. intros Hf. apply Hx. by eapply fresh_le. Qed.
  Lemma frame_refl st s : frame st s s.
  Proof. done. Qed.
  Lemma unreserved_fresh st x : reserved x = false -> ~ fresh st x.
  Proof. intros H [(i & ex & -> & _)|[i ->]]; done. Qed.
  Lemma get_unreserved o b : a_blocks a !! o = Some b -> b_typ b = "get" -> reserved (b_lbl b) = false.
  Proof. intros Hb Ht. apply (po_var _ _ _ Hp o); [unfold bf_block_at; by rewrite Ha|by right]. Qed.
  Lemma var_not_fresh st k v : cs_ok st -> cs_vars st !! k = Some v -> ~ fresh st v.
  Proof.
    intros H Hv. apply (ck_key _ H) in Hv as (_ & _ & _ & _ & i & ex & _ & _ & _ & _ & -> & Hi). intros [(i' & ex' & He & Hi')|[i' He]]; [|done].
    apply tmp_inj in He. lia.
  Qed.
  Lemma envok_frame st s s' : cs_ok st -> envok st s -> frame st s s' -> envok st s'.
  Proof.
    intros Hc [H1 H2] Hf. split.
    - intros o b r nm v Hb Hr Hv. rewrite Hf; [by eapply H1|]. by eapply var_not_fresh.
    - intros o b Hb Ht. rewrite Hf; [by eapply H2|]. apply unreserved_fresh. by eapply get_unreserved.
  Qed.

  (** *** arguments *)
  Inductive chain : cstate -> list (jast * V * list (Z * Z)) -> cstate -> Prop :=
  | chain_nil st : cs_ok st -> chain st [] st
  | chain_cons st st1 st2 c v L ks : cs_ok st -> cs_le st st1 -> runs st st1 c v L -> chain st1 ks st2 -> chain st ((c, v, L) :: ks) st2.
  Lemma chain_le st ks st' : chain st ks st' -> cs_le st st'.
  Proof. induction 1; [apply cs_le_refl|by eapply cs_le_trans]. Qed.
  Lemma chain_run st ks st' : chain st ks st' -> runs_list st st' ks.*1.*1 ks.*1.*2 (mjoin ks.*2).
  Proof.
    induction 1 as [st Hc|st st1 st2 c v L ks Hc Hle Hr Hch IH]; intros s Hs.
    - exists s, []. split_and!; [done|done|done|by rewrite app_nil_r|done].
    - destruct (Hr s Hs) as (s1 & l1 & E1 & Hs1 & Hf1 & Hl1 & Hp1). destruct (IH s1 Hs1) as (s2 & l2 & E2 & Hs2 & Hf2 & Hl2 & Hp2).
      exists s2, (l1 ++ l2). split_and!.
      + cbn [fmap list_fmap fst snd]. rewrite xargs_cons, E1. cbn [mbind option_bind]. rewrite E2. done.
      + done.
      + eapply frame_trans; [|done|done]. apply Hle.
      + by rewrite Hl2, Hl1, app_assoc.
      + cbn. rewrite calls_app. by rewrite Hp1, Hp2.
  Qed.
  Lemma chain_same st ks st' : chain st ks st' -> st' = st -> Forall (fun k => runs st st k.1.1 k.1.2 k.2) ks.
  Proof.
    induction 1 as [st Hc|st st1 st2 c v L ks Hc Hle Hr Hch IH]; intros E; [constructor|]. subst st2.
    assert (st1 = st) as ->. { apply cs_le_anti; [|done]. by eapply chain_le. }
    constructor; [done|]. by apply IH.
  Qed.
  Lemma same_chain st ks : cs_ok st -> Forall (fun k => runs st st k.1.1 k.1.2 k.2) ks -> chain st ks st.
  Proof.
    intros Hc. induction 1 as [|[[c v] L] ks Hr _ IH]; [by constructor|]. econstructor; [done|apply cs_le_refl|done|done].
  Qed.
  Lemma chain_perm st ks ks' : cs_ok st -> chain st ks st -> ks' ≡ₚ ks -> chain st ks' st.
  Proof. intros Hc H Hpm. apply same_chain; [done|]. rewrite Hpm. by eapply chain_same. Qed.

  (** *** the children of a node *)
  Context (h : list jnode) (m : gmap (nat * (Z * Z)) nat) (Htree : tree_of a "zero" h m) (lo : Z).
  Context (Hlo : forall o b, a_blocks a !! o = Some b -> (lo <= o.1)%Z).
  Notation T := (fun fuel => trans types is_number fuel h).

  Lemma child_cases ip x y c : in_child a "zero" h m ip x y c -> c.1.1 = ip /\
    match find_port_at a x y true with
    | Some (p, r) => p.1 = x /\ exists b, a_blocks a !! p = Some b /\ b_outputs b !! r = Some (Some c.1.2) /\ m !! (0, p) = Some c.2
    | None => c.1.2 = "" /\ h !! c.2 = Some (JNode 0 "zero" "" [])
    end.
  Proof.
    intros [Hc H]. split; [done|]. unfold find_port_at. destruct H as [(p & (b & Hr & Ho) & Hm)|(Hn & He & Hz)].
    - rewrite Hr. cbn [mbind option_bind]. rewrite (proj2 (has_port_true _ _)); [|by eexists]. apply ref_at_ok in Hr as [Hb [Hc1 _]]; [|done].
      split; [done|]. by exists b.
    - destruct (ref_at a x y) as [[b p]|] eqn:Hr; [|done]. cbn [mbind option_bind]. destruct (has_port (b_outputs b) (Z.to_nat (y - p.2))) eqn:Hh; [|done].
      exfalso. apply has_port_true in Hh as [s Hs]. apply (Hn p s). by exists b.
  Qed.
  Definition pval (x y : Z) : V := match find_port_at a x y true with Some (p, r) => val p r | None => zero end.
  Definition req_ok (b : block) (out : option string) : Prop :=
    (exists r nm, b_outputs b !! r = Some (Some nm) /\ out = some_out nm) \/ (omap id (b_outputs b) = [] /\ out = None).
  Definition block_good (n : nat) : Prop := forall o b nd out st fuel, Z.to_nat (o.1 - lo) < n -> n < fuel -> a_blocks a !! o = Some b -> m !! (0, o) = Some nd ->
    b_typ b <> "set" -> req_ok b out -> cs_ok st ->
    exists ast st' code L v, T fuel st nd out = cok (ast, st') /\ bjit types ast = inr code /\ tr st st' [o] o.1 L /\ runs st st' code v L /\
      (forall r nm, b_outputs b !! r = Some (Some nm) -> out = some_out nm -> v = val o r).

  Lemma zero_out : forall o0 o1 names, out_names types "zero" <> o0 :: o1 :: names.
  Proof.
    intros o0 o1 names. unfold out_names. destruct (types "zero") as [ty|] eqn:E; [|done]. destruct (Hsh _ _ E) as (_ & ins & outs & _ & -> & Hs); [done|].
    rewrite omap_some. by apply shape_zero in Hs as [_ ->].
  Qed.
  Lemma tnode_one st id out typ lbl cl : (forall o0 o1 names, out_names types typ <> o0 :: o1 :: names) -> tnode types st id out typ lbl cl =
    cok (BNode id out typ lbl ((fun c : string * bast => (some_out c.1, c.2)) <$> cl), st).
  Proof. unfold tnode. intros H. destruct (out_names types typ) as [|o0 [|o1 l]]; [done|done|]. by destruct (H o0 o1 l). Qed.

  Lemma runs_calls st st' c v L L' : calls L = calls L' -> runs st st' c v L -> runs st st' c v L'.
  Proof. intros E H s Hs. destruct (H s Hs) as (s' & l & ?). exists s', l. by rewrite <- E. Qed.
  Lemma runs_pure st c v : (forall s, envok st s -> xrun c s = Some (v, s)) -> runs st st c v [].
  Proof. intros H s Hs. exists s, []. split_and!; [by apply H|done|done|by rewrite app_nil_r|done]. Qed.

  Lemma child_ok n fuel ip x y c st : block_good n -> n < fuel -> in_child a "zero" h m ip x y c -> cs_ok st ->
    (forall p r, find_port_at a x y true = Some (p, r) -> Z.to_nat (p.1 - lo) < n) ->
    exists ast st' code L, T fuel st c.2 (some_out c.1.2) = cok (ast, st') /\ bjit types ast = inr code /\
      tr st st' (option_list (fst <$> find_port_at a x y true)) x L /\ runs st st' code (pval x y) L.
  Proof.
    intros IH Hfuel Hc Hst Hrank. apply child_cases in Hc as [_ Hc]. unfold pval. destruct (find_port_at a x y true) as [[p r]|] eqn:Hf.
    - destruct Hc as (Hx & b & Hb & Ho & Hm).
      destruct (IH p b c.2 (some_out c.1.2) st fuel) as (ast & st' & code & L & v & H1 & H2 & H3 & H4 & H5); try done.
      + by eapply Hrank.
      + destruct (facts _ _ Hb) as (ty & ins & outs & _ & _ & _ & Hs & _ & Hp' & _). intros Hset. rewrite Hset in Hs.
        apply shape_noset in Hs as [_ ->].
        apply Permutation_nil_r in Hp'. assert (c.1.2 ∈ omap id (b_outputs b)) as Hin by (apply elem_of_list_omap; exists (Some c.1.2); split; [by eapply elem_of_list_lookup_2|done]).
        rewrite Hp' in Hin. by apply elem_of_nil in Hin.
      + left. by exists r, c.1.2.
      + exists ast, st', code, L. split_and!; [done|done|by rewrite <- Hx|]. by rewrite <- (H5 r c.1.2).
    - destruct Hc as [Hc1 Hc2]. exists (BNode 0 None "zero" "" []), st, XZero, []. rewrite Hc1. destruct fuel as [|fuel]; [lia|].
      split_and!; [|done|by apply tr_nil|by apply runs_pure].
      rewrite trans_S, Hc2. cbn [mbind option_bind j_id j_typ j_lbl j_ch some_out String.eqb default].
      assert (get_var st 0 "" = None) as ->.
      { destruct (get_var st 0 "") as [v|] eqn:E; [|done]. apply (ck_key _ Hst) in E as (o & b & r & nm & _ & _ & Hb & _ & _ & He & _).
        apply idout_inj in He as [He _]. destruct (facts _ _ Hb) as (?&?&?&_&_&_&_&_&_&_&_&Hid&_). lia. }
      cbn. apply (tnode_one st 0 None "zero" "" []). apply zero_out.
  Qed.

  Lemma left_rank o b r p k n : a_blocks a !! o = Some b -> Z.to_nat (o.1 - lo) < S n -> find_port_at a (o.1 - 1) (o.2 + Z.of_nat r) true = Some (p, k) -> Z.to_nat (p.1 - lo) < n.
  Proof.
    intros Hb Hn Hl. apply (left_iff types f a Ha Hok Hty Hsh Hif) in Hl as [Ho [Hx _]]. apply (out_port_iff types f a Ha Hty Hsh Hif) in Ho as (bp & s & Hbp & _).
    apply Hlo in Hbp. lia.
  Qed.
  Lemma children_ok n fuel o b : block_good n -> n < fuel -> a_blocks a !! o = Some b -> Z.to_nat (o.1 - lo) < S n -> forall rows ch st,
    Forall2 (fun r c => in_child a "zero" h m (in_name b r) (o.1 - 1) (o.2 + Z.of_nat r) c) rows ch -> cs_ok st ->
    exists cl st' ks, tall (T fuel) st ch = cok (cl, st') /\ cl.*1 = in_name b <$> rows /\ Forall2 (fun x k => bjit types x.2 = inr k.1.1) cl ks /\
      ks.*1.*2 = inval o <$> rows /\ chain st ks st' /\ tr st st' (omap (fun r => fst <$> left o r) rows) (o.1 - 1) (mjoin ks.*2).
  Proof.
    intros IH Hfuel Hb Hn. induction rows as [|r rows IHr]; intros ch st HF Hst.
    - apply Forall2_nil_inv_l in HF as ->. exists [], st, []. split_and!; [done|done|constructor|done|by constructor|by apply tr_nil].
    - apply Forall2_cons_inv_l in HF as (c & ch' & Hc & HF & ->).
      destruct (child_ok n fuel _ _ _ _ st IH Hfuel Hc Hst) as (ast & st1 & code & L & H1 & H2 & H3 & H4).
      { intros p k. by eapply left_rank. }
      destruct (IHr ch' st1 HF (tr_ok _ _ _ _ _ H3)) as (cl & st' & ks & K1 & K2 & K3 & K4 & K5 & K6).
      exists ((c.1.1, ast) :: cl), st', ((code, inval o r, L) :: ks). split_and!.
      + cbn [tall]. rewrite H1. cbn [cbind fst snd cok]. fold (tall (T fuel)). rewrite K1. done.
      + cbn. f_equal; [|done]. by destruct Hc.
      + by constructor.
      + cbn. by f_equal.
      + econstructor; [done|apply H3|done|done].
      + cbn [omap list_omap fmap list_fmap mjoin list_join]. pose proof (tr_app _ _ _ _ _ _ _ _ H3 K6) as H. unfold L_Comp4.left. by destruct (find_port_at a (o.1 - 1) (o.2 + Z.of_nat r) true) as [[p k]|].
  Qed.

  Lemma bjits_order rows (c : nat -> bast) (g : nat -> jast * V * list (Z * Z)) (nm : nat -> option string) : (forall r, r ∈ rows -> bjit types (c r) = inr (g r).1.1) ->
    in_order types ((fun r => (nm r, c r)) <$> rows) = inr (g <$> rows).*1.*1.
  Proof.
    induction rows as [|r rows IH]; intros H; [done|]. cbn [fmap list_fmap in_order]. fold (in_order types). rewrite H by (by left). cbn [ebind]. rewrite IH; [done|].
    intros r' Hr'. apply H. by right.
  Qed.
  Lemma bjits_named typ id rows (c : nat -> bast) (nm : nat -> option string) r : r ∈ rows -> (forall r', r' ∈ rows -> nm r' = nm r -> r' = r) ->
    named types typ id ((fun r => (nm r, c r)) <$> rows) (nm r) = bjit types (c r).
  Proof.
    induction rows as [|r' rows IH]; intros Hr Hu; [by apply elem_of_nil in Hr|]. cbn [fmap list_fmap named]. destruct (decide (nm r' = nm r)) as [E|E].
    - by rewrite (Hu r') by (done || by left).
    - fold (named types typ id). apply IH; [|intros r'' Hr''; apply Hu; by right]. apply elem_of_cons in Hr as [->|Hr]; [done|done].
  Qed.

  Lemma bnode_args o b ty ins out lbl (cl : list (string * bast)) (ks : list (jast * V * list (Z * Z))) : types (b_typ b) = Some ty -> t_inputs ty = Some <$> ins -> ins_ok ins -> omap id (b_inputs b) ≡ₚ ins ->
    length (b_inputs b) <= b_rows b -> 1 <= b_id b -> b_typ b <> "zero" -> b_typ b <> "if" ->
    cl.*1 = in_name b <$> port_rows (b_rows b) (b_inputs b) -> Forall2 (fun x k => bjit types x.2 = inr k.1.1) cl ks ->
    ks.*1.*2 = inval o <$> port_rows (b_rows b) (b_inputs b) ->
    exists ks' : list (jast * V * list (Z * Z)), bjit types (BNode (b_id b) out (b_typ b) lbl ((fun c : string * bast => (some_out c.1, c.2)) <$> cl)) = build_op (b_typ b) (b_id b) ks'.*1.*1 /\
      ks'.*1.*2 = inval o <$> arg_rows b ins /\ ks' ≡ₚ ks /\ (omap id (b_inputs b) = ins -> ks' = ks).
  Proof.
    intros Ety Ei Hi Hpm Hl Hid Hz Hnif Hnames HF Hvals. set (rows := port_rows (b_rows b) (b_inputs b)) in *.
    assert (NoDup rows) as Hnd by apply port_rows_nodup.
    assert (length cl = length rows) as Hlc by (rewrite <- (fmap_length fst cl), Hnames; by rewrite fmap_length).
    assert (length ks = length rows) as Hlk by (rewrite <- Hlc; symmetry; by eapply Forall2_length).
    destruct (list_fun ("", BLit "") rows Hnd cl Hlc) as [c ->]. destruct (list_fun (XZero, zero, []) rows Hnd ks Hlk) as [g ->].
    assert (forall r, r ∈ rows -> (c r).1 = in_name b r /\ bjit types (c r).2 = inr (g r).1.1 /\ (g r).1.2 = inval o r) as Hall.
    { intros r Hr. apply elem_of_list_lookup in Hr as [k Hk]. split_and!.
      - assert ((c <$> rows).*1 !! k = (in_name b <$> rows) !! k) as E by (by rewrite Hnames). rewrite !list_lookup_fmap, Hk in E. by injection E.
      - refine (Forall2_lookup_lr _ _ _ k (c r) (g r) HF _ _); by rewrite list_lookup_fmap, Hk.
      - assert ((g <$> rows).*1.*2 !! k = (inval o <$> rows) !! k) as E by (by rewrite Hvals). rewrite !list_lookup_fmap, Hk in E. by injection E. }
    assert ((fun c : string * bast => (some_out c.1, c.2)) <$> (c <$> rows) = (fun r => (some_out (in_name b r), (c r).2)) <$> rows) as ->.
    { rewrite <- list_fmap_compose. apply Forall_fmap_ext_1. apply Forall_forall. intros r Hr. cbn. by destruct (Hall r Hr) as [-> _]. }
    destruct (named_rows b ins Hi Hpm Hl) as [Hr1 Hr2]. fold rows in Hr1, Hr2.
    exists (g <$> arg_rows b ins). split_and!.
    - rewrite bjit_node. rewrite (proj2 (String.eqb_neq _ _) Hnif), (proj2 (String.eqb_neq _ _) Hz).
      assert (b_id b =? 0 = false) as -> by (apply Nat.eqb_neq; lia). rewrite Ety, Ei, !fmap_length.
      assert (length rows = length ins) as Hlen by (rewrite <- (fmap_length (port_name (b_inputs b))); unfold rows; rewrite (port_names _ _ Hl); by rewrite Hpm).
      rewrite Hlen, Nat.ltb_irrefl, Nat.eqb_refl.
      apply all_empty_head in Hi as [[_ [l E]]|[Hn He]].
      + rewrite E. cbn [fmap list_fmap arg_rows]. fold rows. rewrite (bjits_order rows (fun r => (c r).2) g); [done|]. intros r Hr. by apply Hall.
      + assert (forall l, (forall x, x ∈ l -> x ∈ ins) -> by_name types (b_typ b) (b_id b) ((fun r => (some_out (in_name b r), (c r).2)) <$> rows) (Some <$> l) =
          inr (g <$> (row_of b <$> l)).*1.*1) as Hby.
        { induction l as [|nm l IHl]; intros Hin; [done|]. cbn [fmap list_fmap by_name]. fold (by_name types (b_typ b) (b_id b)).
          assert (nm ∈ ins) as Hnm by (apply Hin; by left). assert (nm ∈ omap id (b_inputs b)) as Hnm' by (by rewrite Hpm).
          apply elem_of_list_omap in Hnm' as (oc & Hoc & Hs). cbn in Hs. subst oc. apply elem_of_list_lookup in Hoc as [r Hr].
          assert (NoDup (omap id (b_inputs b))) as Hnd' by (by rewrite Hpm).
          rewrite (row_of_spec _ _ r Hnd' Hl Hr). assert (r ∈ rows) as Hrr. { apply port_rows_elem. split; [apply lookup_lt_Some in Hr; lia|by exists nm]. }
          assert (in_name b r = nm) as Hname by (unfold in_name; by rewrite Hr).
          assert (Some nm = some_out (in_name b r)) as ->.
          { rewrite Hname. unfold some_out. destruct (String.eqb_spec nm "") as [->|]; done. }
          rewrite (bjits_named _ _ rows (fun r => (c r).2) (fun r => some_out (in_name b r)) r Hrr).
          2:{ intros r' Hr' E. apply some_out_inj in E. apply port_rows_elem in Hr' as (_ & s & Hs). unfold in_name at 1 in E. rewrite Hs, Hname in E. subst s.
              by eapply omap_nodup_inj. }
          destruct (Hall r Hrr) as (_ & -> & _). cbn [ebind]. rewrite IHl by (intros x Hx; apply Hin; by right). done. }
        rewrite (arg_rows_named _ _ Hn He). pose proof (Hby ins (fun x Hx => Hx)) as E. destruct ins as [|[|ch nm] l]; [by rewrite E| |by rewrite E].
        exfalso. apply He. by left.
    - rewrite <- !list_fmap_compose. apply Forall_fmap_ext_1. rewrite Hr1. apply Forall_forall. intros r Hr. cbn. by apply Hall.
    - by rewrite Hr1.
    - intros E. by rewrite Hr2.
  Qed.

  (** *** calls *)
  Lemma argv_eq o b ty ins : types (b_typ b) = Some ty -> t_inputs ty = Some <$> ins -> argv o b = inval o <$> arg_rows b ins.
  Proof. intros Et Ei. unfold argv, ins_of. by rewrite Et, Ei, omap_some. Qed.
  Lemma pct_fresh st (i : nat) : fresh st ("%" +:+ pretty i).
  Proof. right. by exists i. Qed.
  Lemma call_run st st1 o b codes L s : a_blocks a !! o = Some b -> is_call (b_typ b) -> cs_ok st1 -> cs_le st st1 -> runs_list st st1 codes (argv o b) L -> envok st s ->
    exists s2 l, let rs := node (b_typ b) (b_id b) (argv o b) in
      xrun (XCall (b_typ b) (b_id b) codes) s = Some (default zero (head rs), s2) /\ envok st1 s2 /\ frame st s s2 /\
      (forall k r, rs !! S k = Some r -> x_env s2 !! ("%" +:+ pretty (S k)) = Some r) /\ x_log s2 = x_log s ++ l /\ l ≡ₚ calls (o :: L).
  Proof.
    intros Hb Hc Hst1 Hle Hr Hs. destruct (Hr s Hs) as (s1 & l & E1 & Hs1 & Hf1 & Hl1 & Hp1). rewrite xrun_call, E1. cbn [mbind option_bind xcall].
    eexists _, (l ++ [(b_typ b, b_id b, argv o b)]). cbn beta zeta. split; [reflexivity|].
    assert (frame st1 s1 (XState (set_results (x_env s1) 1 (tail (node (b_typ b) (b_id b) (argv o b)))) (x_log s1 ++ [(b_typ b, b_id b, argv o b)]))) as Hf2.
    { intros x Hx. cbn [x_env]. apply set_results_other. intros j ->. apply Hx, pct_fresh. }
    split_and!.
    - by eapply envok_frame.
    - eapply frame_trans; [|done|done]. apply Hle.
    - intros k r Hk. cbn [x_env]. apply (set_results_at _ _ 1 k r). destruct (node _ _ _); [done|exact Hk].
    - cbn [x_log]. by rewrite Hl1, app_assoc.
    - unfold calls. cbn [omap list_omap]. assert (call_at o = Some (b_typ b, b_id b, argv o b)) as -> by (unfold call_at; rewrite Hb; by rewrite decide_True).
      fold (calls L). rewrite Hp1, Permutation_app_comm. done.
  Qed.
  Lemma call_none o b : a_blocks a !! o = Some b -> ~ is_call (b_typ b) -> forall L, calls (o :: L) = calls L.
  Proof. intros Hb Hc L. unfold calls. cbn [omap list_omap]. unfold call_at at 1. rewrite Hb. by rewrite decide_False. Qed.

  (** the variables of the outputs *)
  Lemma assigns_run (rs : list V) base : forall names k0 s x, (forall j nm, names !! j = Some nm -> exists r, rs !! (k0 + j) = Some r /\ x_env s !! ("%" +:+ pretty (k0 + j)) = Some r) ->
    exists x' s', xseq (imap (fun j nm => XAssign (tmp_name (base + (k0 + j)) nm) (XVar ("%" +:+ pretty (k0 + j)))) names) x s = Some (x', s') /\ x_log s' = x_log s /\
      (forall j nm, names !! j = Some nm -> x_env s' !! tmp_name (base + (k0 + j)) nm = rs !! (k0 + j)) /\
      (forall y, (forall j nm, names !! j = Some nm -> y <> tmp_name (base + (k0 + j)) nm) -> x_env s' !! y = x_env s !! y).
  Proof.
    induction names as [|nm names IH]; intros k0 s x H.
    - exists x, s. split_and!; done.
    - cbn [imap]. rewrite xseq_cons. destruct (H 0 nm eq_refl) as (r & Hr & Hv). rewrite Nat.add_0_r in *.
      cbn [S_Comp.xrun]. unfold xread. rewrite Hv. cbn [mbind option_bind]. set (s1 := xassign s _ r).
      rewrite (imap_ext _ (fun j nm => XAssign (tmp_name (base + (S k0 + j)) nm) (XVar ("%" +:+ pretty (S k0 + j))))).
      2:{ intros j y _. cbn [compose]. by replace (k0 + S j) with (S k0 + j) by lia. }
      destruct (IH (S k0) s1 r) as (x' & s' & E & Hlog & Hset & Hoth).
      { intros j y Hj. destruct (H (S j) y Hj) as (r' & Hr' & Hv'). replace (k0 + S j) with (S k0 + j) in Hr', Hv' by lia. exists r'. split; [done|].
        unfold s1, xassign. cbn [x_env]. rewrite lookup_insert_ne; [done|]. apply tmp_pct. }
      exists x', s'. split_and!.
      + exact E.
      + by rewrite Hlog.
      + intros [|j] y Hj; cbn in Hj.
        * injection Hj as <-. rewrite Nat.add_0_r, Hr. rewrite Hoth; [unfold s1, xassign; cbn [x_env]; by rewrite lookup_insert|].
          intros j y _ He. apply tmp_inj in He. lia.
        * replace (k0 + S j) with (S k0 + j) by lia. by apply Hset.
      + intros y Hy. rewrite Hoth.
        * unfold s1, xassign. cbn [x_env]. rewrite lookup_insert_ne; [done|]. intros He. eapply (Hy 0); [done|]. by rewrite Nat.add_0_r.
        * intros j z Hj. replace (S k0 + j) with (k0 + S j) by lia. by apply Hy.
  Qed.

  Lemma bf_at o b : a_blocks a !! o = Some b -> bf_block_at f 0 o = Some b.
  Proof. unfold bf_block_at. by rewrite Ha. Qed.
  Lemma port_out o b r nm : a_blocks a !! o = Some b -> b_outputs b !! r = Some (Some nm) -> out_port f o r.
  Proof. intros Hb Hr. apply (out_port_iff types f a Ha Hty Hsh Hif). by exists b, nm. Qed.
  Lemma name_in_outs o b outs r nm : a_blocks a !! o = Some b -> omap id (b_outputs b) ≡ₚ outs -> b_outputs b !! r = Some (Some nm) -> nm ∈ outs.
  Proof. intros Hb Hpo Hr. rewrite <- Hpo. apply elem_of_list_omap. exists (Some nm). split; [by eapply elem_of_list_lookup_2|done]. Qed.

  (** the result of a call at an output *)
  Lemma call_value o b ty ins outs r nm : a_blocks a !! o = Some b -> types (b_typ b) = Some ty -> t_inputs ty = Some <$> ins -> t_outputs ty = Some <$> outs ->
    ins_ok ins -> omap id (b_inputs b) ≡ₚ ins -> length (b_inputs b) <= b_rows b -> is_call (b_typ b) -> b_outputs b !! r = Some (Some nm) ->
    exists k, outs !! k = Some nm /\ node (b_typ b) (b_id b) (argv o b) !! k = Some (val o r).
  Proof.
    intros Hb Et Ei Eo Hi Hpi Hl Hc Hr. destruct (Hden o b ty r (bf_at _ _ Hb) Et (port_out _ _ _ _ Hb Hr)) as (_ & _ & _ & _ & _ & H).
    destruct (H Hc) as (vs & k & Hvs & (name & H1 & H2) & H3). exists k.
    rewrite Eo, list_lookup_fmap in H1. apply fmap_Some in H1 as (name' & H1 & [= <-]). rewrite Hr in H2. injection H2 as <-. split; [done|].
    rewrite (args_of_iff types f a Ha Hok Hty Hsh Hif zero val o b ty ins vs Hb Ei) in Hvs by done. rewrite (argv_eq _ _ _ _ Et Ei), <- Hvs. done.
  Qed.

  (** *** a block with several outputs *)
  Lemma tnode_many st id out typ lbl cl o0 o1 rest : out_names types typ = o0 :: o1 :: rest -> tnode types st id out typ lbl cl =
    let stA := store_var (CState (cs_vars st) (S (cs_cnt st))) id o0 (tmp_name (S (cs_cnt st)) o0) in
    match more_outs stA id 1 (o1 :: rest) with
    | (st2, l) =>
        match out with
        | None => cerror (ASTMissingOutputLabel id)
        | Some o => match get_var st2 id o with
                    | None => cerror (NoTmpVarForOutput id o)
                    | Some v' => cok (BArea (BSet (tmp_name (S (cs_cnt st)) o0) (BNode id out typ lbl ((fun c : string * bast => (some_out c.1, c.2)) <$> cl)) :: l ++ [BGet 0 v']), st2)
                    end
        end
    end.
  Proof. intros E. unfold tnode. rewrite E. reflexivity. Qed.
  Lemma multi_ok o b ty ins outs st st1 codes out L lbl cl o0 o1 rest :
    a_blocks a !! o = Some b -> types (b_typ b) = Some ty -> t_inputs ty = Some <$> ins -> t_outputs ty = Some <$> outs ->
    ins_ok ins -> omap id (b_inputs b) ≡ₚ ins -> length (b_inputs b) <= b_rows b -> omap id (b_outputs b) ≡ₚ outs -> is_call (b_typ b) ->
    outs = o0 :: o1 :: rest -> NoDup outs -> "" ∉ outs -> req_ok b out -> stored st o = false -> stored st1 o = false ->
    bjit types (BNode (b_id b) out (b_typ b) lbl ((fun c : string * bast => (some_out c.1, c.2)) <$> cl)) = inr (XCall (b_typ b) (b_id b) codes) ->
    cs_ok st1 -> cs_le st st1 -> runs_list st st1 codes (argv o b) L ->
    exists ast st2 code v, tnode types st1 (b_id b) out (b_typ b) lbl cl = cok (ast, st2) /\ bjit types ast = inr code /\ runs st st2 code v (o :: L) /\
      (forall r nm, b_outputs b !! r = Some (Some nm) -> out = some_out nm -> v = val o r) /\
      multi b /\ cs_ok st2 /\ cs_le st st2 /\ (forall p, p <> o -> stored st2 p = stored st1 p) /\ stored st2 o = true.
  Proof.
    intros Hb Et Ei Eo Hi Hpi Hl Hpo Hc Eouts Hnd Hne Hreq Hns Hns1 Hbj Hst1 Hle Hrun.
    assert (multi b) as Hm by (unfold multi; rewrite Hpo, Eouts; cbn; lia).
    assert (out_names types (b_typ b) = o0 :: o1 :: rest) as Eon by (unfold out_names; by rewrite Et, Eo, omap_some).
    rewrite (tnode_many _ _ _ _ _ _ _ _ _ Eon). cbv zeta. set (cnt1 := cs_cnt st1) in *. set (stA := store_var _ _ _ _).
    assert (NoDup (o1 :: rest)) as Hnd1 by (rewrite Eouts in Hnd; by apply NoDup_cons in Hnd as [_ ?]).
    assert (o0 ∉ o1 :: rest) as Ho0 by (rewrite Eouts in Hnd; by apply NoDup_cons in Hnd as [? _]).
    destruct (more_outs_spec (b_id b) (o1 :: rest) stA 1 Hnd1) as (st2 & -> & Hcnt & Hvar & Hoth).
    assert (forall k nm, outs !! k = Some nm -> cs_vars st2 !! idout (b_id b) nm = Some (tmp_name (cnt1 + 1 + k) nm)) as Hnew.
    { intros k nm Hk. rewrite Eouts in Hk. destruct k as [|k]; cbn [lookup list_lookup] in Hk.
      - injection Hk as <-. rewrite Hoth; [|intros nm Hin He; apply idout_inj in He as [_ ->]; done]. unfold stA, store_var. cbn [cs_vars]. rewrite lookup_insert. f_equal. f_equal. lia.
      - rewrite (Hvar k nm Hk). unfold stA, store_var. cbn [cs_cnt]. f_equal. f_equal. fold cnt1. lia. }
    assert (forall key, (forall nm, nm ∈ outs -> key <> idout (b_id b) nm) -> cs_vars st2 !! key = cs_vars st1 !! key) as Hold.
    { intros key Hk. rewrite Hoth; [|intros nm Hin; apply Hk; rewrite Eouts; by right]. unfold stA, store_var. cbn [cs_vars].
      rewrite lookup_insert_ne; [done|]. intros He. eapply Hk; [|by symmetry]. rewrite Eouts. by left. }
    assert (cs_cnt st2 = cnt1 + length outs) as Hcnt2 by (rewrite Hcnt, Eouts; unfold stA, store_var; cbn [cs_cnt length]; lia).
    assert (forall k v, cs_vars st2 !! k = Some v -> cs_vars st1 !! k = Some v /\ (forall nm, k <> idout (b_id b) nm) \/
      exists i nm r, outs !! i = Some nm /\ b_outputs b !! r = Some (Some nm) /\ k = idout (b_id b) nm /\ v = tmp_name (cnt1 + 1 + i) nm) as Hinv.
    { intros k v Hk. destruct (decide (Exists (fun nm => k = idout (b_id b) nm) outs)) as [He|He].
      - right. apply Exists_exists in He as (nm & Hin & ->). pose proof Hin as Hin'. apply elem_of_list_lookup in Hin' as [i Hi']. rewrite (Hnew i nm Hi') in Hk. injection Hk as <-.
        rewrite <- Hpo in Hin. apply elem_of_list_omap in Hin as (oc & Hoc & Hs). cbn in Hs. subst oc. apply elem_of_list_lookup in Hoc as [r Hr]. by exists i, nm, r.
      - left. assert (cs_vars st1 !! k = Some v) as Hk1.
        { rewrite <- Hk. symmetry. apply Hold. intros nm Hin ->. apply He. apply Exists_exists. by exists nm. }
        split; [done|]. intros nm ->. apply (ck_key _ Hst1) in Hk1 as (o' & b' & r & nm' & i & ex & Hb' & Hr & _ & He' & _). apply idout_inj in He' as [He1 <-].
        assert (o' = o) as -> by (by eapply (Hids o' o b' b)). rewrite Hb in Hb'. injection Hb' as <-. apply He. apply Exists_exists. exists nm. split; [|done].
        by eapply name_in_outs. }
    assert (forall i nm, outs !! i = Some nm -> i < length outs) as Hlt by (intros i nm; apply lookup_lt_Some).
    assert (cs_le st1 st2) as Hle12.
    { split; [|split; [fold cnt1; lia|]].
      - apply map_subseteq_spec. intros k v Hk. rewrite Hold; [done|]. intros nm Hin ->. apply elem_of_list_lookup in Hin as [i Hi'].
        apply not_true_iff_false in Hns1. apply Hns1. apply (stored_true _ _ _ Hb).
        apply (ck_key _ Hst1) in Hk as Hk'. destruct Hk' as (o' & b' & r & nm' & _ & _ & Hb' & Hr & _ & He' & _). apply idout_inj in He' as [He1 <-].
        assert (o' = o) as -> by (by eapply (Hids o' o b' b)). rewrite Hb in Hb'. injection Hb' as <-. exists r, nm. split; [done|by eexists].
      - intros k v Hk. apply Hinv in Hk as [[Hk _]|(i & nm & r & Hi' & Hr & -> & ->)]; [by left|]. right. exists (cnt1 + 1 + i), nm. split; [done|]. apply Hlt in Hi'. fold cnt1. lia. }
    assert (cs_ok st2) as Hst2.
    { split.
      - intros k v Hk. apply Hinv in Hk as [[Hk _]|(i & nm & r & Hi' & Hr & -> & ->)].
        + apply (ck_key _ Hst1) in Hk as (o' & b' & r & nm' & i & ex & H1 & H2 & H3 & H4 & H5 & H6). exists o', b', r, nm', i, ex. split_and!; try done. fold cnt1 in H6. lia.
        + exists o, b, r, nm, (cnt1 + 1 + i), nm. split_and!; try done. apply Hlt in Hi'. lia.
      - intros o' b' r r' nm nm' Hb' Hr Hr' [v Hv]. destruct (decide (o' = o)) as [->|Hne'].
        + rewrite Hb in Hb'. injection Hb' as <-. pose proof (name_in_outs _ _ outs _ _ Hb Hpo Hr') as Hin. apply elem_of_list_lookup in Hin as [i Hi']. rewrite (Hnew _ _ Hi'). by eexists.
        + assert (forall x, idout (b_id b') nm' <> idout (b_id b) x) as Hx by (intros x He; apply idout_inj in He as [He _]; by apply Hne', (Hids o' o b' b)).
          rewrite Hold by (intros; apply Hx). apply (ck_all _ Hst1 o' b' r r' nm nm'); try done. rewrite Hold in Hv; [by eexists|].
          intros x _ He. apply idout_inj in He as [He _]. by apply Hne', (Hids o' o b' b).
      - intros k k' v Hk Hk'. apply Hinv in Hk as [[Hk _]|(i & nm & r & Hi' & Hr & -> & ->)]; apply Hinv in Hk' as [[Hk' _]|(i' & nm' & r' & Hi'' & Hr' & -> & He)].
        + by eapply (ck_inj _ Hst1).
        + subst v. apply (ck_key _ Hst1) in Hk as (?&?&?&?&j&ex&_&_&_&_&He&Hj). apply tmp_inj in He. fold cnt1 in Hj. lia.
        + apply (ck_key _ Hst1) in Hk' as (?&?&?&?&j&ex&_&_&_&_&He&Hj). apply tmp_inj in He. fold cnt1 in Hj. lia.
        + apply tmp_inj in He. assert (i = i') as <- by lia. rewrite Hi' in Hi''. by injection Hi'' as <-. }
    assert (exists r0 nm0, b_outputs b !! r0 = Some (Some nm0) /\ out = Some nm0 /\ nm0 ∈ outs) as (r0 & nm0 & Hr0 & -> & Hin0).
    { destruct Hreq as [(r0 & nm0 & Hr0 & ->)|[He _]].
      - exists r0, nm0. pose proof (name_in_outs _ _ outs _ _ Hb Hpo Hr0) as Hin. split_and!; [done| |done]. unfold some_out.
        destruct (String.eqb_spec nm0 "") as [->|]; done.
      - rewrite He in Hpo. apply Permutation_nil_l in Hpo. congruence. }
    apply elem_of_list_lookup in Hin0 as [k0 Hk0]. unfold get_var. rewrite (Hnew _ _ Hk0).
    eexists _, st2, _, (val o r0). split; [reflexivity|]. set (codes2 := imap (fun j nm => XAssign (tmp_name (cnt1 + 1 + (1 + j)) nm) (XVar ("%" +:+ pretty (1 + j)))) (o1 :: rest)).
    assert (forall r nm, b_outputs b !! r = Some (Some nm) -> forall k, outs !! k = Some nm -> node (b_typ b) (b_id b) (argv o b) !! k = Some (val o r)) as Hval.
    { intros r nm Hr k Hk. destruct (call_value o b ty ins outs r nm) as (k' & Hk' & Hv'); try done. by rewrite (NoDup_lookup _ _ _ _ Hnd Hk Hk'). }
    split; [|split; [|split; [|split_and!]]].
    - rewrite bjit_area. cbn [bjits]. fold (bjits types). change (bjit types (BSet ?v ?e)) with (ebind (bjit types e) (fun x => inr (XAssign v x))). rewrite Hbj. cbn [ebind].
      rewrite bjits_app. assert (bjits types (imap (fun k nm => BSet (tmp_name (cs_cnt stA + 1 + k) nm) (BGet 0 ("%" +:+ pretty (1 + k)))) (o1 :: rest)) = inr codes2) as ->.
      { pose proof (bjits_imap types (fun k nm => tmp_name (cnt1 + 1 + k) nm) (fun k _ => "%" +:+ pretty k) (o1 :: rest) 1) as H.
        etrans; [|exact H]. f_equal. apply imap_ext. intros k nm _. unfold stA, store_var. cbn [cs_cnt]. fold cnt1. by replace (S cnt1 + 1 + k) with (cnt1 + 1 + (1 + k)) by lia. }
      cbn [bjits ebind bjit]. reflexivity.
    - intros s Hs. destruct (call_run st st1 o b codes L s Hb Hc Hst1 Hle Hrun Hs) as (s1 & l & E1 & Hs1 & Hf1 & Hpct & Hl1 & Hpm1).
      set (rs := node (b_typ b) (b_id b) (argv o b)) in *. cbn zeta in E1.
      assert (length rs = length outs) as Hlen by (unfold rs; rewrite (Hnode _ _ _ _ Et), Eo; by rewrite fmap_length).
      rewrite xrun_stmts. cbn [app]. rewrite xseq_cons.
      change (xrun (XAssign ?v ?e) s) with (let* (x, st) := xrun e s in Some (x, xassign st v x)). rewrite E1. cbn [mbind option_bind].
      set (s2 := xassign s1 _ _). rewrite xseq_app.
      destruct (assigns_run rs (cnt1 + 1) (o1 :: rest) 1 s2 (default zero (head rs))) as (x' & s3 & E3 & Hlog3 & Hset3 & Hoth3).
      { intros j nm Hj. assert (1 + j < length rs) as Hjl. { rewrite Hlen, Eouts. apply lookup_lt_Some in Hj. cbn in *. lia. }
        apply lookup_lt_is_Some in Hjl as [r Hr]. exists r. split; [done|]. unfold s2, xassign. cbn [x_env]. rewrite lookup_insert_ne by apply tmp_pct. by apply Hpct. }
      rewrite E3. cbn [mbind option_bind]. rewrite xseq_cons. cbn [S_Comp.xrun].
      assert (forall k nm, outs !! k = Some nm -> x_env s3 !! tmp_name (cnt1 + 1 + k) nm = rs !! k) as Hres.
      { intros k nm Hk. rewrite Eouts in Hk. destruct k as [|k]; cbn [lookup list_lookup] in Hk.
        - injection Hk as <-. rewrite Nat.add_0_r, Hoth3; [|intros j nm _ He; apply tmp_inj in He; lia]. unfold s2, xassign. cbn [x_env].
          replace (cnt1 + 1) with (S cnt1) by lia. rewrite lookup_insert. destruct rs as [|r rs']; [rewrite Eouts in Hlen; done|done].
        - exact (Hset3 k nm Hk). }
      assert (frame st1 s1 s3) as Hf3.
      { intros x Hx. rewrite Hoth3.
        - unfold s2, xassign. cbn [x_env]. rewrite lookup_insert_ne; [done|]. intros <-. apply Hx. left. eexists _, _. split; [done|]. fold cnt1. lia.
        - intros j nm _ ->. apply Hx. left. eexists _, _. split; [done|]. fold cnt1. lia. }
      unfold xread. rewrite (Hres _ _ Hk0), (Hval _ _ Hr0 _ Hk0). cbn [mbind option_bind]. cbn [L_Comp5.xseq]. exists s3, l. split; [done|]. split_and!.
      + destruct Hs1 as [Hs1 Hs1']. split.
        * intros o' b' r nm v Hb' Hr Hv. apply Hinv in Hv as [[Hv Hne']|(i & nm' & r' & Hi' & Hr' & He & ->)].
          -- rewrite Hf3; [by eapply Hs1|]. by eapply var_not_fresh.
          -- apply idout_inj in He as [He <-]. assert (o' = o) as -> by (by eapply (Hids o' o b' b)). rewrite Hb in Hb'. injection Hb' as <-.
             rewrite (Hres _ _ Hi'). by eapply Hval.
        * intros o' b' Hb' Ht'. rewrite Hf3; [by eapply Hs1'|]. apply unreserved_fresh. by eapply get_unreserved.
      + eapply frame_trans; [|done|done]. apply Hle.
      + rewrite Hlog3. exact Hl1.
      + done.
    - intros r nm Hr [= He]. assert (nm0 = nm) as ->. { destruct (String.eqb_spec nm "") as [->|]; unfold some_out in He; [done|]. destruct (String.eqb nm ""); congruence. }
      pose proof (Hval _ _ Hr0 _ Hk0) as H1. pose proof (Hval _ _ Hr _ Hk0) as H2. congruence.
    - done.
    - done.
    - by eapply cs_le_trans.
    - intros p Hpo'. unfold stored. destruct (a_blocks a !! p) as [bp|] eqn:Hbp; [|done]. induction (b_outputs bp) as [|c l IHl]; [done|]. cbn [existsb]. rewrite IHl. f_equal.
      destruct c as [nm|]; [|done]. rewrite Hold; [done|]. intros x _ He. apply idout_inj in He as [He _]. by apply Hpo', (Hids p o bp b).
    - apply (stored_true _ _ _ Hb). exists r0, nm0. split; [done|]. rewrite (Hnew _ _ Hk0). by eexists.
  Qed.

  (** *** the outputs of a block with the same name *)
  Lemma one_input b : omap id (b_inputs b) ≡ₚ [""] -> length (b_inputs b) <= b_rows b ->
    exists r, port_rows (b_rows b) (b_inputs b) = [r] /\ forall r' s, b_inputs b !! r' = Some (Some s) -> r' = r.
  Proof.
    intros Hpi Hl. assert (length (port_rows (b_rows b) (b_inputs b)) = 1) as Hlen.
    { rewrite <- (fmap_length (port_name (b_inputs b))), (port_names _ _ Hl). by rewrite Hpi. }
    assert (forall r' s, b_inputs b !! r' = Some (Some s) -> r' ∈ port_rows (b_rows b) (b_inputs b)) as Hin.
    { intros r' s Hr. apply port_rows_elem. split; [apply lookup_lt_Some in Hr; lia|by exists s]. }
    destruct (port_rows (b_rows b) (b_inputs b)) as [|r [|]]; [done| |done]. exists r. split; [done|]. intros r' s Hr. apply Hin in Hr. by apply elem_of_list_singleton in Hr.
  Qed.
  Lemma forward_value o b r r0 nm : a_blocks a !! o = Some b -> forwards (b_typ b) -> (forall r' s, b_inputs b !! r' = Some (Some s) -> r' = r0) ->
    b_outputs b !! r = Some (Some nm) -> val o r = inval o r0.
  Proof.
    intros Hb Hf Hu Hr. destruct (facts _ _ Hb) as (ty & ins & outs & Et & _).
    destruct (Hden o b ty r (bf_at _ _ Hb) Et (port_out _ _ _ _ Hb Hr)) as (_ & _ & _ & H & _). destruct (H Hf) as (r' & Hi & Hv).
    apply (in_port_iff types f a Ha Hty Hsh Hif) in Hi as (b' & s & Hb' & Hs). rewrite Hb in Hb'. injection Hb' as <-. apply Hu in Hs as ->.
    by apply (input_value_iff types f a Ha Hok Hty Hsh Hif) in Hv.
  Qed.
  Lemma one_row (ps : list (option string)) l r r' nm nm' : omap id ps ≡ₚ l -> length l <= 1 -> ps !! r = Some (Some nm) -> ps !! r' = Some (Some nm') -> r = r'.
  Proof.
    intros Hp' Hl Hr Hr'. assert (length (omap id ps) <= 1) as Hl' by (by rewrite Hp'). clear Hp' Hl. revert r r' Hr Hr' Hl'.
    induction ps as [|c ps IH]; intros r r' Hr Hr'; [done|]. assert (forall r nm, ps !! r = Some (Some nm) -> 1 <= length (omap id ps)) as Hone.
    { intros k x Hk. assert (x ∈ omap id ps) as Hin by (apply elem_of_list_omap; exists (Some x); split; [by eapply elem_of_list_lookup_2|done]). destruct (omap id ps); [by apply elem_of_nil in Hin|cbn; lia]. }
    destruct r as [|r], r' as [|r']; cbn in Hr, Hr'; intros Hl'.
    - done.
    - injection Hr as ->. cbn in Hl'. apply Hone in Hr'. unfold id in *. lia.
    - injection Hr' as ->. cbn in Hl'. apply Hone in Hr. unfold id in *. lia.
    - f_equal. apply IH; [done|done|]. destruct c; cbn in Hl'; unfold id in *; lia.
  Qed.
  Lemma val_name o b r r' nm : a_blocks a !! o = Some b -> b_outputs b !! r = Some (Some nm) -> b_outputs b !! r' = Some (Some nm) -> val o r = val o r'.
  Proof.
    intros Hb Hr Hr'. destruct (facts _ _ Hb) as (ty & ins & outs & Et & Ei & Eo & Hs & Hpi & Hpo & Hli & _).
    assert (length outs <= 1 -> r = r') as Hone by (intros Hl; by eapply one_row).
    destruct (decide (length outs <= 1)) as [Hl|Hl]; [by rewrite Hone|]. remember (b_typ b) as t eqn:Etyp. destruct Hs as [t Ht| |t outs Ht Hl2 Hall| |t ins Ht Hl2 Hi|t ins outs Hc Hn Hi Ho]; try (cbn in Hl; lia).
    - destruct (one_input b Hpi Hli) as (r0 & _ & Hu). assert (forwards (b_typ b)) as Hf by (rewrite <- Etyp; unfold forwards; tauto).
      by rewrite (forward_value o b r r0 nm), (forward_value o b r' r0 nm).
    - subst t. destruct (call_value o b ty ins outs r nm) as (k & Hk & Hv); try done. destruct (call_value o b ty ins outs r' nm) as (k' & Hk' & Hv'); try done.
      destruct Ho as [[Hnd _]|?]; [|lia]. rewrite (NoDup_lookup _ _ _ _ Hnd Hk Hk') in Hv. rewrite Hv in Hv'. by injection Hv'.
  Qed.

  (** *** a block that has been translated before *)
  Lemma tr_again o b st : a_blocks a !! o = Some b -> multi b -> cs_ok st -> stored st o = true -> tr st st [o] o.1 [].
  Proof.
    intros Hb Hm Hst Hs. assert (forall p bp, a_blocks a !! p = Some bp -> ~ multi bp -> cnt p [o] = 0) as Hne.
    { intros p bp Hbp Hn. apply cnt_notin. intros Hin. apply elem_of_list_singleton in Hin as ->. rewrite Hb in Hbp. by injection Hbp as <-. }
    split; try done.
    - apply cs_le_refl.
    - intros p bp Hbp Hn _. by rewrite (Hne p bp).
    - intros p bp q Hbp Hn _. by rewrite (Hne p bp).
    - intros p bp Hin _ _. by apply elem_of_list_singleton in Hin as ->.
    - intros p bp q Hq. by apply elem_of_nil in Hq.
    - intros p Hq. by apply elem_of_nil in Hq.
  Qed.

  Lemma build_call t id args : is_call t -> build_op t id args = inr (XCall t id args).
  Proof.
    intros (_ & _ & _ & _ & _ & _ & Hn). unfold build_op, is_arith. destruct (String.eqb_spec t "+") as [->|]; [by destruct Hn; unfold arith; tauto|].
    destruct (String.eqb_spec t "*") as [->|]; [by destruct Hn; unfold arith; tauto|]. destruct (String.eqb_spec t "-") as [->|]; [by destruct Hn; unfold arith; tauto|].
    destruct (String.eqb_spec t "/") as [->|]; [by destruct Hn; unfold arith; tauto|]. done.
  Qed.
  Lemma runs_list_perm st st' cs vs L L' : L ≡ₚ L' -> runs_list st st' cs vs L -> runs_list st st' cs vs L'.
  Proof.
    intros Hpm H s Hs. destruct (H s Hs) as (s' & l & H1 & H2 & H3 & H4 & H5). exists s', l. split_and!; try done. by rewrite H5, (calls_perm _ _ Hpm).
  Qed.

  (** *** the inputs of a block whose inputs all become arguments *)
  Lemma inputs_ok n fuel o b ty ins ch out st : block_good n -> n < fuel -> a_blocks a !! o = Some b -> Z.to_nat (o.1 - lo) < S n -> cs_ok st ->
    types (b_typ b) = Some ty -> t_inputs ty = Some <$> ins -> ins_ok ins -> b_typ b <> "zero" ->
    Forall2 (fun r c => in_child a "zero" h m (in_name b r) (o.1 - 1) (o.2 + Z.of_nat r) c) (port_rows (b_rows b) (b_inputs b)) ch ->
    exists cl st1 codes L, tall (T fuel) st ch = cok (cl, st1) /\
      bjit types (BNode (b_id b) out (b_typ b) (b_lbl b) ((fun c : string * bast => (some_out c.1, c.2)) <$> cl)) = build_op (b_typ b) (b_id b) codes /\
      runs_list st st1 codes (argv o b) L /\ tr st st1 (feeders a o b) (o.1 - 1) L /\ length codes = length (argv o b).
  Proof.
    intros IH Hfuel Hb Hn Hst Et Ei Hi Hz HF. destruct (facts _ _ Hb) as (ty' & ins' & outs & Et' & Ei' & Eo & Hs & Hpi & Hpo & Hli & _ & Hid & _).
    rewrite Et in Et'. injection Et' as <-. rewrite Ei in Ei'. assert (ins' = ins) as -> by (by rewrite <- (omap_some ins'), <- Ei', omap_some).
    destruct (children_ok n fuel o b IH Hfuel Hb Hn _ _ st HF Hst) as (cl & st1 & ks & H1 & H2 & H3 & H4 & H5 & H6).
    destruct (bnode_args o b ty ins out (b_lbl b) cl ks) as (ks' & K1 & K2 & K3 & K4); try done. { by apply (Hif o). }
    assert (cs_ok st1) as Hst1 by apply H6.
    assert (chain st ks' st1) as Hch.
    { destruct (po_order _ _ _ Hp o b (bf_at _ _ Hb)) as [Ho|Ho].
      - rewrite K4; [done|]. rewrite (Ho ty Et). by rewrite Ei, omap_some.
      - assert (st1 = st) as ->. { apply (tr_same _ _ _ _ _ H6). by apply clean_feeders. } by eapply chain_perm. }
    exists cl, st1, ks'.*1.*1, (mjoin ks.*2). split_and!; [done|done| |done|].
    2:{ rewrite (argv_eq _ _ _ _ Et Ei), <- K2. by rewrite !fmap_length. }
    rewrite (argv_eq _ _ _ _ Et Ei), <- K2. apply (runs_list_perm _ _ _ _ (mjoin ks'.*2)); [by rewrite K3|]. by apply chain_run.
  Qed.

  Lemma multi_iff b ty outs : t_outputs ty = Some <$> outs -> omap id (b_outputs b) ≡ₚ outs -> multi b <-> 2 <= length outs.
  Proof. intros Eo Hpo. unfold multi. by rewrite Hpo. Qed.

  Lemma trans_ok n : block_good n.
  Proof.
    induction n as [|n IH]; intros o b nd out st fuel Hr Hf Hb Hnd Hset Hreq Hst; [lia|]. destruct fuel as [|fuel]; [lia|].
    destruct (facts _ _ Hb) as (ty & ins & outs & Et & Ei & Eo & Hs & Hpi & Hpo & Hli & Hlo' & Hid & _).
    destruct (to_block _ _ _ _ Htree o nd Hnd) as (b' & ch & Hb' & Hh & HF). rewrite Hb in Hb'. injection Hb' as <-.
    rewrite trans_S, Hh. cbn [mbind option_bind j_id j_typ j_lbl j_ch]. cbv zeta.
    destruct (get_var st (b_id b) (default "" out)) as [v|] eqn:Hv.
    { (* again *)
      pose proof Hv as Hk. apply (ck_key _ Hst) in Hk as (o' & b' & r & nm & i & ex & Hb' & Hr' & Hm & He & _). apply idout_inj in He as [He1 He2].
      assert (o' = o) as -> by (by eapply (Hids o' o b' b)). rewrite Hb in Hb'. injection Hb' as <-.
      assert (stored st o = true) as Hso. { apply (stored_true _ _ _ Hb). exists r, nm. split; [done|]. unfold get_var in Hv. rewrite He2 in Hv. by exists v. }
      exists (BGet 0 v), st, (XVar v), [], (val o r). split_and!.
      - done.
      - done.
      - by eapply tr_again.
      - apply runs_pure. intros s [Hs1 _]. cbn [S_Comp.xrun]. unfold xread. rewrite (Hs1 o b r nm v Hb Hr'); [done|]. by rewrite <- He2.
      - intros r' nm' Hr2 ->. rewrite default_some_out in He2. subst nm'. by eapply val_name. }
    assert (stored st o = false) as Hso.
    { apply not_true_iff_false. intros Hso. apply (stored_true _ _ _ Hb) in Hso as (r & nm & Hr1 & Hs1). destruct Hreq as [(r' & nm' & Hr' & ->)|[He _]].
      - rewrite default_some_out in Hv. destruct (ck_all _ Hst o b r r' nm nm' Hb Hr1 Hr' Hs1) as [x Hx]. unfold get_var in Hv. congruence.
      - assert (nm ∈ omap id (b_outputs b)) as Hin by (apply elem_of_list_omap; exists (Some nm); split; [by eapply elem_of_list_lookup_2|done]). rewrite He in Hin. by apply elem_of_nil in Hin. }
    clear Hv. pose proof (multi_iff b ty outs Eo Hpo) as Hmu.
    assert (forall st0 st1 L, tr st0 st1 (feeders a o b) (o.1 - 1) L -> cs_vars st0 = cs_vars st -> stored st1 o = false) as Hso1.
    { intros st0 st1 L A Hvars. destruct (stored st1 o) eqn:Es1; [|done]. exfalso.
      assert (cnt o L = 0) as Ho. { apply cnt_notin. intros Hin. apply (tr_col _ _ _ _ _ A) in Hin. lia. }
      assert (stored st0 o = false) as Hs0 by (unfold stored; rewrite Hvars; exact Hso).
      destruct (decide (multi b)) as [Hm|Hm].
      - pose proof (tr_split _ _ _ _ _ A _ _ Hb Hm) as E. rewrite Ho, Es1, Hs0 in E. done.
      - apply (stored_true _ _ _ Hb) in Es1 as (r & nm & Hr1 & x & Hx). apply (ck_key _ (tr_ok _ _ _ _ _ A)) in Hx as (o' & b' & ? & ? & ? & ? & Hb' & _ & Hm' & He & _).
        apply idout_inj in He as [He _]. assert (o' = o) as -> by (by eapply (Hids o' o b' b)). rewrite Hb in Hb'. by injection Hb' as <-. }
    assert (forall c st0, Forall2 (fun r c => in_child a "zero" h m (in_name b r) (o.1 - 1) (o.2 + Z.of_nat r) c) (port_rows (b_rows b) (b_inputs b)) [c] -> cs_ok st0 ->
      forall r0, port_rows (b_rows b) (b_inputs b) = [r0] -> exists ast st1 code L, T fuel st0 c.2 (some_out c.1.2) = cok (ast, st1) /\ bjit types ast = inr code /\
        tr st0 st1 (feeders a o b) (o.1 - 1) L /\ runs st0 st1 code (inval o r0) L) as Hfirst.
    { intros c st0 HF0 Hst0 r0 Er0. rewrite Er0 in HF0. apply Forall2_cons in HF0 as [Hc _].
      destruct (child_ok n fuel _ _ _ _ st0 IH ltac:(lia) Hc Hst0) as (ast & st1 & code & L & K1 & K2 & K3 & K4). { intros p k. by eapply left_rank. }
      exists ast, st1, code, L. split_and!; [done|done| |done]. unfold feeders. rewrite Er0. cbn [omap list_omap]. unfold L_Comp4.left.
      by destruct (find_port_at a (o.1 - 1) (o.2 + Z.of_nat r0) true) as [[p k]|]. }
    remember (b_typ b) as t eqn:Etyp. destruct Hs as [t Ht| |t outs Ht Hl2 Hall| |t ins Ht Hl2 Hi|t ins outs Hc Hn Hi Ho].
    - (* no inputs *)
      assert (port_rows (b_rows b) (b_inputs b) = []) as Erows.
      { apply nil_length_inv. rewrite <- (fmap_length (port_name (b_inputs b))), (port_names _ _ Hli). by rewrite Hpi. }
      assert (feeders a o b = []) as Efe by (unfold feeders; by rewrite Erows).
      rewrite Erows in HF. apply Forall2_nil_inv_l in HF as ->. assert (~ multi b) as Hm by (rewrite Hmu; cbn; lia).
      assert (tr st st [o] o.1 [o]) as Htr. { apply (tr_node o b st st st); [done| |done|done|left; done]. rewrite Efe. by apply tr_nil. }
      assert (forall L, calls (o :: L) = calls L) as Hcall.
      { apply (call_none o b Hb). rewrite <- Etyp. intros Hc. unfold is_call in Hc. tauto. }
      assert (forall r nm, b_outputs b !! r = Some (Some nm) -> (t = "zero" -> val o r = zero) /\ (t = "value" -> val o r = num (b_lbl b)) /\ (t = "get" -> val o r = ext (b_lbl b))) as Hval.
      { intros r nm Hr1. destruct (Hden o b ty r (bf_at _ _ Hb)) as (H1 & H2 & H3 & _); [by rewrite <- Etyp|by eapply port_out|]. by rewrite <- Etyp in H1, H2, H3. }
      destruct Ht as [->|[->| ->]].
      + exists (BNode (b_id b) out "zero" (b_lbl b) []), st, XZero, [o], zero. split_and!; [|done|done| |].
        * cbn. apply (tnode_one st (b_id b) out "zero" (b_lbl b) []). apply zero_out.
        * apply (runs_calls _ _ _ _ []); [by rewrite Hcall|]. by apply runs_pure.
        * intros r nm Hr1 _. symmetry. by apply (Hval r nm Hr1).
      + exists (BLit (b_lbl b)), st, (XLit (b_lbl b)), [o], (num (b_lbl b)). split_and!; [|done|done| |].
        * cbn [String.eqb Ascii.eqb Bool.eqb]. by rewrite (po_num _ _ _ Hp o b (bf_at _ _ Hb)).
        * apply (runs_calls _ _ _ _ []); [by rewrite Hcall|]. by apply runs_pure.
        * intros r nm Hr1 _. symmetry. by apply (Hval r nm Hr1).
      + exists (BGet (b_id b) (b_lbl b)), st, (XVar (b_lbl b)), [o], (ext (b_lbl b)). split_and!; [done|done|done| |].
        * apply (runs_calls _ _ _ _ []); [by rewrite Hcall|]. apply runs_pure. intros s [_ Hs2]. cbn [S_Comp.xrun]. unfold xread.
          rewrite (Hs2 o b Hb) by done. by rewrite (get_unreserved o b Hb).
        * intros r nm Hr1 _. symmetry. by apply (Hval r nm Hr1).
    - (* forward *)
      destruct (one_input b Hpi Hli) as (r0 & Er0 & Hu). pose proof HF as HF'. rewrite Er0 in HF'. apply Forall2_cons_inv_l in HF' as (c & ch' & _ & HF' & ->). apply Forall2_nil_inv_l in HF' as ->.
      destruct (Hfirst c st HF Hst r0 Er0) as (ast & st1 & code & L & K1 & K2 & K3 & K4).
      assert (~ multi b) as Hm by (rewrite Hmu; cbn; lia).
      exists ast, st1, code, (o :: L), (inval o r0). split_and!; [done|done| | |].
      + apply (tr_node o b st st st1); [done|done|done|done|left; done].
      + apply (runs_calls _ _ _ _ L); [|done]. symmetry. apply (call_none o b Hb). rewrite <- Etyp. intros (_ & _ & _ & _ & _ & Hc & _). apply Hc. by left.
      + intros r nm Hr1 _. symmetry. apply (forward_value o b r r0 nm Hb); [rewrite <- Etyp; by left|done|done].
    - (* split *)
      destruct (one_input b Hpi Hli) as (r0 & Er0 & Hu). pose proof HF as HF'. rewrite Er0 in HF'. apply Forall2_cons_inv_l in HF' as (c & ch' & _ & HF' & ->). apply Forall2_nil_inv_l in HF' as ->.
      set (st0 := CState (cs_vars st) (S (cs_cnt st))).
      assert (cs_ok st0) as Hst0.
      { split; [|apply Hst|apply Hst]. intros k v Hk. apply (ck_key _ Hst) in Hk as (o' & b' & r & nm & i & ex & H1 & H2 & H3 & H4 & H5 & H6). exists o', b', r, nm, i, ex. split_and!; try done. cbn. lia. }
      destruct (Hfirst c st0 HF Hst0 r0 Er0) as (ast & st1 & code & L & K1 & K2 & K3 & K4).
      set (v := tmp_name (S (cs_cnt st)) ""). set (st2 := store_var st1 (b_id b) "" v).
      assert (multi b) as Hm by (by rewrite Hmu). pose proof (Hso1 _ _ _ K3 eq_refl) as Hs1. pose proof (tr_le _ _ _ _ _ K3) as (Hle1 & Hle2 & Hle3). pose proof (tr_ok _ _ _ _ _ K3) as Hst1.
      assert (forall r nm, b_outputs b !! r = Some (Some nm) -> nm = "" /\ val o r = inval o r0) as Hname.
      { intros r nm Hr1. split; [|apply (forward_value o b r r0 nm Hb); [rewrite <- Etyp; unfold forwards; tauto|done|done]].
        assert (nm ∈ outs) as Hin by (by eapply name_in_outs). rewrite Forall_forall in Hall. by apply Hall. }
      assert (exists r1, b_outputs b !! r1 = Some (Some "")) as [r1 Hr1].
      { destruct outs as [|nm outs]; [cbn in Hl2; lia|]. assert (nm ∈ omap id (b_outputs b)) as Hin by (rewrite Hpo; by left).
        apply elem_of_list_omap in Hin as (oc & Hoc & Es). cbn in Es. subst oc. apply elem_of_list_lookup in Hoc as [r1 Hr1]. destruct (Hname _ _ Hr1) as [-> _]. by exists r1. }
      assert (forall k w, cs_vars st1 !! k = Some w -> w <> v) as Hne.
      { intros k w Hk ->. destruct (Hle3 _ _ Hk) as [Hk0|(i & ex & He & Hi)].
        - apply (ck_key _ Hst) in Hk0 as (_ & _ & _ & _ & i & ex & _ & _ & _ & _ & He & Hi). apply tmp_inj in He. lia.
        - apply tmp_inj in He. cbn in Hi. lia. }
      assert (cs_vars st1 !! idout (b_id b) "" = None) as Hnone.
      { apply eq_None_not_Some. intros Hx. apply not_true_iff_false in Hs1. apply Hs1. apply (stored_true _ _ _ Hb). by exists r1, "". }
      assert (forall k w, cs_vars st2 !! k = Some w -> (k = idout (b_id b) "" /\ w = v) \/ (k <> idout (b_id b) "" /\ cs_vars st1 !! k = Some w)) as Hinv.
      { intros k w. unfold st2, store_var. cbn [cs_vars]. rewrite lookup_insert_Some. intros [[? ?]|[? ?]]; [left|right]; by split. }
      assert (cs_ok st2) as Hst2.
      { split.
        - intros k w Hk. apply Hinv in Hk as [[-> ->]|[_ Hk]].
          + exists o, b, r1, "", (S (cs_cnt st)), "". split_and!; try done.
          + apply (ck_key _ Hst1) in Hk. exact Hk.
        - intros o' b' r r' nm nm' Hb' Hr2 Hr2' [w Hw]. destruct (decide (o' = o)) as [->|Hno].
          + rewrite Hb in Hb'. injection Hb' as <-. destruct (Hname _ _ Hr2') as [-> _]. exists v. unfold st2, store_var. cbn [cs_vars]. by rewrite lookup_insert.
          + assert (forall x, idout (b_id b') x <> idout (b_id b) "") as Hx by (intros x He; apply idout_inj in He as [He _]; by apply Hno, (Hids o' o b' b)).
            unfold st2, store_var in Hw |- *. cbn [cs_vars] in Hw |- *. rewrite lookup_insert_ne in Hw by (by intros ?%eq_sym%Hx). rewrite lookup_insert_ne by (by intros ?%eq_sym%Hx).
            apply (ck_all _ Hst1 o' b' r r' nm nm'); try done.
        - intros k k' w Hk Hk'. apply Hinv in Hk as [[-> ->]|[_ Hk]]; apply Hinv in Hk' as [[-> E]|[_ Hk']].
          + done.
          + by destruct (Hne _ _ Hk').
          + subst w. by destruct (Hne _ _ Hk).
          + by eapply (ck_inj _ Hst1). }
      assert (cs_le st st2) as Hle.
      { split; [|split; [cbn in *; lia|]].
        - apply map_subseteq_spec. intros k w Hk. unfold st2, store_var. cbn [cs_vars]. assert (cs_vars st1 !! k = Some w) as Hk1 by (by eapply lookup_weaken).
          rewrite lookup_insert_ne; [done|]. intros <-. congruence.
        - intros k w Hk. apply Hinv in Hk as [[-> ->]|[_ Hk]].
          + right. eexists _, _. split; [reflexivity|]. cbn in *. lia.
          + destruct (Hle3 _ _ Hk) as [Hk0|(i & ex & -> & Hi)]; [by left|]. right. exists i, ex. split; [done|]. cbn in *. lia. }
      exists (BArea [BSet v ast; BGet 0 v]), st2, (XStmts [XAssign v code; XVar v]), (o :: L), (inval o r0). split_and!.
      + change (if String.eqb t "->2" || String.eqb t "->3" then ?x else ?y) with (if String.eqb t "->2" || String.eqb t "->3" then x else y).
        assert (String.eqb t "<a>" = false /\ String.eqb t "<r>" = false /\ String.eqb t "->" = false /\ String.eqb t "value" = false /\ String.eqb t "set" = false /\
          String.eqb t "<res>" = false /\ String.eqb t "get" = false /\ String.eqb t "->2" || String.eqb t "->3" = true) as (-> & -> & -> & -> & -> & -> & -> & ->) by (by destruct Ht as [->| ->]).
        fold st0. rewrite K1. done.
      + rewrite bjit_area. cbn [bjits]. change (bjit types (BSet ?v ?e)) with (ebind (bjit types e) (fun x => inr (XAssign v x))). rewrite K2. done.
      + apply (tr_node o b st st0 st1); [done|done|done|cbn; lia|]. right. split_and!; try done.
        * intros p Hpo'. unfold stored. destruct (a_blocks a !! p) as [bp|] eqn:Hbp; [|done]. clear -Hpo' Hbp Hb Hids. induction (b_outputs bp) as [|c l IHl]; [done|]. cbn [existsb]. rewrite IHl. f_equal.
          destruct c as [nm|]; [|done]. unfold st2, store_var. cbn [cs_vars]. rewrite lookup_insert_ne; [done|]. intros He. apply idout_inj in He as [He _]. by apply Hpo', (Hids p o bp b).
        * apply (stored_true _ _ _ Hb). exists r1, "". split; [done|]. exists v. unfold st2, store_var. cbn [cs_vars]. by rewrite lookup_insert.
      + apply (runs_calls _ _ _ _ L).
        { symmetry. apply (call_none o b Hb). rewrite <- Etyp. intros (_ & _ & _ & _ & _ & Hc & _). apply Hc. unfold forwards. tauto. }
        intros s Hs. destruct (K4 s) as (s1 & l & E1 & He1 & Hf1 & Hl1 & Hp1); [exact Hs|].
        exists (xassign s1 v (inval o r0)), l. split_and!.
        * rewrite xrun_stmts, xseq_cons. change (xrun (XAssign ?v ?e) s) with (let* (x, st) := xrun e s in Some (x, xassign st v x)). rewrite E1. cbn [mbind option_bind].
          rewrite xseq_cons. cbn [S_Comp.xrun]. assert (xread ext (xassign s1 v (inval o r0)) v = Some (inval o r0)) as -> by (unfold xread, xassign; cbn [x_env]; by rewrite lookup_insert). done.
        * destruct He1 as [A1 A2]. split.
          -- intros o' b' r nm w Hb' Hr2 Hw. unfold xassign. cbn [x_env]. apply Hinv in Hw as [[He ->]|[_ Hw]].
             ++ apply idout_inj in He as [He _]. assert (o' = o) as -> by (by eapply (Hids o' o b' b)). rewrite Hb in Hb'. injection Hb' as <-.
                destruct (Hname _ _ Hr2) as [_ ->]. by rewrite lookup_insert.
             ++ rewrite lookup_insert_ne by (by apply not_eq_sym, (Hne (idout (b_id b') nm))). by eapply A1.
          -- intros o' b' Hb' Ht'. unfold xassign. cbn [x_env]. rewrite lookup_insert_ne; [by eapply A2|]. intros He.
             pose proof (get_unreserved _ _ Hb' Ht') as Hu'. rewrite <- He in Hu'. done.
        * intros x Hx. unfold xassign. cbn [x_env]. rewrite lookup_insert_ne.
          -- apply Hf1. intros Hfr. apply Hx. apply (fresh_le st st0); [cbn; lia|done].
          -- intros <-. apply Hx. left. eexists _, _. split; [reflexivity|]. lia.
        * exact Hl1.
        * exact Hp1.
      + intros r nm Hr2 _. symmetry. by apply (Hname r nm).
    - done.
    - (* arithmetic *)
      rewrite Etyp in *. assert (~ multi b) as Hm by (rewrite Hmu; cbn; lia).
      destruct (inputs_ok n fuel o b ty ins ch out st) as (cl & st1 & codes & L & K1 & K2 & K3 & K4 & K5); try done. { lia. } { intros E. rewrite E in Ht. unfold arith in Ht. naive_solver. }
      assert (exists c1 c2 x y, codes = [c1; c2] /\ argv o b = [x; y]) as (c1 & c2 & x & y & -> & Eargs).
      { assert (length (argv o b) = 2) as Hl.
        { rewrite (argv_eq _ _ _ _ Et Ei), fmap_length. destruct (named_rows b ins Hi Hpi Hli) as [Hpm _].
          rewrite Hpm, <- (fmap_length (port_name (b_inputs b))), (port_names _ _ Hli). by rewrite Hpi. }
        rewrite Hl in K5. destruct codes as [|c1 [|c2 [|]]], (argv o b) as [|x [|y [|]]]; try done. by exists c1, c2, x, y. }
      exists (BNode (b_id b) out (b_typ b) (b_lbl b) ((fun c : string * bast => (some_out c.1, c.2)) <$> cl)), st1, (XBin (b_typ b) c1 c2), (o :: L), (bin (b_typ b) x y). split_and!.
      + assert (forall z, tnode types z (b_id b) out (b_typ b) (b_lbl b) cl = cok (BNode (b_id b) out (b_typ b) (b_lbl b) ((fun c : string * bast => (some_out c.1, c.2)) <$> cl), z)) as Htn.
        { intros z. apply tnode_one. intros o0 o1 names. unfold out_names. rewrite Et, Eo, omap_some. done. }
        clear Hfirst. destruct Ht as [E|[E|[E|E]]]; rewrite E in *; cbn [String.eqb Ascii.eqb Bool.eqb orb]; rewrite K1; cbn [cbind fst snd cok]; apply Htn.
      + rewrite K2. unfold build_op. assert (is_arith (b_typ b) = true) as -> by (by destruct Ht as [->|[->|[->| ->]]]). done.
      + apply (tr_node o b st st st1); [done|done|done|done|left; done].
      + apply (runs_calls _ _ _ _ L). { symmetry. apply (call_none o b Hb). intros (_ & _ & _ & _ & _ & _ & Hc). by apply Hc. }
        intros s Hs. destruct (K3 s Hs) as (s' & l & E1 & He1 & Hf1 & Hl1 & Hp1). exists s', l. split_and!; try done.
        rewrite Eargs in E1. rewrite !xargs_cons in E1. rewrite xrun_bin. destruct (xrun c1 s) as [[u s1]|]; [|done]. cbn [mbind option_bind] in E1 |- *. rewrite xargs_cons in E1.
        destruct (xrun c2 s1) as [[w s2]|]; [|done]. cbn in E1 |- *. by injection E1 as -> -> ->.
      + intros r nm Hr1 _. destruct (Hden o b ty r (bf_at _ _ Hb) Et (port_out _ _ _ _ Hb Hr1)) as (_ & _ & _ & _ & H & _). destruct (H Ht) as (x' & y' & Ha' & ->).
        rewrite (args_of_iff types f a Ha Hok Hty Hsh Hif zero val o b ty ins _ Hb Ei Hi Hpi Hli) in Ha'. rewrite (argv_eq _ _ _ _ Et Ei), <- Ha' in Eargs. by injection Eargs as -> ->.
    - (* call *)
      rewrite Etyp in *.
      destruct (inputs_ok n fuel o b ty ins ch out st) as (cl & st1 & codes & L & K1 & K2 & K3 & K4 & K5); try done. { lia. } { apply Hc. }
      rewrite build_call in K2 by done. pose proof (tr_ok _ _ _ _ _ K4) as Hst1. pose proof (tr_le _ _ _ _ _ K4) as Hle1.
      assert (String.eqb (b_typ b) "<a>" = false /\ String.eqb (b_typ b) "<r>" = false /\ String.eqb (b_typ b) "->" = false /\ String.eqb (b_typ b) "value" = false /\ String.eqb (b_typ b) "set" = false /\
          String.eqb (b_typ b) "<res>" = false /\ String.eqb (b_typ b) "get" = false /\ String.eqb (b_typ b) "->2" || String.eqb (b_typ b) "->3" = false) as (-> & -> & -> & -> & -> & -> & -> & ->).
      { destruct Hc as (_ & C1 & C2 & _ & _ & C3 & _). unfold forwards in C3. rewrite orb_false_iff, !String.eqb_neq.
        assert (b_typ b <> "<a>" /\ b_typ b <> "<r>" /\ b_typ b <> "<res>") by (split_and!; intros E; apply Hn; rewrite E; set_solver). tauto. }
      rewrite K1. cbn [cbind fst snd cok].
      destruct (decide (2 <= length outs)) as [Hl2|Hl2].
      + destruct Ho as [[Hdup Hne]|?]; [|lia]. destruct outs as [|o0 [|o1 rest]] eqn:Eouts; [cbn in Hl2; lia|cbn in Hl2; lia|]. rewrite <- Eouts in *.
        destruct (multi_ok o b ty ins outs st st1 codes out L (b_lbl b) cl o0 o1 rest) as (ast & st2 & code & v & M1 & M2 & M3 & M4 & M5 & M6 & M7 & M8 & M9); try done. { by eapply Hso1. }
        exists ast, st2, code, (o :: L), v. split_and!; try done. apply (tr_node o b st st st1); [done|done|done|done|right; done].
      + assert (~ multi b) as Hm by (rewrite Hmu; lia).
        exists (BNode (b_id b) out (b_typ b) (b_lbl b) ((fun c : string * bast => (some_out c.1, c.2)) <$> cl)), st1, (XCall (b_typ b) (b_id b) codes), (o :: L),
          (default zero (head (node (b_typ b) (b_id b) (argv o b)))). split_and!.
        * apply tnode_one. intros o0 o1 names. unfold out_names. rewrite Et, Eo, omap_some. intros ->. cbn in Hl2. lia.
        * done.
        * apply (tr_node o b st st st1); [done|done|done|done|left; done].
        * intros s Hs. destruct (call_run st st1 o b codes L s Hb Hc Hst1 Hle1 K3 Hs) as (s2 & l & E1 & E2 & E3 & _ & E4 & E5). exists s2, l. done.
        * intros r nm Hr1 _. destruct (call_value o b ty ins outs r nm) as (k & Hk & Hv); try done.
          assert (k = 0) as -> by (apply lookup_lt_Some in Hk; lia). by destruct (node (b_typ b) (b_id b) (argv o b)); [|injection Hv as ->].
  Qed.

  (** ** The statements of the program *)
  Notation owner_in := (sink_owner types f a Ha Hok Hty Hsh Hif).
  Notation sinks_of := (sink_block types f a Ha Hok Hty Hsh Hif).
  Definition svar (s : Z * Z * option nat) : option string :=
    match s.2 with
    | Some _ => Some "_res_"
    | None => match a_blocks a !! s.1 with Some b => if String.eqb (b_typ b) "set" then Some (b_lbl b) else None | None => None end
    end.
  Definition sval (s : Z * Z * option nat) : V :=
    match s.2 with
    | Some r => val (owner s) r
    | None => match a_blocks a !! s.1 with Some b => match port_rows (b_rows b) (b_inputs b) with r :: _ => inval s.1 r | [] => zero end | None => zero end
    end.
  Definition sruns (st st' : cstate) (c : jast) (s : Z * Z * option nat) (L : list (Z * Z)) : Prop := forall x, envok st x -> exists v x' l,
    xrun c x = Some (v, x') /\ envok st' x' /\ (forall y, ~ fresh st y -> x_env x' !! y = if decide (svar s = Some y) then Some (sval s) else x_env x !! y) /\
    x_log x' = x_log x ++ l /\ l ≡ₚ calls L.

  Lemma tr_weak st st' os x x' L : (x <= x')%Z -> tr st st' os x L -> tr st st' os x' L.
  Proof. intros Hx H. split; try apply H. intros p Hp'. apply (tr_col _ _ _ _ _ H) in Hp'. lia. Qed.
  Lemma envok_assign st s w x : cs_ok st -> envok st s -> (forall i ex, tmp_name i ex <> w) -> (forall o b, a_blocks a !! o = Some b -> b_typ b = "get" -> b_lbl b <> w) ->
    envok st (xassign s w x).
  Proof.
    intros Hst [H1 H2] Hw Hg. split.
    - intros o b r nm v Hb Hr Hv. unfold xassign. cbn [x_env]. rewrite lookup_insert_ne; [by eapply H1|]. intros ->. apply (ck_key _ Hst) in Hv as (?&?&?&?&i&ex&_&_&_&_&He&_). by eapply Hw.
    - intros o b Hb Ht. unfold xassign. cbn [x_env]. rewrite lookup_insert_ne; [by eapply H2|]. intros He. by apply (Hg _ _ Hb Ht).
  Qed.
  Lemma assign_sruns st st' c v L w s : cs_ok st' -> runs st st' c v L -> svar s = Some w -> sval s = v -> (forall i ex, tmp_name i ex <> w) ->
    (forall o b, a_blocks a !! o = Some b -> b_typ b = "get" -> b_lbl b <> w) -> sruns st st' (XAssign w c) s L.
  Proof.
    intros Hst Hr Hs Hv Hw Hg x Hx. destruct (Hr x Hx) as (x1 & l & E1 & E2 & E3 & E4 & E5). exists v, (xassign x1 w v), l. split_and!.
    - change (xrun (XAssign w c) x) with (let* (y, st) := xrun c x in Some (y, xassign st w y)). by rewrite E1.
    - by apply envok_assign.
    - intros y Hy. rewrite Hs, Hv. unfold xassign. cbn [x_env]. destruct (decide (Some w = Some y)) as [[= <-]|Hne]; [by rewrite lookup_insert|].
      rewrite lookup_insert_ne by congruence. by apply E3.
    - exact E4.
    - exact E5.
  Qed.

  Context (N : nat) (HN : forall o b, a_blocks a !! o = Some b -> Z.to_nat (o.1 - lo) < N).
  Lemma no_var st n out : cs_ok st -> (forall o b, a_blocks a !! o = Some b -> b_id b = n -> omap id (b_outputs b) = []) -> get_var st n out = None.
  Proof.
    intros Hst H. destruct (get_var st n out) as [v|] eqn:E; [|done]. apply (ck_key _ Hst) in E as (o & b & r & nm & i & ex & Hb & Hr & Hm & He & _).
    apply idout_inj in He as [-> _]. pose proof (H _ _ Hb eq_refl) as Hx. unfold multi in Hm. rewrite Hx in Hm. cbn in Hm. lia.
  Qed.
  Lemma stmt_ok fuel s c st : S N < fuel -> s ∈ collect_sinks a -> sink_child a "zero" h m s c -> cs_ok st ->
    exists ast st' code L, T fuel st c.2 None = cok (ast, st') /\ bjit types ast = inr code /\ tr st st' [owner s] (owner s).1 L /\ sruns st st' code s L.
  Proof.
    intros Hfuel Hs Hc Hst. destruct (owner_in s Hs) as (b & Hb & Hsb). apply (sinks_of _ _ _ Hb) in Hsb. destruct fuel as [|fuel]; [lia|].
    destruct Hc as [Hc0 Hc]. destruct Hsb as [[Hno Es]|(r & [Hop _] & Es)].
    - rewrite Es in Hc. cbn [fst snd] in Hc. destruct Hc as (b' & p & Hr & Hm). apply ref_at_ok in Hr as [Hb' Hcov]; [|done].
      assert (p = owner s) as ->. { destruct Hok as (Hap & Hrw & _). assert (covers (owner s) b (owner s)) as Hcov'. { specialize (Hrw _ _ Hb). split; [done|lia]. }
        rewrite <- surjective_pairing in Hcov. symmetry. exact (Hap _ _ _ _ _ Hb Hb' Hcov' Hcov). }
      rewrite Hb in Hb'. injection Hb' as <-. set (o := owner s) in *.
      destruct (decide (b_typ b = "set")) as [Et|Et].
      + destruct (facts _ _ Hb) as (ty & ins & outs & Ety & Ei & Eo & Hsh' & Hpi & Hpo & Hli & _). rewrite Et in Hsh'. apply shape_noset in Hsh' as [-> ->].
        destruct (to_block _ _ _ _ Htree o c.2 Hm) as (b' & ch & Hb' & Hh & HF). rewrite Hb in Hb'. injection Hb' as <-.
        destruct (one_input b Hpi Hli) as (r0 & Er0 & Hu). rewrite Er0 in HF. apply Forall2_cons_inv_l in HF as (c' & ch' & Hc' & HF & ->). apply Forall2_nil_inv_l in HF as ->.
        destruct (child_ok N fuel _ _ _ _ st (trans_ok N) ltac:(lia) Hc' Hst) as (ast & st1 & code & L & K1 & K2 & K3 & K4).
        { intros q k Hq. eapply left_rank; [exact Hb| |exact Hq]. specialize (HN _ _ Hb). lia. }
        assert (~ multi b) as Hmu by (unfold multi; rewrite Hno; cbn; lia).
        exists (BSet (b_lbl b) ast), st1, (XAssign (b_lbl b) code), (o :: L). split_and!.
        * rewrite trans_S, Hh. cbn [mbind option_bind j_id j_typ j_lbl j_ch]. cbv zeta. rewrite no_var.
          -- rewrite Et. cbn [String.eqb Ascii.eqb Bool.eqb]. unfold tfirst. by rewrite K1.
          -- done.
          -- intros o' b' Hb' Hid. assert (o' = o) as -> by (by eapply (Hids o' o b' b)). by simplify_eq.
        * change (bjit types (BSet ?v ?e)) with (ebind (bjit types e) (fun x => inr (XAssign v x))). by rewrite K2.
        * apply (tr_node o b st st st1); [done| |done|done|left; done]. unfold feeders. rewrite Er0. cbn [omap list_omap]. unfold L_Comp4.left.
          by destruct (find_port_at a (o.1 - 1) (o.2 + Z.of_nat r0) true) as [[p k]|].
        * assert (sruns st st1 (XAssign (b_lbl b) code) s L) as Hrun.
          { eapply assign_sruns; [apply K3|exact K4| | | |].
            - rewrite Es. unfold svar. cbn [fst snd]. rewrite Hb. by rewrite Et.
            - rewrite Es. unfold sval. cbn [fst snd]. by rewrite Hb, Er0.
            - intros i ex He. assert (reserved (b_lbl b) = false) as Hre by (apply (po_var _ _ _ Hp o b); [by apply bf_at|by left]). by rewrite <- He in Hre.
            - intros o' b' Hb' Hg He. apply (po_apart _ _ _ Hp o o' b b'); [by apply bf_at|by apply bf_at|done|done|done]. }
          intros x Hx. destruct (Hrun x Hx) as (v & x' & l & R1 & R2 & R3 & R4 & R5). exists v, x', l. split_and!; try done. rewrite (call_none o b Hb); [done|]. intros (_ & _ & _ & Hns & _). done.
      + destruct (trans_ok N o b c.2 None st (S fuel)) as (ast & st' & code & L & v & K1 & K2 & K3 & K4 & _); try done.
        { by eapply HN. } { lia. } { by right. }
        exists ast, st', code, L. split_and!; try done. intros x Hx. destruct (K4 x Hx) as (x' & l & R1 & R2 & R3 & R4 & R5). exists v, x', l. split_and!; try done.
        intros y Hy. rewrite decide_False; [by apply R3|]. rewrite Es. unfold svar. cbn [fst snd]. rewrite Hb. by rewrite (proj2 (String.eqb_neq _ _) Et).
    - rewrite Es in Hc. cbn [fst snd] in Hc. destruct Hc as (c' & Hh & Hc'). set (o := owner s) in *.
      assert (find_port_at a o.1 (o.2 + Z.of_nat r) true = Some (o, r)) as Hfp.
      { apply (find_port_ok _ _ _ _ _ _ Hok). apply (out_port_iff types f a Ha Hty Hsh Hif) in Hop as (b' & nm & Hb' & Hnm). exists b', nm. rewrite Hb in Hb'. injection Hb' as <-.
        split_and!; try done. destruct (facts _ _ Hb) as (?&?&?&?&?&?&?&?&?&?&Hl&_). apply lookup_lt_Some in Hnm. lia. }
      destruct (child_ok N fuel _ _ _ _ st (trans_ok N) ltac:(lia) Hc' Hst) as (ast & st1 & code & L & K1 & K2 & K3 & K4).
      { intros q k Hq. rewrite Hfp in Hq. injection Hq as <- <-. by eapply HN. }
      unfold pval in K4. rewrite Hfp in K3, K4. cbn [fmap option_fmap option_map fst option_list] in K3.
      exists (BSet "_res_" ast), st1, (XAssign "_res_" code), L. split_and!.
      + rewrite trans_S, Hh. cbn [mbind option_bind j_id j_typ j_lbl j_ch]. cbv zeta. rewrite no_var.
        * cbn [String.eqb Ascii.eqb Bool.eqb]. unfold tfirst. by rewrite K1.
        * done.
        * intros o' b' Hb' Hid. destruct (facts _ _ Hb') as (?&?&?&?&?&?&?&?&?&?&_&Hid'&_). lia.
      + change (bjit types (BSet ?v ?e)) with (ebind (bjit types e) (fun x => inr (XAssign v x))). by rewrite K2.
      + done.
      + eapply assign_sruns; [apply K3|exact K4| | | |].
        * by rewrite Es.
        * rewrite Es. unfold sval. cbn [fst snd]. f_equal. unfold owner. cbn [fst snd]. destruct o. cbn. f_equal. lia.
        * intros i ex. apply tmp_res.
        * intros o' b' Hb' Hg He. pose proof (get_unreserved _ _ Hb' Hg) as Hre. by rewrite He in Hre.
  Qed.

  Definition last_of (ss : list (Z * Z * option nat)) (y : string) (init : option V) : option V :=
    foldl (fun acc s => if decide (svar s = Some y) then Some (sval s) else acc) init ss.
  Context (hi : Z) (Hhi : forall o b, a_blocks a !! o = Some b -> (o.1 <= hi)%Z).
  Lemma stmts_ok fuel : S N < fuel -> forall ss chs st, Forall (fun s => s ∈ collect_sinks a) ss -> Forall2 (sink_child a "zero" h m) ss chs -> cs_ok st ->
    exists cl st' codes L, tall (T fuel) st chs = cok (cl, st') /\ bjits types (snd <$> cl) = inr codes /\ tr st st' (owner <$> ss) hi L /\
      forall v x, envok st x -> exists v' x' l, xseq codes v x = Some (v', x') /\ envok st' x' /\
        (forall y, ~ fresh st y -> x_env x' !! y = last_of ss y (x_env x !! y)) /\ x_log x' = x_log x ++ l /\ l ≡ₚ calls L.
  Proof.
    intros Hfuel. induction ss as [|s ss IHs]; intros chs st Hin HF Hst.
    - apply Forall2_nil_inv_l in HF as ->. exists [], st, [], []. split_and!; [done|done|by apply tr_nil|]. intros v x Hx. exists v, x, []. split_and!; [done|done|done|by rewrite app_nil_r|done].
    - apply Forall2_cons_inv_l in HF as (c & chs' & Hc & HF & ->). apply Forall_cons in Hin as [Hs Hin].
      destruct (stmt_ok fuel s c st Hfuel Hs Hc Hst) as (ast & st1 & code & L & K1 & K2 & K3 & K4).
      destruct (IHs chs' st1 Hin HF (tr_ok _ _ _ _ _ K3)) as (cl & st' & codes & L' & J1 & J2 & J3 & J4).
      exists ((c.1.1, ast) :: cl), st', (code :: codes), (L ++ L'). split_and!.
      + cbn [tall]. destruct Hc as [Hc0 _]. rewrite Hc0. cbn [fst snd some_out String.eqb]. rewrite K1. cbn [cbind fst snd cok]. fold (tall (T fuel)). by rewrite J1.
      + cbn [fmap list_fmap snd bjits]. fold (bjits types). rewrite K2. cbn [ebind]. by rewrite J2.
      + cbn [fmap list_fmap]. apply (tr_app _ st1 _ [owner s]); [|done]. eapply tr_weak; [|exact K3]. destruct (owner_in s Hs) as (b & Hb & _). by eapply Hhi.
      + intros v x Hx. destruct (K4 x Hx) as (v1 & x1 & l1 & R1 & R2 & R3 & R4 & R5). destruct (J4 v1 x1 R2) as (v2 & x2 & l2 & Q1 & Q2 & Q3 & Q4 & Q5).
        exists v2, x2, (l1 ++ l2). split_and!.
        * rewrite xseq_cons, R1. exact Q1.
        * done.
        * intros y Hy. rewrite Q3; [cbn [last_of foldl]; by rewrite R3|]. intros Hfr. apply Hy. eapply fresh_le; [|exact Hfr]. apply K3.
        * by rewrite Q4, R4, app_assoc.
        * by rewrite R5, Q5, calls_app.
  Qed.

  (** every block once *)
  Lemma all_once st st' L : (forall p, stored st p = false) -> tr st st' (owner <$> rev (collect_sinks a)) hi L -> forall n p b, Z.to_nat (hi - p.1) < n -> a_blocks a !! p = Some b -> cnt p L = 1.
  Proof.
    intros Hst Htr. induction n as [|n IH]; intros p b Hn Hb; [lia|].
    assert (forall q, feeds f 0 p q -> cnt q L = 1) as Hq.
    { intros q Hq. destruct (feeds_block f a Ha _ _ Hq) as [_ [bq Hbq]]. apply (IH q bq); [|done]. apply feeds_col in Hq. pose proof (Hhi _ _ Hbq). lia. }
    destruct (decide (multi b)) as [Hm|Hm].
    - pose proof (tr_split _ _ _ _ _ Htr p b Hb Hm) as E. rewrite Hst in E. cbn in E. rewrite Nat.add_0_r in E. rewrite E. assert (stored st' p = true) as ->; [|done].
      destruct (multi_case types f a Ha Hok Hty Hsh Hif p b Hb Hm) as [[q Hfe]|(s & Hs & Ho)].
      + eapply (tr_feed _ _ _ _ _ Htr p b q); [|done|done|done]. apply cnt_in_inv. rewrite Hq; [lia|done].
      + apply (tr_req _ _ _ _ _ Htr p b); [|done|done]. apply elem_of_list_fmap. exists s. split; [done|]. apply elem_of_list_In. rewrite <- in_rev. by apply elem_of_list_In.
    - pose proof (sink_count types f a Ha Hok Hty Hsh Hif p b Hb) as Hcnt. destruct (sink_one types f a Ha Hok Hty Hsh Hif p b Hb Hm) as [(q & Hfe & Hl)|[Hfe Hl]].
      + rewrite (tr_mid _ _ _ _ _ Htr p b q Hb Hm Hfe), Hcnt, Hl, Hq; done.
      + by rewrite (tr_end _ _ _ _ _ Htr p b Hb Hm Hfe), Hcnt, Hl.
  Qed.
  Lemma calls_ids L : (forall p b, a_blocks a !! p = Some b -> cnt p L = 1) -> NoDup (calls L).*1.*2 /\ forall c, c ∈ calls L <-> exists p, call_at p = Some c.
  Proof.
    intros Hcnt. split.
    - assert (forall p b, a_blocks a !! p = Some b -> cnt p L <= 1) as Hle by (intros p b Hb; rewrite (Hcnt p b Hb); done). clear Hcnt. induction L as [|p L IH]; [constructor|].
      assert (NoDup (calls L).*1.*2) as Hnd. { apply IH. intros q b Hb. specialize (Hle q b Hb). rewrite cnt_cons in Hle. lia. }
      unfold calls. cbn [omap list_omap]. fold (calls L). unfold call_at at 1. destruct (a_blocks a !! p) as [b|] eqn:Hb; [|done]. destruct (decide (is_call (b_typ b))); [|done].
      cbn [fmap list_fmap fst snd]. constructor; [|done]. intros Hin. apply elem_of_list_fmap in Hin as ([t id] & Hid & Hin). apply elem_of_list_fmap in Hin as ([[t' id'] vs] & [= -> ->] & Hin). cbn in Hid. subst id'.
      apply elem_of_list_omap in Hin as (q & Hq & Hcall). unfold call_at in Hcall. destruct (a_blocks a !! q) as [bq|] eqn:Hbq; [|done]. destruct (decide (is_call (b_typ bq))); [|done].
      injection Hcall as <- Hid <-. assert (q = p) as -> by (by eapply (Hids q p bq b)). specialize (Hle p b Hb). rewrite cnt_cons, decide_True in Hle by done. apply cnt_in in Hq. lia.
    - intros c. unfold calls. rewrite elem_of_list_omap. split; [intros (p & _ & Hc); by exists p|]. intros [p Hc]. exists p. split; [|done].
      unfold call_at in Hc. destruct (a_blocks a !! p) as [b|] eqn:Hb; [|done]. apply cnt_in_inv. rewrite (Hcnt p b Hb). done.
  Qed.
  Lemma call_of_iff c : call_of zero types f val c <-> exists p, call_at p = Some c.
  Proof.
    unfold call_of. split.
    - intros (o & b & ty & vs & Hb & Et & Hc & Hargs & ->). exists o. unfold bf_block_at in Hb. rewrite Ha in Hb. cbn in Hb. unfold call_at. rewrite Hb, decide_True by done.
      destruct (facts _ _ Hb) as (ty' & ins & outs & Et' & Ei & Eo & Hs & Hpi & Hpo & Hli & _). rewrite Et in Et'. injection Et' as <-.
      rewrite (args_of_iff types f a Ha Hok Hty Hsh Hif zero val o b ty ins _ Hb Ei (ins_shape _ _ _ Hs) Hpi Hli) in Hargs. by rewrite Hargs, (argv_eq _ _ _ _ Et Ei).
    - intros [o Hc]. unfold call_at in Hc. destruct (a_blocks a !! o) as [b|] eqn:Hb; [|done]. destruct (decide (is_call (b_typ b))) as [Hca|]; [|done]. injection Hc as <-.
      destruct (facts _ _ Hb) as (ty & ins & outs & Et & Ei & Eo & Hs & Hpi & Hpo & Hli & _). exists o, b, ty, (argv o b). split_and!; try done; [by apply bf_at|].
      apply (args_of_iff types f a Ha Hok Hty Hsh Hif zero val o b ty ins _ Hb Ei (ins_shape _ _ _ Hs) Hpi Hli). exact (argv_eq _ _ _ _ Et Ei).
  Qed.

  (** the last statement for a variable *)
  Lemma last_of_app ss ss' y init : last_of (ss ++ ss') y init = last_of ss' y (last_of ss y init).
  Proof. unfold last_of. by rewrite foldl_app. Qed.
  Lemma last_of_none ss y init : (forall s, s ∈ ss -> svar s <> Some y) -> last_of ss y init = init.
  Proof.
    revert init. induction ss as [|s ss IHs]; intros init H; [done|]. cbn [last_of foldl]. rewrite decide_False by (apply H; by left). apply IHs. intros t Ht. apply H. by right.
  Qed.
  Lemma last_of_last s y l init : StronglySorted (fun s t => sink_le t s) l -> s ∈ l -> svar s = Some y ->
    (forall t, t ∈ l -> svar t = Some y -> sink_le t s /\ (sink_le s t -> sval t = sval s)) -> last_of (rev l) y init = Some (sval s).
  Proof.
    induction 1 as [|t l Hl IHl Ht]; intros Hin Hs Hmax; [by apply elem_of_nil in Hin|]. cbn [rev]. rewrite last_of_app. cbn [last_of foldl].
    destruct (decide (svar t = Some y)) as [Hty'|Hty'].
    - f_equal. apply Hmax; [by left|done|]. apply elem_of_cons in Hin as [->|Hin]; [unfold sink_le, read_le; lia|]. rewrite Forall_forall in Ht. by apply Ht.
    - apply elem_of_cons in Hin as [->|Hin]; [done|]. apply IHl; [done|done|]. intros u Hu. apply Hmax. by right.
  Qed.
End comp.
