(** Proofs about the wiring of a program: [prog_assign] *)
From Verif Require Import Base M_Atom M_Prog L_Conf.
Open Scope nat_scope.

Notation ientry := (nat * nat * option nat)%type (only parsing).

Definition to_input (g : nat) (l : list (nat * nat * option nat)) : option (nat * nat * option nat) :=
  last (filter (fun io => io.1.2 = g) l).
Definition to_mod (m : nat) (l : list (nat * nat * option nat)) : option (nat * nat * option nat) :=
  last (filter (fun io => io.2 = Some m) l).

Definition entry_wf (no ni nm : nat) (io : nat * nat * option nat) : Prop :=
  io.1.1 < no /\ io.1.2 < ni /\ forall m, io.2 = Some m -> m < nm.

(** what input [g] reads after the entries are assigned *)
Definition src_buf (out : list nat) (mods : list modop) (old : option (option nat)) (o : option (nat * nat * option nat))
  : option (option nat) :=
  match o with
  | None => old
  | Some (oi, _, None) => Some (out !! oi)
  | Some (_, _, Some m) => Some (mo_buf <$> mods !! m)
  end.

Definition mod_wired (inp out : list nat) (mo : modop) (o : option (nat * nat * option nat)) : modop :=
  match o with
  | None => mo
  | Some (oi, ii, _) => ModOp (mo_amt mo) (mo_buf mo) (out !! oi) (inp !! ii)
  end.

Lemma last_filter_snoc {A} (P : A -> Prop) `{!forall x, Decision (P x)} l x :
  last (filter P (l ++ [x])) = if decide (P x) then Some x else last (filter P l).
Proof.
  rewrite filter_app. destruct (decide (P x)) as [Hx|Hx].
  - rewrite filter_cons_True by done. rewrite filter_nil. by rewrite last_snoc.
  - rewrite filter_cons_False by done. rewrite filter_nil. by rewrite app_nil_r.
Qed.

Lemma assign_inputs_spec inp out entries cur mods :
  length inp = length cur ->
  Forall (entry_wf (length out) (length cur) (length mods)) entries ->
  exists cur' mods', foldm (assign_input inp out) (cur, mods) entries = Some (cur', mods') /\
    length cur' = length cur /\ length mods' = length mods /\
    (forall g, g < length cur -> cur' !! g = src_buf out mods (cur !! g) (to_input g entries)) /\
    (forall m mo, mods !! m = Some mo -> mods' !! m = Some (mod_wired inp out mo (to_mod m entries))).
Proof.
  intros Hlen. induction entries as [|[[oi ii] md] entries IH] using rev_ind; intros Hwf.
  - exists cur, mods. split; [done|]. done.
  - apply Forall_app in Hwf as [Hwf Hw]. apply (proj1 (Forall_singleton _ _)) in Hw.
    destruct (IH Hwf) as (cur1 & mods1 & E & Hl1 & Hl2 & Hc & Hm). rewrite foldm_app, E. cbn [mbind option_bind foldm].
    destruct Hw as (Hoi & Hii & Hmd). cbn [fst snd] in *.
    unfold assign_input. destruct (lookup_lt_is_Some_2 out oi Hoi) as [ob Hob]. rewrite Hob. cbn [mbind option_bind].
    rewrite Hl1. destruct (Nat.ltb_spec ii (length cur)); [|lia]. cbn [negb].
    destruct md as [m|].
    + destruct (lookup_lt_is_Some_2 mods m (Hmd m eq_refl)) as [mo0 Hmo0].
      pose proof (Hm m mo0 Hmo0) as Hmo. rewrite Hmo. cbn [mbind option_bind].
      destruct (lookup_lt_is_Some_2 inp ii) as [ib Hib]; [lia|]. rewrite Hib. cbn [mbind option_bind].
      eexists _, _. split; [done|]. rewrite !insert_length. split; [done|]. split; [done|]. split.
      * intros g Hg. unfold to_input. rewrite last_filter_snoc. cbn [fst snd]. destruct (decide (ii = g)) as [->|Hne].
        -- rewrite list_lookup_insert by (rewrite insert_length; lia). cbn. rewrite Hmo0. cbn. f_equal. f_equal.
           unfold mod_wired. by destruct (to_mod m entries) as [[[? ?] ?]|].
        -- rewrite !list_lookup_insert_ne by done. by apply Hc.
      * intros m' mo Hmo'. unfold to_mod. rewrite last_filter_snoc. cbn [fst snd].
        destruct (decide (Some m = Some m')) as [[= ->]|Hne].
        -- rewrite list_lookup_insert by (rewrite Hl2; by eapply lookup_lt_Some). rewrite Hmo0 in Hmo'. injection Hmo' as ->.
           f_equal. unfold modop_lock, mod_wired. rewrite Hib, Hob. by destruct (last _) as [[[? ?] ?]|].
        -- rewrite list_lookup_insert_ne by congruence. by apply Hm.
    + eexists _, _. split; [done|]. rewrite insert_length. split; [done|]. split; [done|]. split.
      * intros g Hg. unfold to_input. rewrite last_filter_snoc. cbn [fst snd]. destruct (decide (ii = g)) as [->|Hne].
        -- rewrite list_lookup_insert by lia. cbn. by rewrite Hob.
        -- rewrite list_lookup_insert_ne by done. by apply Hc.
      * intros m' mo Hmo'. unfold to_mod. rewrite last_filter_snoc. cbn [fst snd].
        rewrite decide_False by done. by apply Hm.
Qed.

Definition range_in (n : nat) (r : nat * nat) : Prop := r.1 <= r.2 <= n.

Lemma copy_range_spec (cur : list (option nat)) (inp : list nat) r : length inp = length cur -> range_in (length cur) r ->
  exists cur', copy_range cur inp r = Some cur' /\ length cur' = length cur /\
    forall g, g < length cur -> cur' !! g = if decide (r.1 <= g < r.2) then Some (inp !! g) else cur !! g.
Proof.
  intros Hl [H1 H2]. unfold copy_range. rewrite (proj2 (Nat.leb_le _ _) H1), (proj2 (Nat.leb_le _ _) H2).
  rewrite (proj2 (Nat.leb_le r.2 (length inp))) by lia. cbn [andb].
  eexists. split; [done|].
  assert (Hlt : length (Some <$> take (r.2 - r.1) (drop r.1 inp)) = r.2 - r.1).
  { rewrite fmap_length, take_length, drop_length. lia. }
  split.
  - rewrite !app_length, Hlt, take_length, drop_length. lia.
  - intros g Hg. destruct (decide (g < r.1)) as [Hlt1|Hge1].
    + rewrite lookup_app_l by (rewrite take_length; lia). rewrite lookup_take by done.
      by rewrite decide_False by lia.
    + rewrite lookup_app_r by (rewrite take_length; lia). rewrite take_length_le by lia.
      destruct (decide (g < r.2)) as [Hlt2|Hge2].
      * rewrite decide_True by lia. rewrite lookup_app_l by (rewrite Hlt; lia). rewrite list_lookup_fmap.
        rewrite lookup_take by lia. rewrite lookup_drop. replace (r.1 + (g - r.1)) with g by lia.
        destruct (lookup_lt_is_Some_2 inp g) as [x Hx]; [lia|]. by rewrite Hx.
      * rewrite decide_False by lia. rewrite lookup_app_r by (rewrite Hlt; lia). rewrite Hlt, lookup_drop.
        f_equal. lia.
Qed.

(** operations that fit the vectors of a program *)
Record op_wf (no ni na nm : nat) (op : nodeop) : Prop := {
  ow_out : range_in no (op_out op);
  ow_in : range_in ni (op_in op);
  ow_at : range_in na (op_at op);
  ow_mod : range_in nm (op_mod op);
  ow_ent : Forall (entry_wf no ni nm) (op_inputs op);
  ow_own : Forall (fun io => (op_in op).1 <= io.1.2 < (op_in op).2) (op_inputs op);
  ow_mods : Forall (fun io => forall m, io.2 = Some m -> (op_mod op).1 <= m < (op_mod op).2) (op_inputs op);
}.

Definition disj (r r' : nat * nat) : Prop := forall x, r.1 <= x < r.2 -> r'.1 <= x < r'.2 -> False.

Lemma to_input_none g l : (forall io, io ∈ l -> io.1.2 <> g) -> to_input g l = None.
Proof.
  intros H. unfold to_input. destruct (filter _ l) as [|x l'] eqn:E; [done|].
  exfalso. assert (Hx : x ∈ filter (fun io => io.1.2 = g) l) by (rewrite E; left).
  apply elem_of_list_filter in Hx as [? Hx]. by eapply H.
Qed.
Lemma to_mod_none m l : (forall io, io ∈ l -> io.2 <> Some m) -> to_mod m l = None.
Proof.
  intros H. unfold to_mod. destruct (filter _ l) as [|x l'] eqn:E; [done|].
  exfalso. assert (Hx : x ∈ filter (fun io => io.2 = Some m) l) by (rewrite E; left).
  apply elem_of_list_filter in Hx as [? Hx]. by eapply H.
Qed.

Lemma assign_op_spec inp out na op cur mods :
  length inp = length cur -> op_wf (length out) (length cur) na (length mods) op ->
  exists cur' mods', assign_op inp out (cur, mods) op = Some (cur', mods') /\
    length cur' = length cur /\ length mods' = length mods /\
    (forall g, g < length cur -> cur' !! g =
       if decide ((op_in op).1 <= g < (op_in op).2)
       then src_buf out mods (Some (inp !! g)) (to_input g (op_inputs op)) else cur !! g) /\
    (forall m mo, mods !! m = Some mo -> mods' !! m = Some (mod_wired inp out mo (to_mod m (op_inputs op)))).
Proof.
  intros Hl Hw. unfold assign_op. cbn [fst snd].
  destruct (copy_range_spec cur inp (op_in op) Hl) as (cur1 & -> & Hl1 & Hc1); [apply Hw|].
  cbn [mbind option_bind].
  destruct (assign_inputs_spec inp out (op_inputs op) cur1 mods) as (cur2 & mods2 & -> & Hl2 & Hl3 & Hc2 & Hm2).
  - lia.
  - rewrite Hl1. apply Hw.
  - exists cur2, mods2. split; [done|]. split; [lia|]. split; [done|]. split; [|done].
    intros g Hg. rewrite Hc2 by lia. rewrite Hc1 by done. destruct (decide _) as [Hin|Hout]; [done|].
    rewrite to_input_none; [done|]. intros io Hio <-. apply Hout.
    pose proof (proj1 (Forall_forall _ _) (ow_own _ _ _ _ _ Hw) io Hio). done.
Qed.

(** the whole program *)
Lemma assign_ops_spec inp out na ops cur mods :
  length inp = length cur ->
  Forall (op_wf (length out) (length cur) na (length mods)) ops ->
  (forall i j op op', ops !! i = Some op -> ops !! j = Some op' -> i <> j ->
     disj (op_in op) (op_in op') /\ disj (op_mod op) (op_mod op')) ->
  exists cur' mods', foldm (assign_op inp out) (cur, mods) ops = Some (cur', mods') /\
    length cur' = length cur /\ length mods' = length mods /\
    (forall g, g < length cur -> (forall op, op ∈ ops -> ~ (op_in op).1 <= g < (op_in op).2) -> cur' !! g = cur !! g) /\
    (forall op g, op ∈ ops -> (op_in op).1 <= g < (op_in op).2 ->
       cur' !! g = src_buf out mods (Some (inp !! g)) (to_input g (op_inputs op))) /\
    (forall m mo, mods !! m = Some mo -> (forall op, op ∈ ops -> ~ (op_mod op).1 <= m < (op_mod op).2) -> mods' !! m = Some mo) /\
    (forall op m mo, op ∈ ops -> (op_mod op).1 <= m < (op_mod op).2 -> mods !! m = Some mo ->
       mods' !! m = Some (mod_wired inp out mo (to_mod m (op_inputs op)))).
Proof.
  intros Hl. revert cur mods Hl. induction ops as [|op ops IH]; intros cur mods Hl Hw Hd.
  - exists cur, mods. repeat (split; [done|]). split; [|split; [done|]]; intros; exfalso; by eapply elem_of_nil.
  - inversion Hw as [|? ? Hw1 Hw2]; subst.
    destruct (assign_op_spec inp out na op cur mods Hl Hw1) as (cur1 & mods1 & E1 & L1 & L2 & C1 & M1).
    destruct (IH cur1 mods1) as (cur2 & mods2 & E2 & L3 & L4 & C2 & C3 & M2 & M3).
    + lia.
    + by rewrite L1, L2.
    + intros i j o o' Hi Hj Hij. apply (Hd (S i) (S j) o o'); [done..|lia].
    + cbn [foldm]. rewrite E1. cbn [mbind option_bind]. exists cur2, mods2. split; [done|]. split; [lia|]. split; [lia|].
      assert (Hdx : forall o, o ∈ ops -> disj (op_in op) (op_in o) /\ disj (op_mod op) (op_mod o)).
      { intros o Ho. apply elem_of_list_lookup in Ho as [j Hj]. by apply (Hd 0 (S j) op o). }
      assert (Hmb : forall m, mo_buf <$> mods1 !! m = mo_buf <$> mods !! m).
      { intros m. destruct (mods !! m) as [mo|] eqn:Em.
        - rewrite (M1 m mo Em). cbn. f_equal. unfold mod_wired. by destruct (to_mod _ _) as [[[? ?] ?]|].
        - apply lookup_ge_None in Em. rewrite (lookup_ge_None_2 mods1 m) by lia. done. }
      assert (Hsb : forall old o, src_buf out mods1 old o = src_buf out mods old o).
      { intros old [[[? ?] [m|]]|]; cbn; [|done..]. by rewrite Hmb. }
      split; [|split; [|split]].
      * intros g Hg Hno. rewrite C2; [|lia|intros o Ho; apply Hno; by right]. rewrite C1 by done.
        rewrite decide_False; [done|]. apply Hno. left.
      * intros o g Ho Hg. apply elem_of_cons in Ho as [->|Ho].
        -- assert (g < length cur) by (pose proof (ow_in _ _ _ _ _ Hw1) as [? ?]; lia).
           rewrite C2; [|lia|]. 2: { intros o' Ho' Hg'. by apply (proj1 (Hdx o' Ho') g). }
           rewrite C1 by done. by rewrite decide_True.
        -- rewrite (C3 o g Ho Hg). apply Hsb.
      * intros m mo Hm Hno. apply M2; [|intros o Ho; apply Hno; by right].
        rewrite (M1 m mo Hm). rewrite to_mod_none; [done|]. intros io Hio Hx. apply (Hno op); [left|].
        pose proof (proj1 (Forall_forall _ _) (ow_mods _ _ _ _ _ Hw1) io Hio m Hx). done.
      * intros o m mo Ho Hm Hmo. apply elem_of_cons in Ho as [->|Ho].
        -- apply M2; [by apply M1|]. intros o' Ho' Hm'. by apply (proj2 (Hdx o' Ho') m).
        -- apply M3; [done..|]. rewrite (M1 m mo Hmo). rewrite to_mod_none; [done|]. intros io Hio Hx.
           pose proof (proj1 (Forall_forall _ _) (ow_mods _ _ _ _ _ Hw1) io Hio m Hx).
           by apply (proj2 (Hdx o Ho) m).
Qed.
