(** The compiled program: termination, what its wiring denotes, the run. *)
From Coq Require Import Ascii Sorting.Sorted.
From stdpp Require Import strings pretty.
From Verif Require Import Base M_Block S_Block L_Block L_Block2 L_Block3 M_Comp S_Comp L_Comp L_Comp2 L_Comp3 L_Comp4 L_Comp5.
Open Scope string_scope.
Open Scope list_scope.
Open Scope nat_scope.

(** ** More fuel *)
Lemma tree_more fs null : forall fuel st r, tree_loop fuel fs null st = Some r -> forall fuel', fuel <= fuel' -> tree_loop fuel' fs null st = Some r.
Proof.
  induction fuel as [|fuel IH]; intros st r H fuel' Hle; [done|]. destruct fuel' as [|fuel']; [lia|]. cbn [tree_loop] in *. destruct (st.1.2); [done|].
  destruct (tree_step fs null st) as [e|st']; [done|]. eapply IH; [done|lia].
Qed.
Lemma trans_more types is_number h : forall fuel st n out r, trans types is_number fuel h st n out = Some r -> forall fuel', fuel <= fuel' -> trans types is_number fuel' h st n out = Some r.
Proof.
  induction fuel as [|fuel IH]; intros st n out r H fuel' Hle; [done|]. destruct fuel' as [|fuel']; [lia|]. assert (fuel <= fuel') as Hle' by lia. clear Hle.
  rewrite trans_S in *. destruct (h !! n) as [j|]; [|done]. cbn [mbind option_bind] in *. cbv zeta in *.
  assert (forall l st r, tall (trans types is_number fuel h) st l = Some r -> tall (trans types is_number fuel' h) st l = Some r) as Hall.
  { induction l as [|c l IHl]; intros st0 r0 E; [done|]. cbn [tall] in *. fold (tall (trans types is_number fuel h)) in E. fold (tall (trans types is_number fuel' h)).
    destruct (trans types is_number fuel h st0 c.2 (some_out c.1.2)) as [r1|] eqn:E1; [|done]. rewrite (IH _ _ _ _ E1 _ Hle'). destruct r1 as [e|[x s]]; cbn [cbind fst snd] in *; [done|].
    destruct (tall (trans types is_number fuel h) s l) as [r2|] eqn:E2; [|done]. by rewrite (IHl _ _ E2). }
  assert (forall st r, tfirst (trans types is_number fuel h) st n (j_ch j) = Some r -> tfirst (trans types is_number fuel' h) st n (j_ch j) = Some r) as Hfirst.
  { intros st0 r0 E. unfold tfirst in *. destruct (j_ch j) as [|c l]; [done|]. by apply (IH _ _ _ _ E). }
  assert (forall {A} (x x' : cres A) {B} (k : A -> cres B) r, (forall r, x = Some r -> x' = Some r) -> cbind x k = Some r -> cbind x' k = Some r) as Hbind.
  { intros A x x' B k r0 Hx E. destruct x as [y|] eqn:Ex; [|done]. by rewrite (Hx _ eq_refl). }
  destruct (get_var st (j_id j) (default "" out)); [done|].
  destruct (String.eqb (j_typ j) "<a>"); [by eapply Hbind; [|exact H]; apply Hall|].
  destruct (String.eqb (j_typ j) "<r>"); [by eapply Hbind; [|exact H]; apply Hfirst|].
  destruct (String.eqb (j_typ j) "->"); [by apply Hfirst|].
  destruct (String.eqb (j_typ j) "value"); [done|].
  destruct (String.eqb (j_typ j) "set"); [by eapply Hbind; [|exact H]; apply Hfirst|].
  destruct (String.eqb (j_typ j) "<res>"); [by eapply Hbind; [|exact H]; apply Hfirst|].
  destruct (String.eqb (j_typ j) "get"); [done|].
  destruct (String.eqb (j_typ j) "->2" || String.eqb (j_typ j) "->3").
  - destruct (j_ch j) as [|c l]; [done|]. eapply Hbind; [|exact H]. intros r0 E. by apply (IH _ _ _ _ E).
  - eapply Hbind; [|exact H]. apply Hall.
Qed.
Lemma compile_more types is_number f fuel r : compile types is_number fuel f = Some r -> forall fuel', fuel <= fuel' -> compile types is_number fuel' f = Some r.
Proof.
  unfold compile. intros H fuel' Hle. apply bind_Some in H as (t & Ht & H). assert (generate_tree types fuel' f "zero" = Some t) as ->.
  { unfold generate_tree in *. destruct (types "zero"); [|done]. by eapply tree_more. }
  cbn [mbind option_bind]. destruct t as [e|h]; [done|]. destruct (trans types is_number fuel h (CState ∅ 0) 0 None) as [x|] eqn:E; [|done].
  by rewrite (trans_more _ _ _ _ _ _ _ _ E _ Hle).
Qed.

(** ** Columns *)
Lemma columns (bs : gmap (Z * Z) block) : exists B : Z, forall o b, bs !! o = Some b -> (- B <= o.1 <= B)%Z.
Proof.
  assert (exists B : Z, forall p, p ∈ map_to_list bs -> (- B <= p.1.1 <= B)%Z) as [B HB].
  { induction (map_to_list bs) as [|p l [B IH]]; [exists 0%Z; intros p Hp; by apply elem_of_nil in Hp|]. exists (Z.max B (Z.abs p.1.1)). intros q Hq. apply elem_of_cons in Hq as [->|Hq]; [lia|].
    specialize (IH q Hq). lia. }
  exists B. intros o b Hb. apply (HB (o, b)). by apply elem_of_map_to_list.
Qed.

Lemma shape_forwards t ins outs : shape t ins outs -> forwards t -> ins = [""].
Proof.
  intros Hs Hf. destruct Hs as [t Ht| |t outs Ht| |t ins Ht|t ins outs Hc]; [|done|done|done| |]; exfalso; unfold forwards in Hf.
  - destruct Ht as [->|[->| ->]]; destruct Hf as [?|[?|?]]; done.
  - destruct Ht as [->|[->|[->| ->]]]; destruct Hf as [?|[?|?]]; done.
  - by destruct Hc as (_&_&_&_&_&Hc&_).
Qed.
Lemma shape_two t ins outs : shape t ins outs -> arith t -> length ins = 2.
Proof.
  intros Hs Hf. destruct Hs as [t Ht| |t outs Ht| |t ins Ht|t ins outs Hc]; [| | | |done|]; exfalso; unfold arith in Hf.
  - destruct Ht as [->|[->| ->]]; destruct Hf as [?|[?|[?|?]]]; done.
  - destruct Hf as [?|[?|[?|?]]]; done.
  - destruct Ht as [->| ->]; destruct Hf as [?|[?|[?|?]]]; done.
  - destruct Hf as [?|[?|[?|?]]]; done.
  - by destruct Hc as (_&_&_&_&_&_&Hc).
Qed.

Section final.
  Context (types : string -> option btype) (is_number : string -> bool) (f : bfun) (a : area) (Ha : f_areas f !! 0 = Some a) (Hok : area_ok a).
  Context (Hty : forall o b, a_blocks a !! o = Some b -> typed types b) (Hsh : type_shape types).
  Context (Hids : forall o o' b b', a_blocks a !! o = Some b -> a_blocks a !! o' = Some b' -> b_id b = b_id b' -> o = o').
  Context (Hp : prog_ok types is_number f).
  Notation Hif' := (Hif types is_number f a Ha Hp).

  (** ** The values *)
  Section values.
    Context {V : Type} (zero : V) (num : string -> V) (bin : string -> V -> V -> V) (node : string -> nat -> list V -> list V) (ext : string -> V) (Hnode : node_ok types node).
    Definition vstep (val : Z * Z -> nat -> V) (o : Z * Z) (r : nat) : V :=
      match a_blocks a !! o with
      | None => zero
      | Some b =>
          let args := argv types a zero val o b in
          let t := b_typ b in
          if String.eqb t "zero" then zero else if String.eqb t "value" then num (b_lbl b) else if String.eqb t "get" then ext (b_lbl b)
          else if String.eqb t "->" || String.eqb t "->2" || String.eqb t "->3" then
            match port_rows (b_rows b) (b_inputs b) with r0 :: _ => inval a zero val o r0 | [] => zero end
          else if is_arith t then match args with [x; y] => bin t x y | _ => zero end
          else match b_outputs b !! r with
               | Some (Some nm) => match list_find (fun x => x = nm) (out_names types t) with Some (k, _) => default zero (node t (b_id b) args !! k) | None => zero end
               | _ => zero
               end
      end.
    Fixpoint vals (n : nat) : Z * Z -> nat -> V := match n with 0 => fun _ _ => zero | S n => vstep (vals n) end.

    Lemma vstep_local val val' o r : (forall p r, p.1 = (o.1 - 1)%Z -> is_Some (a_blocks a !! p) -> val p r = val' p r) -> vstep val o r = vstep val' o r.
    Proof.
      intros H. assert (forall r, inval a zero val o r = inval a zero val' o r) as Hi.
      { intros r0. unfold inval. destruct (left a o r0) as [[p k]|] eqn:E; [|done]. apply (left_iff types f a Ha Hok Hty Hsh Hif') in E as [Ho [H1 _]].
        apply (out_port_iff types f a Ha Hty Hsh Hif') in Ho as (b & s & Hb & _). apply H; [lia|by eexists]. }
      unfold vstep. destruct (a_blocks a !! o) as [b|]; [|done]. cbv zeta.
      assert (argv types a zero val o b = argv types a zero val' o b) as -> by (unfold argv; by apply list_fmap_ext). by destruct (port_rows (b_rows b) (b_inputs b)); rewrite ?Hi.
    Qed.
    Lemma vals_stable lo : (forall o b, a_blocks a !! o = Some b -> (lo <= o.1)%Z) -> forall n k k' o r, is_Some (a_blocks a !! o) -> Z.to_nat (o.1 - lo) < n -> n <= k -> n <= k' -> vals k o r = vals k' o r.
    Proof.
      intros Hlo. induction n as [|n IH]; intros k k' o r [b Hb] Hn Hk Hk'; [lia|]. destruct k as [|k], k' as [|k']; [lia|lia|lia|]. cbn [vals]. apply vstep_local.
      intros p r' H1 [bp Hbp]. apply IH; [by eexists| |lia|lia]. pose proof (Hlo _ _ Hbp). lia.
    Qed.

    Lemma vstep_denotes val : (forall o r, is_Some (a_blocks a !! o) -> val o r = vstep val o r) -> denotes zero num bin node ext types f val.
    Proof.
      intros Hv o b ty r Hb Et Ho. assert (a_blocks a !! o = Some b) as Hb' by (unfold bf_block_at in Hb; by rewrite Ha in Hb).
      rewrite (Hv o r) by (by eexists). unfold vstep. rewrite Hb'. cbv zeta.
      destruct (block_facts types a Hty Hsh Hif' o b Hb') as (ty' & ins & outs & Et' & Ei & Eo & Hs & Hpi & Hpo & Hli & Hlo' & Hid & _). rewrite Et in Et'. injection Et' as <-.
      pose proof (fun vs => args_of_iff types f a Ha Hok Hty Hsh Hif' zero val o b ty ins vs Hb' Ei (ins_shape _ _ _ Hs) Hpi Hli) as Hargs.
      pose proof (argv_eq types a zero val o b ty ins Et Ei) as Eargs.
      apply (out_port_iff types f a Ha Hty Hsh Hif') in Ho as (b' & nm & Hb2 & Hnm). rewrite Hb' in Hb2. injection Hb2 as <-.
      split; [by intros ->|]. split; [by intros ->|]. split; [by intros ->|]. split; [|split].
      - intros Hf. assert (ins = [""]) as -> by (by eapply shape_forwards).
        destruct (one_input b Hpi Hli) as (r0 & Er0 & Hu). exists r0. split.
        + apply (in_rows f a Ha o b); [done|]. rewrite Er0. by left.
        + apply (input_value_iff types f a Ha Hok Hty Hsh Hif'). rewrite Er0. by destruct Hf as [->|[->| ->]].
      - intros Ht. assert (length ins = 2) as Hl by (by eapply shape_two).
        assert (length (argv types a zero val o b) = 2) as Hl2.
        { rewrite Eargs, fmap_length. destruct (named_rows b ins (ins_shape _ _ _ Hs) Hpi Hli) as [Hpm _]. rewrite Hpm, <- (fmap_length (port_name (b_inputs b))), (port_names _ _ Hli). by rewrite Hpi. }
        destruct (argv types a zero val o b) as [|x [|y [|]]]; try done. exists x, y. split; [by apply Hargs|]. by destruct Ht as [->|[->|[->| ->]]].
      - intros Hc. assert (nm ∈ outs) as Hin by (rewrite <- Hpo; apply elem_of_list_omap; exists (Some nm); split; [by eapply elem_of_list_lookup_2|done]).
        assert (out_names types (b_typ b) = outs) as Eon by (unfold out_names; by rewrite Et, Eo, omap_some).
        destruct (list_find_elem_of (fun x => x = nm) outs nm Hin eq_refl) as [[k x] Hk]. pose proof Hk as Hk'. apply list_find_Some in Hk' as (Hk1 & -> & _).
        assert (exists v, node (b_typ b) (b_id b) (argv types a zero val o b) !! k = Some v) as [v Hv'].
        { apply lookup_lt_is_Some. rewrite (Hnode _ _ _ _ Et), Eo, fmap_length. by eapply lookup_lt_Some. }
        exists (argv types a zero val o b), k. split_and!; [by apply Hargs| |].
        + exists nm. rewrite Eo, list_lookup_fmap, Hk1. done.
        + rewrite Hv'. f_equal. destruct Hc as (C1 & C2 & C3 & _ & _ & C4 & C5). unfold forwards in C4. unfold arith in C5. unfold is_arith.
          repeat (rewrite (proj2 (String.eqb_neq (b_typ b) _)) by tauto). cbn [orb]. rewrite Hnm, Eon, Hk. by rewrite Hv'.
    Qed.
    Lemma values_exist : exists val, denotes zero num bin node ext types f val.
    Proof.
      destruct (columns (a_blocks a)) as [B HB]. exists (vals (S (Z.to_nat (2 * B)))). apply vstep_denotes. intros o r Ho.
      change (vstep (vals ?n)) with (vals (S n)). apply (vals_stable (- B)) with (n := S (Z.to_nat (2 * B))); [intros p b Hb; apply HB in Hb; lia|done| |lia|lia].
      destruct Ho as [b Hb]. apply HB in Hb. lia.
    Qed.
    Lemma values_unique val val' : denotes zero num bin node ext types f val -> denotes zero num bin node ext types f val' -> forall o r, out_port f o r -> val o r = val' o r.
    Proof.
      intros Hd Hd'. destruct (columns (a_blocks a)) as [B HB].
      enough (forall n o r, out_port f o r -> Z.to_nat (o.1 + B) < n -> val o r = val' o r) as Hall by (intros o r Ho; apply (Hall (S (Z.to_nat (o.1 + B)))); [done|lia]).
      induction n as [|n IH]; intros o r Ho Hn; [lia|].
      assert (forall r, inval a zero val o r = inval a zero val' o r) as Hi.
      { intros r0. unfold inval. destruct (left a o r0) as [[p k]|] eqn:E; [|done]. apply (left_iff types f a Ha Hok Hty Hsh Hif') in E as [Hp' [H1 _]].
        apply IH; [done|]. apply (out_port_iff types f a Ha Hty Hsh Hif') in Hp' as (b & s & Hb & _). apply HB in Hb. lia. }
      pose proof Ho as Ho'. apply (out_port_iff types f a Ha Hty Hsh Hif') in Ho' as (b & nm & Hb & Hnm).
      destruct (block_facts types a Hty Hsh Hif' o b Hb) as (ty & ins & outs & Et & Ei & Eo & Hs & Hpi & Hpo & Hli & Hlo' & Hid & _).
      assert (forall v vs, args_of zero f v o b ty vs <-> vs = inval a zero v o <$> arg_rows b ins) as Hargs.
      { intros v vs. exact (args_of_iff types f a Ha Hok Hty Hsh Hif' zero v o b ty ins vs Hb Ei (ins_shape _ _ _ Hs) Hpi Hli). }
      assert (inval a zero val o <$> arg_rows b ins = inval a zero val' o <$> arg_rows b ins) as Eargs by (by apply list_fmap_ext).
      assert (bf_block_at f 0 o = Some b) as Hb0 by (unfold bf_block_at; by rewrite Ha).
      destruct (Hd o b ty r Hb0 Et Ho) as (D1 & D2 & D3 & D4 & D5 & D6). destruct (Hd' o b ty r Hb0 Et Ho) as (E1 & E2 & E3 & E4 & E5 & E6).
      remember (b_typ b) as t eqn:Etyp. destruct Hs as [t Ht| |t outs Ht Hl2 Hall| |t ins Ht Hl2 Hi'|t ins outs Hc Hnn Hi' Hout].
      - destruct Ht as [->|[->| ->]]; [by rewrite D1, E1|by rewrite D2, E2|by rewrite D3, E3].
      - destruct (one_input b Hpi Hli) as (r0 & Er0 & Hu). destruct (D4 ltac:(by left)) as (r1 & P1 & Q1). destruct (E4 ltac:(by left)) as (r2 & P2 & Q2).
        apply (input_value_iff types f a Ha Hok Hty Hsh Hif') in Q1, Q2. apply (in_port_iff types f a Ha Hty Hsh Hif') in P1 as (b1 & s1 & Hb1 & Hs1), P2 as (b2 & s2 & Hb2 & Hs2).
        rewrite Hb in Hb1, Hb2. injection Hb1 as <-. injection Hb2 as <-. apply Hu in Hs1 as ->. apply Hu in Hs2 as ->. by rewrite Q1, Q2.
      - assert (forwards t) as Hf by (unfold forwards; tauto). destruct (one_input b Hpi Hli) as (r0 & Er0 & Hu). destruct (D4 Hf) as (r1 & P1 & Q1). destruct (E4 Hf) as (r2 & P2 & Q2).
        apply (input_value_iff types f a Ha Hok Hty Hsh Hif') in Q1, Q2. apply (in_port_iff types f a Ha Hty Hsh Hif') in P1 as (b1 & s1 & Hb1 & Hs1), P2 as (b2 & s2 & Hb2 & Hs2).
        rewrite Hb in Hb1, Hb2. injection Hb1 as <-. injection Hb2 as <-. apply Hu in Hs1 as ->. apply Hu in Hs2 as ->. by rewrite Q1, Q2.
      - exfalso. apply Permutation_nil_r in Hpo. assert (nm ∈ omap id (b_outputs b)) as Hin by (apply elem_of_list_omap; exists (Some nm); split; [by eapply elem_of_list_lookup_2|done]).
        rewrite Hpo in Hin. by apply elem_of_nil in Hin.
      - destruct (D5 Ht) as (x & y & P1 & ->). destruct (E5 Ht) as (x' & y' & P2 & ->). apply Hargs in P1, P2. rewrite Eargs, <- P2 in P1. by injection P1 as -> ->.
      - destruct (D6 Hc) as (vs & k & P1 & (n1 & Q1 & R1) & S1). destruct (E6 Hc) as (vs' & k' & P2 & (n2 & Q2 & R2) & S2). apply Hargs in P1, P2.
        rewrite Eo, list_lookup_fmap in Q1, Q2. apply fmap_Some in Q1 as (m1 & Q1 & [= <-]). apply fmap_Some in Q2 as (m2 & Q2 & [= <-]).
        assert (k = k') as <-.
        { rewrite Hnm in R1, R2. injection R1 as <-. injection R2 as <-. destruct Hout as [[Hnd _]|Hl]; [by eapply NoDup_lookup|]. apply lookup_lt_Some in Q1, Q2. lia. }
        rewrite P1, Eargs, <- P2, S2 in S1. by injection S1.
    Qed.
  End values.

  (** ** The program *)
  Context (Hzero : exists tz, types "zero" = Some tz /\ t_name tz = "zero").

  Lemma sets_iff x o : sets f x o <-> exists b, a_blocks a !! o = Some b /\ b_typ b = "set" /\ b_lbl b = x.
  Proof. unfold sets, bf_block_at. by rewrite Ha. Qed.

  Lemma final_run fuel h m : tree_of a "zero" h m ->
    forall B : Z, (forall o b, a_blocks a !! o = Some b -> (- B <= o.1 <= B)%Z) -> Z.to_nat (2 * B) + 5 < fuel ->
    forall (V : Type) (zero : V) num bin node ext val, node_ok types node -> denotes zero num bin node ext types f val ->
    exists ast st' code, trans types is_number fuel h (CState ∅ 0) 0 None = cok (ast, st') /\ bjit types ast = inr code /\
      exists v s, xrun zero num bin node ext code (XState ∅ []) = Some (v, s) /\ good_run zero types f val v s.
  Proof.
    intros Htree B HB Hfuel V zero num bin node ext val Hnode Hden. destruct (to_root _ _ _ _ Htree) as (na & chs & Hr & Hna & HF).
    destruct fuel as [|[|fuel]]; [lia|lia|].
    assert (cs_ok a (CState ∅ 0)) as Hst. { split; cbn [cs_vars].
      - intros k v. by rewrite lookup_empty.
      - intros o b r r' nm nm' _ _ _ [v Hv]. by rewrite lookup_empty in Hv.
      - intros k k' v. by rewrite lookup_empty. }
    assert (forall n out, get_var (CState ∅ 0) n out = None) as Hnv by (intros; apply lookup_empty).
    destruct (stmts_ok types is_number f a Ha Hok Hty Hsh Hids Hp zero num bin node ext Hnode val Hden h m Htree (- B)%Z) with (N := S (Z.to_nat (2 * B))) (hi := B) (fuel := fuel) (ss := rev (collect_sinks a)) (chs := chs) (st := CState ∅ 0)
      as (cl & st' & codes & L & H1 & H2 & H3 & H4).
    { intros o b Hb. apply HB in Hb. lia. } { intros o b Hb. apply HB in Hb. lia. } { intros o b Hb. apply HB in Hb. lia. } { lia. }
    { apply Forall_forall. intros s Hs. apply elem_of_list_In in Hs. rewrite <- in_rev in Hs. by apply elem_of_list_In. } { done. } { done. }
    exists (BArea [BArea (snd <$> cl); BGet 0 "_res_"]), st', (XStmts [XStmts codes; XVar "_res_"]). split_and!.
    - rewrite trans_S, Hr. cbn [mbind option_bind j_id j_typ j_lbl j_ch]. cbv zeta. rewrite Hnv. cbn [String.eqb Ascii.eqb Bool.eqb]. unfold tfirst. cbn [fst snd some_out String.eqb].
      rewrite trans_S, Hna. cbn [mbind option_bind j_id j_typ j_lbl j_ch]. cbv zeta. rewrite Hnv. cbn [String.eqb Ascii.eqb Bool.eqb]. by rewrite H1.
    - rewrite bjit_area. cbn [bjits]. rewrite bjit_area, H2. done.
    - destruct (H4 zero (XState ∅ [])) as (v' & s & l & R1 & R2 & R3 & R4 & R5).
      { split; [intros *; cbn [cs_vars]; by rewrite lookup_empty|]. intros o b _ _. apply lookup_empty. }
      cbn [x_log] in R4. rewrite app_nil_l in R4. rewrite <- R4 in R5. clear l R4.
      assert (forall x, reserved x = false \/ x = "_res_" -> x_env s !! x = last_of a zero val (rev (collect_sinks a)) x None) as Henv.
      { intros x Hx. rewrite R3; [cbn [x_env]; by rewrite lookup_empty|]. destruct Hx as [Hx| ->]; [by apply unreserved_fresh|]. intros [(i & ex & He & _)|[i He]]; done. }
      assert (forall o r, last_output f o r -> x_env s !! "_res_" = Some (val o r)) as Hres.
      { intros o r [Hop Hmax]. rewrite Henv by (by right). set (s0 := (o.1, (o.2 + Z.of_nat r)%Z, Some r)).
        assert (owner s0 = o) as Eo0. { unfold owner, s0. cbn [fst snd]. destruct o. cbn. f_equal. lia. }
        assert (val o r = sval a zero val s0) as -> by (change (sval a zero val s0) with (val (owner s0) r); by rewrite Eo0).
        assert (s0 ∈ collect_sinks a) as Hs0.
        { destruct Hop as [Ho Hnc]. pose proof Ho as Ho'. apply (out_port_iff types f a Ha Hty Hsh Hif') in Ho' as (b & nm & Hb & _). apply sink_elem. exists o, b. split; [done|].
          apply (sink_block types f a Ha Hok Hty Hsh Hif' _ _ _ Hb). right. by exists r. }
        apply last_of_last; [apply collect_sorted|done|done|]. intros t Ht Hvt.
        destruct (sink_owner types f a Ha Hok Hty Hsh Hif' t Ht) as (b & Hb & Htb). apply (sink_block types f a Ha Hok Hty Hsh Hif' _ _ _ Hb) in Htb as [[_ Et]|(r' & Hop' & Et)].
        - exfalso. rewrite Et in Hvt. unfold svar in Hvt. cbn [fst snd] in Hvt. rewrite Hb in Hvt. destruct (String.eqb_spec (b_typ b) "set") as [Es|]; [|done]. injection Hvt as Hlbl.
          assert (reserved (b_lbl b) = false) as Hre by (apply (po_var _ _ _ Hp (owner t) b); [unfold bf_block_at; by rewrite Ha|by left]). by rewrite Hlbl in Hre.
        - specialize (Hmax _ _ Hop'). rewrite Et. unfold sink_le. cbn [fst snd]. split; [done|]. intros Hle. unfold s0 in Hle. cbn [fst snd] in Hle. unfold read_le in *. cbn [fst snd] in *.
          assert (o.1 = (owner t).1 /\ (o.2 + Z.of_nat r = (owner t).2 + Z.of_nat r')%Z) as [E1 E2] by lia.
          destruct Hop as [Ho _], Hop' as [Ho' _]. apply (out_port_iff types f a Ha Hty Hsh Hif') in Ho as (b0 & nm & Hb0 & Hnm), Ho' as (b1 & nm1 & Hb1 & Hnm1).
          destruct (block_facts types a Hty Hsh Hif' _ _ Hb0) as (?&?&?&?&?&?&?&?&?&?&Hl0&_). destruct (block_facts types a Hty Hsh Hif' _ _ Hb1) as (?&?&?&?&?&?&?&?&?&?&Hl1&_).
          apply lookup_lt_Some in Hnm, Hnm1. destruct Hok as (Hap & _). assert (o = owner t) as Eot.
          { apply (Hap _ _ _ _ (o.1, (o.2 + Z.of_nat r)%Z) Hb0 Hb1); split; cbn [fst snd]; lia. }
          assert (r = r') as <- by (rewrite Eot in E2; lia).
          assert (((owner t).1, ((owner t).2 + Z.of_nat r)%Z, Some r) = s0) as -> by (unfold s0; by rewrite Eot). done. }
      destruct (po_out _ _ _ Hp) as (ox & rx & Hopx).
      assert (exists v, x_env s !! "_res_" = Some v) as [v Hv].
      { rewrite Henv by (by right). assert ((ox.1, (ox.2 + Z.of_nat rx)%Z, Some rx) ∈ rev (collect_sinks a)) as Hin.
        { apply elem_of_list_In. rewrite <- in_rev. apply elem_of_list_In. destruct Hopx as [Ho Hnc]. pose proof Ho as Ho'. apply (out_port_iff types f a Ha Hty Hsh Hif') in Ho' as (b & nm & Hb & _).
          apply sink_elem. exists ox, b. split; [done|]. apply (sink_block types f a Ha Hok Hty Hsh Hif' _ _ _ Hb). right. by exists rx. }
        apply elem_of_list_split in Hin as (l1 & l2 & ->). rewrite last_of_app. cbn [last_of foldl]. rewrite decide_True by done. generalize (sval a zero val (ox.1, (ox.2 + Z.of_nat rx)%Z, Some rx)).
        clear. unfold last_of. induction l2 as [|t l IH]; intros w; cbn [foldl]; [by eexists|]. destruct (decide _); apply IH. }
      exists v, s. split.
      + rewrite xrun_stmts, xseq_cons, xrun_stmts, R1. cbn [mbind option_bind]. rewrite xseq_cons. cbn [xrun]. unfold xread. by rewrite Hv.
      + assert (forall p b, a_blocks a !! p = Some b -> cnt p L = 1) as Hcnt.
        { intros p b Hb. eapply (all_once types is_number f a Ha Hok Hty Hsh Hp B) with (n := S (Z.to_nat (B - p.1))); [|  |exact H3|lia|done].
          - intros q bq Hq. apply HB in Hq. lia.
          - intros q. unfold stored. destruct (a_blocks a !! q) as [bq|]; [|done]. induction (b_outputs bq) as [|c l IHl]; [done|]. cbn [existsb]. rewrite IHl, orb_false_r. by destruct c. }
        split_and!.
        * intros o r Hlast. apply Hres in Hlast. congruence.
        * intros x o [Hset Hmax]. pose proof Hset as Hset'. apply sets_iff in Hset' as (b & Hb & Et & El).
          destruct (block_facts types a Hty Hsh Hif' _ _ Hb) as (ty & ins & outs & Ety & Ei & Eo & Hs & Hpi & Hpo & Hli & _). rewrite Et in Hs. apply shape_noset in Hs as [-> ->].
          destruct (one_input b Hpi Hli) as (r0 & Er0 & _). exists r0, (inval a zero val o r0). split_and!.
          -- apply (in_rows f a Ha o b r0 Hb). rewrite Er0. by left.
          -- by apply (input_value_iff types f a Ha Hok Hty Hsh Hif').
          -- assert (reserved x = false) as Hre. { rewrite <- El. apply (po_var _ _ _ Hp o b); [unfold bf_block_at; by rewrite Ha|by left]. }
             rewrite Henv by (by left). assert (inval a zero val o r0 = sval a zero val (o, None)) as ->. { unfold sval. cbn [fst snd]. by rewrite Hb, Er0. }
             apply last_of_last; [apply collect_sorted| | |].
             ++ apply sink_elem. exists o, b. split; [done|]. apply (sink_block types f a Ha Hok Hty Hsh Hif' _ _ _ Hb). left. split; [|done]. by apply Permutation_nil_r in Hpo.
             ++ unfold svar. cbn [fst snd]. rewrite Hb, Et. by rewrite El.
             ++ intros t Ht Hvt. destruct (sink_owner types f a Ha Hok Hty Hsh Hif' t Ht) as (bt & Hbt & Htb). apply (sink_block types f a Ha Hok Hty Hsh Hif' _ _ _ Hbt) in Htb as [[_ Ett]|(r' & Hop' & Ett)].
                ** rewrite Ett in Hvt. unfold svar in Hvt. cbn [fst snd] in Hvt. rewrite Hbt in Hvt. destruct (String.eqb_spec (b_typ bt) "set") as [Est|]; [|done]. injection Hvt as Hlbl.
                   assert (read_le (owner t) o) as Hle by (apply Hmax, sets_iff; by exists bt). rewrite Ett. unfold sink_le. cbn [fst snd]. split; [done|]. intros Hle'. do 2 f_equal.
                   unfold read_le in *. destruct o, (owner t). cbn in *. f_equal; lia.
                ** exfalso. rewrite Ett in Hvt. unfold svar in Hvt. cbn in Hvt. injection Hvt as <-. done.
        * intros x Hre Hns. rewrite Henv by (by left). apply last_of_none. intros t Ht Hvt. apply elem_of_list_In in Ht. rewrite <- in_rev in Ht. apply elem_of_list_In in Ht.
          unfold svar in Hvt. destruct (t.2); [injection Hvt as <-; done|]. destruct (a_blocks a !! t.1) as [b|] eqn:Hb; [|done]. destruct (String.eqb_spec (b_typ b) "set") as [Est|]; [|done]. injection Hvt as <-.
          apply (Hns t.1), sets_iff. by exists b.
        * destruct (calls_ids types a Hids zero val L) as [Hnd _]; [exact Hcnt|]. by rewrite R5.
        * intros c. destruct (calls_ids types a Hids zero val L) as [_ Hc]; [exact Hcnt|]. rewrite R5, Hc. symmetry. by apply (call_of_iff types is_number f a Ha Hok Hty Hsh Hp).
  Qed.

  Lemma compile_ok : exists code n, (forall fuel, n <= fuel -> compile types is_number fuel f = Some (inr code)) /\
    forall (V : Type) (zero : V) num bin node ext val, node_ok types node -> denotes zero num bin node ext types f val ->
      exists v s, xrun zero num bin node ext code (XState ∅ []) = Some (v, s) /\ good_run zero types f val v s.
  Proof.
    destruct (columns (a_blocks a)) as [B HB].
    destruct (generate_ok (f_areas f) a Ha Hok "zero") as [n1 Hn1].
    { intros o b Hb. by destruct (block_facts types a Hty Hsh Hif' o b Hb) as (?&?&?&?&?&?&?&?&?&?&?&?&?). }
    set (fuel := Nat.max n1 (Z.to_nat (2 * B) + 6)). destruct (Hn1 fuel ltac:(lia)) as (h & m & Htree & Ht).
    assert (generate_tree types fuel f "zero" = Some (inr h)) as Hgen. { unfold generate_tree. destruct Hzero as (tz & -> & ->). exact Htree. }
    assert (node_ok types (fun t _ _ => match types t with Some ty => replicate (length (t_outputs ty)) tt | None => [] end)) as Hn0.
    { intros t ty id args ->. apply replicate_length. }
    destruct (values_exist tt (fun _ => tt) (fun _ _ _ => tt) _ (fun _ => tt) Hn0) as [val0 Hval0].
    destruct (final_run fuel h m Ht B HB ltac:(lia) unit tt _ _ _ _ _ Hn0 Hval0) as (ast & st' & code & E1 & E2 & _).
    exists code, fuel. split.
    - assert (compile types is_number fuel f = Some (inr code)) as E. { unfold compile. rewrite Hgen. cbn [mbind option_bind]. rewrite E1. cbn [cbind cok fst]. by rewrite E2. }
      intros fuel' Hle. by eapply compile_more.
    - intros V zero num bin node ext val Hno Hden. destruct (final_run fuel h m Ht B HB ltac:(lia) V zero num bin node ext val Hno Hden) as (ast' & st'' & code' & E1' & E2' & H).
      rewrite E1 in E1'. injection E1' as <- <-. rewrite E2 in E2'. by injection E2' as <-.
  Qed.
End final.
