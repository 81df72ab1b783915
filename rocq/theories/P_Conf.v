(** Properties of the node configuration (C11, C14, C15) *)
From Verif Require Import Base M_Atom M_Prog M_Grid M_Conf S_Conf L_Conf L_Conf2 L_Conf3.
Open Scope nat_scope.

Section proofs.
  Context (T : ntable) (i2f : Z -> f32) (load_sample : satom -> satom) (HT : table_ok T).

  Lemma run_inv (s : heap * nconf) os s' : conf_inv T s.2 -> cop_run T i2f load_sample s os = Some s' -> conf_inv T s'.2.
  Proof.
    intros Hs Hr. eapply (foldm_inv _ (fun s => conf_inv T s.2)); [|exact Hs|exact Hr].
    intros s1 o s2 _ H1 H2. by eapply cop_inv.
  Qed.

  Lemma reachable_inv c : conf_reachable T i2f load_sample c -> conf_inv T c.
  Proof. intros (h0 & os & h & Hr). apply (run_inv (h0, conf_new) os (h, c)); [apply conf_new_inv|done]. Qed.

  Lemma rank_modulated modamt id : n_mods T modamt id = length (modulated T modamt id).
  Proof.
    unfold n_mods, modulated, n_ins. generalize (nt_ins T (nid_kind id)) as n.
    induction n as [|n IH]; [done|]. rewrite seq_S, filter_app, app_length. cbn [rank]. rewrite IH. f_equal.
    cbn [Nat.add]. rewrite filter_cons. destruct (mjoin (modamt !! (id, n))) eqn:E.
    - rewrite decide_True by (by eexists). done.
    - rewrite decide_False by (intros [? ?]; done). done.
  Qed.

  Lemma rebuild_modulators c h h' c' p : conf_inv T c -> conf_rebuild T h c = Some (h', c', p) ->
    (forall i ni, insts c' !! i = Some ni -> forall j, j < nt_ins T (nid_kind (ni_id ni)) ->
       match mjoin (cf_modamt c !! (ni_id ni, j)) with
       | Some _ => exists m, ni_mod_global ni j = Some (Some m) /\ (ni_mod ni).1 <= m < (ni_mod ni).2
       | None => ni_mod_global ni j = Some None
       end) /\
    (forall i ni j j' m, insts c' !! i = Some ni ->
       j < nt_ins T (nid_kind (ni_id ni)) -> j' < nt_ins T (nid_kind (ni_id ni)) ->
       ni_mod_global ni j = Some (Some m) -> ni_mod_global ni j' = Some (Some m) -> j = j').
  Proof.
    intros Hc Hr. destruct (conf_rebuild_spec T HT h c Hc) as (h1 & c1 & p1 & E & Hs).
    rewrite E in Hr. injection Hr as <- <- <-. cbn zeta in Hs.
    destruct Hs as (_ & Hids & _ & _ & Hi & _).
    assert (Hx : forall i ni, insts c1 !! i = Some ni ->
      inst_ok T (cf_modamt c) ((cf_nodes c).*1) 0 (RLens 0 0 0) 0 i (ni_id ni) ni).
    { destruct (insts_lookup c1 _ _ Hids Hi) as [Hlen Hin]. intros i ni Hl.
      destruct (lookup_lt_is_Some_2 ((cf_nodes c).*1) i) as [id Hid].
      { rewrite <- Hlen. by eapply lookup_lt_Some. }
      destruct (Hin _ _ Hid) as (ni' & Hl' & Hok). rewrite Hl in Hl'. injection Hl' as <-.
      by rewrite (io_id _ _ _ _ _ _ _ _ _ Hok) in *. }
    assert (Hg : forall i ni j, insts c1 !! i = Some ni -> j < nt_ins T (nid_kind (ni_id ni)) ->
       ni_mod_global ni j = Some (mod_entry (cf_modamt c) (ni_id ni) (ni_mod ni).1 j)).
    { intros i ni j Hl Hj. pose proof (Hx _ _ Hl) as Hok. unfold ni_mod_global.
      rewrite (io_len _ _ _ _ _ _ _ _ _ Hok).
      pose proof (tok_ins T HT (nid_kind (ni_id ni))).
      destruct (Nat.ltb_spec max_node_inputs j); [lia|].
      rewrite (io_map _ _ _ _ _ _ _ _ _ Hok) by done. rewrite (io_mod _ _ _ _ _ _ _ _ _ Hok). done. }
    split.
    - intros i ni Hl j Hj. rewrite (Hg _ _ _ Hl Hj). unfold mod_entry.
      destruct (mjoin (cf_modamt c !! (ni_id ni, j))) eqn:Em; [|done].
      eexists. split; [done|]. rewrite (io_mod _ _ _ _ _ _ _ _ _ (Hx _ _ Hl)). cbn [fst snd].
      pose proof (rank_lt (cf_modamt c) (ni_id ni) j (n_ins T (ni_id ni)) _ Em Hj). unfold n_mods. lia.
    - intros i ni j j' m Hl Hj Hj'. rewrite (Hg _ _ _ Hl Hj), (Hg _ _ _ Hl Hj'). unfold mod_entry.
      destruct (mjoin (cf_modamt c !! (ni_id ni, j))) eqn:Em; [|done].
      destruct (mjoin (cf_modamt c !! (ni_id ni, j'))) eqn:Em'; [|done]. intros [= <-] [= E2].
      destruct (Nat.lt_trichotomy j j') as [Hlt|[?|Hlt]]; [|done|].
      + pose proof (rank_lt (cf_modamt c) (ni_id ni) j j' _ Em Hlt). lia.
      + pose proof (rank_lt (cf_modamt c) (ni_id ni) j' j _ Em' Hlt). lia.
  Qed.
End proofs.

(** * C11 *)

(** Rebuilding the ports never fails, and gives every created node its own ranges of output, input,
    atom and modulator indices; the ranges tile the buffers of the program. *)
Theorem C11_port_ranges_tile (T : ntable) (i2f : Z -> f32) (load_sample : satom -> satom) (HT : table_ok T)
    (h : heap) (c : nconf) :
  conf_reachable T i2f load_sample c ->
  exists h' c' p, conf_rebuild T h c = Some (h', c', p) /\
    let nodes := (cf_nodes c).*1 in
    tiles ((fun n => nt_outs T (nid_kind n)) <$> nodes) (ni_out <$> insts c') (length (np_out p)) /\
    tiles ((fun n => nt_ins T (nid_kind n)) <$> nodes) (ni_in <$> insts c') (length (np_inp p)) /\
    tiles ((fun n => nt_ats T (nid_kind n)) <$> nodes) (ni_at <$> insts c') (length (np_atoms p)) /\
    tiles ((fun n => length (modulated T (cf_modamt c) n)) <$> nodes) (ni_mod <$> insts c') (length (np_mods p)) /\
    ni_id <$> insts c' = nodes.
Proof.
  intros Hr%(reachable_inv T i2f load_sample HT).
  destruct (conf_rebuild_spec T HT h c Hr) as (h' & c' & p & E & Hs). exists h', c', p. split; [done|].
  destruct (rebuild_tiles T HT h c h' c' p Hr E) as (H1 & H2 & H3 & H4).
  cbn zeta. split; [done|]. split; [done|]. split; [done|]. split.
  - erewrite list_fmap_ext; [exact H4|]. intros ? n _. symmetry. by apply rank_modulated.
  - cbn zeta in Hs. destruct Hs as (_ & Hids & _ & _ & Hi & _).
    destruct (insts_lookup c' _ _ Hids Hi) as [Hlen Hin].
    apply list_eq_same_length with (length ((cf_nodes c).*1)); [done|by rewrite fmap_length|].
    intros i x y Hlt Hx Hy. destruct (Hin _ _ Hy) as (ni & Hni & Hok).
    rewrite list_lookup_fmap, Hni in Hx. injection Hx as <-. apply Hok.
Qed.
Print Assumptions C11_port_ranges_tile.

(** Every modulated input has a modulator in the node's range, inputs without amount have none, and
    two inputs never share one. *)
Theorem C11_modulators (T : ntable) (i2f : Z -> f32) (load_sample : satom -> satom) (HT : table_ok T)
    (h : heap) (c : nconf) h' c' p :
  conf_reachable T i2f load_sample c -> conf_rebuild T h c = Some (h', c', p) ->
  (forall i ni, insts c' !! i = Some ni -> forall j, j < nt_ins T (nid_kind (ni_id ni)) ->
     match mjoin (cf_modamt c !! (ni_id ni, j)) with
     | Some _ => exists m, ni_mod_global ni j = Some (Some m) /\ (ni_mod ni).1 <= m < (ni_mod ni).2
     | None => ni_mod_global ni j = Some None
     end) /\
  (forall i ni j j' m, insts c' !! i = Some ni ->
     j < nt_ins T (nid_kind (ni_id ni)) -> j' < nt_ins T (nid_kind (ni_id ni)) ->
     ni_mod_global ni j = Some (Some m) -> ni_mod_global ni j' = Some (Some m) -> j = j').
Proof. intros Hr%(reachable_inv T i2f load_sample HT). by apply rebuild_modulators. Qed.
Print Assumptions C11_modulators.

(** Local indices translate to distinct indices inside of the range, and only those below the
    number of ports are translated. *)
Theorem C11_local_to_global (r : nat * nat) (i : nat) :
  (is_Some (local2global r i) <-> i < r.2 - r.1) /\
  (forall g, local2global r i = Some g -> r.1 <= g < r.2) /\
  (forall j g, local2global r i = Some g -> local2global r j = Some g -> i = j).
Proof.
  unfold local2global. split; [|split].
  - destruct (Nat.ltb_spec (r.1 + i) r.2); split; intros Hx; try lia; [by eexists|by destruct Hx].
  - intros g. destruct (Nat.ltb_spec (r.1 + i) r.2); intros [= <-]; lia.
  - intros j g. destruct (Nat.ltb_spec (r.1 + i) r.2); [|done].
    destruct (Nat.ltb_spec (r.1 + j) r.2); [|done]. intros [= <-] [= E]. lia.
Qed.
Print Assumptions C11_local_to_global.

(** The modulator table has 32 entries; asking for input number 32 passes the bounds test and panics,
    although input numbers of a node are given by the user (the inputs of a cell). *)
Theorem C11_modulator_lookup_refuted :
  exists ni, length (ni_map ni) = max_node_inputs /\ ni_mod_global ni max_node_inputs = None.
Proof.
  exists (NInst (NId 1 0) false 0 (0, 1) (0, 1) (0, 1) (0, 0) (replicate max_node_inputs None)).
  by vm_compute.
Qed.
Print Assumptions C11_modulator_lookup_refuted.

(** * C14 *)

(** Whatever happens after a parameter was set, reading it gives the value set, as long as it is
    not set again. *)
Theorem C14_set_survives (T : ntable) (i2f : Z -> f32) (load_sample : satom -> satom) (HT : table_ok T)
    (h0 : heap) (before after : list cop) (p : pid) (a : satom) (h : heap) (c : nconf) :
  cop_run T i2f load_sample (h0, conf_new) (before ++ CSet p a :: after) = Some (h, c) ->
  (forall o, o ∈ after -> ~ sets p o) ->
  conf_get_param T c p = Some (stored T i2f load_sample p a).
Proof.
  unfold cop_run. rewrite foldm_app. destruct (foldm _ _ before) as [[h1 c1]|] eqn:E1; cbn [mbind option_bind]; [|done].
  intros E2 Hno. cbn [foldm cop_step mbind option_bind] in E2.
  assert (H1 : conf_inv T c1) by (apply (run_inv T i2f load_sample HT (h0, conf_new) before (h1, c1)); [apply conf_new_inv|done]).
  set (c2 := (conf_set_param T i2f load_sample c1 p a).1) in *.
  pose proof (foldm_inv (cop_step T i2f load_sample)
    (fun s => conf_inv T s.2 /\ conf_get_param T s.2 p = Some (stored T i2f load_sample p a)) after (h1, c2) (h, c)) as Hinv.
  apply Hinv.
  - intros s o s' Ho [Ha Hb] Hs. split; [by eapply cop_inv|]. eapply cop_keeps; eauto.
  - split; [by apply set_param_inv|]. apply get_set_same.
  - exact E2.
Qed.
Print Assumptions C14_set_survives.

(** Setting a parameter does not change any other parameter, nor any modulation amount. *)
Theorem C14_set_independent (T : ntable) (i2f : Z -> f32) (load_sample : satom -> satom)
    (c : nconf) (p q : pid) (a : satom) :
  let c' := (conf_set_param T i2f load_sample c p a).1 in
  (q <> p -> conf_get_param T c' q = conf_get_param T c q) /\
  conf_get_modamt c' q = conf_get_modamt c q.
Proof. split; [apply get_set_other|apply modamt_set]. Qed.
Print Assumptions C14_set_independent.

(** A parameter that was never set has its default value once its node has ports. *)
Theorem C14_default (T : ntable) (i2f : Z -> f32) (load_sample : satom -> satom) (HT : table_ok T)
    (h : heap) (c : nconf) h' c' p :
  conf_reachable T i2f load_sample c -> conf_rebuild T h c = Some (h', c', p) ->
  forall n, n ∈ (cf_nodes c).*1 ->
  (forall j, j < nt_ins T (nid_kind n) -> conf_get_param T c (n, j) = None ->
     conf_get_param T c' (n, j) = Some (AParam (nt_def T (nid_kind n) j))) /\
  (forall j, j < nt_ats T (nid_kind n) -> conf_get_param T c (n, nt_at_id T (nid_kind n) j) = None ->
     conf_get_param T c' (n, nt_at_id T (nid_kind n) j) = Some (nt_adef T (nid_kind n) j)).
Proof.
  intros Hr%(reachable_inv T i2f load_sample HT) E n Hn.
  destruct (conf_rebuild_spec T HT h c Hr) as (h1 & c1 & p1 & E1 & Hs). rewrite E in E1. injection E1 as <- <- <-.
  cbn zeta in Hs. destruct Hs as (_ & _ & _ & _ & _ & _ & _ & _ & Hv & _ & _ & _ & Ha & _).
  split; intros j Hj; unfold conf_get_param.
  - rewrite (is_atom_input T (n, j)) by done. rewrite (Hv n j) by done. unfold pval_of.
    destruct (cf_pvals c !! (n, j)); [done|]. done.
  - rewrite (is_atom_atom T HT n j) by done. intros Hx. rewrite (Ha n j) by done. unfold aval_of. by rewrite Hx.
Qed.
Print Assumptions C14_default.

(** * C15 *)

(** Loading the dump of one configuration into any other, in any order of the entries, gives every
    dumped parameter the dumped value and modulation amount. The stored values have to survive the
    conversion to the display unit and back, and samples have to be loaded. *)
Theorem C15_dump_restores (T : ntable) (i2f : Z -> f32) (load_sample : satom -> satom) (HT : table_ok T)
    (c c0 : nconf) ps ats :
  conf_reachable T i2f load_sample c ->
  ps ≡ₚ (conf_dump T c).1 -> ats ≡ₚ (conf_dump T c).2 ->
  (forall p v, conf_get_param T c p = Some (AParam v) -> is_atom T p = false ->
     nt_norm T (nid_kind p.1) p.2 (nt_denorm T (nid_kind p.1) p.2 v) = v) ->
  (forall p a, conf_get_param T c p = Some a -> is_atom T p = true -> load_sample a = a) ->
  let c' := (conf_load T i2f load_sample c0 ps ats true).1 in
  forall p a, conf_get_param T c p = Some a ->
    conf_get_param T c' p = Some a /\ (is_atom T p = false -> conf_get_modamt c' p = conf_get_modamt c p).
Proof.
  intros Hr%(reachable_inv T i2f load_sample HT) Hps Hats Hn Hl. cbn zeta.
  assert (Hget : forall p v, cf_pvals c !! p = Some v -> conf_get_param T c p = Some (AParam v)).
  { intros p v Hv. unfold conf_get_param. rewrite (ci_pvals T c Hr) by (by eexists). by rewrite Hv. }
  assert (Hget' : forall p a, cf_avals c !! p = Some a -> conf_get_param T c p = Some a).
  { intros p v Hv. unfold conf_get_param. by rewrite (ci_avals T c Hr) by (by eexists). }
  destruct (load_restores T i2f load_sample c0 ps ats true (cf_pvals c) (conf_get_modamt c) (cf_avals c)) as [H1 H2].
  - apply Hr.
  - apply Hr.
  - intros p v m. rewrite Hps. cbn [conf_dump fst]. rewrite elem_of_list_fmap. split.
    + intros ([q w] & [= -> -> ->] & Hq). apply elem_of_map_to_list in Hq. by exists w.
    + intros (w & Hw & -> & ->); exists (p, w). split; [done|]. by apply elem_of_map_to_list.
  - intros p a. rewrite Hats. cbn [conf_dump snd]. by rewrite elem_of_map_to_list.
  - intros _ p w Hw. apply Hn; [by apply Hget|]. apply Hr. by eexists.
  - intros p a Hp. pose proof Hp as Hp'. unfold conf_get_param in Hp. destruct (is_atom T p) eqn:Ea.
    + split; [|done]. rewrite (H2 p a Hp). by rewrite (Hl p).
    + destruct (cf_pvals c !! p) as [w|] eqn:Ew; [|done]. injection Hp as <-.
      destruct (H1 p w Ew). done.
Qed.
Print Assumptions C15_dump_restores.

(** * A concrete case *)

(** kind 1: two inputs, one atom, one output; kind 2: one input, two outputs *)
Definition demo_table : ntable :=
  NTable (fun k => (k =? 1) || (k =? 2))
         (fun k => match k with 1 => 2 | 2 => 1 | _ => 0 end)
         (fun k => match k with 1 => 1 | _ => 0 end)
         (fun k => match k with 1 => 1 | 2 => 2 | _ => 0 end)
         (fun k j => match k with 1 => 2 + j | _ => 0 end)
         (fun k j => Z.of_nat (10 * k + j)) (fun _ _ => ASetting 7)
         (fun _ _ v => v) (fun _ _ v => v).

Lemma demo_table_ok : table_ok demo_table.
Proof.
  constructor.
  - intros k. cbn. unfold max_node_inputs. destruct k as [|[|[|k]]]; lia.
  - done.
  - intros k j. destruct k as [|[|[|k]]]; cbn; lia.
  - intros k j j'. destruct k as [|[|[|k]]]; cbn; lia.
Qed.

Definition demo_ops : list cop :=
  [CCreate (NId 1 0); CCreate (NId 2 0); CSet (NId 1 0, 1) (AParam 5%Z); CModamt (NId 1 0, 1) (Some 3%Z);
   CRebuild; CCreate (NId 1 1); CSet (NId 1 0, 2) (ASetting 2); CRebuild].

Definition demo_conf : option (heap * nconf) :=
  cop_run demo_table (fun z => z) (fun a => a) (Heap ∅ 0, conf_new) demo_ops.

Example C11_example :
  (s ← demo_conf; Some ((fun ni => (ni_in ni, ni_out ni, ni_at ni, ni_mod ni)) <$> insts s.2))
  = Some [((0, 2), (0, 1), (0, 1), (0, 1)); ((2, 3), (1, 3), (1, 1), (1, 1)); ((3, 5), (3, 4), (1, 2), (1, 1))].
Proof. by vm_compute. Qed.

Example C14_example :
  (s ← demo_conf; Some (conf_get_param demo_table s.2 <$> [(NId 1 0, 1); (NId 1 0, 2); (NId 1 1, 0)]))
  = Some [Some (AParam 5%Z); Some (ASetting 2); Some (AParam 10%Z)].
Proof. by vm_compute. Qed.

Example C15_example :
  (s ← demo_conf;
   let d := conf_dump demo_table s.2 in
   let c' := (conf_load demo_table (fun z => z) (fun a => a) conf_new (rev d.1) (rev d.2) true).1 in
   Some (conf_get_param demo_table c' (NId 1 0, 1), conf_get_modamt c' (NId 1 0, 1), conf_get_param demo_table c' (NId 1 0, 2)))
  = Some (Some (AParam 5%Z), Some 3%Z, Some (ASetting 2)).
Proof. by vm_compute. Qed.
