(** Proofs about chains of cells *)
From stdpp Require Import strings.
From Verif Require Import Base M_Atom M_Dir S_Dir L_Dir M_Grid S_Grid L_Grid M_Layout M_Conf S_Conf M_Exec M_Sync M_Nodes S_Nodes P_Nodes M_Chain S_Chain.
Open Scope string_scope.
Open Scope list_scope.
Open Scope nat_scope.
Local Opaque node_rows.

(** ** Names *)
Lemma named_str name n : named name n -> node_from_str name = n.
Proof.
  intros [[-> ->]|(Hk & Hi & <-)]; [done|]. destruct C28_kinds as [H _]. rewrite (H n Hk). destruct n; cbn in *. by subst.
Qed.
Lemma str_named name : (name = "nop" \/ node_from_str name <> Nop) -> named name (node_from_str name).
Proof.
  intros [->|H]; [by left|]. destruct C28_kinds as [_ H2]. destruct (H2 name H) as [Hk Hn]. right. split; [done|]. split; [|done].
  unfold node_from_str in *. destruct (decide (name = "nop")); [done|]. by destruct (list_find _ _) as [[k r]|].
Qed.
Lemma spawn_named name n : named name n -> spawn_cell name = Some (cell_empty n).
Proof.
  intros H. unfold spawn_cell. rewrite (named_str _ _ H). destruct H as [[-> ->]|(Hk & _ & _)]; [done|].
  rewrite bool_decide_eq_false_2; [done|]. intros ->. destruct Hk as [Hk _]. cbn in Hk. lia.
Qed.
Lemma spawn_some name c : spawn_cell name = Some c -> named name (node_from_str name) /\ c = cell_empty (node_from_str name).
Proof.
  unfold spawn_cell. intros H. destruct (bool_decide (node_from_str name = Nop)) eqn:E; cbn [andb] in H.
  - destruct (String.eqb_spec name "nop") as [->|]; cbn in H; [|done]. injection H as <-. split; [by left|done].
  - injection H as <-. apply bool_decide_eq_false in E. split; [apply str_named; by right|done].
Qed.
Lemma inp_small n s i : node_inp n s = Some i -> i < 256.
Proof.
  intros H. assert (known n) as Hk.
  { unfold node_inp, row_of in H. destruct n as [[|k] j]; [done|]. cbn [nid_kind] in H. destruct (node_rows !! k) as [r|] eqn:E; [|done].
    apply lookup_lt_Some in E. assert (length node_rows = 42) as Hl by (vm_compute; reflexivity). split; cbn; lia. }
  destruct (C28_inputs n Hk) as (H1 & _ & _ & _ & Hc & _). apply H1 in H as [H _]. lia.
Qed.
Lemma out_small n s i : node_out n s = Some i -> i < 256.
Proof.
  intros H. assert (known n) as Hk.
  { unfold node_out, row_of in H. destruct n as [[|k] j]; [done|]. cbn [nid_kind] in H. destruct (node_rows !! k) as [r|] eqn:E; [|done].
    apply lookup_lt_Some in E. assert (length node_rows = 42) as Hl by (vm_compute; reflexivity). split; cbn; lia. }
  destruct (C28_outputs n Hk) as (H1 & H2 & _ & Hc). apply H1 in H. assert (is_Some (out_name_by_idx n i)) as Hs by by eexists. apply H2 in Hs. lia.
Qed.
Lemma inp_param_node n s p : inp_param n s = Some p -> pa_node p = n.
Proof.
  unfold inp_param. destruct (row_of n) as [r|]; [|done]. cbn [mbind option_bind].
  destruct (first _ (nr_ins r)) as [q|]; [by intros [= <-]|]. destruct (first _ (nr_ats r)) as [q|]; [|done]. cbn. by intros [= <-].
Qed.

(** ** Describing *)
Lemma nodes_snoc os o : nodes_of (os ++ [o]) = nodes_of os ++ (if adds o then [o] else []).
Proof. unfold nodes_of. rewrite List.filter_app. cbn. by destruct (adds o). Qed.
Lemma nodes_take os j : length (nodes_of (take j os)) <= length (nodes_of os).
Proof. rewrite <- (take_drop j os) at 2. unfold nodes_of. rewrite List.filter_app, app_length. lia. Qed.
Lemma cursor_from_app a : forall n cur b, cursor_from n cur (a ++ b) = cursor_from (n + length (nodes_of a)) (cursor_from n cur a) b.
Proof.
  induction a as [|o a IH]; intros n cur b; cbn [app cursor_from nodes_of List.filter length]; [by rewrite Nat.add_0_r|].
  change (List.filter adds a) with (nodes_of a).
  destruct o; cbn [adds length]; rewrite IH; unfold nodes_of; f_equal; lia.
Qed.
Lemma cursor_snoc os o : cursor (os ++ [o]) = match o with CFor i => Nat.min i (length (nodes_of os)) | CSet _ _ => cursor os | _ => length (nodes_of os) end.
Proof. unfold cursor. rewrite cursor_from_app. cbn [Nat.add]. by destruct o. Qed.

Definition op_id (o : chop) : node_id := match o with CNode name _ _ => node_from_str name | CAdd c => c_node c | _ => Nop end.
Lemma asks_id o n : asks_for o n -> n = op_id o.
Proof. destruct o; cbn; [|done..]. intros H. by rewrite (named_str _ _ H). Qed.

Section run.
  Context (T : ntable).

  Definition pentry (os : list chop) (k j : nat) : option (paramid * satom) :=
    match os !! j with
    | Some (CSet name v) =>
        if decide (cursor (take j os) = k) then let* o := nodes_of (take j os) !! k in let* p := inp_param (op_id o) name in Some (p, cval_atom T p v) else None
    | _ => None
    end.
  Definition plist (os : list chop) (k : nat) : list (paramid * satom) := omap (pentry os k) (seq 0 (length os)).
  Lemma pentry_snoc os o k j : j < length os -> pentry (os ++ [o]) k j = pentry os k j.
  Proof. intros H. unfold pentry. rewrite lookup_app_l by done. by rewrite take_app_le by lia. Qed.
  Lemma plist_snoc os o k : plist (os ++ [o]) k = plist os k ++ match pentry (os ++ [o]) k (length os) with Some e => [e] | None => [] end.
  Proof.
    unfold plist. rewrite app_length. cbn [length]. rewrite Nat.add_1_r, seq_S, omap_app. cbn [Nat.add]. f_equal.
    apply list_omap_ext. apply Forall2_same_length_lookup_2; [done|].
    intros i x y Hx Hy. assert (x = y) as -> by congruence. apply pentry_snoc. apply lookup_seq in Hy. lia.
  Qed.
  Lemma pentry_last os o k : pentry (os ++ [o]) k (length os) =
    match o with CSet name v => if decide (cursor os = k) then let* o := nodes_of os !! k in let* p := inp_param (op_id o) name in Some (p, cval_atom T p v) else None | _ => None end.
  Proof. unfold pentry. rewrite lookup_app_r, Nat.sub_diag by done. cbn [lookup list_lookup]. by rewrite take_app_alt by done. Qed.

  Record run_inv (d : celldir) (os : list chop) (ch : chain) : Prop := {
    ri_err : ch_err ch = None;
    ri_dir : ch_dir ch = d;
    ri_idx : ch_idx ch = cursor os;
    ri_links : Forall2 (fun o l => describes d o (lk_cell l) /\ c_node (lk_cell l) = op_id o /\ lk_dir l = d) (nodes_of os) (ch_links ch);
    ri_params : forall k l, ch_links ch !! k = Some l -> lk_params l = plist os k;
  }.

  Lemma well_snoc os o : well_described (os ++ [o]) -> well_described os.
  Proof.
    intros H j o' Hj. pose proof (lookup_lt_Some _ _ _ Hj) as Hlt. specialize (H j o'). rewrite lookup_app_l in H by done. specialize (H Hj).
    destruct o' as [| | |name v]; try done. destruct H as (k & i & name' & o'' & n & p & H1 & H2). rewrite lookup_app_l in H1 by done. rewrite !take_app_le in H2 by lia.
    exists k, i, name', o'', n, p. done.
  Qed.
  Lemma node_cell d name n inp out : d <> C -> named name n -> (forall i, inp = Some i -> is_Some (node_inp n i)) -> (forall i, out = Some i -> is_Some (node_out n i)) ->
    forall ch, ch_dir ch = d -> exists c, chain_node ch name inp out = chain_add ch c /\ describes d (CNode name inp out) c /\ c_node c = n.
  Proof.
    intros Hd Hn Hi Ho ch Hdir. unfold chain_node. rewrite (spawn_named _ _ Hn), Hdir.
    assert (chain_in_dir d = input_side d) as -> by (by destruct d). assert (chain_out_dir d = output_side d) as Eo by (by destruct d).
    destruct inp as [i|].
    - destruct (Hi i eq_refl) as [ii Hii]. unfold set_input_by_name. cbn [c_node cell_empty cell_empty_at]. rewrite Hii. cbn [mbind option_bind]. pose proof (inp_small _ _ _ Hii).
      destruct out as [o|].
      + destruct (Ho o eq_refl) as [oo Hoo]. pose proof (out_small _ _ _ Hoo). unfold set_output_by_name. rewrite Hdir, Eo.
        assert (c_node (set_io_dir (cell_empty n) (input_side d) ii) = n) as -> by (by destruct d). rewrite Hoo. cbn [mbind option_bind].
        eexists. split; [done|]. cbn [describes mbind option_bind].
        assert (c_node (set_io_dir (set_io_dir (cell_empty n) (input_side d) ii) (output_side d) oo) = n) as -> by (by destruct d). rewrite Hii, Hoo.
        split; [split_and!; [done|..]|done]; intros e; destruct d, e; try done; cbn -[u8]; unfold u8; by rewrite Nat.mod_small.
      + eexists. split; [done|]. cbn [describes mbind option_bind].
        assert (c_node (set_io_dir (cell_empty n) (input_side d) ii) = n) as -> by (by destruct d). rewrite Hii.
        split; [split_and!; [done|..]|done]; intros e; destruct d, e; try done; cbn -[u8]; unfold u8; by rewrite Nat.mod_small.
    - destruct out as [o|].
      + destruct (Ho o eq_refl) as [oo Hoo]. pose proof (out_small _ _ _ Hoo). unfold set_output_by_name. rewrite Hdir, Eo. cbn [c_node cell_empty cell_empty_at]. rewrite Hoo. cbn [mbind option_bind].
        eexists. split; [done|]. cbn [describes mbind option_bind].
        assert (c_node (set_io_dir (cell_empty n) (output_side d) oo) = n) as -> by (by destruct d). rewrite Hoo.
        split; [split_and!; [done|..]|done]; intros e; destruct d, e; try done; cbn -[u8]; unfold u8; by rewrite Nat.mod_small.
      + eexists. split; [done|]. cbn [describes mbind option_bind]. split; [split_and!; [done|..]|done]; intros e; destruct d, e; done.
  Qed.

  Lemma chain_run_app os : forall ch os', chain_run T ch (os ++ os') = (let* ch := chain_run T ch os in chain_run T ch os').
  Proof. induction os as [|o os IH]; intros ch os'; [done|]. cbn [app chain_run]. destruct (chain_step T ch o); [|done]. apply IH. Qed.

  Lemma plist_node os k o : (forall name v, o <> CSet name v) -> plist (os ++ [o]) k = plist os k.
  Proof. intros H. rewrite plist_snoc, pentry_last. destruct o; try (by rewrite app_nil_r). by destruct (H param v). Qed.
  Lemma plist_fresh os : plist os (length (nodes_of os)) = [].
  Proof.
    unfold plist. assert (forall l, (forall j, j ∈ l -> j < length os) -> omap (pentry os (length (nodes_of os))) l = []) as H.
    { induction l as [|j l IH]; intros Hl; [done|]. cbn. rewrite IH by (intros j' Hj'; apply Hl; by right). specialize (Hl j ltac:(left)). unfold pentry.
      destruct (os !! j) as [[| | |name v]|]; try done. destruct (decide _) as [Hc|]; [|done]. destruct (nodes_of (take j os) !! length (nodes_of os)) as [o|] eqn:E; [|done]. exfalso.
      apply lookup_lt_Some in E. pose proof (nodes_take os j). lia. }
    apply H. intros j Hj. apply elem_of_seq in Hj. lia.
  Qed.

  Lemma run_ok d os : d <> C -> well_described os -> exists ch, chain_run T (chain_new d) os = Some ch /\ run_inv d os ch.
  Proof.
    intros Hd. induction os as [|o os IH] using rev_ind; intros Hw.
    { exists (chain_new d). split; [done|]. split; try done. by apply Forall2_nil. }
    destruct (IH (well_snoc _ _ Hw)) as (ch & Hrun & [He Hdir Hidx Hlinks Hpar]). rewrite chain_run_app, Hrun. cbn [mbind option_bind chain_run].
    pose proof (Hw (length os) o) as Ho. rewrite lookup_app_r, Nat.sub_diag in Ho by done. specialize (Ho eq_refl).
    pose proof (Forall2_length _ _ _ Hlinks) as Hlen.
    assert (forall c, describes d o c -> c_node c = op_id o -> adds o = true -> (forall name v, o <> CSet name v) -> cursor (os ++ [o]) = length (nodes_of os) -> run_inv d (os ++ [o]) (chain_add ch c)) as Hadd.
    { intros c Hc Hid Ha Hns Hcur. unfold chain_add. split; cbn [ch_err ch_dir ch_idx ch_links]; [done|done|by rewrite Hcur, Hlen| |].
      - rewrite nodes_snoc, Ha. apply Forall2_app; [done|]. constructor; [done|constructor].
      - intros k l Hk. rewrite plist_node by done. apply lookup_app_Some in Hk as [Hk|[Hk1 Hk]]; [by apply Hpar|].
        destruct (k - length (ch_links ch)) as [|] eqn:Ek; [|done]. injection Hk as <-. cbn [lk_params]. assert (k = length (nodes_of os)) as -> by lia. by rewrite plist_fresh. }
    destruct o as [name inp out|c|i|name v]; cbn [chain_step].
    - destruct Ho as (n & Hn & Hi & Hout). destruct (node_cell d name n inp out Hd Hn Hi Hout ch Hdir) as (c & Ec & Hc & Hcn). rewrite Ec. cbn [mbind option_bind]. eexists. split; [done|].
      apply Hadd; [done| |done|done|by rewrite cursor_snoc]. cbn [op_id]. by rewrite (named_str _ _ Hn).
    - eexists. split; [done|]. apply Hadd; [done|done|done|done|by rewrite cursor_snoc].
    - eexists. split; [done|]. unfold chain_params_for. split; cbn [ch_err ch_dir ch_idx ch_links]; [done|done| | |].
      + rewrite cursor_snoc, Hlen. destruct (Nat.leb_spec (length (ch_links ch)) i); lia.
      + rewrite nodes_snoc. cbn [adds]. by rewrite app_nil_r.
      + intros k l Hk. rewrite plist_node by done. by apply Hpar.
    - destruct Ho as (k & i & name' & o & n & p & H1 & H2 & H3 & H4 & H5 & H6). rewrite lookup_app_r, Nat.sub_diag in H1 by done. injection H1 as <-. rewrite take_app_alt in H2, H3 by done.
      unfold chain_set. rewrite Hidx, H2. destruct (Forall2_lookup_l _ _ _ _ _ Hlinks H3) as (l & Hl & Hdl & Hcl & Hld). rewrite Hl. cbn [mbind option_bind].
      rewrite Hcl, <- (asks_id _ _ H4), H5. eexists. split; [done|]. split; cbn [ch_err ch_dir ch_idx ch_links]; [done|done|by rewrite cursor_snoc| |].
      + rewrite nodes_snoc. cbn [adds]. rewrite app_nil_r. rewrite <- (list_insert_id (nodes_of os) k o H3). apply Forall2_insert; [done|]. done.
      + intros k' l' Hk'. rewrite plist_snoc, pentry_last. apply list_lookup_insert_Some in Hk' as [(<- & <- & _)|(Hne & Hk')].
        * cbn [lk_params]. rewrite decide_True by done. rewrite H3. cbn [mbind option_bind]. rewrite <- (asks_id _ _ H4), H5. cbn [mbind option_bind]. by rewrite (Hpar _ _ Hl).
        * rewrite decide_False by congruence. rewrite app_nil_r. by apply Hpar.
  Qed.
End run.

(** ** Instance numbers *)
Definition real (n : node_id) : Prop := n = Nop \/ known n.
Lemma name_kind a b : real a -> real b -> node_name a = node_name b <-> nid_kind a = nid_kind b.
Proof.
  destruct C28_kinds as [H _].
  assert (forall n, known n -> node_name n <> "nop") as Hno.
  { intros n Hn E. specialize (H n Hn). rewrite E in H. destruct Hn as [Hn _]. cbn in H. injection H as H. lia. }
  assert (node_name Nop = "nop") as Enop by (vm_compute; reflexivity).
  intros [->|Ha] [->|Hb].
  - done.
  - rewrite Enop. split; [intros E; by destruct (Hno b)|]. intros E. destruct Hb as [Hb _]. cbn in E. lia.
  - rewrite Enop. split; [intros E; by destruct (Hno a)|]. intros E. destruct Ha as [Ha _]. cbn in E. lia.
  - split; [|intros E; unfold node_name, row_of; by rewrite E]. intros E. pose proof (H a Ha) as E1. pose proof (H b Hb) as E2. rewrite E, E2 in E1. by injection E1.
Qed.
Lemma to_instance_mod a i : to_instance a (i mod 256 + 1) = to_instance a (i + 1).
Proof. unfold to_instance. destruct (nid_kind a); [done|]. f_equal. by rewrite Nat.add_mod_idemp_l. Qed.

Section ids.
  Context (unused : node_id -> option node_id).
  Fixpoint ids_from (last : gmap string nat) (asked : list node_id) : option (list node_id) :=
    match asked with
    | [] => Some []
    | a :: asked =>
        let* (n, i) := match last !! node_name a with
                       | Some i => Some (to_instance a (i + 1), i + 1)
                       | None => let* n := unused a in Some (n, nid_inst n)
                       end in
        let* ids := ids_from (<[node_name a := i]> last) asked in
        Some (n :: ids)
    end.
  Lemma ids_total asked : Forall (fun a => is_Some (unused a)) asked -> forall last, is_Some (ids_from last asked).
  Proof.
    induction asked as [|a asked IH]; intros H last; [by eexists|]. apply Forall_cons in H as [[n Hn] H]. cbn [ids_from].
    destruct (last !! node_name a) as [i|]; rewrite ?Hn; cbn [mbind option_bind]; edestruct (IH H) as [l ->]; by eexists.
  Qed.
  Lemma ids_num asked : Forall real asked -> forall last ids, ids_from last asked = Some ids -> length ids = length asked /\
    forall k a n, asked !! k = Some a -> ids !! k = Some n ->
      ((forall j a', j < k -> asked !! j = Some a' -> nid_kind a' <> nid_kind a) ->
         match last !! node_name a with None => unused a = Some n | Some i => n = to_instance a (i + 1) end) /\
      (forall j a' n', j < k -> asked !! j = Some a' -> ids !! j = Some n' -> nid_kind a' = nid_kind a ->
         (forall i a', j < i -> i < k -> asked !! i = Some a' -> nid_kind a' <> nid_kind a) -> n = to_instance a (nid_inst n' + 1)).
  Proof.
    induction asked as [|a0 asked IH]; intros Hr last ids E; cbn [ids_from] in E.
    { injection E as <-. split; [done|]. intros k a n Hk. done. }
    apply Forall_cons in Hr as [Hr0 Hr]. apply bind_Some in E as ([n0 i0] & E0 & E). apply bind_Some in E as (ids' & E' & [= <-]).
    destruct (IH Hr _ _ E') as [Hlen Hnum]. split; [by cbn; f_equal|].
    assert (nid_inst n0 = i0 mod 256 \/ nid_inst n0 = i0 \/ nid_kind a0 = 0) as Hi0.
    { destruct (last !! node_name a0) as [i|].
      - injection E0 as <- <-. unfold to_instance. destruct (nid_kind a0); [by right; right|by left].
      - apply bind_Some in E0 as (n1 & _ & [= <- <-]). right. by left. }
    assert (match last !! node_name a0 with None => unused a0 = Some n0 | Some i => n0 = to_instance a0 (i + 1) end) as H0.
    { destruct (last !! node_name a0) as [i|]; [by injection E0 as <- _|]. apply bind_Some in E0 as (n1 & E1 & [= <- _]). done. }
    intros [|k] a n Hk Hn; cbn in Hk, Hn.
    - injection Hk as <-. injection Hn as <-. split; [done|]. intros j a' n' Hj. lia.
    - destruct (Hnum k a n Hk Hn) as [HA HB]. assert (real a) as Hra by (rewrite Forall_forall in Hr; apply Hr; by eapply elem_of_list_lookup_2). split.
      + intros Hd. assert (node_name a0 <> node_name a) as Hne. { rewrite (name_kind _ _ Hr0 Hra). apply (Hd 0 a0); [lia|done]. }
        rewrite lookup_insert_ne in HA by done. apply HA. intros j a' Hj Ha'. apply (Hd (S j) a'); [lia|done].
      + intros [|j] a' n' Hj Ha' Hn' Hkind Hbt; cbn in Ha', Hn'.
        * injection Ha' as <-. injection Hn' as <-. assert (node_name a0 = node_name a) as En by (by apply name_kind). rewrite <- En, lookup_insert in HA.
          rewrite HA; [|intros i a' Hi Hia; apply (Hbt (S i) a'); [lia|lia|done]].
          destruct Hi0 as [->|[->|Hz]]; [by rewrite to_instance_mod|done|]. unfold to_instance. by rewrite <- Hkind, Hz.
        * apply (HB j a' n'); [lia|done|done|done|]. intros i a'' H1 H2 Hi. apply (Hbt (S i) a''); [lia|lia|done].
  Qed.
  Lemma ids_numbered asked ids : Forall real asked -> ids_from ∅ asked = Some ids -> numbered unused asked ids.
  Proof.
    intros Hr E. destruct (ids_num asked Hr ∅ ids E) as [Hl H]. split; [done|]. intros k a n Hk Hn. destruct (H k a n Hk Hn) as [HA HB]. rewrite lookup_empty in HA. split; [done|].
    intros j a' n' H1 H2 H3 H4 H5. rewrite (HB j a' n' H1 H2 H3 H4 H5). unfold to_instance. destruct (nid_kind a); [done|]. by rewrite decide_False.
  Qed.
End ids.

(** ** Positions *)
Definition zstep (d : celldir) (p : Z * Z) : Z * Z := let o := dir_as_offs d (Z.to_nat (p.1 mod 2)) in (p.1 + o.1, p.2 + o.2)%Z.
Fixpoint zpos (d : celldir) (p : Z * Z) (k : nat) : Z * Z := match k with 0 => p | S k => zpos d (zstep d p) k end.
Definition zc (p : Z * Z) : Z * Z := (p.1, 2 * p.2 + p.1 mod 2)%Z.
Definition zof (q : nat * nat) : Z * Z := (Z.of_nat q.1, Z.of_nat q.2).
Lemma zc_inj p q : zc p = zc q -> p = q.
Proof. unfold zc. intros [= H1 H2]. destruct p, q. cbn in *. f_equal; [done|]. subst. lia. Qed.
Lemma zc_of q : zc (zof q) = center q.
Proof. done. Qed.
Lemma parity (x : Z) : (x mod 2 = 0 \/ x mod 2 = 1)%Z.
Proof. pose proof (Z.mod_pos_bound x 2). lia. Qed.
Lemma mod2_plus (x : Z) : ((x + 1) mod 2 = 1 - x mod 2)%Z.
Proof. destruct (parity x) as [E|E]; rewrite Z.add_mod, E by done; reflexivity. Qed.
Lemma mod2_minus (x : Z) : ((x + -1) mod 2 = 1 - x mod 2)%Z.
Proof. destruct (parity x) as [E|E]; rewrite Z.add_mod, E by done; reflexivity. Qed.
Lemma zc_step d p : zc (zstep d p) = ((zc p).1 + (displacement d).1, (zc p).2 + (displacement d).2)%Z.
Proof.
  unfold zc, zstep. destruct p as [x y]. cbn [fst snd].
  assert (Nat.even (Z.to_nat (x mod 2)) = (x mod 2 =? 0)%Z) as E by (by destruct (parity x) as [-> | ->]).
  destruct d; cbn [dir_as_offs displacement fst snd]; rewrite ?E, ?mod2_plus, ?mod2_minus, ?Z.add_0_r; f_equal; try lia; destruct (parity x) as [-> | ->]; cbn [Z.eqb]; lia.
Qed.
Lemma zc_pos d k : forall p, zc (zpos d p k) = ((zc p).1 + Z.of_nat k * (displacement d).1, (zc p).2 + Z.of_nat k * (displacement d).2)%Z.
Proof. induction k as [|k IH]; intros p; cbn [zpos]; [destruct (zc p) as [a b]; cbn [fst snd]; f_equal; lia|]. rewrite IH, zc_step. cbn [fst snd]. f_equal; lia. Qed.
Lemma zpos_inj d p k k' : d <> C -> zpos d p k = zpos d p k' -> k = k'.
Proof. intros Hd H. apply (f_equal zc) in H. rewrite !zc_pos in H. injection H as H1 H2. destruct d; cbn in H1, H2; try done; lia. Qed.
Lemma zstep_neighbour d p q : d <> C -> zstep d (zof p) = zof q <-> neighbour p d q.
Proof.
  intros Hd. unfold neighbour. rewrite <- !zc_of. split.
  - intros E. split; [done|]. rewrite <- E, zc_step. done.
  - intros (_ & H1 & H2). apply zc_inj. rewrite zc_step. destruct (zc (zof q)). cbn in *. by rewrite H1, H2.
Qed.
Lemma zpos_walk d k : d <> C -> forall p q, zpos d (zof p) k = zof q <-> walk p (replicate k d) q.
Proof.
  intros Hd. induction k as [|k IH]; intros p q; cbn [zpos replicate].
  - split; [|by inversion 1]. intros E. assert (p = q) as ->; [|constructor]. unfold zof in E. destruct p, q. cbn in E. injection E as E1 E2. f_equal; lia.
  - split.
    + intros E. assert (exists r, zstep d (zof p) = zof r) as [r Hr].
      { pose proof (zc_step d (zof p)) as Hs. pose proof (zc_pos d k (zstep d (zof p))) as Hk. rewrite E, Hs in Hk. cbn [fst snd] in Hk.
        destruct (zstep d (zof p)) as [a b]. unfold zc, zof in *. cbn [fst snd] in *. injection Hs as S1 S2. injection Hk as K1 K2.
        pose proof (parity a). pose proof (parity (Z.of_nat q.1)). pose proof (parity (Z.of_nat p.1)).
        assert (0 <= a)%Z by (destruct d; cbn in *; try done; lia).
        assert (0 <= b)%Z by (destruct d; cbn in *; try done; lia).
        exists (Z.to_nat a, Z.to_nat b). cbn [fst snd]. f_equal; lia. }
      rewrite Hr in E. apply IH in E. econstructor; [|done]. by apply zstep_neighbour.
    + inversion 1 as [|? ? r ? ? Hn Hw]; subst. apply zstep_neighbour in Hn; [|done]. rewrite Hn. by apply IH.
Qed.

(** ** Placing *)
Lemma place_links_ok fuel conf d : d <> C -> forall ks last l p ids, Forall (fun k => lk_dir k = d) ks -> grid_wf (lay_grid l) ->
  ids_from (conf_unused fuel conf) last ((fun k => c_node (lk_cell k)) <$> ks) = Some ids ->
  exists l', place_links fuel conf last l p ks = Some l' /\ grid_wf (lay_grid l') /\ g_w (lay_grid l') = g_w (lay_grid l) /\ g_h (lay_grid l') = g_h (lay_grid l) /\
    (forall k c n q, ks !! k = Some c -> ids !! k = Some n -> zpos d p k = zof q -> in_bounds (lay_grid l) q ->
       board (lay_grid l') q = Some (cell_at (cell_set_node_id_keep_ios (lk_cell c) n) (u8 q.1) (u8 q.2))) /\
    (forall q, (forall k, k < length ks -> zpos d p k <> zof q) -> board (lay_grid l') q = board (lay_grid l) q).
Proof.
  intros Hd ks. induction ks as [|k0 ks IH]; intros last l p ids Hdir Hwf Hids.
  { exists l. split_and!; try done. }
  apply Forall_cons in Hdir as [Hd0 Hdir]. cbn [fmap list_fmap ids_from] in Hids. cbn [place_links].
  apply bind_Some in Hids as ([n0 i0] & E0 & E). apply bind_Some in E as (ids' & E' & [= <-]). rewrite E0. cbn [mbind option_bind].
  set (c0 := cell_set_node_id_keep_ios (lk_cell k0) n0).
  assert (exists l1, place_at l p c0 = Some l1 /\ grid_wf (lay_grid l1) /\ g_w (lay_grid l1) = g_w (lay_grid l) /\ g_h (lay_grid l1) = g_h (lay_grid l) /\
    (forall q, p = zof q -> in_bounds (lay_grid l) q -> board (lay_grid l1) q = Some (cell_at c0 (u8 q.1) (u8 q.2))) /\
    (forall q, p <> zof q -> board (lay_grid l1) q = board (lay_grid l) q)) as (l1 & El1 & Hwf1 & Hw & Hh & Hset & Hoth).
  { unfold place_at. destruct p as [x y]. cbn [fst snd]. destruct (Z.leb_spec 0 x) as [Hx|Hx]; cbn [andb].
    2:{ exists l. split_and!; try done. intros q. unfold zof. intros [= -> _]. lia. }
    destruct (Z.leb_spec 0 y) as [Hy|Hy].
    2:{ exists l. split_and!; try done. intros q. unfold zof. intros [= _ ->]. lia. }
    unfold layout_place. destruct (place_some (lay_grid l) (Z.to_nat x) (Z.to_nat y) c0 Hwf) as (g & Eg & Hg & Hw & Hh & Hb & _). rewrite Eg. cbn [mbind option_bind].
    eexists. split; [done|]. cbn [with_grid lay_grid]. split_and!; try done.
    - intros q Eq Hin. rewrite Hb. unfold zof in Eq. injection Eq as -> ->. rewrite !Nat2Z.id, decide_True; [done|]. destruct q. done.
    - intros q Hq. rewrite Hb, decide_False; [done|]. intros [-> _]. apply Hq. unfold zof. cbn. f_equal; lia. }
  rewrite El1. cbn [mbind option_bind]. rewrite Hd0. change (_, _)%Z with (zstep d p).
  destruct (IH (<[node_name (c_node (lk_cell k0)) := i0]> last) l1 (zstep d p) ids' Hdir Hwf1 E') as (l' & El' & Hwf' & Hw' & Hh' & Hset' & Hoth').
  exists l'. split; [done|]. split; [done|]. split; [congruence|]. split; [congruence|]. split.
  - intros [|k] c n q Hk Hn Hp Hin; cbn in Hk, Hn; cbn [zpos] in Hp.
    + injection Hk as <-. injection Hn as <-. rewrite Hoth'; [by apply Hset|]. intros k Hk E. change (zpos d (zstep d p) k) with (zpos d p (S k)) in E.
      rewrite <- Hp in E. apply (zpos_inj d p (S k) 0 Hd) in E. done.
    + apply (Hset' k); [done|done|done|]. unfold in_bounds in *. by rewrite Hw, Hh.
  - intros q Hq. rewrite Hoth'.
    + apply Hoth. apply (Hq 0). cbn. lia.
    + intros k Hk. apply (Hq (S k)). cbn. lia.
Qed.

(** ** Parameters *)
Section params.
  Context (T : ntable) (i2f : Z -> f32) (load_sample : satom -> satom).
  Lemma get_set c p a q : conf_get_param T (conf_set_param T i2f load_sample c p a).1 q = if decide (q = p) then Some (stored T i2f load_sample p a) else conf_get_param T c q.
  Proof.
    unfold conf_get_param, conf_set_param, stored. destruct (decide (q = p)) as [->|Hne].
    - destruct (is_atom T p).
      + destruct (cf_atoms c !! p); cbn [fst cf_avals]; by rewrite lookup_insert.
      + destruct (cf_params c !! p); cbn [fst cf_pvals]; by rewrite lookup_insert.
    - destruct (is_atom T p); [destruct (cf_atoms c !! p)|destruct (cf_params c !! p)]; cbn [fst cf_avals cf_pvals]; destruct (is_atom T q); by rewrite ?lookup_insert_ne by done.
  Qed.
  Definition pid_of (q : paramid * satom) : node_id * nat := (pa_node q.1, pa_idx q.1).
  Lemma params_fold l : forall s, let s' := foldl (fun (s : matrix * list gmsg) (q : paramid * satom) =>
             let '(m, ms) := matrix_set_param T i2f load_sample s.1 (pa_node q.1, pa_idx q.1) q.2 in (m, s.2 ++ ms)) s l in
    mx_lay s'.1 = mx_lay s.1 /\ mx_mon s'.1 = mx_mon s.1 /\
    (forall l1 q l2, l = l1 ++ q :: l2 -> (forall q', q' ∈ l2 -> pid_of q' <> pid_of q) -> conf_get_param T (mx_conf s'.1) (pid_of q) = Some (stored T i2f load_sample (pid_of q) q.2)) /\
    (forall r, (forall q, q ∈ l -> pid_of q <> r) -> conf_get_param T (mx_conf s'.1) r = conf_get_param T (mx_conf s.1) r).
  Proof.
    induction l as [|q l IH]; intros s; cbn [foldl]; cbv zeta.
    { split_and!; try done. intros l1 q l2 E. by destruct l1. }
    match goal with |- context [foldl _ ?s0 l] => set (s1 := s0) end. destruct (IH s1) as (H1 & H2 & H3 & H4).
    assert (s1 = (Matrix (mx_lay s.1) (conf_set_param T i2f load_sample (mx_conf s.1) (pid_of q) q.2).1 (mx_mon s.1), s.2 ++ (conf_set_param T i2f load_sample (mx_conf s.1) (pid_of q) q.2).2)) as Es1.
    { unfold s1, matrix_set_param, pid_of. by destruct (conf_set_param _ _ _ _ _ _). }
    clearbody s1. subst s1. cbn [fst mx_lay mx_mon mx_conf] in *. split_and!; [done|done| |].
    - intros [|q1 l1] q' l2 E Hl2; cbn [app] in E; injection E as <- E.
      + subst l2. rewrite H4 by (intros q' Hq'; by apply Hl2). rewrite get_set. by rewrite decide_True.
      + by apply (H3 l1 q' l2).
    - intros r Hr. rewrite H4 by (intros q' Hq'; apply Hr; by right). rewrite get_set, decide_False; [done|]. intros ->. by apply (Hr q); [left|].
  Qed.
End params.

(** ** The whole *)
Lemma nodes_split os j : nodes_of os = nodes_of (take j os) ++ nodes_of (drop j os).
Proof. unfold nodes_of. by rewrite <- List.filter_app, take_drop. Qed.
Lemma nodes_in os o : o ∈ nodes_of os -> exists j, os !! j = Some o /\ adds o = true.
Proof. unfold nodes_of. rewrite elem_of_list_In, filter_In, <- elem_of_list_In, elem_of_list_lookup. intros [[j H] Ha]. eauto. Qed.
Lemma well_asks os o : well_described os -> o ∈ nodes_of os -> asks_for o (op_id o) /\ real (op_id o).
Proof.
  intros Hw Ho. apply nodes_in in Ho as (j & Hj & Ha). specialize (Hw j o Hj). destruct o as [name inp out|c| |]; try done; cbn [asks_for op_id].
  destruct Hw as (n & Hn & _). rewrite (named_str _ _ Hn). split; [done|]. destruct Hn as [[_ ->]|(Hk & _)]; [by left|by right].
Qed.

Lemma joined_app {A} (a b : list (list A)) : mjoin (a ++ b) = mjoin a ++ mjoin b.
Proof. induction a as [|x a IH]; [done|]. change (x ++ mjoin (a ++ b) = (x ++ mjoin a) ++ mjoin b). by rewrite IH, app_assoc. Qed.

Section whole.
  Context (T : ntable) (i2f : Z -> f32) (load_sample : satom -> satom).
  Lemma pentry_call os k j e : well_described os -> pentry T os k j = Some e -> exists o v,
    nodes_of os !! k = Some o /\ asks_for o (op_id o) /\ set_call os j k (pa_idx e.1) v /\ pid_of e = (op_id o, pa_idx e.1) /\ e.2 = given T (op_id o) (pa_idx e.1) v.
  Proof.
    intros Hw E. unfold pentry in E. destruct (os !! j) as [[| | |name v]|] eqn:Ej; try done. destruct (decide _) as [Hc|]; [|done].
    apply bind_Some in E as (o & Eo & E). apply bind_Some in E as (p & Ep & [= <-]). cbn [fst snd].
    assert (nodes_of os !! k = Some o) as Ho by (rewrite (nodes_split os j); by apply lookup_app_l_Some).
    destruct (well_asks os o Hw) as [Ha _]; [by eapply elem_of_list_lookup_2|].
    exists o, v. pose proof (inp_param_node _ _ _ Ep) as Hn. split_and!; [done|done| |by unfold pid_of; cbn [fst snd]; rewrite Hn|by unfold given, cval_atom; rewrite Hn].
    exists name, o, (op_id o), p. done.
  Qed.
  Lemma call_pentry os k j i v o : well_described os -> set_call os j k i v -> nodes_of os !! k = Some o ->
    exists e, pentry T os k j = Some e /\ pid_of e = (op_id o, i) /\ e.2 = given T (op_id o) i v.
  Proof.
    intros Hw (name & o' & n & p & H1 & H2 & H3 & H4 & H5 & H6) Ho.
    assert (o' = o) as ->. { rewrite (nodes_split os j) in Ho. rewrite lookup_app_l in Ho by (by eapply lookup_lt_Some). congruence. }
    pose proof (asks_id _ _ H4) as ->. pose proof (inp_param_node _ _ _ H5) as Hn. exists (p, cval_atom T p v). unfold pentry. rewrite H1, H2, decide_True, H3 by done. cbn [mbind option_bind]. rewrite H5. split; [done|].
    unfold pid_of, given, cval_atom. cbn [fst snd]. by rewrite Hn, H6.
  Qed.
  Lemma plist_in os k e : e ∈ plist T os k -> exists j, pentry T os k j = Some e.
  Proof. unfold plist. rewrite elem_of_list_omap. intros (j & _ & H). eauto. Qed.

  Lemma params_in d os ch e : run_inv T d os ch -> e ∈ mjoin (lk_params <$> ch_links ch) -> exists k j, pentry T os k j = Some e.
  Proof.
    intros Hi He. apply elem_of_list_join in He as (l & He & Hl). apply elem_of_list_fmap in Hl as (c & -> & Hc). apply elem_of_list_lookup in Hc as [k Hk].
    rewrite (ri_params _ _ _ _ Hi _ _ Hk) in He. exists k. by apply plist_in.
  Qed.
  Lemma params_split d os ch k j e : run_inv T d os ch -> k < length (ch_links ch) -> pentry T os k j = Some e ->
    exists l1 l2, mjoin (lk_params <$> ch_links ch) = l1 ++ e :: l2 /\ forall e', e' ∈ l2 -> exists k' j', pentry T os k' j' = Some e' /\ (k < k' \/ k' = k /\ j < j').
  Proof.
    intros Hi Hk He. assert (j < length os) as Hj. { unfold pentry in He. destruct (os !! j) eqn:E; [|done]. by eapply lookup_lt_Some. }
    apply lookup_lt_is_Some in Hk as [c Hc]. pose proof (ri_params _ _ _ _ Hi _ _ Hc) as Hp.
    assert (plist T os k = omap (pentry T os k) (seq 0 j) ++ e :: omap (pentry T os k) (seq (S j) (length os - S j))) as Hs.
    { unfold plist. replace (length os) with (j + S (length os - S j)) at 1 by lia. rewrite seq_app, omap_app. cbn [Nat.add]. f_equal. cbn [seq]. cbn. by rewrite He. }
    exists (mjoin (lk_params <$> take k (ch_links ch)) ++ omap (pentry T os k) (seq 0 j)), (omap (pentry T os k) (seq (S j) (length os - S j)) ++ mjoin (lk_params <$> drop (S k) (ch_links ch))).
    split.
    - rewrite <- (take_drop_middle _ _ _ Hc) at 1. rewrite fmap_app, joined_app. cbn [fmap list_fmap].
      match goal with |- context [mjoin (lk_params c :: ?r)] => change (mjoin (lk_params c :: r)) with (lk_params c ++ mjoin r) end. rewrite Hp, Hs. by rewrite <- !app_assoc.
    - intros e' He'. apply elem_of_app in He' as [He'|He'].
      + apply elem_of_list_omap in He' as (j' & Hj' & He'). apply elem_of_seq in Hj'. exists k, j'. split; [done|]. right. split; [done|lia].
      + apply elem_of_list_join in He' as (l & He' & Hl). apply elem_of_list_fmap in Hl as (c' & -> & Hc'). apply elem_of_list_lookup in Hc' as [k' Hk']. rewrite lookup_drop in Hk'.
        rewrite (ri_params _ _ _ _ Hi _ _ Hk') in He'. apply plist_in in He' as [j' He']. exists (S k + k'), j'. split; [done|]. left. lia.
  Qed.

  Lemma place_run fuel d os m ch x y : d <> C -> well_described os -> run_inv T d os ch -> grid_wf (lay_grid (mx_lay m)) ->
    (forall o n, o ∈ nodes_of os -> asks_for o n -> is_Some (matrix_unused fuel m n)) ->
    exists m' ms ids, chain_place T i2f load_sample fuel m ch x y = Some (m', ch, ms, None) /\ grid_wf (lay_grid (mx_lay m')) /\
      g_w (lay_grid (mx_lay m')) = g_w (lay_grid (mx_lay m)) /\ g_h (lay_grid (mx_lay m')) = g_h (lay_grid (mx_lay m)) /\
      numbered (matrix_unused fuel m) (op_id <$> nodes_of os) ids /\
      (forall k o n q, nodes_of os !! k = Some o -> ids !! k = Some n -> walk (x, y) (replicate k d) q -> in_bounds (lay_grid (mx_lay m)) q ->
         exists c c', describes d o c /\ cell_put c n q c' /\ board (lay_grid (mx_lay m')) q = Some c') /\
      (forall q, (forall k, k < length (nodes_of os) -> ~ walk (x, y) (replicate k d) q) -> board (lay_grid (mx_lay m')) q = board (lay_grid (mx_lay m)) q) /\
      (forall j k i v o, set_call os j k i v -> nodes_of os !! k = Some o ->
         (forall j' k' v' o', set_call os j' k' i v' -> nodes_of os !! k' = Some o' -> asks_for o' (op_id o) -> k' < k \/ k' = k /\ j' <= j) ->
         conf_get_param T (mx_conf m') (op_id o, i) = Some (stored T i2f load_sample (op_id o, i) (given T (op_id o) i v))) /\
      (forall n i, (forall j k v o, set_call os j k i v -> nodes_of os !! k = Some o -> ~ asks_for o n) -> conf_get_param T (mx_conf m') (n, i) = conf_get_param T (mx_conf m) (n, i)).
  Proof.
    intros Hd Hw Hi Hwf Hun. pose proof (ri_links _ _ _ _ Hi) as Hl.
    assert ((fun k => c_node (lk_cell k)) <$> ch_links ch = op_id <$> nodes_of os) as Hask.
    { revert Hl. generalize (nodes_of os), (ch_links ch). clear. induction 1 as [|o l os ls (_ & H & _) _ IH]; [done|]. cbn. by rewrite H, IH. }
    assert (Forall real (op_id <$> nodes_of os)) as Hreal. { apply Forall_fmap, Forall_forall. intros o Ho. by apply (well_asks os o Hw). }
    destruct (ids_total (matrix_unused fuel m) (op_id <$> nodes_of os)) with (last := (∅ : gmap string nat)) as [ids Hids].
    { apply Forall_fmap, Forall_forall. intros o Ho. apply (Hun o); [done|]. by apply (well_asks os o Hw). }
    pose proof Hids as Hids0. rewrite <- Hask in Hids.
    assert (Forall (fun k => lk_dir k = d) (ch_links ch)) as Hdirs. { revert Hl. generalize (nodes_of os), (ch_links ch). clear. induction 1 as [|o l os ls (_ & _ & H) _ IH]; constructor; done. }
    destruct (place_links_ok fuel (mx_conf m) d Hd (ch_links ch) ∅ (mx_lay m) (zof (x, y)) ids Hdirs Hwf Hids) as (l' & El & Hwf' & Hw' & Hh' & Hput & Hoth).
    unfold chain_place. rewrite (ri_err _ _ _ _ Hi). unfold zof in El. cbn [fst snd] in El. rewrite El. cbn [mbind option_bind].
    unfold chain_params. pose proof (params_fold T i2f load_sample (mjoin (lk_params <$> ch_links ch)) (Matrix l' (mx_conf m) (mx_mon m), [])) as HP. cbv zeta in HP.
    match goal with |- context [let '(m0, ms) := ?f in _] => destruct f as [m1 ms1] end. cbn [fst mx_lay mx_conf mx_mon] in HP. destruct HP as (P1 & _ & P3 & P4).
    exists m1, ms1, ids. split; [done|]. rewrite P1. split; [done|]. split; [done|]. split; [done|]. pose proof (Forall2_length _ _ _ Hl) as Hlen.
    split; [by apply ids_numbered|]. split; [|split; [|split]].
    - intros k o n q Hk Hn Hq Hin. destruct (Forall2_lookup_l _ _ _ _ _ Hl Hk) as (c & Hc & Hdesc & _). apply zpos_walk in Hq; [|done].
      specialize (Hput k c n q Hc Hn Hq Hin). eexists (lk_cell c), _. split; [done|]. split; [|exact Hput]. unfold cell_put. by destruct (lk_cell c).
    - intros q Hq. apply Hoth. intros k Hk E. apply (Hq k); [lia|]. by apply zpos_walk.
    - intros j k i v o Hcall Ho Hlast. destruct (call_pentry os k j i v o Hw Hcall Ho) as (e & He & Hpid & Hv).
      destruct (params_split d os ch k j e Hi) as (l1 & l2 & El2 & Hl2); [rewrite <- Hlen; by eapply lookup_lt_Some|done|].
      rewrite <- Hpid, <- Hv. apply (P3 l1 e l2 El2). intros e' He' Heq. destruct (Hl2 e' He') as (k' & j' & Hp' & Hlt).
      destruct (pentry_call os k' j' e' Hw Hp') as (o' & v' & Ho' & Ha' & Hc' & Hpid' & _). rewrite Hpid, Hpid' in Heq. injection Heq as Hn Hidx. rewrite Hidx in Hc'. rewrite Hn in Ha'.
      specialize (Hlast j' k' v' o' Hc' Ho' Ha'). lia.
    - intros n i Hno. apply P4. intros e He Heq. destruct (params_in d os ch e Hi He) as (k & j & Hp). destruct (pentry_call os k j e Hw Hp) as (o & v & Ho & Ha & Hc & Hpid & _).
      rewrite Hpid in Heq. injection Heq as Hn Hidx. rewrite Hidx in Hc. rewrite Hn in Ha. by apply (Hno j k v o Hc Ho).
  Qed.

  (** *** Errors *)
  Lemma step_err ch o ch' : chain_step T ch o = Some ch' -> is_Some (ch_err ch) -> is_Some (ch_err ch').
  Proof.
    intros H [e He]. destruct o as [name inp out|c|i|name v]; cbn [chain_step] in H.
    - injection H as <-. unfold chain_node. destruct (spawn_cell name); [|by eexists].
      destruct inp as [i|]; [destruct (set_input_by_name _ _ _)|]; (destruct out as [o|]; [destruct (set_output_by_name _ _ _)|]); cbn; by eexists.
    - injection H as <-. by eexists.
    - injection H as <-. by eexists.
    - unfold chain_set in H. apply bind_Some in H as (l & _ & [= <-]). destruct (inp_param _ _); cbn; by eexists.
  Qed.
  Lemma run_err os : forall ch ch', chain_run T ch os = Some ch' -> is_Some (ch_err ch) -> is_Some (ch_err ch').
  Proof. induction os as [|o os IH]; intros ch ch' H He; cbn [chain_run] in H; [by injection H as <-|]. apply bind_Some in H as (c1 & E1 & H). eapply IH; [done|]. by eapply step_err. Qed.
  Lemma ill_err d os j ch : d <> C -> well_described (take j os) -> ill_named os j -> chain_run T (chain_new d) os = Some ch -> is_Some (ch_err ch).
  Proof.
    intros Hd Hw Hill Hrun. destruct (os !! j) as [o|] eqn:Ej; [|unfold ill_named in Hill; by rewrite Ej in Hill].
    rewrite <- (take_drop_middle _ _ _ Ej), chain_run_app in Hrun. destruct (run_ok T d (take j os) Hd Hw) as (c0 & E0 & Hi). rewrite E0 in Hrun. cbn [mbind option_bind chain_run] in Hrun.
    apply bind_Some in Hrun as (c1 & E1 & Hrun). eapply run_err; [done|]. unfold ill_named in Hill. rewrite Ej in Hill.
    destruct o as [name inp out|c|i|name v]; try done; cbn [chain_step] in E1.
    - injection E1 as <-. unfold chain_node. destruct (spawn_cell name) as [c|] eqn:Es; [|by eexists]. apply spawn_some in Es as [Hn ->].
      destruct Hill as [Hill|(n & Hn' & Hill)]; [by destruct (Hill _ Hn)|]. rewrite (named_str _ _ Hn') in *. cbn [c_node cell_empty cell_empty_at].
      destruct Hill as [(i & -> & Hnone)|(i & -> & Hnone)].
      + unfold set_input_by_name at 1. cbn [c_node cell_empty cell_empty_at]. rewrite Hnone. cbn [mbind option_bind]. destruct out as [o|]; [destruct (set_output_by_name _ _ _)|]; cbn; by eexists.
      + assert (forall e ii, c_node (set_io_dir (cell_empty n) e ii) = n) as Hsn by (by intros []).
        assert (forall c1, c_node c1 = n -> forall e, set_output_by_name c1 i e = None) as Hso by (intros c1 Hc1 e; unfold set_output_by_name; by rewrite Hc1, Hnone).
        destruct inp as [i'|]; [destruct (set_input_by_name (cell_empty n) i' _) as [c1|] eqn:E1|].
        * unfold set_input_by_name in E1. apply bind_Some in E1 as (ii & _ & [= <-]). rewrite Hso by apply Hsn. cbn. by eexists.
        * rewrite Hso by done. cbn. by eexists.
        * rewrite Hso by done. cbn. by eexists.
    - destruct Hill as (o & n & Ho & Ha & Hnone). unfold chain_set in E1. rewrite (ri_idx _ _ _ _ Hi) in E1. destruct (Forall2_lookup_l _ _ _ _ _ (ri_links _ _ _ _ Hi) Ho) as (l & Hl & _ & Hc & _). rewrite Hl in E1. cbn [mbind option_bind] in E1.
      rewrite Hc, <- (asks_id _ _ Ha), Hnone in E1. injection E1 as <-. cbn. by eexists.
  Qed.
  Lemma run_total os : (forall i, CFor i ∉ os) -> forall ch, ch_idx ch < length (ch_links ch) -> is_Some (chain_run T ch os).
  Proof.
    induction os as [|o os IH]; intros Hf ch Hlt; [by eexists|]. cbn [chain_run].
    assert (exists ch', chain_step T ch o = Some ch' /\ ch_idx ch' < length (ch_links ch')) as (ch' & -> & Hlt').
    { destruct o as [name inp out|c|i|name v]; cbn [chain_step].
      - eexists. split; [done|]. unfold chain_node. destruct (spawn_cell name); [|done].
        destruct inp as [i|]; [destruct (set_input_by_name _ _ _)|]; (destruct out as [o|]; [destruct (set_output_by_name _ _ _)|]); cbn; rewrite app_length; cbn; lia.
      - eexists. split; [done|]. cbn. rewrite app_length. cbn. lia.
      - destruct (Hf i). left.
      - unfold chain_set. apply lookup_lt_is_Some in Hlt as Hl. destruct Hl as [l ->]. cbn [mbind option_bind]. eexists. split; [done|]. destruct (inp_param _ _); cbn; rewrite ?insert_length; done. }
    cbn [mbind option_bind]. apply IH; [|done]. intros i Hi. apply (Hf i). by right.
  Qed.
End whole.
