(** C26: saving a patch and loading it into another *)
From stdpp Require Import strings.
From Verif Require Import Base M_Atom M_Graph M_Dir M_Grid S_Grid L_Grid M_Layout S_Layout L_Layout M_Prog L_Conf M_Conf S_Conf L_Conf3 M_Exec M_Sync S_Sync L_Sync
  M_Nodes M_Track S_Track L_Track P_Conf P_Block M_Json M_Block M_Repr S_Repr P_Repr M_Patch S_Patch L_Patch L_Patch2.
Open Scope string_scope.
Open Scope list_scope.
Open Scope nat_scope.

Section load.
  Context {V : Type} (zero : V) (T : ntable) (HT : table_ok T) (i2f : Z -> f32) (load_sample : satom -> satom).
  Context (types : string -> option btype) (Htypes : S_Block.types_ok types).
  Local Notation made_by := (patch_made zero T i2f load_sample types).

  Lemma reach_cells cs : forall h m sent l, matrix_reachable T i2f load_sample h m sent -> foldm load_cell (mx_lay m) cs = Some l ->
    matrix_reachable T i2f load_sample h (Matrix l (mx_conf m) (mx_mon m)) sent.
  Proof.
    induction cs as [|c cs IH]; intros h m sent l Hr; cbn [foldm].
    - intros [= <-]. by destruct m.
    - destruct (load_cell (mx_lay m) c) as [l1|] eqn:E; cbn [mbind option_bind]; [|done]. intros H. unfold load_cell in E.
      eapply (IH h (Matrix l1 (mx_conf m) (mx_mon m)) sent l); [|exact H]. rewrite <- (app_nil_r sent).
      eapply (reach_step T i2f load_sample h m sent (MxLay (LPlace _ _ _))); [exact Hr|]. cbn [matrix_step lop_pure lay_step]. rewrite E. done.
  Qed.

  Lemma props_load (l : list (string * satom)) (m : gmap string satom) : NoDup l.*1 ->
    foldl (fun (ps : gmap string satom) (e : string * satom) => <[e.1 := e.2]> ps) m l = list_to_map l ∪ m.
  Proof.
    revert m. induction l as [|[k a] l IH]; intros m; cbn [foldl fmap list_fmap fst snd]; [by rewrite list_to_map_nil, (left_id_L ∅ (∪))|].
    intros [Hk Hn]%NoDup_cons. rewrite IH by done. rewrite list_to_map_cons. apply not_elem_of_list_to_map in Hk.
    rewrite <- insert_union_l. symmetry. by apply insert_union_r.
  Qed.

  Lemma load_lemma (un : satom -> satom) (hs h : heap) (src dst : patch V) (r : mrepr) :
    made_by hs src -> made_by h dst ->
    g_w (patch_grid dst) = g_w (patch_grid src) -> g_h (patch_grid dst) = g_h (patch_grid src) ->
    grid_8bit (patch_grid src) -> layout_syncs T (patch_grid src) ->
    values_convert T (mx_conf (pc_mx src)) ->
    (forall k a, conf_get_param T (mx_conf (pc_mx src)) k = Some a -> is_atom T k = true -> load_sample (un a) = a) ->
    mr_cells r = mr_cells (patch_to_repr T src) -> mr_params r ≡ₚ mr_params (patch_to_repr T src) ->
    mr_atoms r ≡ₚ ((fun e : paramid * satom => (e.1, un e.2)) <$> mr_atoms (patch_to_repr T src)) ->
    mr_patterns r = mr_patterns (patch_to_repr T src) -> mr_blocks r = mr_blocks (patch_to_repr T src) -> (1 < mr_version r)%Z ->
    exists n, forall fuel, n <= fuel -> exists h' p' ms e, patch_load zero T i2f load_sample fuel h dst r = Some (h', p', ms, e) /\
      loaded_as T src dst p' /\ (e = None <-> layout_acyclic (patch_grid src)) /\ made_by h' p' /\
      pc_props p' = foldl (fun (ps : gmap string satom) (e : string * satom) => <[e.1 := e.2]> ps) ∅ (mr_props r).
  Proof.
    intros ([ss Hs] & Hsp & Hsf) ([sd Hd] & Hdp & Hdf) Ew Eh (Hw8 & Hh8 & H8) (Hk & Hfan & Hin32) Hconv Hun Rc Rp Ra Rpat Rf Rv.
    pose proof (matrix_reachable_inv T HT i2f load_sample _ _ _ Hs) as Is. pose proof (matrix_reachable_inv T HT i2f load_sample _ _ _ Hd) as Id.
    (* block functions fix the bound *)
    destruct (load_funs types Htypes (mr_blocks r) (pc_funs dst) (pc_engs dst) Hdf) as (n & Hfuns).
    { rewrite Rf. unfold patch_to_repr. destruct (conf_dump _ _). cbn [mr_blocks]. intros i s Hi. rewrite list_lookup_fmap in Hi.
      destruct (seq _ _ !! i) as [j|]; cbn in Hi; [|done]. destruct (pc_funs src !! j) as [f|] eqn:Ef; [|done]. destruct (bf_is_unset f); [done|].
      injection Hi as <-. exists f. split; [|done]. by eapply Hsf. }
    exists n. intros fuel Hfuel. destruct (Hfuns fuel Hfuel) as (fs' & es' & Ef & Mf & F1 & F2). clear Hfuns Hfuel.
    destruct (load_pats zero (mr_patterns r) (pc_pats dst) Hdp) as (ps' & Ep & Mp & P1 & P2).
    { rewrite Rpat. unfold patch_to_repr. destruct (conf_dump _ _). cbn [mr_patterns]. intros i s Hi. rewrite list_lookup_fmap in Hi.
      destruct (seq _ _ !! i) as [j|]; cbn in Hi; [|done]. destruct (pc_pats src !! j) as [f|] eqn:Ex; [|done]. destruct (pat_is_unset f); [done|].
      injection Hi as <-. exists f. split; [|done]. by eapply Hsp. }
    (* clearing *)
    destruct (clear_spec T HT h (pc_mx dst) Id) as (h1 & m1 & ms1 & Ec & I1 & G1 & S1 & C1 & C2).
    pose proof (reach_step T i2f load_sample _ _ _ MxClear _ _ _ Hd Ec) as R1.
    (* parameters *)
    set (ps := (fun e : paramid * f32 * option f32 => (repr_pid e.1.1, e.1.2, e.2)) <$> mr_params r).
    set (ats := (fun e : paramid * satom => (repr_pid e.1, e.2)) <$> mr_atoms r).
    assert (ps ≡ₚ (conf_dump T (mx_conf (pc_mx src))).1) as Hps.
    { unfold ps. rewrite Rp. unfold patch_to_repr. destruct (conf_dump _ _) as [dp da]. cbn [mr_params fst]. rewrite <- list_fmap_compose.
      apply reflexive_eq. transitivity (id <$> dp); [|apply list_fmap_id]. apply list_fmap_ext. intros i [[k v] m] _. cbn. by rewrite pid_round. }
    assert (ats ≡ₚ ((fun e : (node_id * nat) * satom => (e.1, un e.2)) <$> (conf_dump T (mx_conf (pc_mx src))).2)) as Hats.
    { unfold ats. rewrite Ra. unfold patch_to_repr. destruct (conf_dump _ _) as [dp da]. cbn [mr_atoms snd]. rewrite <- !list_fmap_compose.
      apply reflexive_eq. apply list_fmap_ext. intros i [k v] _. cbn. by rewrite pid_round. }
    unfold patch_load. rewrite Ec. cbn [mbind option_bind]. fold ps ats.
    assert ((1 <? mr_version r)%Z = true) as -> by (by apply Z.ltb_lt).
    pose proof (fun m2 ms2 E => reach_step T i2f load_sample h1 m1 _ (MxLoad ps ats true) h1 m2 ms2 R1 E) as R2. cbn [matrix_step] in R2.
    destruct (matrix_load T i2f load_sample m1 ps ats true) as [m2 ms2] eqn:El. specialize (R2 m2 ms2 eq_refl).
    assert (mx_lay m2 = mx_lay m1 /\ mx_conf m2 = (conf_load T i2f load_sample (mx_conf m1) ps ats true).1) as [El1 El2].
    { unfold matrix_load in El. destruct (conf_load _ _ _ _ _ _ _). by injection El as <- _. }
    pose proof (dump_restores T i2f load_sample un _ (mx_conf m1) ps ats (cg_inv T _ (proj2 Is)) Hps Hats Hconv Hun) as Hld. cbn zeta in Hld. rewrite <- El2 in Hld.
    assert (forall k, conf_get_param T (mx_conf (pc_mx src)) k = None -> conf_get_param T (mx_conf m2) k = None /\ conf_get_modamt (mx_conf m2) k = None) as Hno.
    { intros k Hk0. assert (forall v m, (k, v, m) ∉ ps) as N1.
      { intros v m Hi. rewrite Hps in Hi. cbn [conf_dump fst] in Hi. apply elem_of_list_fmap in Hi as ([q w] & [= <- _ _] & Hq).
        apply elem_of_map_to_list in Hq. unfold conf_get_param in Hk0. rewrite (ci_pvals T _ (cg_inv T _ (proj2 Is))) in Hk0 by (by eexists). by rewrite Hq in Hk0. }
      assert (forall a, (k, a) ∉ ats) as N2.
      { intros a Hi. rewrite Hats in Hi. cbn [conf_dump snd] in Hi. apply elem_of_list_fmap in Hi as ([q w] & [= <- _] & Hq).
        apply elem_of_map_to_list in Hq. unfold conf_get_param in Hk0. rewrite (ci_avals T _ (cg_inv T _ (proj2 Is))) in Hk0 by (by eexists). by rewrite Hq in Hk0. }
      rewrite El2. rewrite load_other, load_modamt_other by done. by rewrite C1, C2. }
    (* cells *)
    assert (mx_inv T m2) as I2 by (by eapply (matrix_reachable_inv T HT)).
    destruct (load_layout (patch_grid src) (mx_lay m2)) as (l & Ecl & Hl & [Dw Dh] & Hsame).
    { apply Is. } { apply reachable_placed in Hs as [Hpl _]. exact Hpl. } { done. } { done. }
    { intros c Hc _. apply elem_of_list_lookup in Hc as [i Hi]. pose proof (lookup_lt_Some _ _ _ Hi) as Hlt.
      pose proof (ok_wf _ (proj1 Is)) as Hwf. unfold patch_grid in *. rewrite Hwf in Hlt. set (g := lay_grid (mx_lay (pc_mx src))) in *.
      assert (g_h g <> 0) as Hh0 by (intros E; rewrite E in Hlt; lia).
      pose proof (Nat.div_mod i (g_h g) Hh0). pose proof (Nat.mod_upper_bound i (g_h g) Hh0).
      apply (H8 (i / g_h g, i mod g_h g)). apply board_Some. split; [split; cbn; nia|]. cbn. replace (i / g_h g * g_h g + i mod g_h g) with i by lia. done. }
    { apply I2. } { rewrite El1, G1. done. } { rewrite El1, G1. done. }
    { rewrite El1, G1. intros q c Hb. apply board_Some in Hb as [_ Hb]. cbn in Hb. rewrite list_lookup_fmap in Hb. destruct (_ !! _); [|done]. by injection Hb as <-. }
    assert (mr_cells r = cell_to_repr <$> filter (fun c => cell_is_empty c = false) (g_cells (patch_grid src))) as ->.
    { rewrite Rc. unfold patch_to_repr. by destruct (conf_dump _ _). }
    rewrite Ecl. cbn [mbind option_bind]. rewrite Ep. cbn [mbind option_bind]. rewrite Ef. cbn [mbind option_bind].
    pose proof (reach_cells _ _ _ _ _ R2 Ecl) as R3. set (m3 := Matrix l (mx_conf m2) (mx_mon m2)) in *.
    assert (mx_inv T m3) as I3 by (by eapply (matrix_reachable_inv T HT)).
    (* synchronising *)
    destruct (sync_total T HT h1 m3 I3) as (h4 & m4 & ms4 & e & Es & He); cbn [m3 mx_lay].
    { intros k Hb. apply Hk. eapply same_on_board; [by apply same_nodes_sym|done]. }
    { intros a lb Hnd Hf. eapply Hfan; [done|]. intros b Hb. eapply same_feeds; [by apply same_nodes_sym|]. by apply Hf. }
    { intros q d e' Hc. eapply Hin32. eapply same_connects; [by apply same_nodes_sym|done]. }
    pose proof (sync_lay T _ _ _ _ _ _ Es) as [Gs _]. cbn [m3 mx_lay] in Gs.
    destruct (sync_values T HT _ _ _ _ _ _ I3 Es) as (V1 & V2 & V3). cbn [m3 mx_conf] in V1, V2, V3.
    rewrite Es. cbn [mbind option_bind]. eexists _, _, _, _. split; [done|]. split; [|split; [|split; [|done]]].
    - constructor; cbn [pc_mx pc_props pc_pats pc_funs pc_engs].
      + intros x y. unfold cell_there. unfold patch_grid at 1. cbn [pc_mx]. rewrite Gs.
        destruct (board (patch_grid src) (x, y)) as [c|] eqn:Eb.
        * destruct (decide (c_node c = Nop)) as [Hn|Hn].
          -- destruct (board (lay_grid l) (x, y)) as [c'|] eqn:Eb'; [|done]. destruct (decide (c_node c' = Nop)) as [|Hn']; [done|].
             apply Hsame in Eb'; [|done]. congruence.
          -- rewrite (proj1 (Hsame _ _ Hn) Eb). by rewrite decide_False.
        * destruct (board (lay_grid l) (x, y)) as [c'|] eqn:Eb'; [|done]. destruct (decide (c_node c' = Nop)) as [|Hn']; [done|].
          apply Hsame in Eb'; [|done]. congruence.
      + unfold patch_grid at 1 3. cbn [pc_mx]. rewrite Gs, Dw, Dh, El1, G1. cbn. done.
      + intros k a Hka. destruct (Hld k a Hka) as [L1 L2]. split; [by apply V1|]. intros Hat. rewrite V2. by apply L2.
      + intros k Hk0. destruct (Hno k Hk0) as [L1 L2]. split; [by rewrite V2|]. intros a Ha. by eapply V3.
      + intros i s Hi Hset Hid. apply P1; [by eapply Hsp|]. rewrite Rpat. unfold patch_to_repr. destruct (conf_dump _ _). cbn [mr_patterns].
        rewrite list_lookup_fmap, lookup_seq_lt; [cbn; rewrite Hi; by rewrite (proj2 (unset_spec s) Hset)|].
        rewrite <- size_dom. apply (count_saved _ (dom (pc_pats src))).
        * intros j. rewrite bool_decide_eq_true. by rewrite elem_of_dom.
        * destruct Hid as [?|Hid]; [by left|]. right. intros j Hj. apply elem_of_dom. by apply Hid.
      + intros i Hi. apply P2. intros rr. rewrite Rpat. unfold patch_to_repr. destruct (conf_dump _ _). cbn [mr_patterns].
        rewrite list_lookup_fmap. destruct (seq _ _ !! i) as [j|] eqn:Ej; cbn; [|done]. apply lookup_seq in Ej as [-> Ej]. cbn [Nat.add] in *.
        destruct (pc_pats src !! i) as [s|] eqn:Ex; [|done]. destruct (pat_is_unset s) eqn:Eu; [done|]. intros _.
        destruct Hi as [Hi|Hi]; [apply (Hi s); [done|]; by apply unset_spec|]. apply Hi.
        rewrite <- size_dom in Ej. apply (count_saved _ (dom (pc_pats src))) in Ej; [|intros j; rewrite bool_decide_eq_true; by rewrite elem_of_dom].
        destruct Ej as [?|Ej]; [by left|]. right. intros j Hj. apply elem_of_dom. by apply Ej.
      + intros i f Hi Hset Hid. apply F1. rewrite Rf. unfold patch_to_repr. destruct (conf_dump _ _). cbn [mr_blocks].
        rewrite list_lookup_fmap, lookup_seq_lt; [cbn; rewrite Hi|].
        * rewrite (made_set types Htypes f); [done| |done]. by eapply Hsf.
        * apply (count_saved _ (pc_engs src)); [|done]. intros j. by rewrite bool_decide_eq_true.
      + intros i Hi. apply F2. intros rr. rewrite Rf. unfold patch_to_repr. destruct (conf_dump _ _). cbn [mr_blocks].
        rewrite list_lookup_fmap. destruct (seq _ _ !! i) as [j|] eqn:Ej; cbn; [|done]. apply lookup_seq in Ej as [-> Ej]. cbn [Nat.add] in *.
        destruct (pc_funs src !! i) as [f|] eqn:Ex; [|done]. destruct Hi as [?|Hi]; [done|]. exfalso. apply Hi.
        by apply (count_saved _ (pc_engs src)) in Ej; [|intros j; by rewrite bool_decide_eq_true].
    - rewrite He. split; apply same_acyclic; [by apply same_nodes_sym|done].
    - split; [|split; [done|done]]. cbn [pc_mx]. eexists. eapply (reach_step T i2f load_sample h1 m3 _ MxSync); [exact R3|]. cbn [matrix_step]. rewrite Es. done.
  Qed.
End load.

(** ** C26 *)

(** A patch is described and the description is loaded into another patch of the same size, whatever that one had. The load does not
    panic, and reports an error exactly if the layout is cyclic. Afterwards every cell, parameter, modulation amount, property, pattern
    and block function that was saved is there; patterns and block functions that were not saved are those of the target. The result is
    again a patch that the API can make, so that it can be saved and loaded again. *)
Theorem C26_load {V} (zero : V) (T : ntable) (i2f : Z -> f32) (load_sample : satom -> satom) (types : string -> option btype)
    (hs h : heap) (src dst : patch V) (r : mrepr) :
  table_ok T -> S_Block.types_ok types ->
  patch_made zero T i2f load_sample types hs src -> patch_made zero T i2f load_sample types h dst ->
  g_w (patch_grid dst) = g_w (patch_grid src) -> g_h (patch_grid dst) = g_h (patch_grid src) ->
  grid_8bit (patch_grid src) -> layout_syncs T (patch_grid src) ->
  values_convert T (mx_conf (pc_mx src)) ->
  (forall k a, conf_get_param T (mx_conf (pc_mx src)) k = Some a -> is_atom T k = true -> load_sample a = a) ->
  same_repr (patch_to_repr T src) r ->
  exists n, forall fuel, n <= fuel -> exists h' p' ms e, patch_load zero T i2f load_sample fuel h dst r = Some (h', p', ms, e) /\
    loaded_as T src dst p' /\ pc_props p' = pc_props src /\ (e = None <-> layout_acyclic (patch_grid src)) /\
    patch_made zero T i2f load_sample types h' p'.
Proof.
  intros HT Ht Hs Hd Ew Eh H8 Hsy Hc Hl (R1 & R2 & R3 & R4 & R5 & R6 & R7).
  destruct (load_lemma zero T HT i2f load_sample types Ht id hs h src dst r) as (n & Hn); try done.
  { rewrite R3. apply reflexive_eq. transitivity (id <$> mr_atoms (patch_to_repr T src)); [by rewrite list_fmap_id|]. by apply list_fmap_ext; intros ? [? ?]. }
  { rewrite R7. unfold patch_to_repr. destruct (conf_dump _ _). cbn. lia. }
  exists n. intros fuel Hf. destruct (Hn fuel Hf) as (h' & p' & ms & e & E & L & Ha & Hm & Hp). exists h', p', ms, e.
  split; [done|]. split; [done|]. split; [|done]. rewrite Hp.
  assert (mr_props r ≡ₚ map_to_list (pc_props src)) as Hpr by (rewrite R5; unfold patch_to_repr; by destruct (conf_dump _ _)).
  assert (NoDup (mr_props r).*1) as Hnd by (rewrite Hpr; apply NoDup_fst_map_to_list).
  rewrite props_load by done. rewrite map_union_empty. rewrite (list_to_map_proper _ _ Hnd Hpr). apply list_to_map_to_list.
Qed.
Print Assumptions C26_load.

Lemma sort_ins_fmap {A B} (f : A -> B) (le : B -> B -> bool) x l : sort_ins le (f x) (f <$> l) = f <$> sort_ins (fun a b => le (f a) (f b)) x l.
Proof. induction l as [|y l IH]; [done|]. cbn. destruct (le (f x) (f y)); [done|]. cbn. by rewrite <- IH. Qed.
Lemma sort_fmap {A B} (f : A -> B) (le : B -> B -> bool) l : sort le (f <$> l) = f <$> sort (fun a b => le (f a) (f b)) l.
Proof. unfold sort. induction l as [|y l IH]; [done|]. rewrite fmap_cons. cbn [foldr]. rewrite IH. by rewrite <- sort_ins_fmap. Qed.
Lemma mapM_keep {A B} (f : A -> A) (g : A -> option B) l : (forall x, g (f x) = g x) -> mapM g (f <$> l) = mapM g l.
Proof. intros H. induction l as [|x l IH]; [done|]. rewrite fmap_cons. cbn [mapM]. by rewrite H, IH. Qed.
Lemma unloaded_json ord r : repr_json ord (unloaded_repr r) = repr_json ord r.
Proof.
  assert (forall a, atom_json (unloaded a) = atom_json a) as Ha by (by intros []).
  unfold repr_json, repr_sort, unloaded_repr. cbn [mr_cells mr_params mr_atoms mr_patterns mr_props mr_blocks mr_version]. rewrite !sort_fmap. cbn [fst].
  rewrite !mapM_keep; [done|intros [? ?]; cbn; by rewrite Ha..].
Qed.

(** The same through a file: the patch is described, written as JSON and printed; the text is parsed, read and loaded. [print] and
    [parse] belong together. Samples are written as their paths and loaded again from there. *)
Theorem C26_file {V} (zero : V) (T : ntable) (i2f : Z -> f32) (load_sample : satom -> satom) (types : string -> option btype)
    (print : json -> string) (parse : string -> option json) (ord : area -> list (Z * Z * block)) (hs h : heap) (src dst : patch V) :
  table_ok T -> S_Block.types_ok types ->
  (forall j, parse (print j) = Some j /\ parse (print j +:+ String (Ascii.ascii_of_nat 10) "") = Some j) -> any_order ord ->
  patch_made zero T i2f load_sample types hs src -> patch_made zero T i2f load_sample types h dst ->
  g_w (patch_grid dst) = g_w (patch_grid src) -> g_h (patch_grid dst) = g_h (patch_grid src) ->
  grid_8bit (patch_grid src) -> layout_syncs T (patch_grid src) ->
  values_convert T (mx_conf (pc_mx src)) ->
  (forall k a, conf_get_param T (mx_conf (pc_mx src)) k = Some a -> is_atom T k = true -> load_sample (unloaded a) = a) ->
  repr_fits (unloaded_repr (patch_to_repr T src)) ->
  exists t r, print <$> repr_json ord (patch_to_repr T src) = Some t /\
    repr_read i2f <$> parse (t +:+ String (Ascii.ascii_of_nat 10) "") = Some (ok r) /\
    exists n, forall fuel, n <= fuel -> exists h' p' ms e, patch_load zero T i2f load_sample fuel h dst r = Some (h', p', ms, e) /\
      loaded_as T src dst p' /\ pc_props p' = unloaded <$> pc_props src /\ (e = None <-> layout_acyclic (patch_grid src)) /\
      patch_made zero T i2f load_sample types h' p'.
Proof.
  intros HT Ht Hpp Ho Hs Hd Ew Eh H8 Hsy Hc Hl Hfit.
  assert (mr_version (unloaded_repr (patch_to_repr T src)) = 2%Z) as Hv by (unfold patch_to_repr; by destruct (conf_dump _ _)).
  destruct (C24_text print parse i2f ord (unloaded_repr (patch_to_repr T src)) Hpp Ho Hfit) as (t & r & E1 & _ & E2 & (R1 & R2 & R3 & R4 & R5 & R6 & R7)); [lia|].
  rewrite unloaded_json in E1. exists t, r. split; [done|]. split; [done|].
  destruct (load_lemma zero T HT i2f load_sample types Ht unloaded hs h src dst r) as (n & Hn); try done.
  { lia. }
  exists n. intros fuel Hf. destruct (Hn fuel Hf) as (h' & p' & ms & e & E & L & Ha & Hm & Hp). exists h', p', ms, e.
  split; [done|]. split; [done|]. split; [|done]. rewrite Hp.
  assert (mr_props r ≡ₚ ((fun e : string * satom => (e.1, unloaded e.2)) <$> map_to_list (pc_props src))) as Hpr.
  { rewrite R5. unfold patch_to_repr. by destruct (conf_dump _ _). }
  assert (NoDup (mr_props r).*1) as Hnd.
  { rewrite Hpr, <- list_fmap_compose. apply (NoDup_fst_map_to_list (pc_props src)). }
  rewrite props_load by done. rewrite map_union_empty. rewrite (list_to_map_proper _ _ Hnd Hpr).
  assert (forall (l : list (string * satom)), list_to_map ((fun e : string * satom => (e.1, unloaded e.2)) <$> l) = unloaded <$> (list_to_map l : gmap string satom)) as ->.
  { induction l as [|[k a] l IH]; [by rewrite !list_to_map_nil, fmap_empty|]. cbn [fmap list_fmap fst snd]. rewrite !list_to_map_cons, fmap_insert. by rewrite <- IH. }
  by rewrite list_to_map_to_list.
Qed.
Print Assumptions C26_file.

(** *** Cases *)
Lemma few_edges g : length (grid_edges g) <= MAX_NODE_EDGES -> fanout_ok g.
Proof.
  intros Hlen a l Hnd Hl. etransitivity; [|exact Hlen]. rewrite <- (fmap_length e_to). apply submseteq_length, NoDup_submseteq; [done|].
  intros b Hb. destruct (Hl b Hb) as (q & d & e & He & _ & <-). apply elem_of_list_fmap. exists e. split; [done|]. apply grid_edges_elem. by exists q, d.
Qed.
Definition syncs_here (T : ntable) (g : grid) : bool :=
  forallb (fun c => cell_is_empty c || nt_known T (nid_kind (c_node c))) (g_cells g) && (length (grid_edges g) <=? MAX_NODE_EDGES) &&
  forallb (fun e => negb (e_to_input e =? max_node_inputs)) (grid_edges g).
Lemma syncs_here_ok T g : grid_wf g -> syncs_here T g = true -> layout_syncs T g.
Proof.
  intros Hwf. unfold syncs_here. rewrite !andb_true_iff, !forallb_elem. intros ((H1 & H2) & H3). split; [|split].
  - intros n Hn. apply board_cells in Hn as [Hne Hn]; [|done]. apply elem_of_list_fmap in Hn as (c & -> & Hc).
    apply H1 in Hc. unfold cell_is_empty in Hc. by rewrite bool_decide_eq_false_2 in Hc.
  - apply few_edges. by apply Nat.leb_le.
  - intros q d e He. assert (e ∈ grid_edges g) as Hin by (apply grid_edges_elem; by exists q, d). apply H3 in Hin.
    apply negb_true_iff, Nat.eqb_neq in Hin. done.
Qed.
Definition cells_8bit_here (g : grid) : bool :=
  forallb (fun c => forallb (fun o => match o with Some i => i <? 256 | None => true end) [c_out1 c; c_out2 c; c_out3 c; c_in1 c; c_in2 c; c_in3 c]) (g_cells g).
Lemma cells_8bit_ok g : g_w g <= 256 -> g_h g <= 256 -> cells_8bit_here g = true -> grid_8bit g.
Proof.
  intros Hw Hh H. split; [done|]. split; [done|]. intros q c Hb i Hi. apply board_Some in Hb as [_ Hb].
  unfold cells_8bit_here in H. rewrite forallb_elem in H. assert (c ∈ g_cells g) as Hc by (by eapply elem_of_list_lookup_2). apply H in Hc.
  rewrite forallb_elem in Hc. apply Hc in Hi. by apply Nat.ltb_lt.
Qed.

Local Notation ex_made := (patch_made 0%Z P_Conf.demo_table (fun z => z) (fun a => a) P_Block.ex_types).
Definition ex_mops : list mop :=
  [MxLay (LPlace 0 0 (Cell (NId 1 0) 0 0 None None (Some 0) None None None));
   MxLay (LPlace 0 1 (Cell (NId 2 0) 0 0 None None None (Some 0) None None));
   MxSet (NId 1 0, 1) (AParam 5%Z); MxSync; MxModamt (NId 2 0, 0) (Some 3%Z)].
Definition ex_matrix : option (heap * matrix * list gmsg) :=
  matrix_run P_Conf.demo_table (fun z => z) (fun a => a) (Heap ∅ 0, matrix_new 2 2, []) ex_mops.
Lemma fst_inv {A B C : Type} (o : option (A * B * C)) a : (fun s => s.1.1) <$> o = Some a -> exists b c, o = Some (a, b, c).
Proof. destruct o as [[[a1 b] c]|]; [|done]. intros [= ->]. by exists b, c. Qed.
Definition ex_fun : option bfun := (fun s => s.1.1) <$> bf_step P_Block.ex_types 10 (bfun_new, []) (BInst 0 3 4 "sum" None).
Definition ex_pattern : pattern Z := pat_set_type (pat_new 0%Z max_pattern_len) 2 CNote.

Lemma new_patch_made w h : ex_made (Heap ∅ 0) (patch_new w h).
Proof.
  split; [|split]; unfold patch_new; cbn [pc_mx pc_pats pc_funs pc_engs].
  - exists []. by exists w, h, [].
  - intros i q Hq. by rewrite lookup_empty in Hq.
  - intros i q Hq. by rewrite lookup_empty in Hq.
Qed.
(** the hypotheses of the theorems, and some things to be saved *)
Example C26_case : exists hs src,
  ex_made hs src /\ ex_made (Heap ∅ 0) (patch_new 2 2) /\
  g_w (patch_grid (patch_new (V := Z) 2 2)) = g_w (patch_grid src) /\ g_h (patch_grid (patch_new (V := Z) 2 2)) = g_h (patch_grid src) /\
  grid_8bit (patch_grid src) /\ layout_syncs P_Conf.demo_table (patch_grid src) /\ values_convert P_Conf.demo_table (mx_conf (pc_mx src)) /\
  (c_node <$> cell_there src 0 1) = Some (NId 2 0) /\
  conf_get_param P_Conf.demo_table (mx_conf (pc_mx src)) (NId 1 0, 1) = Some (AParam 5%Z) /\
  conf_get_modamt (mx_conf (pc_mx src)) (NId 2 0, 0) = Some 3%Z /\
  (exists q, pc_pats src !! 7 = Some q /\ pattern_set q) /\ (exists f, pc_funs src !! 3 = Some f /\ has_block f).
Proof.
  assert (exists f, ex_fun = Some f /\ has_block f) as (f & Ef & Hb).
  { destruct ex_fun as [f|] eqn:E; [|by vm_compute in E]. exists f. split; [done|]. exists 0, (3, 4)%Z.
    destruct (bf_block_at f 0 (3, 4)%Z) as [b|] eqn:E2; [by exists b|]. exfalso. vm_compute in E. injection E as <-. by vm_compute in E2. }
  assert (exists h m sent, ex_matrix = Some (h, m, sent) /\
    g_w (lay_grid (mx_lay m)) = 2 /\ g_h (lay_grid (mx_lay m)) = 2 /\ cells_8bit_here (lay_grid (mx_lay m)) = true /\
    syncs_here P_Conf.demo_table (lay_grid (mx_lay m)) = true /\
    (c_node <$> board (lay_grid (mx_lay m)) (0, 1)) = Some (NId 2 0) /\
    conf_get_param P_Conf.demo_table (mx_conf m) (NId 1 0, 1) = Some (AParam 5%Z) /\
    conf_get_modamt (mx_conf m) (NId 2 0, 0) = Some 3%Z) as (h & m & sent & Em & Hw & Hh & H8 & Hs & Hc & Hp & Hm).
  { assert (match ex_matrix with
      | Some (h, m, sent) => g_w (lay_grid (mx_lay m)) = 2 /\ g_h (lay_grid (mx_lay m)) = 2 /\ cells_8bit_here (lay_grid (mx_lay m)) = true /\
          syncs_here P_Conf.demo_table (lay_grid (mx_lay m)) = true /\ (c_node <$> board (lay_grid (mx_lay m)) (0, 1)) = Some (NId 2 0) /\
          conf_get_param P_Conf.demo_table (mx_conf m) (NId 1 0, 1) = Some (AParam 5%Z) /\ conf_get_modamt (mx_conf m) (NId 2 0, 0) = Some 3%Z
      | None => False end) as H by (by vm_compute).
    destruct ex_matrix as [[[h m] sent]|]; [|done]. by exists h, m, sent. }
  assert (matrix_reachable P_Conf.demo_table (fun z => z) (fun a => a) h m sent) as Hr by (exists 2, 2, ex_mops; exact Em).
  exists h, (Patch m {[ "zoom" := ASetting 2%Z ]} {[ 7 := ex_pattern ]} {[ 3 := f ]} {[ 3 ]}).
  split; [split; [by exists sent|]; split|split; [apply new_patch_made|]]; cbn [pc_mx pc_pats pc_funs pc_engs].
  - intros i q Hq. apply lookup_singleton_Some in Hq as [<- <-]. by exists [PType 2 CNote].
  - intros i g Hg. apply lookup_singleton_Some in Hg as [<- <-]. split; [|set_solver]. apply fst_inv in Ef as (sn & e & E).
    refine (made_step _ _ (BInst 0 3 4 "sum" None) _ _ _ _ (made_new _) _ E). done.
  - unfold patch_grid, cell_there. cbn [pc_mx].
    split; [by rewrite Hw|]. split; [by rewrite Hh|]. split; [apply cells_8bit_ok; [lia|lia|done]|]. split.
    { apply syncs_here_ok; [|done]. pose proof (matrix_reachable_inv _ P_Conf.demo_table_ok _ _ _ _ _ Hr) as [Hl _]. apply Hl. }
    clear Em Ef Hr H8 Hs. split; [intros p v _ _; reflexivity|]. split.
    { unfold patch_grid. cbn [pc_mx]. destruct (board _ _) as [c|]; [|done]. cbn in Hc. injection Hc as Hc. rewrite Hc. rewrite decide_False; [cbn; by rewrite Hc|done]. }
    split; [exact Hp|]. split; [exact Hm|]. split.
    + exists ex_pattern. split; [by rewrite lookup_singleton|]. left. by exists 2, CNote.
    + exists f. split; [by rewrite lookup_singleton|exact Hb].
Qed.

(** *** What is not reproduced *)
Lemma with_pattern_made w h i q os : pat_run (pat_new 0%Z max_pattern_len) os = Some q ->
  ex_made (Heap ∅ 0) (Patch (matrix_new w h) ∅ {[ i := q ]} ∅ ∅).
Proof.
  intros Hq. split; [|split]; cbn [pc_mx pc_pats pc_funs pc_engs].
  - exists []. by exists w, h, [].
  - intros j q' Hj. apply lookup_singleton_Some in Hj as [<- <-]. by exists os.
  - intros j f Hj. by rewrite lookup_empty in Hj.
Qed.
Lemma load_new (src dst : patch Z) :
  ex_made (Heap ∅ 0) src -> ex_made (Heap ∅ 0) dst -> pc_mx src = matrix_new 2 2 -> pc_mx dst = matrix_new 2 2 ->
  exists n, forall fuel, n <= fuel -> exists h' p' ms e,
    patch_load 0%Z P_Conf.demo_table (fun z => z) (fun a => a) fuel (Heap ∅ 0) dst (patch_to_repr P_Conf.demo_table src) = Some (h', p', ms, e) /\
    loaded_as P_Conf.demo_table src dst p'.
Proof.
  intros Hs Hd Es Ed. destruct (C26_load 0%Z P_Conf.demo_table (fun z => z) (fun a => a) P_Block.ex_types (Heap ∅ 0) (Heap ∅ 0) src dst (patch_to_repr P_Conf.demo_table src)) as (n & Hn); try done.
  - apply P_Conf.demo_table_ok.
  - apply P_Block.ex_types_ok.
  - unfold patch_grid. by rewrite Es, Ed.
  - unfold patch_grid. by rewrite Es, Ed.
  - unfold patch_grid. rewrite Es. apply cells_8bit_ok; [cbn; lia|cbn; lia|by vm_compute].
  - unfold patch_grid. rewrite Es. apply syncs_here_ok; [done|by vm_compute].
  - exists n. intros fuel Hf. destruct (Hn fuel Hf) as (h' & p' & ms & e & E & L & _). by exists h', p', ms, e.
Qed.

(** A pattern that is empty in the saved patch is not emptied in the target: the old notes stay, although everything else was replaced. *)
Theorem C26_empty_pattern_refuted : exists (src dst : patch Z), ex_made (Heap ∅ 0) src /\ ex_made (Heap ∅ 0) dst /\
  (forall i q, pc_pats src !! i = Some q -> ~ pattern_set q) /\
  exists n, forall fuel, n <= fuel -> exists h' p' ms e q,
    patch_load 0%Z P_Conf.demo_table (fun z => z) (fun a => a) fuel (Heap ∅ 0) dst (patch_to_repr P_Conf.demo_table src) = Some (h', p', ms, e) /\
    pc_pats p' !! 0 = Some q /\ pattern_set q.
Proof.
  exists (patch_new 2 2), (Patch (matrix_new 2 2) ∅ {[ 0 := ex_pattern ]} ∅ ∅).
  assert (ex_made (Heap ∅ 0) (Patch (matrix_new 2 2) ∅ {[ 0 := ex_pattern ]} ∅ ∅)) as Hd by (by apply (with_pattern_made 2 2 0 ex_pattern [PType 2 CNote])).
  pose proof (new_patch_made 2 2) as Hs. split; [done|]. split; [done|]. split; [intros i q Hq; unfold patch_new in Hq; cbn [pc_pats] in Hq; by rewrite lookup_empty in Hq|].
  destruct (load_new _ _ Hs Hd eq_refl eq_refl) as (n & Hn). exists n. intros fuel Hf. destruct (Hn fuel Hf) as (h' & p' & ms & e & E & L).
  exists h', p', ms, e, ex_pattern. split; [exact E|]. split; [|clear; left; by exists 2, CNote].
  rewrite (la_pats_other _ _ _ _ L 0); [cbn [pc_pats]; by rewrite lookup_singleton|]. left. clear. intros s Hx. unfold patch_new in Hx. cbn [pc_pats] in Hx. by rewrite lookup_empty in Hx.
Qed.
Print Assumptions C26_empty_pattern_refuted.

(** A pattern of which only the number of rows was set counts as empty and is not saved. *)
Theorem C26_rows_refuted : exists (src dst : patch Z) q, ex_made (Heap ∅ 0) src /\ ex_made (Heap ∅ 0) dst /\
  pc_pats src !! 0 = Some q /\ pt_rows q = 16 /\
  exists n, forall fuel, n <= fuel -> exists h' p' ms e,
    patch_load 0%Z P_Conf.demo_table (fun z => z) (fun a => a) fuel (Heap ∅ 0) dst (patch_to_repr P_Conf.demo_table src) = Some (h', p', ms, e) /\
    pc_pats p' !! 0 = None.
Proof.
  set (q := pat_set_rows (pat_new 0%Z max_pattern_len) 16).
  exists (Patch (matrix_new 2 2) ∅ {[ 0 := q ]} ∅ ∅), (patch_new 2 2), q.
  assert (ex_made (Heap ∅ 0) (Patch (matrix_new 2 2) ∅ {[ 0 := q ]} ∅ ∅)) as Hs by (by apply (with_pattern_made 2 2 0 q [PRows 16])).
  pose proof (new_patch_made 2 2) as Hd. split; [done|]. split; [done|]. split; [cbn [pc_pats]; by rewrite lookup_singleton|]. split; [done|].
  destruct (load_new _ _ Hs Hd eq_refl eq_refl) as (n & Hn). exists n. intros fuel Hf. destruct (Hn fuel Hf) as (h' & p' & ms & e & E & L).
  exists h', p', ms, e. split; [exact E|]. rewrite (la_pats_other _ _ _ _ L 0); [reflexivity|]. left. clear. intros s Hx. cbn [pc_pats] in Hx. rewrite lookup_singleton in Hx. injection Hx as <-.
  intros [(c & t & Hc & Ht)|(r & c & v & Hg)].
  - cbn [q pat_set_rows pt_types pat_new] in Hc. apply lookup_replicate in Hc as [-> _]. done.
  - unfold get2 in Hg. cbn [q pat_set_rows pt_data pat_new] in Hg. destruct (replicate max_pattern_len _ !! r) as [row|] eqn:Hr; cbn in Hg; [|done].
    apply lookup_replicate in Hr as [-> _]. by apply lookup_replicate in Hg as [? _].
Qed.
Print Assumptions C26_rows_refuted.
