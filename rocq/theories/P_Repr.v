(** C24: writing and reading descriptions. C35: snapshots of block programs. *)
From stdpp Require Import strings.
From Verif Require Import Base M_Atom M_Json M_Nodes S_Nodes M_Track M_Block S_Block L_Block L_Block2 L_Block3 M_Repr S_Repr P_Nodes L_Repr P_Block.
Open Scope string_scope.
Open Scope list_scope.
Open Scope nat_scope.

(** ** C24 *)

(** A description is written, and what was written is read as the same description. Writing what was read gives the same tree again. *)
Theorem C24_round (i2f : Z -> f32) (ord : area -> list (Z * Z * block)) (r : mrepr) :
  any_order ord -> repr_fits r -> (mr_version r <= 2)%Z ->
  exists j r', repr_json ord r = Some j /\ repr_read i2f j = ok r' /\ same_repr r r' /\ repr_json ord r' = Some j.
Proof.
  intros Ho Hr Hv. destruct (repr_round i2f ord r Ho Hr Hv) as (j & E & R). exists j, (repr_sort r). split_and!; [done|done|apply repr_sort_same|].
  rewrite <- E. unfold repr_json. by rewrite repr_sort_idem.
Qed.
Print Assumptions C24_round.

(** The same for the text, with any printing and parsing of trees that belong together. Files end with a line feed (src/matrix_repr.rs:297). *)
Theorem C24_text (print : json -> string) (parse : string -> option json) (i2f : Z -> f32) (ord : area -> list (Z * Z * block)) (r : mrepr) :
  (forall j, parse (print j) = Some j /\ parse (print j +:+ String (Ascii.ascii_of_nat 10) "") = Some j) ->
  any_order ord -> repr_fits r -> (mr_version r <= 2)%Z ->
  exists t r', print <$> repr_json ord r = Some t /\ repr_read i2f <$> parse t = Some (ok r') /\
    repr_read i2f <$> parse (t +:+ String (Ascii.ascii_of_nat 10) "") = Some (ok r') /\ same_repr r r'.
Proof.
  intros Hp Ho Hr Hv. destruct (C24_round i2f ord r Ho Hr Hv) as (j & r' & E & R & S & _). exists (print j), r'.
  destruct (Hp j) as [P1 P2]. rewrite E, P1, P2. cbn. by rewrite R.
Qed.
Print Assumptions C24_text.

(** Data of a newer version is rejected, whatever else it says. *)
Theorem C24_newer (i2f : Z -> f32) (v : json) (z : Z) : jget v "VERSION" = Some (JInt z) -> (2 < z < 2 ^ 63)%Z -> repr_read i2f v = err BadVersion.
Proof.
  intros E Hz. unfold repr_read. rewrite E, as_i64_int by (unfold i64_fits; lia). cbn [default from_option id]. by destruct (Z.ltb_spec 2 z); [|lia].
Qed.
Print Assumptions C24_newer.

Lemma read_all_inv {A} (f : json -> rd A) (l : list json) r : read_all f l = ok r -> forall v, v ∈ l -> exists a, f v = ok a.
Proof.
  revert r. induction l as [|v l IH]; intros r H w Hw; [by apply elem_of_nil in Hw|]. cbn in H. destruct (f v) as [[e|a]|] eqn:E; [done| |done]. cbn [try] in H.
  apply elem_of_cons in Hw as [->|Hw]; [eauto|]. destruct (read_all f l) as [[e|r']|]; [done| |done]. by eapply IH.
Qed.
Lemma read_all_total {A} (f : json -> rd A) (l : list json) : (forall v, v ∈ l -> is_Some (f v)) -> is_Some (read_all f l).
Proof.
  induction l as [|v l IH]; intros H; [by eexists|]. cbn. destruct (H v) as [[e|a] ->]; [left|by eexists|]. cbn [try].
  destruct IH as [[e|r] ->]; [|by eexists|by eexists]. intros w Hw. apply H. by right.
Qed.
Definition read_ok {A} (r : rd A) : Prop := exists a, r = ok a.
Lemma node_id_unknown v s : jidx v 0 = JStr s -> (forall n, known n -> node_name n <> s) -> read_node_id v 0 1 = err (UnknownNode s).
Proof.
  intros E H. unfold read_node_id. rewrite E. cbn [as_str default from_option id]. destruct (decide (node_from_str s = Nop)) as [_|Hn]; [done|].
  destruct (proj2 C28_kinds s Hn) as [Hk Hs]. by destruct (H _ Hk).
Qed.

(** Data with a cell, a parameter or an atom of a node that does not exist is rejected: the result is an error and no panic. *)
Theorem C24_unknown (i2f : Z -> f32) (v e : json) (s : string) :
  (e ∈ elems (jkey v "cells") \/ e ∈ elems (jkey v "params") \/ e ∈ elems (jkey v "atoms")) -> jidx e 0 = JStr s -> (forall n, known n -> node_name n <> s) ->
  exists er, repr_read i2f v = err er.
Proof.
  intros He Hs Hn. pose proof (node_id_unknown e s Hs Hn) as Hu. unfold repr_read. destruct (_ <? _)%Z; [eauto|].
  assert (forall (A : Type) (f : json -> rd A) l, f e = err (UnknownNode s) -> e ∈ l -> (forall v, v ∈ l -> is_Some (f v)) -> exists er, read_all f l = err er) as Hbad.
  { intros A f l Hf Hl Ht. destruct (read_all_total f l Ht) as [[er|r] E]; [eauto|]. destruct (read_all_inv f l r E e Hl) as [a Ha]. by rewrite Hf in Ha. }
  assert (forall v, is_Some (cell_read v)) as T1.
  { intros w. unfold cell_read, read_node_id. by destruct (decide _); eexists. }
  assert (forall v, is_Some (param_read i2f v)) as T2.
  { intros w. unfold param_read, read_node_id. destruct (decide _); [by eexists|]. cbn [try ok]. by destruct (inp_param _ _); eexists. }
  assert (forall v, is_Some (atom_read i2f v)) as T0.
  { intros w. unfold atom_read. destruct (as_str _) as [t|]; cbn [default from_option id]; repeat destruct (String.eqb _ _); try (by eexists);
      match goal with |- is_Some (match ?o with _ => _ end) => destruct o; by eexists end. }
  assert (forall v, is_Some (atom_entry_read i2f v)) as T3.
  { intros w. unfold atom_entry_read, read_node_id. destruct (decide _); [by eexists|]. cbn [try ok]. destruct (inp_param _ _); [|by eexists].
    destruct (T0 (jidx w 3)) as [[er|a] ->]; by eexists. }
  destruct He as [He|[He|He]].
  - destruct (Hbad _ cell_read (elems (jkey v "cells"))) as [er ->]; [|done|done|by eexists]. unfold cell_read. by rewrite Hu.
  - destruct (read_all_total cell_read (elems (jkey v "cells"))) as [[er|r1] ->]; [done|by eexists|]. cbn [try].
    destruct (Hbad _ (param_read i2f) (elems (jkey v "params"))) as [er ->]; [|done|done|by eexists]. unfold param_read. by rewrite Hu.
  - destruct (read_all_total cell_read (elems (jkey v "cells"))) as [[er|r1] ->]; [done|by eexists|]. cbn [try].
    destruct (read_all_total (param_read i2f) (elems (jkey v "params"))) as [[er|r2] ->]; [done|by eexists|]. cbn [try].
    destruct (Hbad _ (atom_entry_read i2f) (elems (jkey v "atoms"))) as [er ->]; [|done|done|by eexists]. unfold atom_entry_read. by rewrite Hu.
Qed.
Print Assumptions C24_unknown.

(** An atom of a known node that has no parameter of that name (an atom that a later version dropped) is left out; the rest is read. *)
Lemma read_all_skip (i2f : Z -> f32) (e : json) l1 l2 (k : list (option (paramid * satom)) -> rd mrepr) :
  atom_entry_read i2f e = ok None -> (forall l l', omap id l = omap id l' -> k l = k l') ->
  try (read_all (atom_entry_read i2f) (l1 ++ e :: l2)) k = try (read_all (atom_entry_read i2f) (l1 ++ l2)) k.
Proof.
  intros E. revert k. induction l1 as [|v l1 IH]; intros k Hk; cbn [app read_all].
  - rewrite E. cbn [try]. destruct (read_all _ l2) as [[?|r]|]; [done| |done]. cbn [try]. by apply Hk.
  - destruct (atom_entry_read i2f v) as [[?|a]|]; [done| |done]. cbn [try].
    specialize (IH (fun r => k (a :: r))).
    assert (forall x, try (try x (fun r => ok (a :: r))) k = try x (fun r => k (a :: r))) as Ht by (by intros [[?|?]|]).
    rewrite !Ht. apply IH. intros l l' Hl. apply Hk. destruct a; cbn; by rewrite Hl.
Qed.
Theorem C24_dropped_atom (i2f : Z -> f32) (v v' e : json) (l1 l2 : list json) (n : node_id) :
  (forall k, k <> "atoms" -> jget v' k = jget v k) ->
  elems (jkey v "atoms") = l1 ++ e :: l2 -> elems (jkey v' "atoms") = l1 ++ l2 ->
  read_node_id e 0 1 = ok n -> inp_param n (default "" (as_str (jidx e 2))) = None ->
  repr_read i2f v = repr_read i2f v'.
Proof.
  intros Hk E1 E2 En Ep. unfold repr_read. unfold jkey in *. rewrite E1, E2. rewrite !Hk by done.
  destruct (2 <? _)%Z; [done|]. destruct (read_all cell_read _) as [[?|cs]|]; [done| |done]. cbn [try].
  destruct (read_all (param_read i2f) _) as [[?|ps]|]; [done| |done]. cbn [try]. apply read_all_skip.
  - unfold atom_entry_read. rewrite En. cbn beta iota delta [try ok]. by rewrite Ep.
  - intros l l' ->. done.
Qed.
Print Assumptions C24_dropped_atom.
Example C24_dropped_case (i2f : Z -> f32) :
  repr_read i2f (JObj [("atoms", JArr [JArr [JStr "sin"; JInt 0; JStr "gone"; JArr [JStr "i"; JInt 1]]])]) = repr_read i2f (JObj [("atoms", JArr [])]).
Proof.
  apply (C24_dropped_atom i2f _ _ (JArr [JStr "sin"; JInt 0; JStr "gone"; JArr [JStr "i"; JInt 1]]) [] [] (node_from_str "sin")); [|done|done|by vm_compute..].
  intros k Hk. cbn [jget obj_get]. by destruct (String.eqb_spec "atoms" k).
Qed.

(** *** Cases *)
Definition ex_sin : node_id := to_instance (node_from_str "sin") 3.
Definition ex_map (l : list (Z * Z * block)) : gmap (Z * Z) block := list_to_map l.
Definition ex_area : area :=
  let bs := ex_map [((-1, 2)%Z, Block 1 2 (Some 1, None) true "two" "lbl" [None; Some "x"] [Some "a"] 5)] in Area bs (origin_map bs) (3, 4) false "main".
Definition ex_pid (s : string) : paramid := default (ParamId "" Nop 0) (inp_param ex_sin s).
Definition ex_data : list (list Z) := replicate 256 [-1; -1; 5; 6; -2147483648; 7]%Z.
Definition ex_repr : mrepr :=
  MRepr [CellRepr ex_sin 2 1 (0, -1, 1)%Z (-1, 0, -1)%Z]
    [(ex_pid "freq", 1056964608%Z, None); (ex_pid "det", 0%Z, Some 1048576000%Z)] [(ex_pid "freq", ASetting (-7))]
    [None; Some (PatRepr [0; 1; 2; 3; 0; 0]%Z ex_data 64 4 (3, 2))] [("b", AStr "x"); ("a", AMicro (replicate 8 0%Z))]
    [None; Some (BSnap [ex_area] 1)] 2.
Lemma ex_data_ok : length ex_data = 256 /\ Forall (fun r => length r = 6 /\ Forall i32_fits r) ex_data.
Proof.
  split; [apply replicate_length|]. apply Forall_replicate. split; [done|]. unfold i32_fits. repeat (apply Forall_cons; split); try lia. by apply Forall_nil_2.
Qed.
Local Opaque ex_data.
Lemma ex_sin_known : known_node ex_sin.
Proof. vm_compute. lia. Qed.
Example C24_case : repr_fits ex_repr /\ any_order (fun a => map_to_list (a_blocks a)) /\ mr_params (repr_sort ex_repr) <> mr_params ex_repr.
Proof.
  split_and!; [|intros a; done|by vm_compute].
  assert (forall s, inp_param ex_sin s = Some (ex_pid s) -> known_param (ex_pid s)) as Hp.
  { intros s E. pose proof ex_sin_known as [Hk Hi]. destruct (proj1 (C28_params _ Hk) s (ex_pid s)) as [H _]. destruct (H E) as [H1 H2].
    destruct (proj1 (proj2 (C28_params _ Hk)) _ _ H1) as (_ & E2 & _). split; rewrite E2; [by split|done]. }
  unfold repr_fits, ex_repr. cbn [mr_cells mr_params mr_atoms mr_patterns mr_props mr_blocks mr_version]. split_and!; repeat (apply Forall_cons; split); try apply Forall_nil_2; try done.
  - unfold cell_fits, ports_in, port_in, size_fits. cbn [cr_node cr_x cr_y cr_inp cr_out fst snd]. split; [apply ex_sin_known|].
    assert (in_count ex_sin = 3) as -> by (by vm_compute). assert (out_count ex_sin = 1) as -> by (by vm_compute). split_and!; lia.
  - split; [by apply Hp; vm_compute|]. split; [by vm_compute|done].
  - split; [by apply Hp; vm_compute|]. split; [by vm_compute|]. intros m [= <-]. by vm_compute.
  - cbn [fst snd]. split; [by apply Hp; vm_compute|]. unfold atom_fits, i64_fits. lia.
  - cbn [snd atom_fits]. split; [done|]. by apply Forall_replicate.
  - intros p [= <-]. unfold pattern_fits. cbn [pr_types pr_data pr_rows pr_step pr_cursor fst snd]. unfold size_fits. split_and!; try lia; try done.
    + repeat (apply Forall_cons; split); try lia. by apply Forall_nil_2.
    + apply ex_data_ok.
  - intros s [= <-]. unfold snap_fits. cbn [sn_id sn_areas]. split; [unfold size_fits; lia|]. apply Forall_cons; split; [|by apply Forall_nil_2]. split; [|done].
    unfold area_fits, ex_area, size_fits. cbn [a_size fst snd a_blocks]. split_and!; [lia|lia|]. intros p b Hb. unfold ex_map in Hb. cbn [list_to_map foldr uncurry fst snd] in Hb.
    apply lookup_insert_Some in Hb as [[<- <-]|[_ Hb]]; [|by rewrite lookup_empty in Hb]. unfold i64_fits, block_fits, size_fits. cbn.
    split_and!; try lia. intros n [[= <-]|?]; [lia|done].
Qed.
Example C24_version_case (i2f : Z -> f32) : repr_read i2f (JObj [("VERSION", JInt 3)]) = err BadVersion.
Proof. by eapply (C24_newer _ _ 3). Qed.
Example C24_unknown_case (i2f : Z -> f32) : exists er, repr_read i2f (JObj [("cells", JArr [JArr [JStr "sine"; JInt 0]])]) = err er.
Proof.
  eapply (C24_unknown _ _ (JArr [JStr "sine"; JInt 0]) "sine"); [left; left|done|]. intros n Hk E. assert (node_from_str (node_name n) = Nop) as H by (by rewrite E; vm_compute).
  rewrite (proj1 C28_kinds n Hk) in H. destruct n as [k i]. unfold known in Hk. cbn in *. injection H as ->. lia.
Qed.

(** *** What is not read back *)
Definition one_param (v : f32) : mrepr := MRepr [] [(ex_pid "freq", v, None)] [] [] [] [] 2.
Definition one_prop (a : satom) : mrepr := MRepr [] [] [] [] [("p", a)] [] 2.
Definition nan : f32 := 2143289344%Z.
Definition ex_ord (a : area) : list (Z * Z * block) := map_to_list (a_blocks a).
Definition again (i2f : Z -> f32) (r : mrepr) : option (rd mrepr) := repr_read i2f <$> repr_json ex_ord r.

(** A parameter that is no number is read as zero, and an atom that is no number makes the data unreadable. *)
Theorem C24_nan_refuted (i2f : Z -> f32) : f32_finite nan = false /\ again i2f (one_param nan) = Some (ok (one_param f32_zero)) /\
  again i2f (one_prop (AParam nan)) = Some (err InvalidAtom).
Proof. split_and!; by vm_compute. Qed.
Print Assumptions C24_nan_refuted.
(** A micro sample of fewer than eight values panics when it is written; the values after the eighth are lost. *)
Theorem C24_micro_refuted (i2f : Z -> f32) : again i2f (one_prop (AMicro [])) = None /\
  again i2f (one_prop (AMicro (replicate 9 0%Z))) = Some (ok (one_prop (AMicro (replicate 8 0%Z)))).
Proof. split; by vm_compute. Qed.
Print Assumptions C24_micro_refuted.
(** A port that is the index of an atom is lost. *)
Theorem C24_atom_port_refuted (i2f : Z -> f32) : exists n i, known_node n /\ in_count n <= Z.to_nat i < in_count n + at_count n /\
  again i2f (MRepr [CellRepr n 0 0 (i, -1, -1)%Z (-1, -1, -1)%Z] [] [] [] [] [] 2) = Some (ok (MRepr [CellRepr n 0 0 (-1, -1, -1)%Z (-1, -1, -1)%Z] [] [] [] [] [] 2)).
Proof. exists (to_instance (node_from_str "ad") 0), (Z.of_nat (in_count (node_from_str "ad"))). split_and!; [vm_compute; lia|vm_compute; lia|vm_compute; lia|by vm_compute]. Qed.
Print Assumptions C24_atom_port_refuted.
(** A version above the range of integers, or one that is no integer, is taken for an old one. *)
Theorem C24_huge_version_refuted (i2f : Z -> f32) : repr_read i2f (JObj [("VERSION", JInt (2 ^ 63))]) = ok (MRepr [] [] [] [] [] [] 0) /\
  repr_read i2f (JObj [("VERSION", JStr "3")]) = ok (MRepr [] [] [] [] [] [] 0).
Proof. split; by vm_compute. Qed.
Print Assumptions C24_huge_version_refuted.
(** A pattern with more than 256 rows, or a row of more than 6 columns, panics. *)
Theorem C24_long_pattern_refuted (i2f : Z -> f32) : repr_read i2f (JObj [("patterns", JArr [JObj [("data", JArr [JArr (replicate 7 (JInt 0))])]])]) = None.
Proof. by vm_compute. Qed.
Print Assumptions C24_long_pattern_refuted.

(** ** C35 *)

Lemma save_fits f : fun_ok f -> prog_fits f -> snap_fits (bf_save f).
Proof.
  intros (Ha & _) (Hn & Hf). split; [done|]. cbn [bf_save sn_areas]. apply Forall_lookup. intros i a Hi. split; [by eapply Forall_lookup_1|].
  apply (Ha i a Hi).
Qed.

(** A snapshot that is written and read is the same snapshot. *)
Theorem C35_reads (types : string -> option btype) (st : bfun * list bsnap) (ord : area -> list (Z * Z * block)) :
  types_ok types -> edited types (thin_filler types) st -> any_order ord -> prog_fits st.1 ->
  snap_read (snap_json ord (bf_save st.1)) = bf_save st.1.
Proof. intros Hty Hed Ho Hf. apply snap_round; [done|]. apply save_fits; [|done]. by destruct (edited_fun_ok _ _ Hty Hed). Qed.
Print Assumptions C35_reads.

(** Loading it into any program gives the areas and blocks back, the program is well formed, and blocks that are made later get ids of their own. *)
Theorem C35_loads (types : string -> option btype) (st : bfun * list bsnap) (g : bfun) (ord : area -> list (Z * Z * block)) :
  types_ok types -> edited types (plain types) st -> any_order ord -> prog_fits st.1 ->
  exists n, forall fuel, n <= fuel -> exists f, bf_load fuel g (snap_read (snap_json ord (bf_save st.1))) = Some f /\
    Forall2 same_blocks (f_areas st.1) (f_areas f) /\ no_overlaps f /\ cells_resolve f /\ unique_ids f /\
    (forall id x y t i f', bf_instanciate types f id x y t i = (f', None) ->
       exists b, bf_block_at f' id (x, y) = Some b /\ forall id' p b', bf_block_at f id' p = Some b' -> b_id b' <> b_id b).
Proof.
  intros Hty Hed Ho Hf. destruct (edited_inv _ _ Hty Hed) as ((Hok & Ht & Hl) & _). rewrite snap_round by (done || by apply save_fits).
  destruct (recalculate_total (BFun (f_areas st.1) (f_next st.1) (f_gen g)) Ht Hl) as [n Hn]. exists n. intros fuel Hfu. destruct (Hn fuel Hfu) as [f E].
  unfold bf_load, bf_save. cbn [sn_areas sn_id]. rewrite E. cbn [mbind option_bind]. eexists; split; [done|].
  apply recalc_ok in E as (Hs & En & _). cbn [f_areas f_next] in Hs, En. split; [exact Hs|].
  assert (fun_ok (f_bump f)) as Hfo by (eapply same_fun_ok; [exact Hs|exact En|exact Hok]).
  destruct (fun_ok_spec _ Hfo) as (H1 & H2 & H3). split_and!; [done|done|done|].
  intros id x y t i f' Hi. apply inst_cases in Hi as [[_ [? ?]]|(a & ty & k & b & Ha & Ht' & Hsp & Hr & Hid & Hc & _ & ->)]; [done|]. exists b. split.
  - unfold bf_block_at. cbn [f_areas]. rewrite list_lookup_insert by (rewrite app_length; apply lookup_lt_Some in Ha; lia). cbn [mbind option_bind].
    unfold set_block_at. cbn. by rewrite lookup_insert.
  - intros id' p b' Hb Heq. unfold bf_block_at in Hb. apply bind_Some in Hb as (a' & Ha' & Hb). destruct Hfo as (_ & _ & H0).
    specialize (H0 (b_id b')). rewrite Heq, Hid in H0. specialize (H0 (Nat.lt_succ_diag_r _)).
    pose proof (fcnt_ge _ _ _ (S (f_next (f_bump f))) Ha'). apply bcnt_pos in Hb. rewrite Heq, Hid in Hb. lia.
Qed.
Print Assumptions C35_loads.

Definition fitsb (n : nat) : bool := (Z.of_nat n <? 2 ^ 63)%Z.
Definition i64b (z : Z) : bool := ((- 2 ^ 63 <=? z) && (z <? 2 ^ 63))%Z.
Definition progb (f : bfun) : bool :=
  fitsb (f_next f) && forallb (fun a => fitsb (a_size a).1 && fitsb (a_size a).2 && forallb (fun p : Z * Z * block =>
    i64b p.1.1 && i64b p.1.2 && fitsb (b_id p.2) && fitsb (b_rows p.2) && fitsb (b_color p.2) && fitsb (default 0 (b_contains p.2).1) && fitsb (default 0 (b_contains p.2).2))
    (map_to_list (a_blocks a))) (f_areas f).
Lemma progb_fits f : progb f = true -> prog_fits f.
Proof.
  assert (forall n, fitsb n = true -> size_fits n) as Hn by (intros n; apply Z.ltb_lt).
  assert (forall z, i64b z = true -> i64_fits z) as Hz by (intros z [?%Z.leb_le ?%Z.ltb_lt]%andb_prop; done).
  intros [H1 H2]%andb_prop. split; [auto|]. rewrite forallb_forall in H2. apply Forall_forall. intros a Ha. apply elem_of_list_In, H2 in Ha.
  apply andb_prop in Ha as [[H3 H4]%andb_prop H5]. split_and!; [auto|auto|]. rewrite forallb_forall in H5. intros p b Hb. apply elem_of_map_to_list, elem_of_list_In, H5 in Hb.
  rewrite !andb_true_iff in Hb. destruct Hb as ((((((? & ?) & ?) & ?) & ?) & ?) & ?). cbn [fst snd] in *. split; [by apply Hz|]. split; [by apply Hz|]. unfold block_fits.
 split; [by apply Hn|]. split; [by apply Hn|]. split; [by apply Hn|].
  intros n [E|E]; rewrite E in *; cbn in *; auto.
Qed.
(** A program with areas in areas meets the hypotheses *)
Example C35_case : exists st es, ex_run (bfun_new, []) ex_ops = Some (st, es) /\ edited ex_types (plain ex_types) st /\ prog_fits st.1 /\ 0 < f_next st.1.
Proof.
  destruct (ex_run_witness ex_ops (fun st es => progb st.1 = true /\ 0 < f_next st.1)) as (st & es & E & H1 & H2).
  { vm_compute. split; [done|lia]. }
  exists st, es. split_and!; [done| |by apply progb_fits|done]. by destruct (C32_case_edited _ _ E).
Qed.
