(** C38: chains of cells are placed as they were described *)
From stdpp Require Import strings.
From Verif Require Import Base M_Atom M_Dir S_Dir M_Grid S_Grid M_Layout M_Prog M_Conf S_Conf M_Exec M_Sync M_Nodes S_Nodes M_Chain S_Chain L_Chain.
Open Scope string_scope.
Open Scope list_scope.
Open Scope nat_scope.
Local Opaque node_rows.

(** The cells. A chain whose names all exist is placed without error or panic on every matrix that has an unused instance for each of its
    kinds: the cell of the [k]-th node is [k] steps of the chain's direction away from the start, if that is on the matrix, with the
    ports that were named at the two edges of the chain's direction, and with the instance described by [numbered]. All other cells stay
    as they were. *)
Theorem C38_places T i2f load_sample fuel d os m x y :
  d <> C -> well_described os -> grid_wf (lay_grid (mx_lay m)) ->
  (forall o n, o ∈ nodes_of os -> asks_for o n -> is_Some (matrix_unused fuel m n)) ->
  exists ch m' ms asked ids,
    chain_run T (chain_new d) os = Some ch /\ chain_place T i2f load_sample fuel m ch x y = Some (m', ch, ms, None) /\
    Forall2 asks_for (nodes_of os) asked /\ numbered (matrix_unused fuel m) asked ids /\
    grid_wf (lay_grid (mx_lay m')) /\ g_w (lay_grid (mx_lay m')) = g_w (lay_grid (mx_lay m)) /\ g_h (lay_grid (mx_lay m')) = g_h (lay_grid (mx_lay m)) /\
    (forall k o n q, nodes_of os !! k = Some o -> ids !! k = Some n -> walk (x, y) (replicate k d) q -> in_bounds (lay_grid (mx_lay m)) q ->
       exists c c', describes d o c /\ cell_put c n q c' /\ board (lay_grid (mx_lay m')) q = Some c') /\
    (forall q, (forall k, k < length (nodes_of os) -> ~ walk (x, y) (replicate k d) q) ->
       board (lay_grid (mx_lay m')) q = board (lay_grid (mx_lay m)) q).
Proof.
  intros Hd Hw Hwf Hun. destruct (run_ok T d os Hd Hw) as (ch & Hrun & Hi).
  destruct (place_run T i2f load_sample fuel d os m ch x y Hd Hw Hi Hwf Hun) as (m' & ms & ids & Hp & H1 & H2 & H3 & H4 & H5 & H6 & _).
  exists ch, m', ms, (op_id <$> nodes_of os), ids. split; [done|]. split; [done|]. split; [|done].
  apply Forall2_fmap_r, Forall_Forall2_diag, Forall_forall. intros o Ho. by apply (well_asks os o Hw).
Qed.
Print Assumptions C38_places.

(** The parameters. They are set on the nodes that were asked for: of all calls that set parameter [i] of node [n], the last one of the
    link that is last in the chain decides, and parameters that no call sets stay as they were. *)
Theorem C38_params T i2f load_sample fuel d os m x y :
  d <> C -> well_described os -> grid_wf (lay_grid (mx_lay m)) ->
  (forall o n, o ∈ nodes_of os -> asks_for o n -> is_Some (matrix_unused fuel m n)) ->
  exists ch m' ms,
    chain_run T (chain_new d) os = Some ch /\ chain_place T i2f load_sample fuel m ch x y = Some (m', ch, ms, None) /\
    (forall j k i v o n, set_call os j k i v -> nodes_of os !! k = Some o -> asks_for o n ->
       (forall j' k' v' o', set_call os j' k' i v' -> nodes_of os !! k' = Some o' -> asks_for o' n -> k' < k \/ k' = k /\ j' <= j) ->
       conf_get_param T (mx_conf m') (n, i) = Some (stored T i2f load_sample (n, i) (given T n i v))) /\
    (forall n i, (forall j k v o, set_call os j k i v -> nodes_of os !! k = Some o -> ~ asks_for o n) ->
       conf_get_param T (mx_conf m') (n, i) = conf_get_param T (mx_conf m) (n, i)).
Proof.
  intros Hd Hw Hwf Hun. destruct (run_ok T d os Hd Hw) as (ch & Hrun & Hi).
  destruct (place_run T i2f load_sample fuel d os m ch x y Hd Hw Hi Hwf Hun) as (m' & ms & ids & Hp & _ & _ & _ & _ & _ & _ & H7 & H8).
  exists ch, m', ms. split; [done|]. split; [done|]. split; [|done].
  intros j k i v o n Hc Ho Ha Hlast. pose proof (asks_id _ _ Ha) as ->. by apply (H7 j k i v o Hc Ho).
Qed.
Print Assumptions C38_params.

(** The property as stated, for the chains it is true of: when every kind occurs once in the chain and its first instance is not in use,
    the cells that are placed have the very nodes whose parameters are set. *)
Theorem C38_same_instances T i2f load_sample fuel d os m x y asked :
  d <> C -> well_described os -> grid_wf (lay_grid (mx_lay m)) ->
  Forall2 asks_for (nodes_of os) asked -> NoDup (nid_kind <$> asked) -> (forall n, n ∈ asked -> matrix_unused fuel m n = Some n) ->
  exists ch m' ms,
    chain_run T (chain_new d) os = Some ch /\ chain_place T i2f load_sample fuel m ch x y = Some (m', ch, ms, None) /\
    (forall k o q, nodes_of os !! k = Some o -> walk (x, y) (replicate k d) q -> in_bounds (lay_grid (mx_lay m)) q ->
       exists c n, board (lay_grid (mx_lay m')) q = Some c /\ c_node c = n /\ asks_for o n /\
         forall j i v, set_call os j k i v -> (forall j' v', set_call os j' k i v' -> j' <= j) ->
           conf_get_param T (mx_conf m') (n, i) = Some (stored T i2f load_sample (n, i) (given T n i v))).
Proof.
  intros Hd Hw Hwf Hasked Hnd Hfree. destruct (run_ok T d os Hd Hw) as (ch & Hrun & Hi).
  assert (asked = op_id <$> nodes_of os) as ->. { revert Hasked. generalize (nodes_of os). clear. induction 1 as [|o n l ns H _ IH]; [done|]. cbn. by rewrite (asks_id _ _ H), <- IH. }
  destruct (place_run T i2f load_sample fuel d os m ch x y Hd Hw Hi Hwf) as (m' & ms & ids & Hp & _ & _ & _ & [Hlen Hnum] & H5 & _ & H7 & _).
  { intros o n Ho Ha. rewrite (asks_id _ _ Ha), Hfree; [by eexists|]. by apply elem_of_list_fmap_1. }
  exists ch, m', ms. split; [done|]. split; [done|]. intros k o q Ho Hq Hin.
  assert ((op_id <$> nodes_of os) !! k = Some (op_id o)) as Hk by (by rewrite list_lookup_fmap, Ho).
  assert (is_Some (ids !! k)) as [n Hn]. { apply lookup_lt_is_Some. rewrite Hlen. by eapply lookup_lt_Some. }
  destruct (Hnum k _ n Hk Hn) as [HA _].
  assert (matrix_unused fuel m (op_id o) = Some n) as Hu.
  { apply HA. intros j a' Hj Ha' Heq. apply (f_equal (fmap nid_kind)) in Ha' as E1. apply (f_equal (fmap nid_kind)) in Hk as E2. rewrite <- list_lookup_fmap in E1, E2. cbn in E1, E2. rewrite <- Heq in E2.
    pose proof (NoDup_lookup _ _ _ _ Hnd E1 E2). lia. }
  rewrite Hfree in Hu by (by eapply elem_of_list_lookup_2). apply (inj Some) in Hu. subst n.
  destruct (H5 k o _ q Ho Hn Hq Hin) as (c & c' & Hdesc & Hput & Hb). exists c', (op_id o). split; [done|]. split; [by destruct Hput|].
  split; [apply (well_asks os o Hw); by eapply elem_of_list_lookup_2|]. intros j i v Hc Hlast. apply (H7 j k i v o Hc Ho).
  intros j' k' v' o' Hc' Ho' Ha'. assert (k' = k) as ->; [|right; split; [done|by eapply Hlast]].
  apply asks_id in Ha'. apply (NoDup_lookup _ k' k (nid_kind (op_id o)) Hnd); rewrite !list_lookup_fmap, ?Ho', ?Ho; cbn; by rewrite ?Ha'.
Qed.
Print Assumptions C38_same_instances.

(** Errors. If a call used a name that does not exist, [place] returns an error and does not touch the matrix. *)
Theorem C38_error T i2f load_sample fuel d os j m x y ch :
  d <> C -> well_described (take j os) -> ill_named os j -> chain_run T (chain_new d) os = Some ch ->
  exists ch' e, chain_place T i2f load_sample fuel m ch x y = Some (m, ch', [], Some e).
Proof.
  intros Hd Hw Hill Hrun. destruct (ill_err T d os j ch Hd Hw Hill Hrun) as [e He]. unfold chain_place. rewrite He. eauto.
Qed.
Print Assumptions C38_error.
(** Describing a chain does not panic when it starts with a node that exists and does not select links by index. *)
Theorem C38_describe_total T d o os : d <> C -> adds o = true -> well_described [o] -> (forall i, CFor i ∉ os) -> is_Some (chain_run T (chain_new d) (o :: os)).
Proof.
  intros Hd Ha Hw Hf. destruct (run_ok T d [o] Hd Hw) as (ch & Hrun & Hi). change (o :: os) with ([o] ++ os). rewrite chain_run_app, Hrun. cbn [mbind option_bind].
  apply run_total; [done|]. rewrite (ri_idx _ _ _ _ Hi). pose proof (Forall2_length _ _ _ (ri_links _ _ _ _ Hi)) as Hl. unfold nodes_of in Hl. cbn [List.filter] in Hl. rewrite Ha in Hl. cbn in Hl. rewrite <- Hl.
  destruct o; try done; cbn; lia.
Qed.
Print Assumptions C38_describe_total.

(** *** Example: the chain of the documentation *)
Definition ex_table : ntable := hexo_table (fun _ _ => 0%Z) (fun k i v => (v + 1000)%Z) (fun k i v => (v - 1000)%Z) (fun _ => 0%Z).
Definition doc_chain : list chop :=
  [CNode "sin" None (Some "sig"); CSet "freq" (VDenorm 220%Z); CNode "amp" (Some "inp") (Some "sig"); CSet "att" (VDenorm 5%Z); CNode "out" (Some "ch1") None;
   CFor 0; CSet "det" (VAtom (AParam 1%Z))].
Definition sinn : node_id := node_from_str "sin".
Definition ampn : node_id := node_from_str "amp".
Definition outn : node_id := node_from_str "out".
Definition placed (m : matrix) (d : celldir) (os : list chop) (x y : nat) : option (matrix * chain * list gmsg * option cherr) :=
  let* ch := chain_run ex_table (chain_new d) os in chain_place ex_table (fun z => z) (fun a => a) 256 m ch x y.
Definition node_at (m : matrix) (p : nat * nat) : option node_id := c_node <$> board (lay_grid (mx_lay m)) p.

Lemma doc_named name n : node_from_str name = n -> n <> Nop -> named name n.
Proof. intros <- H. apply str_named. by right. Qed.
Example doc_well_described : well_described doc_chain.
Proof.
  assert (named "sin" sinn) as H1 by (by apply doc_named; vm_compute).
  assert (named "amp" ampn) as H2 by (by apply doc_named; vm_compute).
  assert (named "out" outn) as H3 by (by apply doc_named; vm_compute).
  intros j o Hj. destruct j as [|[|[|[|[|[|[|j]]]]]]]; [injection Hj as <-..|done].
  - exists sinn. split; [done|]. split; [done|]. intros i [= <-]. vm_compute. by eexists.
  - assert (exists p, inp_param sinn "freq" = Some p) as [p Hp] by (vm_compute; by eexists). exists 0, (pa_idx p), "freq", (CNode "sin" None (Some "sig")), sinn, p. done.
  - exists ampn. split; [done|]. split; intros i [= <-]; vm_compute; by eexists.
  - assert (exists p, inp_param ampn "att" = Some p) as [p Hp] by (vm_compute; by eexists). exists 1, (pa_idx p), "att", (CNode "amp" (Some "inp") (Some "sig")), ampn, p. done.
  - exists outn. split; [done|]. split; [|done]. intros i [= <-]. vm_compute. by eexists.
  - done.
  - assert (exists p, inp_param sinn "det" = Some p) as [p Hp] by (vm_compute; by eexists). exists 0, (pa_idx p), "det", (CNode "sin" None (Some "sig")), sinn, p. done.
Qed.
Example doc_placed :
  (let* (m, _, _, e) := placed (matrix_new 7 7) B doc_chain 2 2 in
   Some (e, node_at m (2, 2), node_at m (2, 3), node_at m (2, 4), node_at m (2, 5),
         conf_get_param ex_table (mx_conf m) (sinn, 0), conf_get_param ex_table (mx_conf m) (sinn, 1)))
  = Some (None, Some sinn, Some ampn, Some outn, Some Nop, Some (AParam 1220%Z), Some (AParam 1%Z)).
Proof. vm_compute. reflexivity. Qed.
(** the other hypotheses of the theorems hold of it as well *)
Example doc_hypotheses : Forall2 asks_for (nodes_of doc_chain) [sinn; ampn; outn] /\ NoDup (nid_kind <$> [sinn; ampn; outn]) /\
  (forall n, n ∈ [sinn; ampn; outn] -> matrix_unused 1 (matrix_new 7 7) n = Some n).
Proof.
  split; [|split].
  - repeat constructor; apply doc_named; by vm_compute.
  - apply (bool_decide_unpack _). vm_compute. exact I.
  - intros n Hn. repeat (apply elem_of_cons in Hn as [->|Hn]; [by vm_compute|]). by apply elem_of_nil in Hn.
Qed.

(** *** Where the property fails *)
(** a matrix with the first instance of the oscillator on it, in use *)
Definition used_matrix : option matrix :=
  let* s := matrix_run ex_table (fun z => z) (fun a => a) (Heap ∅ 0, matrix_new 7 7, []) [MxLay (LPlace 0 0 (cell_empty sinn)); MxSync] in Some s.1.2.

(** The parameters of a chain are not set on the nodes that were placed: with the first instance of the oscillator in use, the chain places
    its second instance and sets the frequency of the first one, which is elsewhere on the matrix. *)
Theorem C38_wrong_instance_refuted :
  (let* m0 := used_matrix in
   let* (m, _, _, e) := placed m0 B doc_chain 2 2 in
   Some (e, node_at m (0, 0), node_at m (2, 2), conf_get_param ex_table (mx_conf m) (sinn, 0), conf_get_param ex_table (mx_conf m) (NId (nid_kind sinn) 1, 0)))
  = Some (None, Some sinn, Some (NId (nid_kind sinn) 1), Some (AParam 1220%Z), None).
Proof. vm_compute. reflexivity. Qed.

(** With two nodes of a kind in the chain the parameters of both are set on the first instance. *)
Theorem C38_two_of_a_kind_refuted :
  (let* (m, _, _, e) := placed (matrix_new 7 7) B [CNode "sin" None (Some "sig"); CSet "freq" (VNorm 1%Z); CNode "sin" None (Some "sig"); CSet "freq" (VNorm 2%Z)] 2 2 in
   Some (e, node_at m (2, 2), node_at m (2, 3), conf_get_param ex_table (mx_conf m) (sinn, 0), conf_get_param ex_table (mx_conf m) (NId (nid_kind sinn) 1, 0)))
  = Some (None, Some sinn, Some (NId (nid_kind sinn) 1), Some (AParam 2%Z), None).
Proof. vm_compute. reflexivity. Qed.

(** Further nodes of a kind can get instances that are in use: the second oscillator of the chain is the one that is on the matrix. *)
Theorem C38_used_instance_refuted :
  (let* s := matrix_run ex_table (fun z => z) (fun a => a) (Heap ∅ 0, matrix_new 7 7, []) [MxLay (LPlace 0 0 (cell_empty (NId (nid_kind sinn) 1))); MxSync] in
   let* (m, _, _, e) := placed s.1.2 B [CNode "sin" None None; CNode "sin" None None] 2 2 in
   Some (e, matrix_unused 256 s.1.2 sinn, node_at m (0, 0), node_at m (2, 2), node_at m (2, 3)))
  = Some (None, Some sinn, Some (NId (nid_kind sinn) 1), Some sinn, Some (NId (nid_kind sinn) 1)).
Proof. vm_compute. reflexivity. Qed.

(** Setting a parameter before a node was added, or after the name of the first node was wrong, panics. *)
Theorem C38_set_panics_refuted :
  chain_run ex_table (chain_new B) [CSet "freq" (VNorm 1%Z)] = None /\ chain_run ex_table (chain_new B) [CNode "sine" None None; CSet "freq" (VNorm 1%Z)] = None /\
  chain_run ex_table (chain_new B) [CNode "sin" None None; CFor 1; CSet "freq" (VNorm 1%Z)] = None.
Proof. vm_compute. done. Qed.

(** The error is reported once: a second [place] puts the chain on the matrix without the nodes that were not understood. *)
Theorem C38_second_place_refuted :
  (let* ch := chain_run ex_table (chain_new B) [CNode "sin" None (Some "sig"); CNode "ampp" (Some "inp") (Some "sig"); CNode "out" (Some "ch1") None] in
   let* (m, ch, _, e) := chain_place ex_table (fun z => z) (fun a => a) 256 (matrix_new 7 7) ch 2 2 in
   let* (m', ch, _, e') := chain_place ex_table (fun z => z) (fun a => a) 256 m ch 2 2 in
   Some (e, node_at m (2, 2), e', node_at m' (2, 2), node_at m' (2, 3)))
  = Some (Some (UnknownNodeId "ampp"), Some Nop, None, Some sinn, Some outn).
Proof. vm_compute. reflexivity. Qed.
