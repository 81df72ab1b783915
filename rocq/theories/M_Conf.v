(** Model of the frontend node configuration: src/nodes/node_conf.rs *)
From Verif Require Import Base M_Atom M_Prog M_Grid.
Open Scope nat_scope.

(** What the node list (src/dsp/mod.rs:1419-1784 through the macros 1955-2560) says about each
    node kind. Inputs have the indices 0..n-1 ([$in_idx]); [nt_at_id k j] is the parameter
    index ([$in_at_idx]) of atom number [j] ([$at_idx]). *)
Record ntable := NTable {
  nt_known : nat -> bool;
  nt_ins : nat -> nat;
  nt_ats : nat -> nat;
  nt_outs : nat -> nat;
  nt_at_id : nat -> nat -> nat;
  nt_def : nat -> nat -> f32;
  nt_adef : nat -> nat -> satom;
  nt_norm : nat -> nat -> f32 -> f32;
  nt_denorm : nat -> nat -> f32 -> f32;
}.

(** src/dsp/mod.rs:1964-1969 [struct ParamId]: node and parameter index; the name is a function
    of the node kind and the index *)
Notation pid := (node_id * nat)%type (only parsing).

(** src/nodes/node_conf.rs:26-47 [struct NodeInstance] *)
Record ninst := NInst {
  ni_id : node_id;
  ni_used : bool;
  ni_idx : nat;
  ni_out : nat * nat;
  ni_in : nat * nat;
  ni_at : nat * nat;
  ni_mod : nat * nat;
  ni_map : list (option nat);
}.

(** src/nodes/mod.rs:6 MAX_DSP_NODE_INPUTS *)
Definition max_node_inputs : nat := 32.

(** src/nodes/node_conf.rs:68-70 [mark_used] *)
Definition ni_mark (n : ninst) : ninst :=
  NInst (ni_id n) true (ni_idx n) (ni_out n) (ni_in n) (ni_at n) (ni_mod n) (ni_map n).

(** src/nodes/node_conf.rs:75-87 [as_op]; the index is truncated to [u8] *)
Definition ni_as_op (n : ninst) : nodeop :=
  NodeOp (u8 (ni_idx n)) (ni_id n) (ni_out n) (ni_in n) (ni_at n) (ni_mod n) [] 0%N 0%N.

(** src/nodes/node_conf.rs:89-94 [mod_in_local2global]: an index equal to the table's length
    passes the test and panics, which is [None] here; [Some None] is the result [None] *)
Definition ni_mod_global (n : ninst) (i : nat) : option (option nat) :=
  if length (ni_map n) <? i then Some None else ni_map n !! i.

(** src/nodes/node_conf.rs:96-103 [in_local2global], 105-112 [out_local2global] *)
Definition local2global (r : nat * nat) (i : nat) : option nat :=
  if r.1 + i <? r.2 then Some (r.1 + i) else None.

(** src/nodes/node_conf.rs:148-154 [struct NodeInputParam], 156-161 [struct NodeInputAtom] *)
Record nparam := NParam { npa_idx : nat; npa_value : f32; npa_mod : option (nat * f32) }.
Record natom := NAtom { nat_idx : nat; nat_value : satom }.

(** src/nodes/node_prog.rs / src/nodes/mod.rs:33-52 [enum GraphMessage] *)
Inductive gmsg :=
| MClear (p : nprog)
| MNewProg (p : nprog) (copy_old_out : bool)
| MAtom (at_idx : nat) (value : satom)
| MParam (input_idx : nat) (value : f32)
| MModamt (mod_idx : nat) (modamt : f32)
| MMonitor (bufs : list (option nat)).

(** src/nodes/node_conf.rs:206-250 [struct NodeConfigurator]: nodes and parameters. The node
    handle is left out (see [op_node]); the message queue is modelled with the executor. *)
Record nconf := NConf {
  cf_nodes : list (node_id * option ninst);
  cf_idx : gmap node_id nat;
  cf_params : gmap pid nparam;
  cf_pvals : gmap pid f32;
  cf_modamt : gmap pid (option f32);
  cf_atoms : gmap pid natom;
  cf_avals : gmap pid satom;
}.

Definition conf_new : nconf := NConf [] ∅ ∅ ∅ ∅ ∅ ∅.

Section conf.
  Context (T : ntable).
  (** [i64 as f32] *)
  Context (i2f : Z -> f32).
  (** what [SampleLibrary::load] makes of the path of an unloaded sample; on an error the atom
      is stored as given (src/nodes/node_conf.rs:475-490) *)
  Context (load_sample : satom -> satom).

  (** src/dsp/mod.rs:1984-1996 [is_atom] *)
  Definition is_atom (p : pid) : bool :=
    let k := nid_kind p.1 in
    negb (p.2 <? nt_ins T k) && existsb (fun j => nt_at_id T k j =? p.2) (seq 0 (nt_ats T k)).

  (** src/nodes/node_conf.rs:385-393 [unique_index_for], [node_by_id] *)
  Definition conf_node (c : nconf) (n : node_id) : option (node_id * option ninst) :=
    let* i := cf_idx c !! n in cf_nodes c !! i.
  Definition conf_inst (c : nconf) (n : node_id) : option ninst :=
    let* (_, oi) := conf_node c n in oi.

  Definition with_nodes (c : nconf) (ns : list (node_id * option ninst)) : nconf :=
    NConf ns (cf_idx c) (cf_params c) (cf_pvals c) (cf_modamt c) (cf_atoms c) (cf_avals c).

  (** [mark_used] through [node_by_id_mut] *)
  Definition conf_mark (c : nconf) (n : node_id) : nconf :=
    match cf_idx c !! n with
    | Some i =>
        match cf_nodes c !! i with
        | Some (id, Some ni) => with_nodes c (<[i := (id, Some (ni_mark ni))]> (cf_nodes c))
        | _ => c
        end
    | None => c
    end.

  (** src/nodes/node_conf.rs:406-408 [get_param_modamt] *)
  Definition conf_get_modamt (c : nconf) (p : pid) : option f32 := mjoin (cf_modamt c !! p).

  (** src/nodes/node_conf.rs:414-451 [set_param_modamt]: new state, messages, result *)
  Definition conf_set_modamt (c : nconf) (p : pid) (v : option f32) : nconf * list gmsg * bool :=
    if is_atom p then (c, [], false) else
    let np := cf_params c !! p in
    let mod_idx := let* q := np in let* m := npa_mod q in Some m.1 in
    let params :=
      match np with
      | Some (NParam i w (Some (mi, _))) => <[p := NParam i w (Some (mi, default f32_zero v))]> (cf_params c)
      | _ => cf_params c
      end in
    let c' := NConf (cf_nodes c) (cf_idx c) params (cf_pvals c) (<[p := v]> (cf_modamt c))
                    (cf_atoms c) (cf_avals c) in
    match conf_get_modamt c p, v with
    | Some _, None => (c', [], true)
    | Some _, Some a => (c', match mod_idx with Some i => [MModamt i a] | None => [] end, false)
    | None, _ => (c', [], true)
    end.

  (** src/nodes/node_conf.rs:454-460 [get_param] *)
  Definition conf_get_param (c : nconf) (p : pid) : option satom :=
    if is_atom p then cf_avals c !! p else AParam <$> (cf_pvals c !! p).

  (** src/nodes/node_conf.rs:467-515 [set_param] *)
  Definition conf_set_param (c : nconf) (p : pid) (at_ : satom) : nconf * list gmsg :=
    if is_atom p then
      let v := load_sample at_ in
      let avals := <[p := v]> (cf_avals c) in
      match cf_atoms c !! p with
      | Some a => (NConf (cf_nodes c) (cf_idx c) (cf_params c) (cf_pvals c) (cf_modamt c)
                         (<[p := NAtom (nat_idx a) v]> (cf_atoms c)) avals,
                   [MAtom (nat_idx a) v])
      | None => (NConf (cf_nodes c) (cf_idx c) (cf_params c) (cf_pvals c) (cf_modamt c)
                       (cf_atoms c) avals, [])
      end
    else
      let v := atom_f i2f at_ in
      let pvals := <[p := v]> (cf_pvals c) in
      match cf_params c !! p with
      | Some q => (NConf (cf_nodes c) (cf_idx c)
                         (<[p := NParam (npa_idx q) v (npa_mod q)]> (cf_params c)) pvals
                         (cf_modamt c) (cf_atoms c) (cf_avals c),
                   [MParam (npa_idx q) v])
      | None => (NConf (cf_nodes c) (cf_idx c) (cf_params c) pvals (cf_modamt c)
                       (cf_atoms c) (cf_avals c), [])
      end.

  (** src/nodes/node_conf.rs:519-536 [dump_param_values]; the order of the entries is that of the
      hash map, here some fixed order *)
  Definition conf_dump (c : nconf) : list (pid * f32 * option f32) * list (pid * satom) :=
    ((fun '(p, v) => (p, nt_denorm T (nid_kind p.1) p.2 v, conf_get_modamt c p)) <$> map_to_list (cf_pvals c),
     map_to_list (cf_avals c)).

  (** src/nodes/node_conf.rs:540-555 [load_dumped_param_values] *)
  Definition conf_load_param (normalize : bool) (s : nconf * list gmsg) (e : pid * f32 * option f32)
    : nconf * list gmsg :=
    let '(p, v, m) := e in
    let v := if normalize then nt_norm T (nid_kind p.1) p.2 v else v in
    let '(c, ms) := conf_set_param s.1 p (AParam v) in
    let '(c, ms', _) := conf_set_modamt c p m in (c, s.2 ++ ms ++ ms').
  Definition conf_load_atom (s : nconf * list gmsg) (e : pid * satom) : nconf * list gmsg :=
    let '(c, ms) := conf_set_param s.1 e.1 e.2 in (c, s.2 ++ ms).
  Definition conf_load (c : nconf) (ps : list (pid * f32 * option f32)) (ats : list (pid * satom))
      (normalize : bool) : nconf * list gmsg :=
    foldl conf_load_atom (foldl (conf_load_param normalize) (c, []) ps) ats.

  (** src/nodes/node_conf.rs:677-703 [monitor], src/monitor.rs MON_SIG_CNT = 6: the buffer indices of the
      monitored inputs and outputs; the unused index 99999 is [None] *)
  Definition mon_part (r : nat * nat) (ports : list (option nat)) : list (option nat) :=
    (fun op => let* i := op in local2global r i) <$> take 3 ports.
  Definition conf_monitor (c : nconf) (n : node_id) (ins outs : list (option nat)) : list gmsg :=
    match conf_inst c n with
    | Some ni =>
        let l := mon_part (ni_in ni) ins ++ mon_part (ni_out ni) outs in
        [MMonitor (l ++ replicate (6 - length l) None)]
    | None => []
    end.

  (** src/nodes/node_conf.rs:710-720 [delete_nodes] *)
  Definition conf_delete_nodes (c : nconf) : nconf * list gmsg := (conf_new, [MClear prog_empty]).

  (** src/nodes/node_conf.rs:722-735 [create_node]; [None] is the error result *)
  Definition conf_create (c : nconf) (n : node_id) : option nconf :=
    if nt_known T (nid_kind n)
    then Some (NConf (cf_nodes c ++ [(n, None)]) (<[n := length (cf_nodes c)]> (cf_idx c))
                     (cf_params c) (cf_pvals c) (cf_modamt c) (cf_atoms c) (cf_avals c))
    else None.

  (** src/nodes/node_conf.rs:746-756 [unused_instance_node_id]; [None] when the fuel runs out *)
  Fixpoint conf_unused (fuel : nat) (c : nconf) (n : node_id) : option node_id :=
    match fuel with
    | 0 => None
    | S fuel =>
        match conf_inst c n with
        | Some ni => if ni_used ni then conf_unused fuel c (NId (nid_kind n) (u8 (nid_inst n + 1)))
                     else Some (ni_id ni)
        | None => Some n
        end
    end.

  (** State of the loops of [rebuild_node_ports]: the parameter maps and the number of modulators *)
  Record rstate := RState {
    rs_params : gmap pid nparam;
    rs_pvals : gmap pid f32;
    rs_mod : nat;
  }.

  (** src/nodes/node_conf.rs:808-837: input number [j] of node [id] whose inputs start at [start];
      the modulator map of the instance is passed along. [set_mod_idx] (137-140) panics when the
      index is not below 32. *)
  Definition rebuild_input (modamt : gmap pid (option f32)) (id : node_id) (start : nat)
      (st : rstate * list (option nat)) (j : nat) : option (rstate * list (option nat)) :=
    let '(s, map) := st in
    let p : pid := (id, j) in
    let value := default (nt_def T (nid_kind id) j) (rs_pvals s !! p) in
    let pvals := <[p := value]> (rs_pvals s) in
    match mjoin (modamt !! p) with
    | Some a =>
        if j <? length map then
          Some (RState (<[p := NParam (start + j) value (Some (rs_mod s, a))]> (rs_params s)) pvals
                       (S (rs_mod s)),
                <[j := Some (rs_mod s)]> map)
        else None
    | None => Some (RState (<[p := NParam (start + j) value None]> (rs_params s)) pvals (rs_mod s), map)
    end.

  (** src/nodes/node_conf.rs:845-862: atom number [j] *)
  Definition rebuild_atom (id : node_id) (start : nat) (st : gmap pid natom * gmap pid satom) (j : nat)
    : gmap pid natom * gmap pid satom :=
    let p : pid := (id, nt_at_id T (nid_kind id) j) in
    let value := default (nt_adef T (nid_kind id) j) (st.2 !! p) in
    (<[p := NAtom (start + j) value]> st.1, <[p := value]> st.2).

  (** Lengths of the four vectors so far *)
  Record rlens := RLens { rl_out : nat; rl_in : nat; rl_at : nat }.

  (** src/nodes/node_conf.rs:776-864: the loop over the nodes, [i] counts them. Nodes of kind
      [Nop] end it. *)
  Fixpoint rebuild_nodes (modamt : gmap pid (option f32)) (i : nat) (l : rlens) (s : rstate)
      (ats : gmap pid natom * gmap pid satom) (ns : list (node_id * option ninst))
    : option (rlens * rstate * (gmap pid natom * gmap pid satom) * list (node_id * option ninst)) :=
    match ns with
    | [] => Some (l, s, ats, [])
    | (id, old) :: ns =>
        let k := nid_kind id in
        let l' := RLens (rl_out l + nt_outs T k) (rl_in l + nt_ins T k) (rl_at l + nt_ats T k) in
        if decide (id = Nop) then Some (l', s, ats, (id, old) :: ns) else
        let* (s', map) := foldm (rebuild_input modamt id (rl_in l))
                                (s, replicate max_node_inputs None) (seq 0 (nt_ins T k)) in
        let ni := NInst id false i (rl_out l, rl_out l') (rl_in l, rl_in l') (rl_at l, rl_at l')
                        (rs_mod s, rs_mod s') map in
        let ats' := foldl (rebuild_atom id (rl_at l)) ats (seq 0 (nt_ats T k)) in
        let* (l2, s2, ats2, ns2) := rebuild_nodes modamt (S i) l' s' ats' ns in
        Some (l2, s2, ats2, (id, Some ni) :: ns2)
    end.

  (** src/nodes/node_conf.rs:766-867 [rebuild_node_ports] *)
  Definition conf_rebuild (h : heap) (c : nconf) : option (heap * nconf * nprog) :=
    let* (l, s, ats, ns) := rebuild_nodes (cf_modamt c) 0 (RLens 0 0 0) (RState ∅ (cf_pvals c) 0)
                                          (∅, cf_avals c) (cf_nodes c) in
    let '(h, p) := prog_new h (rl_out l) (rl_in l) (rl_at l) (rs_mod s) in
    Some (h, NConf ns (cf_idx c) (rs_params s) (rs_pvals s) (cf_modamt c) ats.1 ats.2, p).

  (** src/nodes/node_conf.rs:874-880 [add_prog_node] *)
  Definition conf_add_node (cp : nconf * nprog) (n : node_id) : nconf * nprog :=
    match conf_inst cp.1 n with
    | Some ni => (conf_mark cp.1 n, prog_append_op cp.2 (ni_as_op ni))
    | None => cp
    end.

  (** src/nodes/node_conf.rs:891-919 [set_prog_node_exec_connection] *)
  Definition conf_connect (cp : nconf * nprog) (e : edge_t) : option (nconf * nprog) :=
    match conf_inst cp.1 (e_from e) with
    | None => Some cp
    | Some src =>
        let oi := local2global (ni_out src) (e_from_out e) in
        match conf_inst cp.1 (e_to e) with
        | None => Some cp
        | Some dst =>
            let ii := local2global (ni_in dst) (e_to_input e) in
            let* md := ni_mod_global dst (e_to_input e) in
            Some (conf_mark cp.1 (e_to e),
                  match ii, oi with
                  | Some ii, Some oi => prog_append_edge cp.2 (u8 (ni_idx dst)) ii oi md
                  | _, _ => cp.2
                  end)
        end
    end.

  (** src/nodes/node_conf.rs:952-979 [upload_prog]: the values written into the program; an index
      outside of the vectors panics *)
  Definition put_param (s : list f32 * list modop) (q : nparam) : option (list f32 * list modop) :=
    if negb (npa_idx q <? length s.1) then None else
    let ps := <[npa_idx q := npa_value q]> s.1 in
    match npa_mod q with
    | Some (i, a) => let* m := s.2 !! i in Some (ps, <[i := modop_set_amt m a]> s.2)
    | None => Some (ps, s.2)
    end.
  Definition put_atom (s : list satom) (a : natom) : option (list satom) :=
    if nat_idx a <? length s then Some (<[nat_idx a := nat_value a]> s) else None.
  Definition conf_fill (c : nconf) (p : nprog) : option nprog :=
    let* (ps, ms) := foldm put_param (np_params p, np_mods p) ((map_to_list (cf_params c)).*2) in
    let* ats := foldm put_atom (np_atoms p) ((map_to_list (cf_atoms c)).*2) in
    Some (NProg (np_inp p) (np_cur p) (np_out p) ps ats (np_ops p) ms (np_locked p) (np_fb p)).

  (** src/matrix.rs:1264-1294 [create_intermediate_nodes], one cell: the hole fillers and the
      node; [expect] panics for an unknown kind *)
  Definition conf_ensure (c : nconf) (n : node_id) : option nconf :=
    match cf_idx c !! n with
    | Some _ => Some c
    | None => conf_create c n
    end.
  Definition conf_create_cell (c : nconf) (n : node_id) : option nconf :=
    if decide (n = Nop) then Some c else
    match cf_idx c !! n with
    | Some _ => Some c
    | None =>
        let* c := foldm conf_ensure c ((fun i => NId (nid_kind n) i) <$> seq 0 (nid_inst n)) in
        conf_create c n
    end.
  Definition conf_create_cells (c : nconf) (ns : list node_id) : option nconf :=
    foldm conf_create_cell c ns.

  (** src/matrix.rs:1375-1391, the rest of [build_prog] once the order is known, and the upload in
      [sync] (1467): ports, operations, connections and values *)
  Definition conf_program (h : heap) (c : nconf) (order : list node_id) (es : list edge_t)
    : option (heap * nconf * nprog) :=
    let* (h, c, p) := conf_rebuild h c in
    let cp := foldl conf_add_node (c, p) order in
    let* (c, p) := foldm conf_connect cp es in
    let* p := conf_fill c p in
    Some (h, c, p).
End conf.
