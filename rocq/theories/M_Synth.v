(** Model of src/build.rs and src/synth_constructor.rs: node graphs that are described by builder calls and uploaded without a matrix. *)
From stdpp Require Import strings.
From Verif Require Import Base M_Atom M_Graph M_Grid M_Prog M_Conf M_Nodes.
Open Scope string_scope.
Open Scope list_scope.
Open Scope nat_scope.

(** src/build.rs:38-50 [ConstructorOp], [ConstructorNode]. The node of [Input] is a [ConstructorNode]: the id and the shared operations of another
    builder, here the number of the builder. *)
Inductive bop :=
| BDenorm (name : string) (v : f32) (modamt : option f32)
| BSetting (name : string) (v : Z)
| BInput (name : string) (src : nat) (out : string).

(** A builder (src/build.rs:201-206) and what [build] (248-258) takes from it; all clones of a builder share the operations. *)
Record bnode := BNode { bn_id : node_id; bn_ops : list bop }.

(** src/build.rs:92-246: the calls of the builder API. The builders are numbered in the order of their creation. Ports and parameters are
    methods of the Rust types, so the names are those of the node list: input number [i], atom number [i]
    ([atom_param_by_idx]) and output number [i] of the node. A call that does not type check is ignored. *)
Inductive bcall :=
| KNew (kind inst : nat)
| KSet (b i : nat) (v : f32) (modamt : option f32)
| KSetting (b i : nat) (v : Z)
| KInput (b i : nat) (src o : nat).
Definition bpush (bs : list bnode) (b : nat) (op : bop) : list bnode := alter (fun n => BNode (bn_id n) (bn_ops n ++ [op])) b bs.
Definition bstep (bs : list bnode) (k : bcall) : list bnode :=
  match k with
  | KNew kind inst => if decide (0 < kind <= length node_rows /\ inst < 256) then bs ++ [BNode (NId kind inst) []] else bs
  | KSet b i v ma =>
      match (let* n := bs !! b in info_inputs (bn_id n) !! i) with Some name => bpush bs b (BDenorm name v ma) | None => bs end
  | KSetting b i v =>
      match (let* n := bs !! b in pa_name <$> atom_param_by_idx (bn_id n) i) with Some name => bpush bs b (BSetting name v) | None => bs end
  | KInput b i src o =>
      match (let* n := bs !! b in info_inputs (bn_id n) !! i), (let* n := bs !! src in info_outputs (bn_id n) !! o) with
      | Some name, Some out => bpush bs b (BInput name src out)
      | _, _ => bs
      end
  end.
Definition brun (ks : list bcall) : list bnode := foldl bstep [] ks.

(** src/synth_constructor.rs:33-51 [SynthError], the errors of building *)
Inductive synerr := SynCycle | SynBadOut (n : node_id) (s : string) | SynUnknown (n : node_id) (s : string).

(** src/synth_constructor.rs:60-63 [NodeConfig], 87-92 [SynthConstructor]; the executor is left out *)
Record ncfg := NCfg { nc_edges : gmap string (node_id * string); nc_params : gmap string (satom * option f32) }.
Record synth := Synth { sy_conf : nconf; sy_nodes : gmap node_id ncfg; sy_order : gord }.

(** src/synth_constructor.rs:95-104 [new] *)
Definition synth_new : synth := Synth conf_new ∅ gord_new.

(** The order in which the hash maps are iterated during one call: any function that lists the entries. *)
Record iters := Iters {
  it_nodes : gmap node_id ncfg -> list (node_id * ncfg);
  it_edges : node_id -> gmap string (node_id * string) -> list (string * (node_id * string));
  it_params : node_id -> gmap string (satom * option f32) -> list (string * (satom * option f32));
}.

(** src/synth_constructor.rs:107-112 [clear] *)
Definition synth_clear (s : synth) : synth * list gmsg :=
  let '(c, ms) := conf_delete_nodes (sy_conf s) in (Synth c ∅ (gord_clear (sy_order s)), ms).

Section synth.
  Context (T : ntable) (i2f : Z -> f32) (load_sample : satom -> satom).
  (** comparison of floats *)
  Context (feq : f32 -> f32 -> bool).

  (** src/dsp/satom.rs:5 derived [PartialEq] *)
  Definition flist_eqb (xs ys : list f32) : bool := (length xs =? length ys) && forallb (fun p => feq p.1 p.2) (zip xs ys).
  Definition atom_eqb (a b : satom) : bool :=
    match a, b with
    | AStr s, AStr t => String.eqb s t
    | AMicro v, AMicro w => flist_eqb v w
    | AAudio s v, AAudio t w =>
        String.eqb s t && match v, w with Some v, Some w => flist_eqb v w | None, None => true | _, _ => false end
    | ASetting i, ASetting j => Z.eqb i j
    | AParam v, AParam w => feq v w
    | _, _ => false
    end.
  Definition amt_eqb (a b : option f32) : bool :=
    match a, b with Some a, Some b => feq a b | None, None => true | _, _ => false end.

  (** src/synth_constructor.rs:133-166: the operations of one node, in order; the flags say that parameters and that edges changed. The
      last part is the error that ends the walk. *)
  Record wstate := WState { ws_cfg : ncfg; ws_par : bool; ws_edge : bool; ws_after : list nat; ws_err : option synerr }.
  Definition cfg_param (c : ncfg) (name : string) (v : satom) (ma : option f32) : ncfg := NCfg (nc_edges c) (<[name := (v, ma)]> (nc_params c)).
  Definition cfg_edge (c : ncfg) (name : string) (src : node_id) (out : string) : ncfg := NCfg (<[name := (src, out)]> (nc_edges c)) (nc_params c).
  Definition walk_op (bs : list bnode) (only_params : bool) (n : node_id) (w : wstate) (op : bop) : option wstate :=
    match ws_err w with
    | Some _ => Some w
    | None =>
        match op with
        | BDenorm name v ma =>
            match inp_param n name with
            | Some p => Some (WState (cfg_param (ws_cfg w) name (AParam (nt_norm T (nid_kind n) (pa_idx p) v)) ma) true (ws_edge w) (ws_after w) None)
            | None => Some (WState (ws_cfg w) (ws_par w) (ws_edge w) (ws_after w) (Some (SynUnknown n name)))
            end
        | BSetting name v => Some (WState (cfg_param (ws_cfg w) name (ASetting v) None) true (ws_edge w) (ws_after w) None)
        | BInput name src out =>
            let* b := bs !! src in
            Some (if only_params then WState (ws_cfg w) (ws_par w) (ws_edge w) (ws_after w ++ [src]) None
                  else WState (cfg_edge (ws_cfg w) name (bn_id b) out) (ws_par w) true (ws_after w ++ [src]) None)
        end
    end.

  (** src/synth_constructor.rs:185-228 [update_node_params]: one entry, and the loop that an error ends *)
  Definition update_entry (n : node_id) (c : nconf) (e : string * (satom * option f32)) : option (nconf * list gmsg * bool) :=
    let '(name, (value, modamt)) := e in
    let* q := inp_param n name in
    let p := (n, pa_idx q) in
    let changed_value := match conf_get_param T c p with Some old => negb (atom_eqb old value) | None => true end in
    let changed_modamt := negb (is_atom T p) && negb (amt_eqb (conf_get_modamt c p) modamt) in
    Some (if changed_value || changed_modamt then
            let '(c, ms) := conf_set_param T i2f load_sample c p value in
            if changed_modamt then let '(c, ms', b) := conf_set_modamt T c p modamt in (c, ms ++ ms', b) else (c, ms, false)
          else (c, [], false)).
  Fixpoint update_entries (n : node_id) (c : nconf) (ms : list gmsg) (b : bool) (es : list (string * (satom * option f32)))
    : nconf * list gmsg * (synerr + bool) :=
    match es with
    | [] => (c, ms, inr b)
    | e :: es =>
        match update_entry n c e with
        | None => (c, ms, inl (SynUnknown n e.1))
        | Some (c, ms', b') => update_entries n c (ms ++ ms') (b || b') es
        end
    end.
  Definition with_conf (s : synth) (c : nconf) : synth := Synth c (sy_nodes s) (sy_order s).
  Definition update_node (it : iters) (s : synth) (n : node_id) : synth * list gmsg * (synerr + bool) :=
    match sy_nodes s !! n with
    | None => (s, [], inr false)
    | Some cfg => let '(c, ms, r) := update_entries n (sy_conf s) [] false (it_params it n (nc_params cfg)) in (with_conf s c, ms, r)
    end.

  (** src/synth_constructor.rs:119-183 [walk_upload]; the fuel bounds the depth of the recursion, without it the stack overflows.
      [None] is an overflow. *)
  Definition walk_all (w : synth -> nat -> option (synth * list gmsg * (synerr + bool)))
    : list nat -> synth -> list gmsg -> bool -> option (synth * list gmsg * (synerr + bool)) :=
    fix go rs s ms b :=
      match rs with
      | [] => Some (s, ms, inr b)
      | r :: rs =>
          let* (s, ms', res) := w s r in
          match res with
          | inl e => Some (s, ms ++ ms', inl e)
          | inr b' => go rs s (ms ++ ms') (b || b')
          end
      end.
  Fixpoint walk (fuel : nat) (bs : list bnode) (it : iters) (only_params : bool) (s : synth) (r : nat)
    : option (synth * list gmsg * (synerr + bool)) :=
    match fuel with
    | 0 => None
    | S fuel =>
        let* b := bs !! r in
        let n := bn_id b in
        let cfg := default (NCfg ∅ ∅) (sy_nodes s !! n) in
        let* w := foldm (walk_op bs only_params n) (WState cfg false false [] None) (bn_ops b) in
        let s := Synth (sy_conf s) (<[n := ws_cfg w]> (sy_nodes s)) (sy_order s) in
        match ws_err w with
        | Some e => Some (s, [], inl e)
        | None =>
            let '(s, ms, res) := if only_params && ws_par w then update_node it s n else (s, [], inr false) in
            match res with
            | inl e => Some (s, ms, inl e)
            | inr b => walk_all (walk fuel bs it only_params) (ws_after w) s ms (ws_edge w || b)
            end
        end
    end.
  (** deep enough for every graph that is not circular *)
  Definition walk_upload (bs : list bnode) := walk (S (length bs)) bs.

  (** src/synth_constructor.rs:299-307: every node with edges from it to its sources *)
  Definition order_node (it : iters) (go : gord) (e : node_id * ncfg) : option gord :=
    foldm (fun go (x : string * (node_id * string)) => gord_add_edge go e.1 x.2.1) (gord_add_node go e.1).1 (it_edges it e.1 (nc_edges e.2)).

  (** src/synth_constructor.rs:314-320: nodes are created and parameters set in one go. The error of [create_node] is ignored. *)
  Fixpoint ensure_nodes (it : iters) (s : synth) (ms : list gmsg) (ns : list node_id) : synth * list gmsg * option synerr :=
    match ns with
    | [] => (s, ms, None)
    | n :: ns =>
        let s := match cf_idx (sy_conf s) !! n with Some _ => s | None => with_conf s (default (sy_conf s) (conf_create T (sy_conf s) n)) end in
        let '(s, ms', r) := update_node it s n in
        match r with
        | inl e => (s, ms ++ ms', Some e)
        | inr _ => ensure_nodes it s (ms ++ ms') ns
        end
    end.

  (** src/synth_constructor.rs:328-352: the connections of the nodes, up to the first port that does not exist *)
  Definition name_edge (n : node_id) (e : string * (node_id * string)) : synerr + edge_t :=
    match node_inp n e.1 with
    | None => inl (SynUnknown n e.1)
    | Some i =>
        match node_out e.2.1 e.2.2 with
        | None => inl (SynBadOut e.2.1 e.2.2)
        | Some o => inr (Edge e.2.1 o n i)
        end
    end.
  Fixpoint until_error (es : list (synerr + edge_t)) : list edge_t * option synerr :=
    match es with
    | [] => ([], None)
    | inl e :: _ => ([], Some e)
    | inr e :: es => let '(l, r) := until_error es in (e :: l, r)
    end.
  Definition synth_edges (it : iters) (nodes : gmap node_id ncfg) (order : list node_id) : list (synerr + edge_t) :=
    mjoin ((fun n => match nodes !! n with Some cfg => name_edge n <$> it_edges it n (nc_edges cfg) | None => [] end) <$> order).

  (** src/synth_constructor.rs:295-358 [upload]. After an error the program is dropped with its buffers, so the heap is that of before. *)
  Definition synth_upload (h : heap) (s : synth) (it : iters) (bs : list bnode) (r : nat)
    : option (heap * synth * list gmsg * option synerr) :=
    let* (s, ms, res) := walk_upload bs it false s r in
    match res with
    | inl e => Some (h, s, ms, Some e)
    | inr _ =>
        let* go := foldm (order_node it) (gord_clear (sy_order s)) (it_nodes it (sy_nodes s)) in
        let* (go, ordered, ok) := gord_calculate_order go [] in
        let s := Synth (sy_conf s) (sy_nodes s) go in
        if negb ok then Some (h, s, ms, Some SynCycle) else
        let order := rev ordered in
        let '(s, ms, err) := ensure_nodes it s ms order in
        match err with
        | Some e => Some (h, s, ms, Some e)
        | None =>
            let* (h', c, p) := conf_rebuild T h (sy_conf s) in
            let '(es, err) := until_error (synth_edges it (sy_nodes s) order) in
            let* (c, p) := foldm conf_connect (foldl conf_add_node (c, p) order) es in
            match err with
            | Some e => Some (h, with_conf s c, ms, Some e)
            | None => let* p := conf_fill c p in Some (h', with_conf s c, ms ++ [MNewProg p true], None)
            end
        end
    end.

  (** src/synth_constructor.rs:243-252 [update_params]; the result tells if the graph was uploaded *)
  Definition synth_update (h : heap) (s : synth) (it it' : iters) (bs : list bnode) (r : nat)
    : option (heap * synth * list gmsg * (synerr + bool)) :=
    let* (s, ms, res) := walk_upload bs it true s r in
    match res with
    | inl e => Some (h, s, ms, inl e)
    | inr false => Some (h, s, ms, inr false)
    | inr true =>
        let* (h, s, ms', err) := synth_upload h s it' bs r in
        Some (h, s, ms ++ ms', match err with Some e => inl e | None => inr true end)
    end.

  (** The calls of the API. Every call comes with builders of its own; if they are shared between calls the program repeats their history. *)
  Inductive scall :=
  | SUpload (it : iters) (ks : list bcall) (r : nat)
  | SUpdate (it it' : iters) (ks : list bcall) (r : nat)
  | SClear.
  Definition synth_step (h : heap) (s : synth) (k : scall) : option (heap * synth * list gmsg * (synerr + bool)) :=
    match k with
    | SUpload it ks r =>
        let* (h, s, ms, err) := synth_upload h s it (brun ks) r in Some (h, s, ms, match err with Some e => inl e | None => inr true end)
    | SUpdate it it' ks r => synth_update h s it it' (brun ks) r
    | SClear => let '(s, ms) := synth_clear s in Some (h, s, ms, inr false)
    end.
  (** a history of calls with everything that is sent and the results; [None] is a crash *)
  Fixpoint synth_run (h : heap) (s : synth) (ks : list scall) : option (heap * synth * list gmsg * list (synerr + bool)) :=
    match ks with
    | [] => Some (h, s, [], [])
    | k :: ks => let* (h, s, ms, r) := synth_step h s k in let* (h, s, ms', rs) := synth_run h s ks in Some (h, s, ms ++ ms', r :: rs)
    end.
End synth.
