(** Model of the compiler of block programs: the language (src/wblockdsp/definition.rs), the tree of a program
    (src/wblockdsp/language.rs) and its translation (src/wblockdsp/compiler.rs). *)
From stdpp Require Import strings pretty.
From Verif Require Import Base M_Block.
Open Scope string_scope.
Open Scope list_scope.
Open Scope nat_scope.

(** ** The language *)

(** A node type of the DSP library, as far as src/wblockdsp/definition.rs:210-247 looks at it: name, input and output names *)
Record libnode := LibNode { ln_name : string; ln_ins : list string; ln_outs : list string }.

(** src/wblockdsp/definition.rs:221, 227 [name[0..(name.len().min(2))]]: the first two bytes. The panic for a name that has no character
    boundary there is left out. *)
Definition cut2 (s : string) : string := String.substring 0 2 s.

(** src/wblockdsp/definition.rs:20-28: a type without a category, description and user input *)
Definition bt (name : string) (rows : nat) (ins outs : list string) (areas color : nat) : btype :=
  BType name rows (Some <$> ins) (Some <$> outs) areas color.

(** src/wblockdsp/definition.rs:20-141 *)
Definition base_types : list btype := [
  bt "zero" 1 [] [""] 0 1; bt "π" 1 [] [""] 0 1; bt "2π" 1 [] [""] 0 1; bt "value" 1 [] [""] 0 1;
  bt "->" 1 [""] [""] 0 6; bt "->2" 2 [""] [""; ""] 0 6; bt "->3" 3 [""] [""; ""; ""] 0 6;
  bt "set" 1 [""] [] 0 2; bt "get" 1 [] [""] 0 12; bt "if" 1 [""] [""] 2 0;
(** src/wblockdsp/definition.rs:190-206 *)
  bt "+" 2 [""; ""] [""] 0 4; bt "-" 2 ["a"; "b"] [""] 0 4; bt "*" 2 [""; ""] [""] 0 4; bt "/" 2 ["a"; "b"] [""] 0 4 ].

(** src/wblockdsp/definition.rs:208-247 *)
Definition lib_type (n : libnode) : btype :=
  bt (ln_name n) (Nat.max (length (ln_ins n)) (length (ln_outs n))) (cut2 <$> ln_ins n) (cut2 <$> ln_outs n) 0 8.

(** src/wblockdsp/definition.rs:16-262 [setup_hxdsp_block_language], src/wblockdsp/language.rs:1034-1036 [define]: a later definition of a
    name replaces the earlier one *)
Definition lang_of (lib : list libnode) (t : string) : option btype :=
  foldl (fun (r : option btype) (d : btype) => if String.eqb (t_name d) t then Some d else r) None (base_types ++ (lib_type <$> lib)).

(** ** The tree of a program *)

(** src/wblockdsp/compiler.rs:13-24 [JASTNode], [ASTNodeRef]: nodes are shared and changed in place, so a reference is an index into a list
    of nodes; the children have the names of the input, of the output and the reference *)
Record jnode := JNode { j_id : nat; j_typ : string; j_lbl : string; j_ch : list (string * string * nat) }.
Notation jheap := (list jnode) (only parsing).

(** src/wblockdsp/compiler.rs:27-38 [from], [add_node] *)
Definition h_new (h : jheap) (id : nat) (typ lbl : string) : jheap * nat := (h ++ [JNode id typ lbl []], length h).
Definition h_add (h : jheap) (n : nat) (i o : string) (c : nat) : jheap :=
  alter (fun j => JNode (j_id j) (j_typ j) (j_lbl j) (j_ch j ++ [(i, o, c)])) n h.

(** src/wblockdsp/language.rs:1166-1171 [GenTreeJob] *)
Inductive tjob :=
| JArea (area_id : nat) (out : nat)
| JAdd (node out : nat)
| JSink (area_id : nat) (x y : Z) (out : nat)
| JOut (area_id : nat) (x y : Z) (in_port : string) (out : nat).

(** src/wblockdsp/language.rs:711-728 [collect_sinks]: the order of the hash map does not matter because of the sort *)
Definition sink_leb (s t : Z * Z * option nat) : bool := (t.1.2 <? s.1.2)%Z || ((t.1.2 =? s.1.2)%Z && (t.1.1 <=? s.1.1)%Z).
Fixpoint sink_insert (s : Z * Z * option nat) (l : list (Z * Z * option nat)) : list (Z * Z * option nat) :=
  match l with
  | [] => [s]
  | t :: l => if sink_leb s t then s :: t :: l else t :: sink_insert s l
  end.
Definition block_sinks (a : area) (o : Z * Z) (b : block) : list (Z * Z * option nat) :=
  match port_rows (b_rows b) (b_outputs b) with
  | [] => [(o.1, o.2, None)]
  | rs => omap (fun r => match find_port_at a (o.1 + 1) (o.2 + Z.of_nat r) false with
                         | None => Some (o.1, (o.2 + Z.of_nat r)%Z, Some r)
                         | Some _ => None
                         end) rs
  end.
Definition collect_sinks (a : area) : list (Z * Z * option nat) :=
  foldr sink_insert [] (mjoin ((fun p : Z * Z * block => block_sinks a p.1 p.2) <$> map_to_list (a_blocks a))).

(** src/wblockdsp/language.rs:1259-1280: the jobs for the sinks of an area, in the order they are pushed *)
Fixpoint sink_jobs (h : jheap) (aid : nat) (an : nat) (ss : list (Z * Z * option nat)) : jheap * list tjob :=
  match ss with
  | [] => (h, [])
  | (x, y, Some _) :: ss =>
      let '(h, n) := h_new h 0 "<res>" "" in
      let '(h, js) := sink_jobs h aid an ss in
      (h, JOut aid x y "" n :: JAdd n an :: js)
  | (x, y, None) :: ss =>
      let '(h, js) := sink_jobs h aid an ss in
      (h, JSink aid x y an :: js)
  end.

(** src/wblockdsp/language.rs:1299-1326, 1350-1377: the jobs for the areas and the inputs of a block, in the order they are popped *)
Definition in_name (b : block) (r : nat) : string := match b_inputs b !! r with Some (Some s) => s | _ => "" end.
Definition block_jobs (aid : nat) (o : Z * Z) (b : block) (n : nat) : list tjob :=
  ((fun r => JOut aid (o.1 - 1) (o.2 + Z.of_nat r) (in_name b r) n) <$> port_rows (b_rows b) (b_inputs b)) ++
  ((fun s => JArea s n) <$> block_subs b).

(** src/wblockdsp/language.rs:1247-1383: the jobs are on a stack, here a list with the top at the head. [None] is out of fuel,
    [inl] an error. *)
Definition tstate : Type := jheap * list tjob * gmap (nat * (Z * Z)) nat.
Definition tree_step (fs : list area) (null : string) (st : tstate) : berr + tstate :=
  let '(h, js, m) := st in
  match js with
  | [] => inr st
  | JArea aid out :: js =>
      match fs !! aid with
      | None => inl (UnknownArea aid)
      | Some a =>
          let '(h, an) := h_new h 0 "<a>" "" in
          let h := h_add h out "" "" an in
          let '(h, js') := sink_jobs h aid an (collect_sinks a) in
          inr (h, rev js' ++ js, m)
      end
  | JAdd n out :: js => inr (h_add h out "" "" n, js, m)
  | JSink aid x y out :: js =>
      match fs !! aid with
      | None => inl (UnknownArea aid)
      | Some a =>
          match ref_at a x y with
          | None => inr (h, js, m)
          | Some (b, o) =>
              match m !! (aid, o) with
              | Some n => inr (h_add h out "" "" n, js, m)
              | None =>
                  let '(h, n) := h_new h (b_id b) (b_typ b) (b_lbl b) in
                  inr (h_add h out "" "" n, block_jobs aid o b n ++ js, <[(aid, o) := n]> m)
              end
          end
      end
  | JOut aid x y ip out :: js =>
      match fs !! aid with
      | None => inl (UnknownArea aid)
      | Some a =>
          match ref_at a x y with
          | None => let '(h, z) := h_new h 0 null "" in inr (h_add h out ip "" z, js, m)
          | Some (b, o) =>
              let '(h, n, new) := match m !! (aid, o) with
                                  | Some n => (h, n, false)
                                  | None => let '(h, n) := h_new h (b_id b) (b_typ b) (b_lbl b) in (h, n, true)
                                  end in
              let h := match b_outputs b !! Z.to_nat (y - o.2) with
                       | Some (Some name) => h_add h out ip name n
                       | _ => let '(h, z) := h_new h 0 null "" in h_add h out ip "" z
                       end in
              if new : bool then inr (h, block_jobs aid o b n ++ js, <[(aid, o) := n]> m) else inr (h, js, m)
          end
      end
  end.
Fixpoint tree_loop (fuel : nat) (fs : list area) (null : string) (st : tstate) : option (berr + jheap) :=
  match fuel with
  | 0 => None
  | S fuel =>
      match st.1.2 with
      | [] => Some (inr st.1.1)
      | _ => match tree_step fs null st with
             | inl e => Some (inl e)
             | inr st => tree_loop fuel fs null st
             end
      end
  end.

(** src/wblockdsp/language.rs:1224-1386 [generate_tree]: the root is node 0 *)
Definition generate_tree (types : string -> option btype) (fuel : nat) (f : bfun) (null : string) : option (berr + jheap) :=
  match types null with
  | None => Some (inl (UnknownLanguageType null))
  | Some t => tree_loop fuel (f_areas f) (t_name t) ([JNode 0 "<r>" "" []], [JArea 0 0], ∅)
  end.

(** ** The first translation *)

(** src/wblockdsp/compiler.rs:86-108 [BlkASTNode]; a literal keeps its text, which is known to be a number *)
Inductive bast :=
| BArea (childs : list bast)
| BSet (var : string) (expr : bast)
| BGet (id : nat) (var : string)
| BNode (id : nat) (out : option string) (typ lbl : string) (childs : list (option string * bast))
| BLit (value : string).

(** src/wblockdsp/compiler.rs:185-201 [BlkJITCompileError] *)
Inductive cerr :=
| UnknownError | BadTree (n : nat) | NoOutputAtIdx (t : string) (i : nat) | ASTMissingOutputLabel (id : nat)
| NoTmpVarForOutput (id : nat) (o : string) | BadLiteralNumber (v : string) | NodeWithoutID (t : string) | UnknownType (t : string)
| TooManyInputs (t : string) (id : nat) | WrongNumberOfChilds (t : string) (id n : nat) | UnassignedInput (t : string) (id : nat) (i : option string).

(** src/wblockdsp/compiler.rs:203-207 [Block2JITCompiler]: the variables by "id/output" and the counter *)
Record cstate := CState { cs_vars : gmap string string; cs_cnt : nat }.

(** A result: [None] is a recursion that does not end *)
Notation cres A := (option (cerr + A)).
Definition cok {A} (x : A) : cres A := Some (inr x).
Definition cerror {A} (e : cerr) : cres A := Some (inl e).
Definition cbind {A B} (x : cres A) (k : A -> cres B) : cres B :=
  match x with
  | Some (inr a) => k a
  | Some (inl e) => Some (inl e)
  | None => None
  end.

(** src/wblockdsp/compiler.rs:219-230 [next_tmpvar_name], [store_idout_var], [get_var_for_idout] *)
Definition tmp_name (n : nat) (extra : string) : string := "_tmp" +:+ pretty n +:+ "_" +:+ extra +:+ "_".
Definition next_tmp (st : cstate) (extra : string) : cstate * string :=
  (CState (cs_vars st) (S (cs_cnt st)), tmp_name (S (cs_cnt st)) extra).
Definition idout (id : nat) (out : string) : string := pretty id +:+ "/" +:+ out.
Definition store_var (st : cstate) (id : nat) (out v : string) : cstate := CState (<[idout id out := v]> (cs_vars st)) (cs_cnt st).
Definition get_var (st : cstate) (id : nat) (out : string) : option string := cs_vars st !! idout id out.

(** src/wblockdsp/compiler.rs:249 [if out.len() > 0 { Some(out) } else { None }] *)
Definition some_out (o : string) : option string := if String.eqb o "" then None else Some o.

Section translate.
  (** the block types and the numbers that can be parsed *)
  Context (types : string -> option btype) (is_number : string -> bool).

  (** src/wblockdsp/language.rs:1076-1088 [type_output_count], 1058-1074 [get_output_name_at_index] *)
  Definition out_names (t : string) : list string := match types t with Some ty => omap id (t_outputs ty) | None => [] end.

  (** src/wblockdsp/compiler.rs:352-369: the variables for the outputs from the second one on *)
  Fixpoint more_outs (st : cstate) (id : nat) (i : nat) (names : list string) : cstate * list bast :=
    match names with
    | [] => (st, [])
    | o :: names =>
        let '(st, v) := next_tmp st o in
        let '(st, l) := more_outs (store_var st id o v) id (S i) names in
        (st, BSet v (BGet 0 ("%" +:+ pretty i)) :: l)
    end.

  (** src/wblockdsp/compiler.rs:232-395 [trans2bjit] *)
  Fixpoint trans (fuel : nat) (h : jheap) (st : cstate) (n : nat) (out : option string) {struct fuel} : cres (bast * cstate) :=
    match fuel with
    | 0 => None
    | S fuel =>
        let* j := h !! n in
        let id := j_id j in
        match get_var st id (default "" out) with
        | Some v => cok (BGet 0 v, st)
        | None =>
            let all := fix all (st : cstate) (l : list (string * string * nat)) : cres (list (string * bast) * cstate) :=
              match l with
              | [] => cok ([], st)
              | c :: l => cbind (trans fuel h st c.2 (some_out c.1.2)) (fun r =>
                          cbind (all r.2 l) (fun s => cok ((c.1.1, r.1) :: s.1, s.2)))
              end in
            let first := match j_ch j with
                         | [] => cerror (BadTree n)
                         | c :: _ => trans fuel h st c.2 (some_out c.1.2)
                         end in
            if String.eqb (j_typ j) "<a>" then cbind (all st (j_ch j)) (fun r => cok (BArea (snd <$> r.1), r.2))
            else if String.eqb (j_typ j) "<r>" then cbind first (fun r => cok (BArea [r.1; BGet 0 "_res_"], r.2))
            else if String.eqb (j_typ j) "->" then first
            else if String.eqb (j_typ j) "value" then (if is_number (j_lbl j) then cok (BLit (j_lbl j), st) else cerror (BadLiteralNumber (j_lbl j)))
            else if String.eqb (j_typ j) "set" then cbind first (fun r => cok (BSet (j_lbl j) r.1, r.2))
            else if String.eqb (j_typ j) "<res>" then cbind first (fun r => cok (BSet "_res_" r.1, r.2))
            else if String.eqb (j_typ j) "get" then cok (BGet id (j_lbl j), st)
            else if String.eqb (j_typ j) "->2" || String.eqb (j_typ j) "->3" then
              match j_ch j with
              | [] => cerror (BadTree n)
              | c :: _ =>
                  let '(st, v) := next_tmp st "" in
                  cbind (trans fuel h st c.2 (some_out c.1.2)) (fun r =>
                  cok (BArea [BSet v r.1; BGet 0 v], store_var r.2 id "" v))
              end
            else
              cbind (all st (j_ch j)) (fun r =>
              let childs := (fun c : string * bast => (some_out c.1, c.2)) <$> r.1 in
              let st := r.2 in
              let node := BNode id out (j_typ j) (j_lbl j) childs in
              match out_names (j_typ j) with
              | o0 :: o1 :: names =>
                  let '(st, v) := next_tmp st o0 in
                  let st := store_var st id o0 v in
                  let '(st, l) := more_outs st id 1 (o1 :: names) in
                  match out with
                  | None => cerror (ASTMissingOutputLabel id)
                  | Some o => match get_var st id o with
                              | None => cerror (NoTmpVarForOutput id o)
                              | Some v' => cok (BArea (BSet v node :: l ++ [BGet 0 v']), st)
                              end
                  end
              | _ => cok (node, st)
              end)
        end
    end.

  (** ** The second translation *)

  (** The tree that is handed to the JIT compiler of synfx-dsp-jit (its [build] functions) *)
  Inductive jast :=
  | XZero
  | XLit (value : string)
  | XVar (v : string)
  | XAssign (v : string) (e : jast)
  | XBin (op : string) (a b : jast)
  | XCall (typ : string) (id : nat) (args : list jast)
  | XStmts (l : list jast).

  (** src/wblockdsp/compiler.rs:464-491 *)
  Definition is_arith (t : string) : bool := String.eqb t "+" || String.eqb t "*" || String.eqb t "-" || String.eqb t "/".
  Definition build_op (t : string) (id : nat) (args : list jast) : cerr + jast :=
    if is_arith t then
      match args with
      | [a; b] => inr (XBin t a b)
      | _ => inl (WrongNumberOfChilds t id (length args))
      end
    else inr (XCall t id args).

  Definition ebind {A B} (x : cerr + A) (k : A -> cerr + B) : cerr + B := match x with inl e => inl e | inr a => k a end.

  (** src/wblockdsp/compiler.rs:397-497 [bjit2jit] *)
  Fixpoint bjit (e : bast) : cerr + jast :=
    match e with
    | BArea cs =>
        ebind ((fix go (cs : list bast) : cerr + list jast :=
                 match cs with
                 | [] => inr []
                 | c :: cs => ebind (bjit c) (fun x => ebind (go cs) (fun l => inr (x :: l)))
                 end) cs) (fun l => inr (XStmts l))
    | BSet v e => ebind (bjit e) (fun x => inr (XAssign v x))
    | BGet _ v => inr (XVar v)
    | BLit v => inr (XLit v)
    | BNode id _ typ _ cs =>
        if String.eqb typ "if" then inl UnknownError
        else if String.eqb typ "zero" then inr XZero
        else if id =? 0 then inl (NodeWithoutID typ)
        else match types typ with
        | None => inl (UnknownType typ)
        | Some ty =>
            let ins := t_inputs ty in
            if length ins <? length cs then inl (TooManyInputs typ id)
            else
              let in_order := (fix go (cs : list (option string * bast)) : cerr + list jast :=
                 match cs with
                 | [] => inr []
                 | (_, c) :: cs => ebind (bjit c) (fun x => ebind (go cs) (fun l => inr (x :: l)))
                 end) in
              let named := (fix find (cs : list (option string * bast)) (i : option string) : cerr + jast :=
                 match cs with
                 | [] => inl (UnassignedInput typ id i)
                 | (k, c) :: cs => if decide (k = i) then bjit c else find cs i
                 end) in
              let by_name := (fix go (ins : list (option string)) : cerr + list jast :=
                 match ins with
                 | [] => inr []
                 | i :: ins => ebind (named cs i) (fun x => ebind (go ins) (fun l => inr (x :: l)))
                 end) in
              match ins with
              | Some "" :: _ => if length ins =? length cs then ebind (in_order cs) (build_op typ id) else inl (WrongNumberOfChilds typ id (length cs))
              | _ => ebind (by_name ins) (build_op typ id)
              end
        end
    end.

  (** src/wblockdsp/compiler.rs:499-514 [compile], by a new compiler (src/global.rs:205); an error of [generate_tree] is a panic.
      [None] is a panic or a translation that does not end. *)
  Definition compile (fuel : nat) (f : bfun) : cres jast :=
    let* t := generate_tree types fuel f "zero" in
    match t with
    | inl _ => None
    | inr h => cbind (trans fuel h (CState ∅ 0) 0 None) (fun r => Some (bjit r.1))
    end.
End translate.
