(** What a description of a synthesizer means, in terms of the calls that made it (C31) *)
From Verif Require Import Base M_Atom M_Graph M_Grid M_Prog M_Conf M_Exec M_Nodes M_Synth S_Grid S_Conf S_Sync S_Prog.
Open Scope nat_scope.

(** The builders that a list of calls makes, with the calls on each of them. Calls that do not type check are ignored. *)
Record builder := Builder { bd_node : node_id; bd_calls : list bcall }.
Definition add_call (k : bcall) (b : builder) : builder := Builder (bd_node b) (bd_calls b ++ [k]).
Definition has_input (bs : list builder) (b i : nat) : Prop := exists d, bs !! b = Some d /\ i < in_count (bd_node d).
Definition has_atom (bs : list builder) (b i : nat) : Prop := exists d, bs !! b = Some d /\ i < at_count (bd_node d).
Definition has_output (bs : list builder) (b i : nat) : Prop := exists d, bs !! b = Some d /\ i < out_count (bd_node d).
Inductive makes : list bcall -> list builder -> Prop :=
| makes_nil : makes [] []
| makes_new ks bs kind inst : makes ks bs -> 0 < kind <= length node_rows -> inst < 256 ->
    makes (ks ++ [KNew kind inst]) (bs ++ [Builder (NId kind inst) []])
| makes_set ks bs b i v ma : makes ks bs -> has_input bs b i -> makes (ks ++ [KSet b i v ma]) (alter (add_call (KSet b i v ma)) b bs)
| makes_setting ks bs b i v : makes ks bs -> has_atom bs b i -> makes (ks ++ [KSetting b i v]) (alter (add_call (KSetting b i v)) b bs)
| makes_input ks bs b i src o : makes ks bs -> has_input bs b i -> has_output bs src o ->
    makes (ks ++ [KInput b i src o]) (alter (add_call (KInput b i src o)) b bs)
| makes_bad ks bs k : makes ks bs ->
    match k with
    | KNew kind inst => ~ (0 < kind <= length node_rows /\ inst < 256)
    | KSet b i _ _ => ~ has_input bs b i
    | KSetting b i _ => ~ has_atom bs b i
    | KInput b i src o => ~ (has_input bs b i /\ has_output bs src o)
    end -> makes (ks ++ [k]) bs.

(** builder [a] has an input from builder [b] *)
Definition refers (bs : list builder) (a b : nat) : Prop :=
  exists d k i o, bs !! a = Some d /\ KInput k i b o ∈ bd_calls d.
(** following the inputs from builder [r] never ends *)
Definition endless (bs : list builder) (r : nat) : Prop := exists x, clos_refl_trans _ (refers bs) r x /\ clos_trans _ (refers bs) x x.

(** Following the inputs of the builders [rs], depth first, passes the builders [l]. *)
Definition sources (d : builder) : list nat := omap (fun k => match k with KInput _ _ src _ => Some src | _ => None end) (bd_calls d).
Inductive passes (bs : list builder) : list nat -> list builder -> Prop :=
| passes_nil : passes bs [] []
| passes_cons r rs d l1 l2 : bs !! r = Some d -> passes bs (sources d) l1 -> passes bs rs l2 -> passes bs (r :: rs) (d :: l1 ++ l2).

(** What was said about the synthesizer: a node is there; input [i] of a node takes output [o] of [src]; parameter [i] (an input or an atom)
    of a node has a value, and maybe a modulation amount *)
Inductive said :=
| SayNode (n : node_id)
| SayFrom (n : node_id) (i : nat) (src : node_id) (o : nat)
| SayVal (n : node_id) (i : nat) (v : satom) (modamt : option f32).

Definition says (T : ntable) (bs : list builder) (d : builder) : list said :=
  let n := bd_node d in
  SayNode n :: omap (fun k =>
    match k with
    | KSet _ i v ma => Some (SayVal n i (AParam (nt_norm T (nid_kind n) i v)) ma)
    | KSetting _ i v => Some (SayVal n (nt_at_id T (nid_kind n) i) (ASetting v) None)
    | KInput _ i src o => (fun b => SayFrom n i (bd_node b) o) <$> bs !! src
    | KNew _ _ => None
    end) (bd_calls d).
(** everything that the builder [r] and those it takes inputs from say *)
Definition description (T : ntable) (ks : list bcall) (r : nat) (D : list said) : Prop :=
  exists bs l, makes ks bs /\ passes bs [r] l /\ D = mjoin (says T bs <$> l).

Definition is_from (x : said) : bool := match x with SayFrom _ _ _ _ => true | _ => false end.

(** What was said in a history of calls since it was last cleared. An update of the parameters that did not upload says nothing about inputs. *)
Inductive tells (T : ntable) : list (scall * (synerr + bool)) -> list said -> Prop :=
| tells_nil : tells T [] []
| tells_upload os D it ks r D' res : tells T os D -> description T ks r D' -> tells T (os ++ [(SUpload it ks r, res)]) (D ++ D')
| tells_reload os D it it' ks r D' res : tells T os D -> description T ks r D' -> res <> inr false ->
    tells T (os ++ [(SUpdate it it' ks r, res)]) (D ++ D')
| tells_update os D it it' ks r D' : tells T os D -> description T ks r D' ->
    tells T (os ++ [(SUpdate it it' ks r, inr false)]) (D ++ List.filter (fun x => negb (is_from x)) D')
| tells_clear os D res : tells T os D -> tells T (os ++ [(SClear, res)]) [].

(** the last word counts *)
Definition last_from (D : list said) (n : node_id) (i : nat) : option (node_id * nat) :=
  last (omap (fun x => match x with
                       | SayFrom n' i' src o => if decide (n' = n /\ i' = i) then Some (src, o) else None
                       | _ => None
                       end) D).
Definition last_val (D : list said) (n : node_id) (i : nat) : option (satom * option f32) :=
  last (omap (fun x => match x with
                       | SayVal n' i' v ma => if decide (n' = n /\ i' = i) then Some (v, ma) else None
                       | _ => None
                       end) D).
Definition named (D : list said) (n : node_id) : Prop := SayNode n ∈ D.

Definition feeds_said (D : list said) (a b : node_id) : Prop := exists i o, last_from D b i = Some (a, o).
Definition said_acyclic (D : list said) : Prop := forall n, ~ clos_trans _ (feeds_said D) n n.

(** a message that does not replace the program *)
Definition no_prog (m : gmsg) : Prop := match m with MNewProg _ _ | MClear _ => False | _ => True end.

(** iteration gives every entry once, in any order *)
Definition fair (it : iters) : Prop :=
  (forall m, it_nodes it m ≡ₚ map_to_list m) /\ (forall n m, it_edges it n m ≡ₚ map_to_list m) /\ (forall n m, it_params it n m ≡ₚ map_to_list m).
Definition fair_call (k : scall) : Prop :=
  match k with SUpload it _ _ => fair it | SUpdate it it' _ _ => fair it /\ fair it' | SClear => True end.

(** the builders of the call do not take inputs from each other in a circle *)
Definition described (T : ntable) (k : scall) : Prop :=
  match k with SUpload _ cs r | SUpdate _ _ cs r => exists D, description T cs r D | SClear => True end.
(** [D] names at most 256 nodes *)
Definition few (D : list said) : Prop := exists ns, (forall n, named D n -> n ∈ ns) /\ length ns <= 256.

(** the modulation amount that is set is the one that was given, or compares equal to it *)
Definition amt_as (feq : f32 -> f32 -> bool) (have want : option f32) : Prop :=
  have = want \/ exists a b, have = Some a /\ want = Some b /\ feq a b = true.

(** parameter [i] of node [n] has the value that was given, or one that compares equal *)
Definition has_value (T : ntable) (i2f : Z -> f32) (load_sample : satom -> satom) (feq : f32 -> f32 -> bool)
    (c : nconf) (n : node_id) (i : nat) (v : satom) (ma : option f32) : Prop :=
  (exists w, conf_get_param T c (n, i) = Some w /\ (w = stored T i2f load_sample (n, i) v \/ atom_eqb feq w v = true)) /\
  (is_atom T (n, i) = false -> amt_as feq (conf_get_modamt c (n, i)) ma).

(** The running program [p] is the one that [D] describes: all nodes run once, after the nodes they read from; the inputs are connected
    as told; values, settings and modulation amounts are those that were told, or else the defaults. *)
Record plays (T : ntable) (i2f : Z -> f32) (load_sample : satom -> satom) (feq : f32 -> f32 -> bool)
    (D : list said) (modamt : gmap (node_id * nat) (option f32)) (p : nprog) : Prop := {
  pl_once : NoDup (op_node <$> np_ops p);
  pl_nodes : forall n, n ∈ op_node <$> np_ops p <-> named D n;
  pl_order : forall a b, feeds_said D a b -> before (op_node <$> np_ops p) a b;
  pl_wired : wired_by T (fun e => last_from D (e_to e) (e_to_input e) = Some (e_from e, e_from_out e)) modamt p;
  pl_amt : forall n i, i < kind_ins T n ->
    amt_as feq (mjoin (modamt !! (n, i))) (match last_val D n i with Some (_, ma) => ma | None => None end);
  pl_param : forall op i, op ∈ np_ops p -> i < kind_ins T (op_node op) -> exists w, np_params p !! ((op_in op).1 + i) = Some w /\
    match last_val D (op_node op) i with
    | Some (v, _) => w = atom_f i2f v \/ atom_eqb feq (AParam w) v = true
    | None => w = nt_def T (nid_kind (op_node op)) i
    end;
  pl_atom : forall op j, op ∈ np_ops p -> j < kind_ats T (op_node op) -> exists w, np_atoms p !! ((op_at op).1 + j) = Some w /\
    match last_val D (op_node op) (nt_at_id T (nid_kind (op_node op)) j) with
    | Some (v, _) => w = load_sample v \/ atom_eqb feq w v = true
    | None => w = nt_adef T (nid_kind (op_node op)) j
    end;
}.
