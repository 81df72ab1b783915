(** Specification for the compiler of block programs (C36): what the wiring of a program denotes, and what the generated code does. *)
From Coq Require Import Ascii.
From stdpp Require Import strings pretty.
From Verif Require Import Base M_Block S_Block M_Comp.
Open Scope string_scope.
Open Scope list_scope.
Open Scope nat_scope.

(** Names the compiler makes itself: temporary variables, the result, further results of a call. *)
Definition reserved (v : string) : bool :=
  match v with
  | String c _ => Ascii.eqb c "_"%char || Ascii.eqb c "%"%char
  | EmptyString => false
  end.

Section meaning.
  (** Numbers and arithmetics; the results of a node of the DSP library, by type and instance, for its arguments in this execution; the
      variables of the user before the execution. *)
  Context {V : Type} (zero : V) (num : string -> V) (bin : string -> V -> V -> V) (node : string -> nat -> list V -> list V) (ext : string -> V).

  (** ** The code: statements in order, arguments from left to right, the value of a sequence is that of its last statement. The state has the
      variables that were assigned and the calls so far. A variable of the compiler that was not assigned has no value. *)
  Record xstate := XState { x_env : gmap string V; x_log : list (string * nat * list V) }.
  Definition xread (st : xstate) (v : string) : option V :=
    match x_env st !! v with
    | Some x => Some x
    | None => if reserved v then None else Some (ext v)
    end.
  Definition xassign (st : xstate) (v : string) (x : V) : xstate := XState (<[v := x]> (x_env st)) (x_log st).
  (** the second result is the variable "%1" after the call, and so on *)
  Fixpoint set_results (env : gmap string V) (i : nat) (rs : list V) : gmap string V :=
    match rs with
    | [] => env
    | x :: rs => set_results (<["%" +:+ pretty i := x]> env) (S i) rs
    end.
  Definition xcall (st : xstate) (t : string) (id : nat) (args : list V) : V * xstate :=
    let rs := node t id args in
    (default zero (head rs), XState (set_results (x_env st) 1 (tail rs)) (x_log st ++ [(t, id, args)])).

  Fixpoint xrun (e : jast) (st : xstate) : option (V * xstate) :=
    match e with
    | XZero => Some (zero, st)
    | XLit s => Some (num s, st)
    | XVar v => let* x := xread st v in Some (x, st)
    | XAssign v e => let* (x, st) := xrun e st in Some (x, xassign st v x)
    | XBin o a b => let* (x, st) := xrun a st in let* (y, st) := xrun b st in Some (bin o x y, st)
    | XCall t id args =>
        let* (xs, st) := (fix go (l : list jast) (st : xstate) : option (list V * xstate) :=
          match l with
          | [] => Some ([], st)
          | a :: l => let* (x, st) := xrun a st in let* (xs, st) := go l st in Some (x :: xs, st)
          end) args st in
        Some (xcall st t id xs)
    | XStmts l =>
        (fix go (l : list jast) (last : V) (st : xstate) : option (V * xstate) :=
          match l with
          | [] => Some (last, st)
          | a :: l => let* (x, st) := xrun a st in go l x st
          end) l zero st
    end.

  (** ** The wiring of the main area: each output port has a value *)
  Context (types : string -> option btype) (f : bfun).

  Definition out_port (o : Z * Z) (r : nat) : Prop :=
    exists b n, bf_block_at f 0 o = Some b /\ r < b_rows b /\ b_outputs b !! r = Some (Some n).
  Definition in_port (o : Z * Z) (r : nat) : Prop :=
    exists b n, bf_block_at f 0 o = Some b /\ r < b_rows b /\ b_inputs b !! r = Some (Some n).
  (** row [r] of the block at [o] is right of row [r'] of the block at [o'] *)
  Definition right_of (o : Z * Z) (r : nat) (o' : Z * Z) (r' : nat) : Prop :=
    o.1 = (o'.1 + 1)%Z /\ (o.2 + Z.of_nat r = o'.2 + Z.of_nat r')%Z.

  Context (val : Z * Z -> nat -> V).

  (** the value at an input: that of the output left of it, or zero *)
  Definition input_value (o : Z * Z) (r : nat) (v : V) : Prop :=
    (exists o' r', out_port o' r' /\ right_of o r o' r' /\ v = val o' r') \/
    ((forall o' r', out_port o' r' -> ~ right_of o r o' r') /\ v = zero).

  (** the row of the [k]-th input of the type: the one with its name; inputs without a name are counted from the top *)
  Definition ports_above (ps : list (option string)) (r : nat) : nat := length (omap id (take r ps)).
  Definition input_row (ty : btype) (b : block) (k r : nat) : Prop :=
    r < b_rows b /\ exists name, t_inputs ty !! k = Some (Some name) /\ b_inputs b !! r = Some (Some name) /\
      (name = "" -> k = ports_above (b_inputs b) r).
  Definition args_of (o : Z * Z) (b : block) (ty : btype) (vs : list V) : Prop :=
    length vs = length (t_inputs ty) /\ forall k v, vs !! k = Some v -> exists r, input_row ty b k r /\ input_value o r v.
  (** the [k]-th output of the type is in row [r] *)
  Definition output_row (ty : btype) (b : block) (k r : nat) : Prop :=
    exists name, t_outputs ty !! k = Some (Some name) /\ b_outputs b !! r = Some (Some name).

  Definition forwards (t : string) : Prop := t = "->" \/ t = "->2" \/ t = "->3".
  Definition arith (t : string) : Prop := t = "+" \/ t = "-" \/ t = "*" \/ t = "/".
  Definition is_call (t : string) : Prop := t <> "zero" /\ t <> "value" /\ t <> "get" /\ t <> "set" /\ t <> "if" /\ ~ forwards t /\ ~ arith t.

  (** every output has the value its block makes of its inputs *)
  Definition denotes : Prop := forall o b ty r, bf_block_at f 0 o = Some b -> types (b_typ b) = Some ty -> out_port o r ->
    (b_typ b = "zero" -> val o r = zero) /\
    (b_typ b = "value" -> val o r = num (b_lbl b)) /\
    (b_typ b = "get" -> val o r = ext (b_lbl b)) /\
    (forwards (b_typ b) -> exists r', in_port o r' /\ input_value o r' (val o r)) /\
    (arith (b_typ b) -> exists x y, args_of o b ty [x; y] /\ val o r = bin (b_typ b) x y) /\
    (is_call (b_typ b) -> exists vs k, args_of o b ty vs /\ output_row ty b k r /\ node (b_typ b) (b_id b) vs !! k = Some (val o r)).

  (** the calls there have to be *)
  Definition call_of (c : string * nat * list V) : Prop := exists o b ty vs,
    bf_block_at f 0 o = Some b /\ types (b_typ b) = Some ty /\ is_call (b_typ b) /\ args_of o b ty vs /\ c = (b_typ b, b_id b, vs).
End meaning.
Arguments xstate : clear implicits.

(** Reading order: from the top, in a row from the left. *)
Definition read_le (p q : Z * Z) : Prop := (p.2 < q.2 \/ p.2 = q.2 /\ p.1 <= q.1)%Z.

(** An output without an input at its right; the last one gives the result. *)
Definition open_output (f : bfun) (o : Z * Z) (r : nat) : Prop := out_port f o r /\ forall o' r', in_port f o' r' -> ~ right_of o' r' o r.
Definition last_output (f : bfun) (o : Z * Z) (r : nat) : Prop := open_output f o r /\
  forall o' r', open_output f o' r' -> read_le (o'.1, o'.2 + Z.of_nat r')%Z (o.1, o.2 + Z.of_nat r)%Z.
(** The last block that sets a variable. *)
Definition sets (f : bfun) (x : string) (o : Z * Z) : Prop := exists b, bf_block_at f 0 o = Some b /\ b_typ b = "set" /\ b_lbl b = x.
Definition last_set (f : bfun) (x : string) (o : Z * Z) : Prop := sets f x o /\ forall o', sets f x o' -> read_le o' o.

(** ** Conditions *)

(** What the DSP library has to meet: nodes have ports, names of their own and port names that differ in their first two letters (or no
    names for the inputs, or one output). *)
Definition special : list string :=
  ["zero"; "value"; "->"; "->2"; "->3"; "set"; "get"; "if"; "+"; "-"; "*"; "/"; "<a>"; "<r>"; "<res>"].
Definition names_differ (l : list string) : Prop := NoDup (String.substring 0 2 <$> l) /\ "" ∉ l.
Definition lib_ok (lib : list libnode) : Prop := forall n, n ∈ lib ->
  1 <= length (ln_ins n) + length (ln_outs n) /\ ln_name n ∉ special /\
  (names_differ (ln_ins n) \/ Forall (fun s => s = "") (ln_ins n)) /\ (names_differ (ln_outs n) \/ length (ln_outs n) <= 1).
(** the nodes have as many results as outputs *)
Definition node_ok {V} (types : string -> option btype) (node : string -> nat -> list V -> list V) : Prop :=
  forall t ty id args, types t = Some ty -> length (node t id args) = length (t_outputs ty).

(** A block with more than one output, directly or indirectly left of the block at [o]. *)
Definition splitter (f : bfun) (o : Z * Z) : Prop := exists r r', r <> r' /\ out_port f o r /\ out_port f o r'.
(** The inputs of a block are in the order of its type, or nothing left of it has more than one output. *)
Definition order_ok (types : string -> option btype) (f : bfun) (o : Z * Z) (b : block) : Prop :=
  (forall ty, types (b_typ b) = Some ty -> omap id (b_inputs b) = omap id (t_inputs ty)) \/
  (forall q, tc (feeds f 0) q o -> ~ splitter f q).

(** Programs: no block is an "if", the literals are numbers, variables have names of the user's own and are either read or written, there is an
    output for the result, and the order of the inputs is all right. *)
Record prog_ok (types : string -> option btype) (is_number : string -> bool) (f : bfun) : Prop := {
  po_if : forall o b, bf_block_at f 0 o = Some b -> b_typ b <> "if";
  po_num : forall o b, bf_block_at f 0 o = Some b -> b_typ b = "value" -> is_number (b_lbl b) = true;
  po_var : forall o b, bf_block_at f 0 o = Some b -> b_typ b = "set" \/ b_typ b = "get" -> reserved (b_lbl b) = false;
  po_apart : forall o o' b b', bf_block_at f 0 o = Some b -> bf_block_at f 0 o' = Some b' -> b_typ b = "set" -> b_typ b' = "get" -> b_lbl b <> b_lbl b';
  po_out : exists o r, open_output f o r;
  po_order : forall o b, bf_block_at f 0 o = Some b -> order_ok types f o b;
}.

(** What a run of the code has to be, for the values of the outputs: its value is that of the last open output; a variable that blocks set has
    the input of the last one of them, and no other variable of the user's is written; the nodes of the DSP library have been called with their
    inputs, each instance once. *)
Definition good_run {V} (zero : V) (types : string -> option btype) (f : bfun) (val : Z * Z -> nat -> V) (v : V) (s : xstate V) : Prop :=
  (forall o r, last_output f o r -> v = val o r) /\
  (forall x o, last_set f x o -> exists r y, in_port f o r /\ input_value zero f val o r y /\ x_env s !! x = Some y) /\
  (forall x, reserved x = false -> (forall o, ~ sets f x o) -> x_env s !! x = None) /\
  NoDup (x_log s).*1.*2 /\ (forall c, c ∈ x_log s <-> call_of zero types f val c).
