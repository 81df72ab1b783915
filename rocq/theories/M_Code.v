(** Block functions on their way to the code nodes: the table of the shared data, the check for changes and what is sent. *)
From stdpp Require Import strings.
From Verif Require Import Base M_Block M_Comp.
Open Scope list_scope.
Open Scope nat_scope.

(** src/global.rs:26-46 [NodeGlobalData]: an entry of [block_functions], the generation that was checked last and the program
    (with the snapshots that were saved of it, as in [bf_step]) *)
Record slot := Slot { sl_seen : nat; sl_prog : bfun * list bsnap }.

(** src/global.rs:26-46: [code_engines] and [block_functions]. An engine is another crate's: it is represented by the programs it took,
    the newest at the end. *)
Record hub := Hub { hb_engines : gset nat; hb_funs : gmap nat slot; hb_sent : gmap nat (list jast) }.
Definition hub_new : hub := Hub ∅ ∅ ∅.

(** What a check answers: src/wblockdsp/compiler.rs:185-201 with [JITCompileError] apart, as the compiler never has it *)
Inductive hres := HOk | HCompile (e : cerr) | HJit.

(** The calls: a code node with this instance is made (src/dsp/node_code.rs:37-57), the program is asked for (src/matrix.rs:644-650), it is
    edited through the handle that was returned, or checked (src/matrix.rs:625-631). If the check sends a program, [takes] says whether the
    engine accepts it. *)
Inductive hop := HNode (id : nat) | HFetch (id : nat) | HEdit (id : nat) (o : bop) | HCheck (id : nat) (takes : bool).

Section code.
Context (types : string -> option btype) (is_number : string -> bool).

(** src/global.rs:137-147 [get_code_engine] *)
Definition hub_engine (h : hub) (id : nat) : hub := Hub ({[id]} ∪ hb_engines h) (hb_funs h) (hb_sent h).

(** src/global.rs:174-191 [get_block_function] *)
Definition hub_fetch (h : hub) (id : nat) : hub :=
  let h := hub_engine h id in
  match hb_funs h !! id with
  | Some _ => h
  | None => Hub (hb_engines h) (<[id := Slot 0 (bfun_new, [])]> (hb_funs h)) (hb_sent h)
  end.

(** src/global.rs:196-222 [check_code]; [query_returns] only frees old programs. [None] is a panic of the compiler. *)
Definition hub_check (fuel : nat) (h : hub) (id : nat) (takes : bool) : option (hub * hres) :=
  if decide (id ∈ hb_engines h) then
    match hb_funs h !! id with
    | None => Some (h, HOk)
    | Some (Slot seen p) =>
        if seen =? f_gen p.1 then Some (h, HOk)
        else
          let h := Hub (hb_engines h) (<[id := Slot (f_gen p.1) p]> (hb_funs h)) (hb_sent h) in
          let* r := compile types is_number fuel p.1 in
          match r with
          | inl e => Some (h, HCompile e)
          | inr c =>
              if takes then Some (Hub (hb_engines h) (hb_funs h) (<[id := default [] (hb_sent h !! id) ++ [c]]> (hb_sent h)), HOk)
              else Some (h, HJit)
          end
    end
  else Some (h, HOk).

(** An edit without a handle cannot be made *)
Definition hub_edit (fuel : nat) (h : hub) (id : nat) (o : bop) : option (hub * hres) :=
  match hb_funs h !! id with
  | None => Some (h, HOk)
  | Some (Slot seen p) =>
      let* (p, e) := bf_step types fuel p o in
      Some (Hub (hb_engines h) (<[id := Slot seen p]> (hb_funs h)) (hb_sent h), HOk)
  end.

Definition hub_step (fuel : nat) (h : hub) (o : hop) : option (hub * hres) :=
  match o with
  | HNode id => Some (hub_engine h id, HOk)
  | HFetch id => Some (hub_fetch h id, HOk)
  | HEdit id o => hub_edit fuel h id o
  | HCheck id takes => hub_check fuel h id takes
  end.
End code.
