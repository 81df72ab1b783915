(** Specification for the programs of the code nodes (C59). *)
From stdpp Require Import strings.
From Verif Require Import Base M_Block S_Block M_Comp M_Code.
Open Scope list_scope.
Open Scope nat_scope.

(** What the table has for [id]: the program as it is now, and the code that runs: what was sent last. *)
Definition program (h : hub) (id : nat) : option bfun := (fun s => (sl_prog s).1) <$> hb_funs h !! id.
Definition sent (h : hub) (id : nat) : list jast := default [] (hb_sent h !! id).
Definition running (h : hub) (id : nat) : option jast := last (sent h id).

(** Two programs look different: at some position there is another block (or the one has a block and the other has none). *)
Definition differ (f f' : bfun) : Prop := exists a p, bf_block_at f a p <> bf_block_at f' a p.
Definition no_blocks (f : bfun) : Prop := forall a p, bf_block_at f a p = None.

(** The result of compiling a program. *)
Definition compiles_to (types : string -> option btype) (is_number : string -> bool) (f : bfun) (r : cerr + jast) : Prop :=
  exists fuel, compile types is_number fuel f = Some r.

(** Edits whose effect the check can notice: a chain is not cut out with [retrieve_block_chain_at], and a block is not moved to an area that
    does not exist. *)
Definition noticed (f : bfun) (o : bop) : Prop :=
  match o with
  | BRetrieve _ _ _ remove => remove = false
  | BMove _ _ _ id2 _ _ => id2 < length (f_areas f)
  | _ => True
  end.

(** Edits as they are made in the editor, see [plain] of C32, that can be noticed. *)
Definition good (types : string -> option btype) (f : bfun) (o : bop) : Prop := plain types f o /\ noticed f o.

(** The program of an [id] that was never asked for is new. *)
Definition prog_or_new (h : hub) (id : nat) : bfun := default bfun_new (program h id).

(** A sequence of calls with their answers. Each edit meets [ok]. *)
Inductive calls (types : string -> option btype) (is_number : string -> bool) (ok : bfun -> bop -> Prop) : hub -> list (hop * hres) -> hub -> Prop :=
| calls_nil h : calls types is_number ok h [] h
| calls_cons h o fuel h1 r tr h2 :
    (forall id b f, o = HEdit id b -> program h id = Some f -> ok f b) ->
    hub_step types is_number fuel h o = Some (h1, r) -> calls types is_number ok h1 tr h2 -> calls types is_number ok h ((o, r) :: tr) h2.

Definition is_edit (id : nat) (c : hop * hres) : Prop := exists o, c.1 = HEdit id o.
Definition is_check (id : nat) (c : hop * hres) : Prop := exists t, c.1 = HCheck id t.
Definition fails (id : nat) (c : hop * hres) : Prop := is_check id c /\ c.2 <> HOk.
Definition about (o : hop) : nat := match o with HNode id | HFetch id | HEdit id _ | HCheck id _ => id end.
