(** Model of src/scope_handle.rs, and of the recording loop of src/dsp/node_scope.rs for short time ranges *)
From Verif Require Import Base M_Prog.
Open Scope nat_scope.

(** src/nodes/mod.rs:5 SCOPE_SAMPLES *)
Definition scope_samples : nat := 512.

Section scope.
  Context {V : Type} (zero : V).

  (** src/scope_handle.rs:11-16 [struct ScopeHandle] *)
  Record scope := Scope {
    sc_bufs : list (list (V * V));
    sc_active : list bool;
    sc_offs : list (V * V);
    sc_thr : bool * V;
  }.

  (** src/scope_handle.rs:19-36 [new_shared] *)
  Definition scope_new : scope :=
    Scope (replicate 3 (replicate scope_samples (zero, zero))) (replicate 3 false) (replicate 3 (zero, zero)) (false, zero).

  (** One [bufs[b][i].set(v)]; an index outside panics *)
  Definition scope_put (s : scope) (b i : nat) (v : V * V) : option scope :=
    let* row := sc_bufs s !! b in
    if i <? length row then Some (Scope (<[b := <[i := v]> row]> (sc_bufs s)) (sc_active s) (sc_offs s) (sc_thr s)) else None.

  (** src/scope_handle.rs:70-72 [write] *)
  Definition scope_write (s : scope) (b i : nat) (v : V * V) : option scope := scope_put s (b mod 3) (i mod scope_samples) v.

  (** src/scope_handle.rs:38-43 [write_oversampled]; [idx + copies] is taken not to overflow *)
  Definition scope_write_over (s : scope) (b i copies : nat) (v : V) : option scope :=
    let e := (i + copies) `min` scope_samples in
    foldm (fun s i => scope_put s (b mod 3) (i mod scope_samples) (v, v)) s (seq i (e - i)).

  (** src/scope_handle.rs:74-76 [read] *)
  Definition scope_read (s : scope) (b i : nat) : option (V * V) :=
    let* row := sc_bufs s !! (b mod 3) in row !! (i mod scope_samples).

  (** src/scope_handle.rs:45-51 [set_offs_gain], [get_offs_gain] *)
  Definition scope_set_offs (s : scope) (b : nat) (o g : V) : option scope :=
    if b mod 3 <? length (sc_offs s) then Some (Scope (sc_bufs s) (sc_active s) (<[b mod 3 := (o, g)]> (sc_offs s)) (sc_thr s)) else None.
  Definition scope_get_offs (s : scope) (b : nat) : option (V * V) := sc_offs s !! (b mod 3).

  (** src/scope_handle.rs:53-68 [set_threshold], [get_threshold] *)
  Definition scope_set_thr (s : scope) (t : option V) : scope :=
    Scope (sc_bufs s) (sc_active s) (sc_offs s) (match t with Some t => (true, t) | None => (false, (sc_thr s).2) end).
  Definition scope_get_thr (s : scope) : option V := if (sc_thr s).1 then Some (sc_thr s).2 else None.

  (** src/scope_handle.rs:78-86 [set_active_from_mask], [is_active]; the mask as its lowest bits *)
  Definition scope_set_mask (s : scope) (m0 m1 m2 : bool) : scope := Scope (sc_bufs s) [m0; m1; m2] (sc_offs s) (sc_thr s).
  Definition scope_is_active (s : scope) (i : nat) : option bool := sc_active s !! (i mod 3).

  (** The calls of the interface *)
  Inductive scop :=
  | SWrite (b i : nat) (v : V * V)
  | SOver (b i copies : nat) (v : V)
  | SOffs (b : nat) (o g : V)
  | SThr (t : option V)
  | SMask (m0 m1 m2 : bool).
  Definition scope_step (s : scope) (o : scop) : option scope :=
    match o with
    | SWrite b i v => scope_write s b i v
    | SOver b i c v => scope_write_over s b i c v
    | SOffs b o g => scope_set_offs s b o g
    | SThr t => Some (scope_set_thr s t)
    | SMask m0 m1 m2 => Some (scope_set_mask s m0 m1 m2)
    end.
  Definition scope_run (ops : list scop) : option scope := foldm scope_step scope_new ops.

  (** src/dsp/node_scope.rs:172-192, one frame when there are less samples than positions: the three input values go to
      [copies] positions each; [again] says that the next recording may begin *)
  Definition scope_frame (copies : nat) (s : scope * nat) (fr : (V * V * V) * bool) : option (scope * nat) :=
    let '(s, idx) := s in
    let '((x, y, z), again) := fr in
    let* (s, idx) :=
      (if idx <? scope_samples then
         let* s := scope_write_over s 0 idx copies x in
         let* s := scope_write_over s 1 idx copies y in
         let* s := scope_write_over s 2 idx copies z in
         Some (s, idx + copies)
       else Some (s, idx)) in
    Some (s, if (scope_samples <=? idx) && again then 0 else idx).
End scope.
Arguments scope : clear implicits.
Arguments scop : clear implicits.
