(** Specification for saving (C25). *)
From stdpp Require Import strings.
From Verif Require Import Base M_Save.
Open Scope string_scope.
Open Scope list_scope.
Open Scope nat_scope.

(** Every name stands for a file. *)
Definition fs_ok (f : fsys) : Prop := forall p n, fs_names f !! p = Some n -> is_Some (fs_data f !! n).
(** Two names do not stand for the same file. *)
Definition distinct (f : fsys) (p q : string) : Prop := forall n, fs_names f !! p = Some n -> fs_names f !! q <> Some n.
(** The program is stopped somewhere in a call to save [c] as [p], or the call has returned. *)
Definition interrupted (p : string) (c : list Ascii.ascii) (f f' : fsys) (s : wstate) : Prop := rtc (wstep p c) (f, WOpen) (f', s).
(** A history of calls to save as [p], each of which is interrupted or returns; [l] are the contents that were to be saved, the last first. *)
Inductive saves (p : string) (f : fsys) : list (list Ascii.ascii) -> fsys -> Prop :=
| saves_nil : saves p f [] f
| saves_more l f' c f'' s : saves p f l f' -> interrupted p c f' f'' s -> saves p f (c :: l) f''.
