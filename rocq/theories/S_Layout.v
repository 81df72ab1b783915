(** Specification of layout transactions *)
From Verif Require Import Base M_Dir S_Dir M_Graph M_Grid S_Grid M_Layout.
Open Scope nat_scope.

Section spec.
  Context (is_param : node_id -> nat -> bool).

  (** layouts that some history of API calls on a new matrix leads to *)
  Definition lay_reachable (m : layout) : Prop :=
    exists w h os, run_ignoring (lay_step is_param) (layout_new w h) os = Some m.

  (** the layout is valid: at most one source per input, and no feedback loop *)
  Definition valid_layout (g : grid) : Prop :=
    (forall o1 o2, ~ duplicated_input g o1 o2) /\ layout_acyclic g.

  (** an input is used: some connection of the visible layout ends there *)
  Definition input_used (g : grid) (n : node_id) (i : nat) : Prop :=
    exists p d e, connects g p d e /\ e_to e = n /\ e_to_input e = i.

  (** operations that do not touch the saved snapshot themselves *)
  Definition plain (o : lop) : Prop :=
    match o with
    | LPlace _ _ _ | LPlaceMultiple _ | LCheck | LSync | LFail _ => True
    | _ => False
    end.
End spec.

Definition cell_pos (c : cell) : nat * nat := (c_x c, c_y c).

(** the last cell of the list that is meant for position [p] *)
Definition last_for (cs : list cell) (p : nat * nat) : option cell :=
  last (filter (fun c => cell_pos c = p) cs).
