(** What the tables of shared objects are for: one object for each instance (C73) *)
From Verif Require Import Base M_Prog M_Scope M_Track M_Global.
Open Scope nat_scope.

Section spec.
  Context {V : Type}.

  (** the instances of the scope handles and of the pattern handles, in the order in which they were fetched *)
  Definition scope_insts (os : list (@gop V)) : list nat := omap (fun o => match o with GScope i => Some i | _ => None end) os.
  Definition pattern_insts (os : list (@gop V)) : list nat := omap (fun o => match o with GPat i => Some i | _ => None end) os.

  (** the calls that were made on handles of the scope [i] when [insts] are the instances of the handles *)
  Definition scope_calls (insts : list nat) (i : nat) (os : list (@gop V)) : list (scop V) :=
    omap (fun o => match o with GScopeDo k c => if bool_decide (insts !! k = Some i) then Some c else None | _ => None end) os.

  (** what happened to tracker [i]: edits by its handles, checks since it is known, fetched backends but for the first one,
      and updates of the backend *)
  Fixpoint track_calls (insts : list nat) (i : nat) (known fetched : bool) (os : list (@gop V)) : list trop :=
    match os with
    | [] => []
    | GPat j :: os => track_calls insts i (known || (j =? i)) fetched os
    | GPatDo k e :: os => (if bool_decide (insts !! k = Some i) then [TEdit e] else []) ++ track_calls insts i known fetched os
    | GCheck j :: os => (if (j =? i) && known then [TSend] else []) ++ track_calls insts i known fetched os
    | GBackend j :: os =>
        if j =? i then (if fetched then [TBackend] else []) ++ track_calls insts i true true os
        else track_calls insts i known fetched os
    | GRecv j :: os => (if j =? i then [TRecv] else []) ++ track_calls insts i known fetched os
    | _ :: os => track_calls insts i known fetched os
    end.
End spec.
