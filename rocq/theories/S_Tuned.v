(** When the modulation amounts of the frontend are the ones in force (C18) *)
From Verif Require Import Base M_Atom M_Grid M_Layout M_Prog M_Conf M_Exec M_Sync M_Engine.
Open Scope nat_scope.

Section tuned.
  Context (T : ntable) (i2f : Z -> f32) (load_sample : satom -> satom).
  Context (finc : f32 -> f32 -> nat -> f32) (fadd : f32 -> f32 -> f32) (mix : f32 -> f32 -> f32 -> f32).
  Context {St : Type}.
  Context (node_sem : node_id -> St -> nat -> N -> N -> list satom ->
                      list (list f32) -> list (list f32) -> list (list f32) -> St * list (list f32)).

  (** Are the amounts of the frontend published after this step, if [b] says whether they were before? A synchronisation that
      gives no error and clearing the matrix publish all of them; [set_param_modamt] keeps them published if it gives no error;
      loaded values are not published before the next synchronisation. *)
  Definition published (b : bool) (n : engine St) (o : eop) : bool :=
    match o with
    | EMx MxSync => match matrix_sync T (en_heap n) (en_mx n) with Some (_, _, _, None) => true | _ => b end
    | EMx MxClear => true
    | EMx (MxModamt p v) => match matrix_set_modamt T (en_heap n) (en_mx n) p v with Some (_, _, _, None) => b | _ => false end
    | EMx (MxLoad _ _ _) => false
    | _ => b
    end.

  (** engines reached by any interleaving of steps in which every message fits into the queue *)
  Inductive tuned : bool -> engine St -> Prop :=
  | tuned_new w h slope st : tuned true (engine_new w h slope st)
  | tuned_next b n o n' : tuned b n ->
      (forall o' h m ms, o = EMx o' -> matrix_step T i2f load_sample (en_heap n) (en_mx n) o' = Some (h, m, ms) ->
         length (en_queue n) + length ms <= 512) ->
      engine_step T i2f load_sample finc fadd mix node_sem n o = Some n' -> tuned (published b n o) n'.
End tuned.
