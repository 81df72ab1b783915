(** When the audio thread has caught up with the frontend (C18) *)
From Verif Require Import Base M_Atom M_Grid M_Layout M_Prog M_Conf M_Exec M_Sync M_Engine.
Open Scope nat_scope.

(** an update of input [i] finds a smoother: one that already works on the input, or an idle one *)
Definition smoother_free (e : exec) (i : nat) : Prop :=
  exists s, s ∈ ex_sm e /\ (sm_done s.2 = true \/ s.1 = i).

(** nothing is being smoothed, and no buffer waits for its final value *)
Definition smoothing_over (e : exec) : Prop :=
  (forall s, s ∈ ex_sm e -> sm_done s.2 = true) /\ ex_refresh e = [].

(** the limits at the moment a message is handled: a smoother for a changed parameter, and no
    parameter on its way when everything is removed *)
Definition calm_message (e : exec) (m : gmsg) : Prop :=
  match m with
  | MParam i _ => smoother_free e i
  | MClear _ => smoothing_over e
  | _ => True
  end.

Section settle.
  Context (T : ntable) (i2f : Z -> f32) (load_sample : satom -> satom).
  Context (finc : f32 -> f32 -> nat -> f32) (fadd : f32 -> f32 -> f32) (mix : f32 -> f32 -> f32 -> f32).
  Context {St : Type}.
  Context (node_sem : node_id -> St -> nat -> N -> N -> list satom ->
                      list (list f32) -> list (list f32) -> list (list f32) -> St * list (list f32)).

  (** the same for a list of messages handled one after the other *)
  Fixpoint calm_drain (h : heap) (e : exec) (q : list gmsg) : Prop :=
    match q with
    | [] => True
    | m :: q => calm_message e m /\
        forall h' e' t, exec_message finc h e m = Some (h', e', t) -> calm_drain h' e' q
    end.

  (** a step of the engine that keeps to the limits: what an API call sends fits into the queue, and
      the messages that the audio thread takes are calm *)
  Definition calm_step (n : engine St) (o : eop) : Prop :=
    match o with
    | EMx o => forall h m ms, matrix_step T i2f load_sample (en_heap n) (en_mx n) o = Some (h, m, ms) ->
                 length (en_queue n) + length ms <= 512
    | EDrain k => calm_drain (en_heap n) (en_exec n) (take k (en_queue n))
    | _ => True
    end.

  (** engines reached by any interleaving of calm steps; [slope] is the smoothing length in samples *)
  Inductive calm_reachable (slope : nat) : engine St -> Prop :=
  | calm_new w h st : calm_reachable slope (engine_new w h slope st)
  | calm_next n o n' : calm_reachable slope n -> calm_step n o ->
      engine_step T i2f load_sample finc fadd mix node_sem n o = Some n' -> calm_reachable slope n'.
End settle.

(** the audio thread has handled every message and finished smoothing *)
Definition settled {St} (n : engine St) : Prop := en_queue n = [] /\ smoothing_over (en_exec n).

(** the monitored buffers exist: an input that some node of the program reads, an output of the program *)
Definition monitor_ready (e : exec) : Prop :=
  forall k idx, ex_mon e !! k = Some (Some idx) ->
    if decide (2 < k) then idx < length (np_out (ex_prog e)) else exists b, np_cur (ex_prog e) !! idx = Some (Some b).

(** What the audio thread runs and holds after a message: the operations, the values of the parameters once they are smoothed, the atoms.
    The program of [MClear] is empty. *)
Definition handled (A : list nodeop * list f32 * list satom) (m : gmsg) : list nodeop * list f32 * list satom :=
  match m with
  | MClear p => (np_ops p, [], [])
  | MNewProg p _ => (np_ops p, np_params p, np_atoms p)
  | MAtom i a => (A.1.1, A.1.2, <[i := a]> A.2)
  | MParam i v => (A.1.1, <[i := v]> A.1.2, A.2)
  | _ => A
  end.
