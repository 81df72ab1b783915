(** What the exchange of the DSP code of the [Rust1x1] nodes is supposed to do (C50) *)
From Verif Require Import Base M_Dyn.
Open Scope nat_scope.

(** The calls, as if each happened at one moment: the frontend sends code for instance [i]; a [Rust1x1] node of instance [i] is
    constructed; the audio thread runs node number [k] *)
Inductive dcall {U In} := CSend (i : nat) (u : U) | CCreate (i : nat) | CRun (k : nat) (inp : In).
Arguments dcall : clear implicits.

Section dyn.
  Context {U In Out : Type} (dummy : U) (process : U -> In -> U * Out).

  (** All histories have the newest call first. *)

  (** The instance of each node constructed so far, in the order of construction, which numbers the nodes *)
  Fixpoint created (h : list (dcall U In)) : list nat :=
    match h with
    | [] => []
    | CCreate i :: h => created h ++ [i]
    | _ :: h => created h
    end.
  (** Node [k] is the newest one of instance [i] *)
  Definition newest (h : list (dcall U In)) (i k : nat) : Prop := created h !! k = Some i /\ i ∉ drop (S k) (created h).
  Global Instance newest_dec h i k : Decision (newest h i k).
  Proof. unfold newest. apply _. Defined.

  (** The code sent last for instance [i] *)
  Fixpoint waiting (h : list (dcall U In)) (i : nat) : option U :=
    match h with
    | [] => None
    | CSend i' u :: h => if decide (i = i') then Some u else waiting h i
    | _ :: h => waiting h i
    end.

  (** The code (with its inner state) that node number [k] holds *)
  Fixpoint code (h : list (dcall U In)) (k : nat) : option U :=
    match h with
    | [] => None
    | CCreate i :: h =>
        (* the first node of an instance starts with the code sent before, every other one without *)
        if decide (k = length (created h)) then Some (if decide (i ∈ created h) then dummy else default dummy (waiting h i))
        else code h k
    | CSend i u :: h => if decide (newest h i k) then Some u else code h k
    | CRun k' inp :: h => if decide (k = k') then (fun u => (process u inp).1) <$> code h k else code h k
    end.

  (** The outputs of all runs, oldest first; [None] for a node that does not exist *)
  Fixpoint outputs (h : list (dcall U In)) : list (option Out) :=
    match h with
    | [] => []
    | CRun k inp :: h => outputs h ++ [(fun u => (process u inp).2) <$> code h k]
    | _ :: h => outputs h
    end.

  (** [happened tr w r h]: the history [h] is a way to see the steps [tr] of the two threads as calls that happen at one moment. A call
      of the frontend happens at its publication, a run of the audio thread at one of the two steps of fetching the code.
      [w] is the call of the frontend that has begun and not yet happened, [r] that of the audio thread. *)
  Inductive happened : list (@dstep U In) -> option (nat * U) -> option (nat * In) -> list (dcall U In) -> Prop :=
  | happened_nil : happened [] None None []
  | happened_send tr r h i u : happened tr None r h -> happened (tr ++ [DSend i u]) (Some (i, u)) r h
  | happened_publish tr r h i u : happened tr (Some (i, u)) r h -> happened (tr ++ [DPublish]) None r (CSend i u :: h)
  | happened_create tr r h i : happened tr None r h -> happened (tr ++ [DCreate i]) None r (CCreate i :: h)
  | happened_look tr w h k inp : happened tr w None h -> happened (tr ++ [DLook k inp]) w None (CRun k inp :: h)
  | happened_look_later tr w h k inp : happened tr w None h -> happened (tr ++ [DLook k inp]) w (Some (k, inp)) h
  | happened_update tr w h : happened tr w None h -> happened (tr ++ [DUpdate]) w None h
  | happened_update_now tr w h k inp : happened tr w (Some (k, inp)) h -> happened (tr ++ [DUpdate]) w None (CRun k inp :: h)
  | happened_process tr w h : happened tr w None h -> happened (tr ++ [DProcess]) w None h.

  (** The inputs of the runs of node [k], oldest first *)
  Fixpoint runs (h : list (dcall U In)) (k : nat) : list In :=
    match h with
    | [] => []
    | CRun k' inp :: h => if decide (k = k') then runs h k ++ [inp] else runs h k
    | _ :: h => runs h k
    end.
  (** The code after processing these inputs *)
  Definition after (u : U) (l : list In) : U := foldl (fun u inp => (process u inp).1) u l.
End dyn.
