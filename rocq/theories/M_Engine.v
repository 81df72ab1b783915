(** The whole engine: matrix frontend, message queue, audio thread and drop thread, with every
    interleaving of their steps *)
From Verif Require Import Base M_Atom M_Graph M_Dir M_Grid M_Layout M_Prog M_Conf M_Exec M_Sync.
Open Scope nat_scope.

(** src/nodes/node_conf.rs:22 NODE_COMMUNICATION_BUFFER_SIZE *)
Definition queue_size : nat := 512.

(** dropping a message that was not sent frees the program inside *)
Definition msg_drop (h : heap) (m : gmsg) : option heap :=
  match m with
  | MClear p | MNewProg p _ => prog_drop h p
  | _ => Some h
  end.

(** [let _ = graph_update_prod.push(..)]: a message that does not fit is dropped *)
Fixpoint queue_push (h : heap) (q : list gmsg) (ms : list gmsg) : option (heap * list gmsg) :=
  match ms with
  | [] => Some (h, q)
  | m :: ms =>
      if length q <? queue_size then queue_push h (q ++ [m]) ms
      else let* h := msg_drop h m in queue_push h q ms
  end.

(** [en_trash] holds the programs that wait to be released by the drop thread
    (src/nodes/drop_thread.rs); a full queue to the drop thread releases the program right away,
    which is a step of the drop thread here. *)
Record engine (St : Type) := Engine {
  en_heap : heap;
  en_mx : matrix;
  en_queue : list gmsg;
  en_exec : exec;
  en_trash : list nprog;
  en_st : St;
}.
Arguments Engine {St}.
Arguments en_heap {St}. Arguments en_mx {St}. Arguments en_queue {St}.
Arguments en_exec {St}. Arguments en_trash {St}. Arguments en_st {St}.

(** Steps of the frontend (a call of the matrix API), of the audio thread (taking [k] of the
    queued messages; processing a block) and of the drop thread. *)
Inductive eop :=
| EMx (o : mop)
| EDrain (k : nat)
| EBlock (nframes : nat)
| EDrop.

Section engine.
  Context (T : ntable) (i2f : Z -> f32) (load_sample : satom -> satom).
  Context (finc : f32 -> f32 -> nat -> f32) (fadd : f32 -> f32 -> f32).
  Context (mix : f32 -> f32 -> f32 -> f32).
  Context {St : Type}.
  Context (node_sem : node_id -> St -> nat -> N -> N -> list satom ->
                      list (list f32) -> list (list f32) -> list (list f32) -> St * list (list f32)).

  (** src/nodes/mod.rs:86-100 [new_node_engine] and [Matrix::new]; [slope] is the smoothing length *)
  Definition engine_new (w h slope : nat) (st : St) : engine St :=
    Engine (Heap ∅ 0) (matrix_new w h) [] (exec_new slope) [] st.

  Definition push (n : engine St) (h : heap) (m : matrix) (ms : list gmsg) : option (engine St) :=
    let* (h, q) := queue_push h (en_queue n) ms in
    Some (Engine h m q (en_exec n) (en_trash n) (en_st n)).

  (** one step; [None] is a crash *)
  Definition engine_step (n : engine St) (o : eop) : option (engine St) :=
    match o with
    | EMx o => let* (h, m, ms) := matrix_step T i2f load_sample (en_heap n) (en_mx n) o in push n h m ms
    | EDrain k =>
        let* (h, e, t) := exec_drain finc (en_heap n) (en_exec n) (take k (en_queue n)) in
        Some (Engine h (en_mx n) (drop k (en_queue n)) e (en_trash n ++ t) (en_st n))
    | EBlock nframes =>
        let* (h, e, st, _) := exec_process fadd mix node_sem (en_heap n) (en_exec n) (en_st n) nframes in
        Some (Engine h (en_mx n) (en_queue n) e (en_trash n) st)
    | EDrop =>
        match en_trash n with
        | [] => Some n
        | p :: t =>
            let* h := prog_drop (en_heap n) p in
            Some (Engine h (en_mx n) (en_queue n) (en_exec n) t (en_st n))
        end
    end.

  Definition engine_run (n : engine St) (os : list eop) : option (engine St) := foldm engine_step n os.
End engine.
