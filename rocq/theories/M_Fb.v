(** Model of the feedback delay: src/shared_feedback.rs, src/dsp/node_fbwr_fbrd.rs, src/global.rs *)
From Verif Require Import Base M_Prog.
Open Scope nat_scope.

(** src/shared_feedback.rs:29-42 [SharedFeedback::new]: [n] is the truncated number of samples of 3.14 ms; MAX_BLOCK_SIZE is 128 *)
Definition fb_delay (n : nat) : nat := n `max` 128.

(** src/global.rs:73-81 [get_shared_feedback]: always for 44100 Hz, where 3.14 ms are 138.47 samples *)
Definition fb_delay_used : nat := fb_delay 138.

Section fb.
  Context {V : Type} (zero : V) (mul : V -> V -> V).

  (** One shared buffer, the writer's position and the positions of the readers
      (src/shared_feedback.rs:22-26, 51-56, 87-92) *)
  Record fb := Fb { fb_buf : list V; fb_wp : nat; fb_rps : list nat }.

  (** src/shared_feedback.rs:29-42, 59-66, 95-97: the buffer has three times the length of the delay; the writer starts
      at the delay, every reader at 0 *)
  Definition fb_new (d readers : nat) : fb := Fb (replicate (3 * d) zero) d (replicate readers 0).

  (** src/shared_feedback.rs:74-77 [write] *)
  Definition fb_write (d : nat) (s : fb) (x : V) : option fb :=
    if fb_wp s <? length (fb_buf s)
    then Some (Fb (<[fb_wp s := x]> (fb_buf s)) ((fb_wp s + 1) mod d) (fb_rps s)) else None.

  (** src/shared_feedback.rs:102-106 [read] *)
  Definition fb_read (d : nat) (s : fb) (i : nat) : option (fb * V) :=
    let* rp := fb_rps s !! i in
    let* v := fb_buf s !! rp in
    Some (Fb (fb_buf s) (fb_wp s) (<[i := (rp + 1) mod d]> (fb_rps s)), v).

  (** What the program runs in a block that concerns one instance of the buffer: the FbWr node with its input samples, or
      the FbRd node number [i] with its volume (one value per frame) *)
  Inductive fbop :=
  | FbWr (xs : list V)
  | FbRd (i : nat) (vols : list V).

  (** src/dsp/node_fbwr_fbrd.rs:155-160, the frame loop of FbRd *)
  Fixpoint fbrd_loop (d : nat) (s : fb) (i : nat) (vols : list V) : option (fb * list V) :=
    match vols with
    | [] => Some (s, [])
    | v :: vols =>
        let* (s, x) := fb_read d s i in
        let* (s, out) := fbrd_loop d s i vols in
        Some (s, mul x v :: out)
    end.

  (** src/dsp/node_fbwr_fbrd.rs:76-78 and 156-160: the operations in the order of their execution; the result is what the
      readers put out *)
  Fixpoint fb_run (d : nat) (s : fb) (ops : list fbop) : option (fb * list (nat * list V)) :=
    match ops with
    | [] => Some (s, [])
    | FbWr xs :: ops =>
        let* s := foldm (fb_write d) s xs in
        fb_run d s ops
    | FbRd i vols :: ops =>
        let* (s, out) := fbrd_loop d s i vols in
        let* (s, outs) := fb_run d s ops in
        Some (s, (i, out) :: outs)
    end.
End fb.
Arguments fb : clear implicits.
Arguments fbop : clear implicits.
