(** Specification vocabulary of the monitor *)
From Verif Require Import Base M_Mon.
Open Scope nat_scope.

(** What the audio thread feeds: signals 0 to 5, at most a block of samples each *)
Definition feeds_ok (acts : list mact) : Prop :=
  forall feeds, MTake feeds ∈ acts -> Forall (fun f => f.1 < 6 /\ length f.2 <= 128) feeds.

(** The samples of one signal in one block: the last ones fed *)
Definition block_samples (sig : nat) (feeds : list (nat * list fv)) : list fv :=
  default [] (last (snd <$> filter (fun f => f.1 = sig) feeds)).

(** The blocks for which the audio thread got a buffer, given the results of the steps *)
Fixpoint taken (acts : list mact) (outs : list bool) : list (list (nat * list fv)) :=
  match acts, outs with
  | MTake feeds :: acts, true :: outs => feeds :: taken acts outs
  | _ :: acts, _ :: outs => taken acts outs
  | _, _ => []
  end.

(** All samples of a signal in some blocks *)
Definition stream (sig : nat) (blocks : list (list (nat * list fv))) : list fv := mjoin (block_samples sig <$> blocks).

(** The complete windows of 900 samples of a stream *)
Definition window_of (st : list fv) (k : nat) : list fv := take 900 (drop (900 * k) st).
Definition windows (st : list fv) : nat := length st / 900.

(** A pair bounds a window exactly, as far as its values lie between -100 and 100 *)
Definition bounds (w : list fv) (p : Z * Z) : Prop :=
  (forall v, Some v ∈ w -> (p.1 <= v <= p.2)%Z) /\
  (p.1 = hundred \/ Some p.1 ∈ w) /\ (p.2 = (- hundred)%Z \/ Some p.2 ∈ w) /\ (p.1 <= hundred)%Z /\ (- hundred <= p.2)%Z.

(** A snapshot shows a stream: the newest complete window is last, windows that are not there are shown as (0, 0) *)
Definition shows (sn : snapshot) (sig : nat) (st : list fv) : Prop :=
  forall j, j < 160 -> exists p, snap_at sn sig (159 - j) = Some p /\
    (j < windows st -> bounds (window_of st (windows st - 1 - j)) p) /\ (windows st <= j -> p = (0, 0)%Z).

(** All buffers of a state *)
Definition all_buffers (s : mon) : list nat :=
  mb_id <$> (mo_unused s ++ option_list (mo_held s) ++ mo_queue s ++ option_list (mo_busy s) ++ mo_recycle s).
