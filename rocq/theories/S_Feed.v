(** Specification vocabulary for the values reported by the audio thread (C58) *)
From Verif Require Import Base M_Atom M_Grid M_Layout M_Prog M_Conf M_Exec M_Sync M_Engine M_Feed.
Open Scope nat_scope.

(** every node fills as many output buffers as it has outputs *)
Definition keeps_outs {St} (node_sem : node_id -> St -> nat -> N -> N -> list satom ->
    list (list f32) -> list (list f32) -> list (list f32) -> St * list (list f32) * (option f32 * option f32)) : Prop :=
  forall n st k oc ic ats ps is os, length (node_sem n st k oc ic ats ps is os).1.2 = length os.

(** states that some interleaving of calls, updates and steps of the audio thread leads to *)
Definition feed_reachable {St} (T : ntable) (i2f : Z -> f32) (load_sample : satom -> satom)
    (finc : f32 -> f32 -> nat -> f32) (fadd : f32 -> f32 -> f32) (mix : f32 -> f32 -> f32 -> f32)
    (node_sem : node_id -> St -> nat -> N -> N -> list satom ->
      list (list f32) -> list (list f32) -> list (list f32) -> St * list (list f32) * (option f32 * option f32))
    (s : feed St) : Prop :=
  exists w h slope st os, feed_run T i2f load_sample finc fadd mix node_sem (feed_new w h slope st) os = Some s.

(** node [n] gave the output signals [outs] in block [b]; it set LED and phase to [cx] *)
Definition gave (b : blk) (n : node_id) (outs : list (list f32)) (cx : option f32 * option f32) : Prop :=
  (n, outs, cx) ∈ b_ran b.

(** the published blocks that ran the program of the latest upload *)
Definition reported {St} (s : feed St) : list blk :=
  filter (fun b => Some (b_prog b) = fd_held s) (fd_log s).

(** the same with the block that is not published yet *)
Definition computed {St} (s : feed St) : list blk :=
  filter (fun b => Some (b_prog b) = fd_held s) (fd_log s ++ option_list (fd_pend s)).

(** the values that node [n] set as its LED and as its phase, block by block *)
Definition leds (n : node_id) (bs : list blk) : list f32 :=
  bs ≫= fun b => b_ran b ≫= fun r => if decide (r.1.1 = n) then option_list r.2.1 else [].
Definition phases (n : node_id) (bs : list blk) : list f32 :=
  bs ≫= fun b => b_ran b ≫= fun r => if decide (r.1.1 = n) then option_list r.2.2 else [].

(** [v] is the value that the block [ob] leaves for output [o] of node [n]: the last sample the node
    computed there; zero without a block, and zero for a node that did not run *)
Definition shows (ob : option blk) (n : node_id) (o : nat) (v : f32) : Prop :=
  match ob with
  | None => v = f32_zero
  | Some b =>
      (forall outs cx, gave b n outs cx -> exists l, outs !! o = Some l /\ l !! (b_frames b - 1) = Some v) /\
      ((forall outs cx, ~ gave b n outs cx) -> v = f32_zero)
  end.

(** steps that are neither calls of the matrix API nor [update_output_feedback] *)
Definition in_background (o : fop) : Prop :=
  match o with FMx _ | FUpdate => False | _ => True end.
