(** The Code node (C71): specification *)
From Verif Require Import Base M_CodeN.
Open Scope list_scope.
Open Scope nat_scope.

(** The six inputs of a frame, and what the program gives for it: the three outputs sig, sig1 and sig2 *)
Definition frame_in (F : Type) : Type := F * F * F * F * F * F.
Definition frame_out (F : Type) : Type := F * F * F.

Section spec.
  Context {F C : Type} (X : engine F C).

  (** What an engine goes through *)
  Inductive action := Take (p : C) | Clear | Rate (r : F) | Frame (x : frame_in F).

  Definition act (e : en_state X) (a : action) : en_state X :=
    match a with
    | Take p => en_take X e p
    | Clear => en_clear X e
    | Rate r => en_rate X e r
    | Frame (x1, x2, xa, xb, xd, xg) => (en_frame X e x1 x2 xa xb xd xg).1
    end.
  Definition after (e : en_state X) (l : list action) : en_state X := foldl act e l.

  (** The return value of the program is the output sig. *)
  Definition gives (e : en_state X) (x : frame_in F) : frame_out F :=
    let '(x1, x2, xa, xb, xd, xg) := x in let '(s1, s2, ret) := (en_frame X e x1 x2 xa xb xd xg).2 in (ret, s1, s2).

  (** The frames [xs], one after the other, from [e] on *)
  Definition answers (e : en_state X) (xs : list (frame_in F)) (ys : list (frame_out F)) : Prop :=
    length ys = length xs /\ forall i x, xs !! i = Some x -> ys !! i = Some (gives (after e (Frame <$> take i xs)) x).
End spec.
Arguments Take {F C}. Arguments Clear {F C}. Arguments Rate {F C}. Arguments Frame {F C}.

(** The signals at the six inputs hold these frames, with room for more behind them *)
Definition signals {F} (ins : list (list F)) (xs : list (frame_in F)) : Prop :=
  exists in1 in2 a b d g, ins = [in1; in2; a; b; d; g] /\
    forall i x1 x2 xa xb xd xg, xs !! i = Some (x1, x2, xa, xb, xd, xg) ->
      in1 !! i = Some x1 /\ in2 !! i = Some x2 /\ a !! i = Some xa /\ b !! i = Some xb /\ d !! i = Some xd /\ g !! i = Some xg.

(** Three output buffers with room for [n] frames *)
Definition room {F} (outs : list (list F)) (n : nat) : Prop := length outs = 3 /\ Forall (fun b => n <= length b) outs.

(** The output buffers [outs] with their first frames replaced by [ys] *)
Definition written {F} (outs : list (list F)) (ys : list (frame_out F)) (outs' : list (list F)) : Prop :=
  exists sig sig1 sig2, outs = [sig; sig1; sig2] /\
    outs' = [((fun y => y.1.1) <$> ys) ++ drop (length ys) sig; ((fun y => y.1.2) <$> ys) ++ drop (length ys) sig1; ((fun y => y.2) <$> ys) ++ drop (length ys) sig2].

(** What the engine goes through in a history: a program that is sent is taken right before the first frame of the next block, in the order
    of sending; all else happens at its time. *)
Inductive goes_through {F C} : list C -> list (cevent (F := F) (C := C)) -> list (action (F := F) (C := C)) -> list C -> Prop :=
| gt_nil q : goes_through q [] [] q
| gt_send q p evs l q' : goes_through (q ++ [p]) evs l q' -> goes_through q (ESend p :: evs) l q'
| gt_rate q r evs l q' : goes_through q evs l q' -> goes_through q (ERate r :: evs) (Rate r :: l) q'
| gt_reset q evs l q' : goes_through q evs l q' -> goes_through q (EReset :: evs) (Clear :: l) q'
| gt_block q ins xs evs l q' : signals ins xs -> goes_through [] evs l q' ->
    goes_through q (EBlock (length xs) ins :: evs) ((Take <$> q) ++ (Frame <$> xs) ++ l) q'.
