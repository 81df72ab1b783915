(** What is expected of the graphs (C68) *)
From Coq Require Import QArith.
From Verif Require Import Base M_Atom M_Gen M_Draw.
Open Scope nat_scope.

(** A picture is drawn at some places; a graph is asked for each place together with the next one. *)
Definition picture {F} (xs : list F) : list (F * F) := zip xs (tail xs).

(** The first [n] values of a machine *)
Fixpoint values {S V} (frame : S -> S * V) (n : nat) (s : S) : list V :=
  match n with 0 => [] | Datatypes.S n => let '(s, v) := frame s in v :: values frame n s end.
(** The values of a machine with a parameter block of its own, for the inputs [gs] *)
Fixpoint answers {S I P V} (tick : S -> I -> P -> S * P * V) (gs : list I) (s : S) (p : P) : list V :=
  match gs with [] => [] | g :: gs => let '(s, p, v) := tick s g p in v :: answers tick gs s p end.
(** The machine after [n] frames *)
Definition after {S V} (frame : S -> S * V) (n : nat) (s : S) : S := Nat.iter n (fun s => (frame s).1) s.

(** A setting as the graphs read it: a missing one is 0 *)
Definition setting (f2i : f32 -> Z) (a : option satom) : Z :=
  match a with Some (ASetting i) => i | Some (AParam v) => f2i v | _ => 0%Z end.

(** A picture in exact numbers begins at 0 and goes on to the right. *)
Definition to_the_right (xs : list Q) : Prop := forall i x y, xs !! i = Some x -> xs !! (S i) = Some y -> (x < y)%Q.

(** A curve bends: a bijection of 0..1 that rises, for every shape *)
Definition bends (bend : Q -> Q -> Q) : Prop :=
  (forall x s, (0 <= x <= 1)%Q -> (0 <= bend x s <= 1)%Q) /\
  (forall x y s, (0 <= x <= y)%Q -> (y <= 1)%Q -> (bend x s <= bend y s)%Q).

(** The settings of the envelope by the parameters of the node: atk 2, dcy 3, sus 4, rel 5, ashp 6, dshp 7, rshp 8 *)
Definition shown {F} (O : fops F) (sq : F -> F) (gd : gdata F) : adsr F :=
  let q := o_q O in
  let ms i := o_mul O (sq (o_div O (gd_denorm gd i) (q 1000%Q))) (q 180%Q) in
  let unit i := o_clamp O (gd_denorm gd i) (q 0%Q) (q 1%Q) in
  {| ap_attack := ms 2; ap_attack_shape := gd_denorm gd 6; ap_decay := ms 3; ap_decay_shape := o_sub O (q 1%Q) (unit 7);
     ap_sustain := unit 4; ap_release := ms 5; ap_release_shape := o_sub O (q 1%Q) (unit 8) |}.

(** A value of a wave in the picture: moved from -1..1 to 0.05..0.95 *)
Definition seen {F} (O : fops F) (y : F) : F := o_add O (o_mul O (o_mul O (o_add O y (o_q O 1%Q)) (o_q O (1 # 2))) (o_q O (9 # 10))) (o_q O (5 # 100)).
