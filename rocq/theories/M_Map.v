(** Model of the signal mapping nodes SMap (src/dsp/node_smap.rs) and Map (src/dsp/node_map.rs). The arithmetic is a parameter: the
    theorems use it with rational numbers and with single precision floats. *)
From Coq Require Import QArith Qabs SpecFloat.
From Verif Require Import Base.

(** The operations on [f32] that the two nodes use. [f_eps] is [std::f32::EPSILON]. *)
Record arith := Arith {
  F : Type;
  f_add : F -> F -> F; f_sub : F -> F -> F; f_mul : F -> F -> F; f_div : F -> F -> F; f_abs : F -> F;
  f_lt : F -> F -> bool; f_le : F -> F -> bool;
  f_zero : F; f_half : F; f_one : F; f_eps : F;
}.

(** Exact arithmetic *)
Definition exact : arith := Arith Q Qplus Qminus Qmult Qdiv Qabs (fun x y => negb (Qle_bool y x)) Qle_bool 0%Q (1 # 2) 1%Q (1 # 8388608).
(** IEEE 754 single precision, rounding to nearest even (the standard library's specification of floats) *)
Definition single : arith :=
  Arith spec_float (SFadd 24 128) (SFsub 24 128) (SFmul 24 128) (SFdiv 24 128) SFabs SFltb SFleb (S754_zero false)
    (S754_finite false 8388608 (-24)) (S754_finite false 8388608 (-23)) (S754_finite false 8388608 (-46)).

Section map.
Context (A : arith).
Local Notation F := (F A).

(** [f32::clamp]: it panics unless [lo <= hi] *)
Definition clamp (x lo hi : F) : option F :=
  if f_le A lo hi then
    let x := if f_lt A x lo then lo else x in
    let x := if f_lt A hi x then hi else x in
    Some x
  else None.

(** [min + (max - min) * s] *)
Definition mix (lo hi s : F) : F := f_add A lo (f_mul A (f_sub A hi lo) s).

(** src/dsp/node_smap.rs:113-190: one frame; [Some None] is an output that is not written. *)
Definition smap_frame (mode clip : Z) (s lo hi : F) : option (option F) :=
  let bi s := f_mul A (f_add A s (f_one A)) (f_half A) in
  let out s := Some (Some (mix lo hi s)) in
  let clamp01 s := clamp s (f_zero A) (f_one A) in
  match mode, clip with
  | 0, 0 => out s
  | 0, 1 => let* s := clamp01 s in out s
  | 1, 0 => out (bi s)
  | 1, 1 => let* s := clamp01 (bi s) in out s
  | 2, 0 => out (f_sub A (f_one A) s)
  | 2, 1 => let* s := clamp01 s in out (f_sub A (f_one A) s)
  | 3, 0 => out (f_sub A (f_one A) (bi s))
  | 3, 1 => let* s := clamp01 (bi s) in out (f_sub A (f_one A) s)
  | _, _ => Some None
  end%Z.

(** src/dsp/node_map.rs:108-147: one frame *)
Definition map_frame (clip : Z) (inp atv offs imin imax lo hi : F) : option F :=
  let s := f_add A (f_mul A inp atv) offs in
  let x := if f_lt A (f_abs A (f_sub A imax imin)) (f_eps A) then f_one A
           else f_abs A (f_div A (f_sub A s imin) (f_sub A imax imin)) in
  let s := mix lo hi x in
  if (clip =? 0)%Z then Some s else if f_lt A lo hi then clamp s lo hi else clamp s hi lo.
End map.
