(** The oscillators BOsc, VOsc and BowStri (C66): specification *)
From Coq Require Import QArith Qabs.
From Verif Require Import Base M_Gen S_Fx.
Open Scope nat_scope.

(** Exact arithmetic on rational numbers; the power is arbitrary *)
Definition xmax (x y : Q) : Q := if Qle_bool x y then y else x.
Definition xclamp (x lo hi : Q) : Q := if negb (Qle_bool lo x) then lo else if negb (Qle_bool x hi) then hi else x.
Definition exact (pow4 : Q -> Q) : fops Q := FOps (fun q => q) Qplus Qminus Qmult Qdiv Qopp xmax xclamp Qabs pow4 (fun x => Qle_bool x 0).

(** equal up to whole turns *)
Definition same_phase (x y : Q) : Prop := exists k : Z, (x == y + inject_Z k)%Q.

(** a frame of VOsc: oversampling, kind of distortion, and the inputs freq, v, d, vs, damt *)
Record vin := VIn { vi_over : bool; vi_dist : Z; vi_freq : Q; vi_v : Q; vi_d : Q; vi_vs : Q; vi_damt : Q }.
Definition within (lo hi x : Q) : Prop := (lo <= x /\ x <= hi)%Q.

(** What a bow, at a velocity, makes of the waves [nut] and [bridge] that come to it: it adds the same wave to both, a part [k] of the difference
    between its own velocity and that of the string *)
Definition bow_adds (k vel nut bridge to_bridge to_nut : Q) : Prop :=
  (to_bridge == nut + k * ((1 # 4) * vel - (nut + bridge)) /\ to_nut == bridge + k * ((1 # 4) * vel - (nut + bridge)))%Q.

(** How firmly the bow holds the string, before limits: by the force and the difference of the velocities *)
Definition grip (pow4 : Q -> Q) (force vel nut bridge : Q) : Q := pow4 (Qabs ((((1 # 4) * vel - (nut + bridge)) + (1 # 1000)) * force + (3 # 4)))%Q.

(** Parts of a string are still: they give zero as long as they get zero *)
Record still (X : genlib Q) (L : g_line X -> Prop) (P : g_pole X -> Prop) (B : g_biq X -> Prop) : Prop := Still {
  sl_tap : forall l t, L l -> (g_tap X l t == 0)%Q;
  sl_feed : forall l x, L l -> (x == 0)%Q -> L (g_feed X l x);
  sl_pole : forall p x, P p -> (x == 0)%Q -> P (g_pole_next X p x).1 /\ ((g_pole_next X p x).2 == 0)%Q;
  sl_tick : forall b x, B b -> (x == 0)%Q -> B (g_tick X b x).1 /\ ((g_tick X b x).2 == 0)%Q }.
Definition still_string {X : genlib Q} (L : g_line X -> Prop) (P : g_pole X -> Prop) (B : g_biq X -> Prop) (s : string_ X) : Prop :=
  L (st_nut s) /\ L (st_bridge s) /\ P (st_pole s) /\ Forall B (st_body s).
