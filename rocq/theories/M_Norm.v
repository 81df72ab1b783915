(** Model of the normalising and denormalising macros (src/dsp/mod.rs:937-1081, 1384-1401), in exact arithmetic *)
From Verif Require Import Base M_Nodes.
From Coq Require Import Reals.
Open Scope R_scope.

(** [f32::powf] with a positive exponent, for arguments that are not negative *)
Definition powf (x y : R) : R := if Req_EM_T x 0 then 0 else Rpower x y.

(** [f32::clamp] *)
Definition rclamp (x lo hi : R) : R := if Rlt_dec x lo then lo else if Rlt_dec hi x then hi else x.

(** src/dsp/mod.rs:950-964 [define_lin] *)
Definition n_lin (min max x : R) : R := Rabs ((x - min) / (max - min)).
Definition d_lin (min max x : R) : R := min * (1 - x) + max * x.

(** src/dsp/mod.rs:966-980 [define_exp] *)
Definition n_exp (min max x : R) : R := sqrt (Rabs ((x - min) / (max - min))).
Definition d_exp (min max x : R) : R := let x := x * x in min * (1 - x) + max * x.

(** src/dsp/mod.rs:982-996 [define_exp4] *)
Definition n_exp4 (min max x : R) : R := sqrt (sqrt (Rabs ((x - min) / (max - min)))).
Definition d_exp4 (min max x : R) : R := let x := x * x * x * x in min * (1 - x) + max * x.

(** src/dsp/mod.rs:998-1012 [define_exp6] *)
Definition n_exp6 (min max x : R) : R := powf (Rabs ((x - min) / (max - min))) (1 / 6).
Definition d_exp6 (min max x : R) : R := let x := x ^ 6 in min * (1 - x) + max * x.

(** src/dsp/mod.rs:1014-1038 [define_db], for the conversions [coef2gain_db] and [gain_db2coef] of the crate synfx_dsp, which is
    not part of the repository *)
Definition n_db (coef2db : R -> R) (min max x : R) : R := Rabs ((coef2db x - min) / (max - min)).
Definition d_db (db2coef : R -> R) (min max x : R) : R := db2coef (min * (1 - x) + x * max).

(** src/dsp/mod.rs:1040-1056 [n_pit], [d_pit] *)
Definition n_pit (x : R) : R := 1 / 10 * (ln (Rmax x (1 / 100) / 440) / ln 2).
Definition d_pit (x : R) : R := 440 * Rpower 2 (rclamp (x * 10) (-10) 10).

(** src/dsp/mod.rs:1062-1071 [n_det], [d_det] *)
Definition n_det (x : R) : R := x / 120.
Definition d_det (x : R) : R := x * 120.

(** src/dsp/mod.rs:1384-1401: the scales of the node list *)
Definition normalize (coef2db : R -> R) (s : scale) (x : R) : R :=
  match s with
  | SId => x
  | SVol => n_db coef2db (-90) 18 x
  | SGain => n_db coef2db (-24) 24 x
  | SDriv => n_db coef2db 0 24 x
  | SPit => n_pit x
  | SDet => n_det x
  | SDeclick => n_exp 0 50 x
  | SEnv => n_exp 0 1000 x
  | SLfot => n_exp6 (1 / 10) 300000 x
  | STime => n_exp (1 / 2) 5000 x
  | SFtme => n_exp (1 / 10) 1000 x
  | STimz => n_exp 0 5000 x
  | SVps => n_lin 0 20 x
  end.
Definition denormalize (db2coef : R -> R) (s : scale) (x : R) : R :=
  match s with
  | SId => x
  | SVol => d_db db2coef (-90) 18 x
  | SGain => d_db db2coef (-24) 24 x
  | SDriv => d_db db2coef 0 24 x
  | SPit => d_pit x
  | SDet => d_det x
  | SDeclick => d_exp 0 50 x
  | SEnv => d_exp 0 1000 x
  | SLfot => d_exp6 (1 / 10) 300000 x
  | STime => d_exp (1 / 2) 5000 x
  | SFtme => d_exp (1 / 10) 1000 x
  | STimz => d_exp 0 5000 x
  | SVps => d_lin 0 20 x
  end.
