(** Loading samples (C52): specification *)
From stdpp Require Import strings.
From Verif Require Import Base M_Atom M_Prog M_Lib.
Open Scope nat_scope.

(** sample [i] of the file: its float value, [None] if it cannot be read *)
Definition file_sample (i16_f : Z -> f32) (w : wav) (i : nat) : option (option f32) :=
  match wv_data w with
  | WFloat xs => xs !! i
  | WInt xs => (fun s : option Z => i16_f <$> s) <$> xs !! i
  end.
(** sample [i] of the first channel, within the first 60 seconds *)
Definition first_channel (i16_f : Z -> f32) (w : wav) (i : nat) : option (option f32) :=
  if i <? 60 * wv_rate w then file_sample i16_f w (wv_channels w * i) else None.

(** [v] is what is loaded from [w]: the sample rate, then the first channel *)
Definition loaded_from (rate_f : nat -> f32) (i16_f : Z -> f32) (w : wav) (v : list f32) : Prop :=
  v !! 0 = Some (rate_f (wv_rate w)) /\ forall i, Some <$> v !! S i = first_channel i16_f w i.

(** the library after a history of calls with any files, all of which have a channel *)
Definition sane (fs : files) : Prop := forall p w, fs p = Some w -> 0 < wv_channels w.
Definition sane_call (k : lcall) : Prop := match k with LSet fs _ => sane fs | LPop => True end.
Definition after_calls (rate_f : nat -> f32) (i16_f : Z -> f32) (ks : list lcall) (l : loader) : Prop :=
  foldm (loader_step rate_f i16_f) loader_new ks = Some l.
