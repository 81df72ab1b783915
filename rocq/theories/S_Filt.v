(** Specification vocabulary of the filter nodes *)
From Coq Require Import QArith Qabs.
From Verif Require Import Base M_Filt.
Open Scope nat_scope.

(** ** SFilter *)
(** The parameters that a filter function of each kind may be called with *)
Definition in_range (lo hi x : Q) : Prop := (lo <= x <= hi)%Q.
Definition same_in_range {D} (F G : sfdsp D) : Prop :=
  (forall x f r z, in_range 1 22000 f -> fd_lp1 F x f r z = fd_lp1 G x f r z) /\
  (forall x f r z, in_range 1 22000 f -> fd_lp1t F x f r z = fd_lp1t G x f r z) /\
  (forall x f r z y, in_range 1 22000 f -> fd_hp1 F x f r z y = fd_hp1 G x f r z y) /\
  (forall x f r z, in_range 1 22000 f -> fd_hp1t F x f r z = fd_hp1t G x f r z) /\
  (forall x f q r z y, in_range 1 16000 f -> in_range 0 (99 # 100) q -> fd_hal F x f q r z y = fd_hal G x f q r z y) /\
  (forall x f q r k h, in_range 1 22000 f -> in_range 0 1 q -> fd_simper F x f q r k h = fd_simper G x f q r k h) /\
  (forall x f q r z y k h d, in_range (-1) 1 x -> in_range 1 20000 f -> in_range 0 1 q ->
     fd_moog F x f q r z y k h d = fd_moog G x f q r z y k h d).

(** ** BiqFilt *)
(** A chain of filters of its own, all with the coefficients [c]: the samples after the first [n] filters *)
Fixpoint chain {C B} (tick : C -> B -> Q -> Q * B) (c : C) (n : nat) (ms : list B) (x : Q) : list B * Q :=
  match n, ms with
  | S n, m :: ms => let '(y, m) := tick c m x in let '(ms, y) := chain tick c n ms y in (m :: ms, y)
  | _, _ => (ms, x)
  end.
Fixpoint chain_signal {C B} (tick : C -> B -> Q -> Q * B) (c : C) (ms : list B) (xs : list (nat * Q)) : list B * list Q :=
  match xs with
  | [] => (ms, [])
  | (n, x) :: xs => let '(ms, y) := chain tick c n ms x in let '(ms, ys) := chain_signal tick c ms xs in (ms, y :: ys)
  end.
(** the number of filters in use: the order plus one, and a single one for the resonator *)
Definition stages (p : bqset) : nat := if (bs_ftype p =? 1)%Z then 1 else S (Z.to_nat (bs_order p)).
(** the coefficients for a sample rate and settings *)
Definition coefs_for {C} (resonator : Q -> Q -> Q -> C) (lowpass : Q -> Q -> C) (srate : Q) (ftype : Z) (freq q : Q) : C :=
  if (ftype =? 1)%Z then resonator srate freq q else lowpass srate freq.
(** settings that the user can make: lowpass or resonator, up to four filters *)
Definition valid_set (p : bqset) : Prop := (0 <= bs_ftype p <= 1)%Z /\ (0 <= bs_order p <= 3)%Z.
Definition near (x y : Q) : Prop := (Qabs (x - y) <= 1 # 10000)%Q.
(** the nearest frequency from 0 to 22000 *)
Definition in_audible (x : Q) : Q := if negb (Qle_bool 0 x) then 0%Q else if negb (Qle_bool x 22000) then 22000%Q else x.
(** the sample rate after a history; histories with valid settings *)
Fixpoint last_rate (r : Q) (ops : list bqop) : Q :=
  match ops with [] => r | BqRate r :: ops => last_rate r ops | _ :: ops => last_rate r ops end.
Definition valid_op (o : bqop) : Prop := match o with BqBlock p _ => valid_set p | _ => True end.
(** settings with the same coefficients *)
Definition same_filter (p q : bqset) : Prop := bs_ftype p = bs_ftype q /\ bs_freq p = bs_freq q /\ bs_q p = bs_q q /\ bs_gain p = bs_gain q.

(** ** FVaFilt *)
Section fvafilt.
  Context {F V : Type} (lim_freq lim_res lim_drive : F -> F) (pair : F -> F -> V) (twice : V -> V) (vzero : V) (lanes : V -> F * F).
  Context {L S K O D : Type} (ltick : @fpar F -> nat -> L -> V -> V * L) (stick : @fpar F -> @fpar F -> S -> V -> V * S)
    (ktick : @fpar F -> @fpar F -> K -> V -> V * K) (otick : O -> V -> V * O) (dtick : D -> V -> V * D).

  (** The parameters that the settings of a block and the inputs of a frame ask for: of eleven modes of the ladder and five of
      the SVF the last one stands for all other numbers *)
  Definition mode_of (last i : Z) : nat := if ((0 <=? i) && (i <? last))%Z then Z.to_nat i else Z.to_nat last.
  Definition wanted (b : @fvblock F) (i : @fvin F) : @fpar F :=
    FPar (lim_freq (fi_freq i)) (lim_res (fi_res i)) (lim_drive (fi_drive i)) (mode_of 10 (as_i8 (fb_lmode b))) (mode_of 4 (as_i8 (fb_smode b))).

  (** A filter node that sets all parameters in every frame *)
  Record plain := Plain { pl_ladder : L; pl_svf : S; pl_sk : K; pl_os0 : O; pl_os1 : O; pl_dc : D }.
  Definition plain_frame (b : @fvblock F) (s : plain) (i : @fvin F) : plain * (F * F) :=
    let p := wanted b i in
    let '(v, dc) := dtick (pl_dc s) (pair (fi_l i) (fi_r i)) in
    let filter (s : plain) (x : V) : plain * V :=
      if (as_i8 (fb_ftype b) =? 2)%Z then
        let '(y, k) := ktick p p (pl_sk s) x in (Plain (pl_ladder s) (pl_svf s) k (pl_os0 s) (pl_os1 s) (pl_dc s), y)
      else if (as_i8 (fb_ftype b) =? 1)%Z then
        let '(y, v) := stick p p (pl_svf s) x in (Plain (pl_ladder s) v (pl_sk s) (pl_os0 s) (pl_os1 s) (pl_dc s), y)
      else
        let '(y, l) := ltick p (fp_lmode p) (pl_ladder s) x in (Plain l (pl_svf s) (pl_sk s) (pl_os0 s) (pl_os1 s) (pl_dc s), y) in
    let half (s : plain) (x : V) : plain * V :=
      let '(y, o0) := otick (pl_os0 s) (twice x) in
      let '(s, y) := filter (Plain (pl_ladder s) (pl_svf s) (pl_sk s) o0 (pl_os1 s) (pl_dc s)) y in
      let '(y, o1) := otick (pl_os1 s) y in
      (Plain (pl_ladder s) (pl_svf s) (pl_sk s) (pl_os0 s) o1 (pl_dc s), y) in
    let '(s, _) := half (Plain (pl_ladder s) (pl_svf s) (pl_sk s) (pl_os0 s) (pl_os1 s) dc) v in
    let '(s, y) := half s vzero in
    (s, lanes y).
  Fixpoint plain_frames (b : @fvblock F) (s : plain) (is : list (@fvin F)) : plain * list (F * F) :=
    match is with
    | [] => (s, [])
    | i :: is => let '(s, o) := plain_frame b s i in let '(s, os) := plain_frames b s is in (s, o :: os)
    end.
  Fixpoint plain_blocks (s : plain) (bs : list (@fvblock F)) : list (list (F * F)) :=
    match bs with
    | [] => []
    | b :: bs => let '(s, os) := plain_frames b s (fb_in b) in os :: plain_blocks s bs
    end.

  Definition is_ladder {F} (b : @fvblock F) : Prop := as_i8 (fb_ftype b) <> 1%Z /\ as_i8 (fb_ftype b) <> 2%Z.
  (** The mode of the ladder only changes together with, or during, its use; [m] is the mode before *)
  Fixpoint mode_changes_in_use {F} (m : Z) (bs : list (@fvblock F)) : Prop :=
    match bs with
    | [] => True
    | b :: bs => (is_ladder b \/ as_i8 (fb_lmode b) = m) /\ mode_changes_in_use (as_i8 (fb_lmode b)) bs
    end.
End fvafilt.
