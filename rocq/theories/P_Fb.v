(** Properties of the feedback delay: C27 *)
From Verif Require Import Base M_Prog M_Fb S_Fb L_Fb.
Open Scope nat_scope.

Section thms.
  Context {V : Type} (zero : V) (mul : V -> V -> V).

  (** C27, when the reader runs before the writer in every block: every frame is the input of [d] frames before, times the
      volume, for any partition into blocks and with any number of other readers. Missing for the full claim: the first sample is lost
      (frame [d] is silent), and the delay is another one when the writer runs first or the nodes were not started together; all
      three are refuted below. *)
  Theorem C27_delay_partial n readers i ops xs vols : i < readers -> session readers i true ops xs vols ->
    let d := fb_delay n in
    exists st outs, fb_run mul d (fb_new zero d readers) ops = Some (st, outs) /\
      length (output_of i outs) = length vols /\
      forall m v, vols !! m = Some v -> exists x, output_of i outs !! m = Some (mul x v) /\
        (m <= d -> x = zero) /\ (d < m -> xs !! (m - d) = Some x).
  Proof.
    intros Hi Hs d. assert (128 <= d) as Hd by (unfold d, fb_delay; lia).
    destruct (session_run zero mul d readers i Hd Hi true ops xs vols Hs xs 0 (fb_new zero d readers)) as (st & outs & E & L & G).
    - by apply finv_new.
    - done.
    - lia.
    - exists st, outs. done.
  Qed.

  (** C27, when the writer runs before the reader in every block: there is no delay at all. *)
  Theorem C27_writer_first n readers i ops xs vols : i < readers -> session readers i false ops xs vols ->
    let d := fb_delay n in
    exists st outs, fb_run mul d (fb_new zero d readers) ops = Some (st, outs) /\
      length (output_of i outs) = length vols /\
      forall m v, vols !! m = Some v -> exists x, output_of i outs !! m = Some (mul x v) /\
        (m = 0 -> x = zero) /\ (0 < m -> xs !! m = Some x).
  Proof.
    intros Hi Hs d. assert (128 <= d) as Hd by (unfold d, fb_delay; lia).
    destruct (session_run zero mul d readers i Hd Hi false ops xs vols Hs xs 0 (fb_new zero d readers)) as (st & outs & E & L & G).
    - by apply finv_new.
    - done.
    - lia.
    - exists st, outs. done.
  Qed.
End thms.
Print Assumptions C27_delay_partial.
Print Assumptions C27_writer_first.

(** A ramp 1, 2, 3, … of [n] samples, and full volume *)
Definition ramp (from n : nat) : list Z := (fun k => Z.of_nat k) <$> seq from n.
Definition loud (n : nat) : list Z := replicate n 1%Z.

(** Two readers; reader 1 reads 100, 128 and 40 frames before the writer writes them *)
Definition fb_demo : list (fbop Z) :=
  [FbRd 1 (loud 100); FbRd 0 (loud 100); FbWr (ramp 1 100); FbRd 1 (loud 128); FbWr (ramp 101 128); FbRd 0 (loud 60); FbRd 1 (loud 40); FbWr (ramp 229 40)].
Example C27_example : session 2 1 true fb_demo (ramp 1 268) (loud 268) /\
  (output_of 1 <$> (snd <$> fb_run Z.mul fb_delay_used (fb_new 0%Z fb_delay_used 2) fb_demo)) = Some (replicate 139 0%Z ++ ramp 2 129).
Proof.
  split; [|vm_compute; reflexivity].
  change (ramp 1 268) with (ramp 1 100 ++ ramp 101 128 ++ ramp 229 40 ++ []).
  change (loud 268) with (loud 100 ++ loud 128 ++ loud 40 ++ []).
  change fb_demo with ([] ++ (FbRd 1 (loud 100) :: [FbRd 0 (loud 100)] ++ [FbWr (ramp 1 100)]) ++ [] ++
    ([] ++ (FbRd 1 (loud 128) :: [] ++ [FbWr (ramp 101 128)]) ++ [] ++
    ([FbRd 0 (loud 60)] ++ (FbRd 1 (loud 40) :: [] ++ [FbWr (ramp 229 40)]) ++ [] ++ []))).
  repeat (eapply (session_block 2 1 true); [repeat constructor; lia|repeat constructor; lia|repeat constructor; lia|done|vm_compute; lia|]).
  constructor.
Qed.

(** C27, refuted: the first sample written never comes out. *)
Theorem C27_first_sample_refuted : exists ops out, session 1 0 true ops (99%Z :: replicate 199 0%Z) (loud 200) /\
  (output_of 0 <$> (snd <$> fb_run Z.mul fb_delay_used (fb_new 0%Z fb_delay_used 1) ops)) = Some out /\ out = replicate 200 0%Z.
Proof.
  exists [FbRd 0 (loud 100); FbWr (99%Z :: replicate 99 0%Z); FbRd 0 (loud 100); FbWr (replicate 100 0%Z)], (replicate 200 0%Z).
  split; [|vm_compute; split; reflexivity].
  change (99%Z :: replicate 199 0%Z) with ((99%Z :: replicate 99 0%Z) ++ replicate 100 0%Z ++ []).
  change (loud 200) with (loud 100 ++ loud 100 ++ []).
  change [FbRd 0 (loud 100); FbWr (99%Z :: replicate 99 0%Z); FbRd 0 (loud 100); FbWr (replicate 100 0%Z)] with
    ([] ++ (FbRd 0 (loud 100) :: [] ++ [FbWr (99%Z :: replicate 99 0%Z)]) ++ [] ++ ([] ++ (FbRd 0 (loud 100) :: [] ++ [FbWr (replicate 100 0%Z)]) ++ [] ++ [])).
  repeat (eapply (session_block 1 0 true); [repeat constructor; lia|repeat constructor; lia|repeat constructor; lia|done|vm_compute; lia|]).
  constructor.
Qed.
Print Assumptions C27_first_sample_refuted.

(** C27, refuted: a reader that ran for 100 frames before the writer was added. The same input in the same order of nodes comes
    out differently for different partitions into blocks. *)
Theorem C27_late_writer_refuted : exists ops1 ops2 o1 o2,
  session 1 0 true ops1 (ramp 1 128) (loud 128) /\ session 1 0 true ops2 (ramp 1 128) (loud 128) /\
  (output_of 0 <$> (snd <$> fb_run Z.mul fb_delay_used (fb_new 0%Z fb_delay_used 1) (FbRd 0 (loud 100) :: ops1))) = Some o1 /\
  (output_of 0 <$> (snd <$> fb_run Z.mul fb_delay_used (fb_new 0%Z fb_delay_used 1) (FbRd 0 (loud 100) :: ops2))) = Some o2 /\
  o1 !! 150 = Some 0%Z /\ o2 !! 150 = Some 13%Z.
Proof.
  exists [FbRd 0 (loud 128); FbWr (ramp 1 128)],
    [FbRd 0 (loud 32); FbWr (ramp 1 32); FbRd 0 (loud 32); FbWr (ramp 33 32); FbRd 0 (loud 64); FbWr (ramp 65 64)].
  eexists _, _. split; [|split; [|split; [vm_compute; reflexivity|split; [vm_compute; reflexivity|vm_compute; split; reflexivity]]]].
  - rewrite <- (app_nil_r (ramp 1 128)), <- (app_nil_r (loud 128)).
    change [FbRd 0 (loud 128 ++ []); FbWr (ramp 1 128 ++ [])] with ([] ++ (FbRd 0 (loud 128) :: [] ++ [FbWr (ramp 1 128)]) ++ [] ++ []).
    eapply (session_block 1 0 true); [repeat constructor; lia|repeat constructor; lia|repeat constructor; lia|done|vm_compute; lia|]. constructor.
  - change (ramp 1 128) with (ramp 1 32 ++ ramp 33 32 ++ ramp 65 64 ++ []).
    change (loud 128) with (loud 32 ++ loud 32 ++ loud 64 ++ []).
    change [FbRd 0 (loud 32); FbWr (ramp 1 32); FbRd 0 (loud 32); FbWr (ramp 33 32); FbRd 0 (loud 64); FbWr (ramp 65 64)] with
      ([] ++ (FbRd 0 (loud 32) :: [] ++ [FbWr (ramp 1 32)]) ++ [] ++ ([] ++ (FbRd 0 (loud 32) :: [] ++ [FbWr (ramp 33 32)]) ++ [] ++
        ([] ++ (FbRd 0 (loud 64) :: [] ++ [FbWr (ramp 65 64)]) ++ [] ++ []))).
    repeat (eapply (session_block 1 0 true); [repeat constructor; lia|repeat constructor; lia|repeat constructor; lia|done|vm_compute; lia|]).
    constructor.
Qed.
Print Assumptions C27_late_writer_refuted.

(** C27, refuted: the delay depends on the order in which the two nodes run (compare with [C27_delay_partial]). *)
Theorem C27_order_refuted : exists ops out, session 1 0 false ops (ramp 1 100) (loud 100) /\
  (output_of 0 <$> (snd <$> fb_run Z.mul fb_delay_used (fb_new 0%Z fb_delay_used 1) ops)) = Some out /\ out !! 50 = Some 51%Z.
Proof.
  exists [FbWr (ramp 1 100); FbRd 0 (loud 100)]. eexists _. split; [|vm_compute; split; reflexivity].
  change (session 1 0 false ([] ++ (FbWr (ramp 1 100) :: [] ++ [FbRd 0 (loud 100)]) ++ [] ++ []) (ramp 1 100 ++ []) (loud 100 ++ [])).
  eapply (session_block 1 0 false); [repeat constructor; lia|repeat constructor; lia|repeat constructor; lia|done|vm_compute; lia|]. constructor.
Qed.
Print Assumptions C27_order_refuted.
