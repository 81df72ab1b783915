(** Properties C04 and C05: the hexagonal grid. *)
From Verif Require Import Base M_Dir S_Dir L_Dir.
Open Scope Z_scope.

(** C04. Stepping in a direction is exactly the geometric neighbour step; [None] means the
    neighbour would have a negative coordinate. *)
Theorem C04_step_is_geometric : forall d p q,
  d <> C -> (dir_offs_pos d p = Some q <-> neighbour p d q).
Proof. exact offs_pos_neighbour. Qed.
Print Assumptions C04_step_is_geometric.

(** C04. Stepping and stepping back in the flipped direction returns to the start. *)
Theorem C04_step_back : forall d p q,
  d <> C -> dir_offs_pos d p = Some q -> dir_offs_pos (dir_flip d) q = Some p.
Proof. exact step_back. Qed.
Print Assumptions C04_step_back.

(** C04. Adjacency is reported exactly for geometric neighbours, with the right direction. *)
Theorem C04_adjacent_exact : forall a b d,
  dir_are_adjacent a b = Some d <-> neighbour a d b.
Proof. exact adjacent_iff. Qed.
Print Assumptions C04_adjacent_exact.

(** C04. The two viewpoints agree. *)
Theorem C04_adjacent_sym : forall a b d,
  dir_are_adjacent a b = Some d -> dir_are_adjacent b a = Some (dir_flip d).
Proof. exact adjacent_sym. Qed.
Print Assumptions C04_adjacent_sym.

Example C04_ex1 : dir_offs_pos TR (4, 7)%nat = Some (5, 6)%nat /\ dir_offs_pos TR (5, 7)%nat = Some (6, 7)%nat.
Proof. split; reflexivity. Qed.
Example C04_ex2 : dir_are_adjacent (5, 6)%nat (4, 7)%nat = Some BL.
Proof. reflexivity. Qed.

(** C05. For positions whose squared distance is at most 99999 the path walks over neighbouring
    cells from the source to the target, and is not longer than the taxicab distance. *)
Theorem C05_path_reaches_target_partial : forall a b,
  dist2 a b <= 99999 ->
  walk a (path_from_to a b) b /\
  Z.of_nat (length (path_from_to a b)) <=
    Z.abs (Z.of_nat b.1 - Z.of_nat a.1) + Z.abs (Z.of_nat b.2 - Z.of_nat a.2).
Proof. exact path_from_to_ok. Qed.
Print Assumptions C05_path_reaches_target_partial.

(** C05. Exactly: the path leads to the target if the positions are equal or some neighbour of the source has a squared distance below 99999
    from the target; otherwise the path is empty. *)
Theorem C05_path_exact : forall a b,
  (a = b \/ (exists d q, neighbour a d q /\ dist2 q b < 99999) -> walk a (path_from_to a b) b) /\
  (a <> b -> (forall d q, neighbour a d q -> 99999 <= dist2 q b) -> path_from_to a b = []).
Proof. exact path_exact. Qed.
Print Assumptions C05_path_exact.

(** C05. Beyond that distance no path is found although both cells fit into a 256x256 matrix. *)
Theorem C05_far_path_refuted :
  exists a b, (a.1 < 256 /\ a.2 < 256 /\ b.1 < 256 /\ b.2 < 256)%nat /\
    ~ walk a (path_from_to a b) b.
Proof.
  exists (0, 0)%nat, (255, 255)%nat. split; [cbn; lia|].
  assert (path_from_to (0, 0)%nat (255, 255)%nat = []) as -> by (vm_compute; reflexivity).
  intros H. inversion H.
Qed.
Print Assumptions C05_far_path_refuted.

Example C05_ex : path_from_to (2, 5)%nat (6, 3)%nat = [TR; TR; TR; TR] /\ dist2 (2, 5)%nat (6, 3)%nat <= 99999.
Proof. split; vm_compute; [reflexivity|discriminate]. Qed.
