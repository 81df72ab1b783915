(** Specification vocabulary of the feedback delay *)
From Verif Require Import Base M_Fb.
Open Scope nat_scope.

Section spec.
  Context {V : Type}.

  (** Operations that are neither the writer nor reader [i]: other readers, with number below [readers] *)
  Definition bystanders (readers i : nat) (ops : list (fbop V)) : Prop :=
    Forall (fun op => match op with FbWr _ => False | FbRd j _ => j <> i /\ j < readers end) ops.

  (** A session of blocks of at most 128 frames. In every block reader [i] and the writer run once, over the same number of
      frames; [first] says whether the reader runs before the writer. [xs] are all samples written, [vols] all volumes. *)
  Inductive session (readers i : nat) (first : bool) : list (fbop V) -> list V -> list V -> Prop :=
  | session_nil : session readers i first [] [] []
  | session_block pre mid post ops bx bv xs vols :
      bystanders readers i pre -> bystanders readers i mid -> bystanders readers i post ->
      length bx = length bv -> length bx <= 128 ->
      session readers i first ops xs vols ->
      session readers i first
        (pre ++ (if first then FbRd i bv :: mid ++ [FbWr bx] else FbWr bx :: mid ++ [FbRd i bv]) ++ post ++ ops)
        (bx ++ xs) (bv ++ vols).

  (** All that reader [i] puts out *)
  Definition output_of (i : nat) (outs : list (nat * list V)) : list V := mjoin (snd <$> filter (fun o => fst o = i) outs).

  (** All samples that some operations write, and the number of samples that reader [i] has read in them *)
  Definition written (ops : list (fbop V)) : list V := mjoin ((fun op => match op with FbWr xs => xs | FbRd _ _ => [] end) <$> ops).
  Definition reads (i : nat) (ops : list (fbop V)) : nat := sum_list ((fun op => match op with FbWr _ => 0 | FbRd j vols => if decide (j = i) then length vols else 0 end) <$> ops).
  Definition is_read (op : fbop V) : Prop := match op with FbWr _ => False | FbRd _ _ => True end.
  Global Instance is_read_dec op : Decision (is_read op).
  Proof. destruct op; apply _. Defined.

  (** [x] is the newest of the samples [xs] whose number is equal to [r] up to multiples of [d], the very first sample not counted;
      or silence, if there is none *)
  Definition newest (zero : V) (d : nat) (xs : list V) (r : nat) (x : V) : Prop :=
    (exists j, 1 <= j /\ xs !! j = Some x /\ j mod d = r mod d /\ forall j', j < j' < length xs -> j' mod d <> r mod d) \/
    (x = zero /\ forall j, 1 <= j < length xs -> j mod d <> r mod d).
End spec.
