(** Properties of the scope recording: C39 *)
From Verif Require Import Base M_Prog L_Conf M_Scope S_Scope L_Scope.
Open Scope nat_scope.
Local Opaque Nat.modulo Nat.div.

Section thms.
  Context {V : Type} (zero : V).

  (** C39: no call ever goes out of bounds, for any indices; every position of every signal reads the last value stored
      there, also for indices that wrap around; calls for other signals or positions do not change it. The same holds for the offsets, the
      threshold and the active flags. *)
  Theorem C39_reads ops : exists s, scope_run zero ops = Some s /\
    (forall b i, scope_read s b i = Some (last_stored zero ops (b mod 3) (i mod 512))) /\
    (forall b, scope_get_offs s b = Some (last_offs zero ops (b mod 3))) /\
    scope_get_thr s = last_thr ops /\
    (forall b, scope_is_active s b = Some (last_mask ops (b mod 3))).
  Proof.
    destruct (run_spec ops (scope_new zero) (new_shaped zero)) as (s & E & Hs & C & O & T & A). exists s.
    assert (forall b, b mod 3 < 3) as Hm by (intros; apply Nat.mod_upper_bound; lia).
    assert (forall b, b mod scope_samples < scope_samples) as Hm2 by (intros; apply Nat.mod_upper_bound; unfold scope_samples; lia).
    split; [done|]. split; [|split; [|split]].
    - intros b i. apply (C (b mod 3) (i mod scope_samples)); try done.
      unfold cell, scope_new. cbn [sc_bufs]. rewrite lookup_replicate_2 by done. cbn [mbind option_bind]. apply lookup_replicate_2. done.
    - intros b. apply O; [done|]. unfold scope_new. cbn [sc_offs]. by apply lookup_replicate_2.
    - rewrite T. unfold last_thr. by destruct (last _).
    - intros b. apply A; [done|]. unfold scope_new. cbn [sc_active]. by apply lookup_replicate_2.
  Qed.

  Lemma frames_spec copies s (frs : list ((V * V * V) * bool)) : shaped s -> 0 < copies -> length frs * copies < scope_samples + copies ->
    exists s' idx, foldm (scope_frame copies) (s, 0) frs = Some (s', idx) /\ shaped s' /\
      (length frs * copies < scope_samples -> idx = length frs * copies) /\
      forall sig p, sig < 3 -> p < scope_samples ->
        cell s' sig p = match frs !! (p / copies) with Some fr => Some (sig_of fr sig, sig_of fr sig) | None => cell s sig p end.
  Proof.
    intros Hs Hc. induction frs as [|fr frs IH] using rev_ind; intros Hl.
    { exists s, 0. split_and!; try done; apply Hs. }
    rewrite app_length in Hl |- *. cbn [length] in Hl |- *. destruct IH as (s1 & idx & E & Hs1 & Hidx & C); [lia|].
    rewrite foldm_app, E. cbn [mbind option_bind foldm]. destruct fr as [[[x y] z] again]. cbn [scope_frame].
    rewrite Hidx by nia. destruct (Nat.ltb_spec (length frs * copies) scope_samples) as [Hlt|]; [|nia].
    set (i := length frs * copies) in *.
    unfold scope_write_over. change (0 mod 3) with 0. change (1 mod 3) with 1. change (2 mod 3) with 2.
    set (n := (i + copies) `min` scope_samples - i).
    destruct (over_spec 0 x ltac:(lia) n i s1 Hs1 ltac:(lia)) as (s2 & -> & Hs2 & _ & _ & _ & C2). cbn [mbind option_bind].
    destruct (over_spec 1 y ltac:(lia) n i s2 Hs2 ltac:(lia)) as (s3 & -> & Hs3 & _ & _ & _ & C3). cbn [mbind option_bind].
    destruct (over_spec 2 z ltac:(lia) n i s3 Hs3 ltac:(lia)) as (s4 & -> & Hs4 & _ & _ & _ & C4). cbn [mbind option_bind].
    eexists s4, _. split; [done|]. split; [done|]. split.
    - intros Hn. destruct (Nat.leb_spec scope_samples (i + copies)) as [Hge|Hge]; cbn [andb]; lia.
    - intros sig p Hsig Hp. rewrite C4, C3, C2, C by done.
      destruct (decide (p / copies < length frs)) as [Hq|Hq].
      + assert (p < i) by (pose proof (Nat.div_mod p copies ltac:(lia)); pose proof (Nat.mod_upper_bound p copies ltac:(lia)); nia).
        rewrite !decide_False by lia. by rewrite lookup_app_l.
      + assert (i <= p) by (pose proof (Nat.div_mod p copies ltac:(lia)); nia).
        rewrite (lookup_ge_None_2 frs) by lia. rewrite lookup_app_r by lia.
        destruct (decide (p < i + copies)) as [Hp2|Hp2].
        * assert (p / copies = length frs) as ->.
          { apply Nat.le_antisymm; [|lia]. apply Nat.lt_succ_r, Nat.div_lt_upper_bound; lia. }
          rewrite Nat.sub_diag. cbn [lookup list_lookup].
          destruct sig as [|[|[|]]]; [..|lia]; cbn [sig_of fst snd]; repeat case_decide; try done; lia.
        * assert (length frs < p / copies) as Hgt.
          { apply Nat.div_le_lower_bound; lia. }
          rewrite lookup_ge_None_2 by (cbn; lia). rewrite !decide_False by lia. done.
  Qed.

  (** C39, for the recording of the Scope node over a short time range: position [p] of each signal shows the frame that was
      recorded there, for any number of copies per frame. *)
  Theorem C39_recording ops s copies (frs : list ((V * V * V) * bool)) : scope_run zero ops = Some s ->
    0 < copies -> length frs * copies < 512 + copies ->
    exists s' idx, foldm (scope_frame copies) (s, 0) frs = Some (s', idx) /\
      forall sig p fr, sig < 3 -> p < 512 -> frs !! (p / copies) = Some fr ->
        scope_read s' sig p = Some (sig_of fr sig, sig_of fr sig).
  Proof.
    intros Er Hc Hl. destruct (run_spec ops (scope_new zero) (new_shaped zero)) as (s0 & E0 & Hs & _).
    unfold scope_run in Er. rewrite E0 in Er. injection Er as ->.
    destruct (frames_spec copies s frs Hs Hc Hl) as (s' & idx & E & Hs' & _ & C). exists s', idx. split; [done|].
    intros sig p fr Hsig Hp Hfr. unfold scope_read. rewrite (Nat.mod_small sig), (Nat.mod_small p) by (unfold scope_samples; lia).
    specialize (C sig p Hsig Hp). rewrite Hfr in C. exact C.
  Qed.
End thms.
Print Assumptions C39_reads.
Print Assumptions C39_recording.

(** Writes beyond the sizes wrap around; copies stop at the end *)
Example C39_example :
  let ops := [SWrite 4 515 (1, 2); SOver 1 2 3 7; SOver 2 510 9 8; SOffs 5 3 4; SThr (Some 6)]%Z in
  (fun s => (scope_read s 1 3, scope_read s 1 5, scope_read s 2 511, scope_read s 2 512, scope_get_offs s 2, scope_get_thr s)) <$> scope_run 0%Z ops =
    Some (Some (7, 7), Some (0, 0), Some (8, 8), Some (0, 0), Some (3, 4), Some 6)%Z.
Proof. vm_compute. reflexivity. Qed.
Example C39_recording_example :
  (fun s => (scope_read s.1 0 0, scope_read s.1 1 199, scope_read s.1 2 511, scope_read s.1 0 399, s.2)) <$>
    (let* s := scope_run 0%Z [] in foldm (scope_frame 200) (s, 0) [((1, 2, 3), false); ((4, 5, 6), false); ((7, 8, 9), true)]%Z) =
    Some (Some (1, 1), Some (2, 2), Some (9, 9), Some (4, 4), 0%nat)%Z.
Proof. vm_compute. reflexivity. Qed.
