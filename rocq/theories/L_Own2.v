(** Ownership of buffers: installing programs, processing blocks and the whole engine *)
From Verif Require Import Base M_Atom M_Graph M_Dir M_Grid S_Grid M_Layout S_Layout M_Prog M_Conf M_Exec M_Sync M_Engine.
From Verif Require Import S_Conf S_Sync S_Prog S_Own L_Graph L_Grid L_Layout L_Conf L_Conf2 L_Sync L_Prog L_Build L_Fill L_Wire L_Own.
Open Scope nat_scope.
Local Opaque block_size.

(** state of the assignment loops: everything assigned so far points into the program *)
Record asg (inp out : list nat) (mods0 : list modop) (s : list (option nat) * list modop) : Prop := {
  as_len : length s.1 = length inp;
  as_same : (fun mo => (mo_buf mo, mo_amt mo)) <$> s.2 = (fun mo => (mo_buf mo, mo_amt mo)) <$> mods0;
  as_cur : forall i b, s.1 !! i = Some (Some b) -> b ∈ inp ++ out ++ (mo_buf <$> mods0);
  as_mods : Forall (fun mo => (mo_in mo = None /\ mo_out mo = None) \/
     exists x y, mo_in mo = Some x /\ x ∈ inp /\ mo_out mo = Some y /\ y ∈ out) s.2;
}.

Lemma asg_len inp out mods0 s : asg inp out mods0 s -> length s.2 = length mods0.
Proof. intros H. pose proof (f_equal length (as_same _ _ _ _ H)) as E. by rewrite !fmap_length in E. Qed.
Lemma asg_buf inp out mods0 s m mo : asg inp out mods0 s -> s.2 !! m = Some mo ->
  mo_buf mo ∈ mo_buf <$> mods0 /\ exists mo0, mods0 !! m = Some mo0 /\ mo_buf mo = mo_buf mo0 /\ mo_amt mo = mo_amt mo0.
Proof.
  intros H Hm. pose proof (f_equal (fun l => l !! m) (as_same _ _ _ _ H)) as E. cbn in E. rewrite !list_lookup_fmap, Hm in E.
  destruct (mods0 !! m) as [mo0|] eqn:E0; [|done]. cbn in E. injection E as E1 E2. split; [|by exists mo0].
  rewrite E1. apply elem_of_list_fmap_1. by eapply elem_of_list_lookup_2.
Qed.

Definition defined (cur : list (option nat)) (i : nat) : Prop := is_Some (mjoin (cur !! i)).

Lemma assign_input_asg inp out mods0 s io : asg inp out mods0 s ->
  entry_wf (length out) (length inp) (length mods0) io ->
  exists s', assign_input inp out s io = Some s' /\ asg inp out mods0 s' /\ (forall i, defined s.1 i -> defined s'.1 i).
Proof.
  intros Hs (H1 & H2 & H3). destruct s as [cur mods], io as [[oi ii] md]. cbn [fst snd] in *. unfold assign_input.
  destruct (lookup_lt_is_Some_2 _ _ H1) as [ob Hob]. rewrite Hob. cbn [mbind option_bind].
  pose proof (as_len _ _ _ _ Hs) as Hlen. cbn in Hlen.
  rewrite (proj2 (Nat.ltb_lt _ _)) by lia. cbn [negb].
  assert (Hdef : forall (c : list (option nat)) b i, defined c i -> defined (<[ii := Some b]> c) i).
  { intros c b i Hd. unfold defined in *. destruct (decide (i = ii)) as [->|Hne].
    - rewrite list_lookup_insert; [by eexists|]. destruct (c !! ii) eqn:E; [by eapply lookup_lt_Some|]. by destruct Hd.
    - by rewrite list_lookup_insert_ne. }
  pose proof (elem_of_list_lookup_2 _ _ _ Hob) as Hobin.
  destruct md as [m|].
  - pose proof (asg_len _ _ _ _ Hs) as Hml. cbn in Hml.
    destruct (lookup_lt_is_Some_2 mods m) as [mo Hmo]; [rewrite Hml; by apply H3|]. rewrite Hmo. cbn [mbind option_bind].
    destruct (lookup_lt_is_Some_2 _ _ H2) as [ib Hib]. rewrite Hib. cbn [mbind option_bind].
    pose proof (elem_of_list_lookup_2 _ _ _ Hib) as Hibin.
    eexists. split; [done|]. split; [|intros i Hi; by do 2 apply Hdef].
    destruct (asg_buf _ _ _ (cur, mods) m mo Hs Hmo) as [Hb _].
    destruct Hs as [S1 S2 S3 S4]. cbn in *. constructor; cbn.
    + by rewrite !insert_length.
    + rewrite <- S2. rewrite list_fmap_insert. rewrite list_insert_id; [done|]. by rewrite list_lookup_fmap, Hmo.
    + intros i b. destruct (decide (i = ii)) as [->|Hne].
      * rewrite list_lookup_insert by (rewrite insert_length; lia). intros [= <-]. rewrite !elem_of_app. by right; right.
      * rewrite !list_lookup_insert_ne by done. apply S3.
    + apply Forall_insert; [done|]. right. cbn. by exists ib, ob.
  - eexists. split; [done|]. split; [|intros i Hi; by apply Hdef]. destruct Hs as [S1 S2 S3 S4]. cbn in *. constructor; cbn; try done.
    + by rewrite insert_length.
    + intros i b. destruct (decide (i = ii)) as [->|Hne].
      * rewrite list_lookup_insert by lia. intros [= <-]. rewrite !elem_of_app. by right; left.
      * rewrite !list_lookup_insert_ne by done. apply S3.
Qed.

Lemma assign_op_asg inp out mods0 na s op : asg inp out mods0 s ->
  op_fits (length out) (length inp) na (length mods0) op ->
  exists s', assign_op inp out s op = Some s' /\ asg inp out mods0 s' /\ (forall i, defined s.1 i -> defined s'.1 i) /\
    (forall i, (op_in op).1 <= i < (op_in op).2 -> defined s'.1 i).
Proof.
  intros Hs Hop. unfold assign_op. pose proof (as_len _ _ _ _ Hs) as Hlen.
  destruct (copy_range_spec s.1 inp (op_in op)) as (cur1 & -> & L1 & C1); [done|rewrite Hlen; apply Hop|]. cbn [mbind option_bind].
  assert (H1 : asg inp out mods0 (cur1, s.2)).
  { destruct Hs as [S1 S2 S3 S4]. constructor; cbn; try done; [lia|]. intros i b Hi.
    assert (Hlt : i < length s.1) by (rewrite <- L1; by eapply lookup_lt_Some).
    rewrite C1 in Hi by done. destruct (decide _); [|by eapply S3]. injection Hi as Hi.
    rewrite elem_of_app. left. by eapply elem_of_list_lookup_2. }
  assert (D1 : forall i, defined s.1 i -> defined cur1 i).
  { intros i Hd. assert (Hlt : i < length s.1).
    { unfold defined in Hd. destruct (s.1 !! i) eqn:E; [by eapply lookup_lt_Some|]. by destruct Hd. }
    unfold defined. rewrite C1 by done. destruct (decide _); [|done].
    destruct (lookup_lt_is_Some_2 inp i) as [b ->]; [lia|]. by eexists. }
  assert (D2 : forall i, (op_in op).1 <= i < (op_in op).2 -> defined cur1 i).
  { intros i Hi. pose proof (of_in _ _ _ _ _ Hop) as [_ Hr]. unfold defined. rewrite C1 by lia. rewrite decide_True by done.
    destruct (lookup_lt_is_Some_2 inp i) as [b ->]; [lia|]. by eexists. }
  destruct (foldm_total (assign_input inp out) (fun s' => asg inp out mods0 s' /\ (forall i, defined cur1 i -> defined s'.1 i))
    (op_inputs op) (cur1, s.2)) as (s' & E & H2 & D3); [|done|].
  - intros s1 io Hio (A1 & A2). pose proof (proj1 (Forall_forall _ _) (of_ent _ _ _ _ _ Hop) io Hio) as Hw.
    destruct (assign_input_asg _ _ _ _ _ A1 Hw) as (s2 & E2 & A3 & A4). exists s2. split; [done|]. split; [done|]. auto.
  - exists s'. split; [done|]. split; [done|]. auto.
Qed.

Lemma assign_ops_asg inp out mods0 na ops s : asg inp out mods0 s ->
  Forall (op_fits (length out) (length inp) na (length mods0)) ops ->
  exists s', foldm (assign_op inp out) s ops = Some s' /\ asg inp out mods0 s' /\ (forall i, defined s.1 i -> defined s'.1 i) /\
    (forall op i, op ∈ ops -> (op_in op).1 <= i < (op_in op).2 -> defined s'.1 i).
Proof.
  intros Hs Hops. revert s Hs. induction Hops as [|op ops Ho Hops IH]; intros s Hs; cbn [foldm].
  - exists s. split; [done|]. split; [done|]. split; [done|]. intros op i Hx. by apply elem_of_nil in Hx.
  - destruct (assign_op_asg _ _ _ _ _ _ Hs Ho) as (s1 & -> & H1 & D1 & D2). cbn [mbind option_bind].
    destruct (IH s1 H1) as (s2 & -> & H2 & D3 & D4). exists s2. split; [done|]. split; [done|]. split; [auto|].
    intros o i. rewrite elem_of_cons. intros [->|Hx]; [auto|by apply D4].
Qed.

Lemma elem_omap_id {A} (l : list (option A)) (b : A) : b ∈ omap id l <-> exists i, l !! i = Some (Some b).
Proof.
  rewrite elem_of_list_omap. split.
  - intros (x & Hx & Hid). cbn in Hid. subst x. apply elem_of_list_lookup in Hx as [i Hi]. by exists i.
  - intros [i Hi]. exists (Some b). split; [by eapply elem_of_list_lookup_2|done].
Qed.

Lemma ready_assign p : ready p -> exists p', prog_assign p = Some p' /\ running p' /\ owned p' = owned p /\
  np_inp p' = np_inp p /\ np_params p' = np_params p /\ np_atoms p' = np_atoms p /\ np_ops p' = np_ops p /\
  mo_amt <$> np_mods p' = mo_amt <$> np_mods p.
Proof.
  intros Hr. unfold prog_assign.
  destruct (assign_ops_asg (np_inp p) (np_out p) (np_mods p) (length (np_atoms p)) (np_ops p) (np_cur p, np_mods p)) as ([cur mods] & -> & Ha & _ & Hd).
  - constructor; cbn.
    + rewrite (rd_cur _ Hr). by rewrite replicate_length.
    + done.
    + intros i b. rewrite (rd_cur _ Hr). intros [? _]%lookup_replicate. done.
    + eapply Forall_impl; [apply (rd_mods _ Hr)|]. cbn. intros mo [? ?]. by left.
  - apply Hr.
  - cbn [mbind option_bind]. eexists. split; [done|].
    pose proof (asg_len _ _ _ _ Ha) as Hml. pose proof Ha as [S1 S2 S3 S4]. cbn in *.
    assert (Hmb : mo_buf <$> mods = mo_buf <$> np_mods p).
    { apply (f_equal (fmap fst)) in S2. rewrite <- !list_fmap_compose in S2. exact S2. }
    split; [|split; [|split; [|split; [|split; [|split]]]]]; cbn; try done.
    + constructor; cbn; try done.
      * apply Hr.
      * apply Hr.
      * unfold pointers, owned. cbn. rewrite Hmb. intros b Hb. rewrite !elem_of_app. repeat rewrite elem_of_app in Hb.
        destruct Hb as [[Hb|[Hb|Hb]]|[Hb|[Hb|Hb]]]; try tauto.
        -- apply elem_omap_id in Hb as [i Hi]. apply S3 in Hi. rewrite !elem_of_app in Hi. tauto.
        -- apply elem_of_list_omap in Hb as (mo & Hmo & Hb). rewrite Forall_forall in S4.
           destruct (S4 mo Hmo) as [[? _]|(x & y & Hx & Hxi & _ & _)]; [congruence|]. rewrite Hx in Hb. injection Hb as <-. tauto.
        -- apply elem_of_list_omap in Hb as (mo & Hmo & Hb). rewrite Forall_forall in S4.
           destruct (S4 mo Hmo) as [[_ ?]|(x & y & _ & _ & Hy & Hyi)]; [congruence|]. rewrite Hy in Hb. injection Hb as <-. tauto.
      * eapply Forall_impl; [exact S4|]. cbn. intros mo [[-> ->]|(x & y & -> & _ & -> & _)]; split; intros [? ?]; by eexists.
      * rewrite Hml. apply Hr.
    + unfold owned. cbn. by rewrite Hmb.
    + apply (f_equal (fmap snd)) in S2. rewrite <- !list_fmap_compose in S2. exact S2.
Qed.

Lemma swap_zip_perm {A} (xs ys : list A) : (swap_zip xs ys).1 ++ (swap_zip xs ys).2 ≡ₚ xs ++ ys.
Proof.
  revert ys. induction xs as [|x xs IH]; intros [|y ys]; cbn; try done.
  specialize (IH ys). destruct (swap_zip xs ys) as [a b]. cbn in *.
  rewrite <- !Permutation_middle. rewrite IH. apply perm_swap.
Qed.

Lemma unlock_owned p : owned (prog_unlock p) = owned p.
Proof. unfold owned. cbn. by rewrite <- list_fmap_compose. Qed.

Lemma prog_swap_owned p prev : np_locked p = false ->
  exists inp prev', prog_swap p prev = (with_inp p inp, prev') /\ length inp = length (np_inp p) /\
    owned (with_inp p inp) ++ owned prev' ≡ₚ owned p ++ owned prev.
Proof.
  intros Hu. unfold prog_swap. rewrite Hu. set (prev1 := if np_locked prev then prog_unlock prev else prev).
  assert (Ho : owned prev1 = owned prev) by (unfold prev1; destruct (np_locked prev); [apply unlock_owned|done]).
  pose proof (swap_zip_perm (np_inp prev1) (np_inp p)) as Hp. pose proof (swap_zip_length (np_inp prev1) (np_inp p)) as [_ Hl].
  destruct (swap_zip (np_inp prev1) (np_inp p)) as [a b]. cbn in *. exists b, (with_inp prev1 a). split; [done|]. split; [done|].
  rewrite <- Ho. unfold owned. cbn.
  transitivity (a ++ b ++ (np_out p ++ (mo_buf <$> np_mods p)) ++ (np_out prev1 ++ (mo_buf <$> np_mods prev1))); [solve_Permutation|].
  rewrite (app_assoc a b). rewrite Hp. solve_Permutation.
Qed.

Section exec.
  Context (finc : f32 -> f32 -> nat -> f32).

  Lemma ready_with_inp p inp : ready p -> length inp = length (np_inp p) -> ready (with_inp p inp).
  Proof. intros [] Hl. constructor; cbn; try done; congruence. Qed.

  (** installing a program never fails and hands back the previous one *)
  Lemma install_own h e p copy l : hok h (owned p ++ owned (ex_prog e) ++ l) -> ready p ->
    exists h' p' prev inp, exec_message finc h e (MNewProg p copy) = Some (h', Exec p' (ex_sm e) (ex_refresh e) [], [prev]) /\
      hok h' (owned p' ++ owned prev ++ l) /\ running p' /\
      np_inp p' = inp /\ length inp = length (np_inp p) /\ np_params p' = np_params p /\ np_atoms p' = np_atoms p /\
      np_ops p' = np_ops p /\ mo_amt <$> np_mods p' = mo_amt <$> np_mods p.
  Proof.
    intros Hh Hr. unfold exec_message, prog_init_inputs.
    destruct (fill_from_hok (np_params p) (np_inp p) h _ Hh) as (h1 & -> & H1).
    - intros b Hb. unfold owned. rewrite !elem_of_app. tauto.
    - by rewrite (rd_par _ Hr).
    - cbn [mbind option_bind].
      assert (Hsw : exists inp prev', (if copy then prog_swap p (ex_prog e) else (p, ex_prog e)) = (with_inp p inp, prev') /\
        length inp = length (np_inp p) /\ owned (with_inp p inp) ++ owned prev' ≡ₚ owned p ++ owned (ex_prog e)).
      { destruct copy; [by apply prog_swap_owned, Hr|]. exists (np_inp p), (ex_prog e). split; [by destruct p|done]. }
      destruct Hsw as (inp & prev' & -> & Hlen & Hperm).
      destruct (ready_assign _ (ready_with_inp _ _ Hr Hlen)) as (p' & -> & Hrun & Ho & Hi & Hp & Ha & Hops & Hm).
      cbn [mbind option_bind]. eexists h1, p', prev', inp. split; [done|]. split; [|by rewrite Hi].
      eapply hok_perm; [|exact H1]. rewrite Ho, !app_assoc. by rewrite Hperm.
  Qed.

  (** messages that change only values *)
  Definition same_shape (p p' : nprog) : Prop :=
    np_inp p' = np_inp p /\ np_cur p' = np_cur p /\ np_out p' = np_out p /\ np_ops p' = np_ops p /\
    length (np_params p') = length (np_params p) /\ length (np_atoms p') = length (np_atoms p) /\
    length (np_fb p') = length (np_fb p) /\ mo_ptrs <$> np_mods p' = mo_ptrs <$> np_mods p.

  Lemma same_shape_refl p : same_shape p p.
  Proof. done. Qed.
  Lemma same_shape_trans p q r : same_shape p q -> same_shape q r -> same_shape p r.
  Proof. unfold same_shape. intros (? & ? & ? & ? & ? & ? & ? & ?) (? & ? & ? & ? & ? & ? & ? & ?). split_and!; congruence. Qed.

  Lemma ptrs_fmap {B} (f : nat * option nat * option nat -> B) (ms ms' : list modop) : mo_ptrs <$> ms' = mo_ptrs <$> ms ->
    (fun mo => f (mo_ptrs mo)) <$> ms' = (fun mo => f (mo_ptrs mo)) <$> ms.
  Proof. intros E. apply (f_equal (fmap f)) in E. rewrite <- !list_fmap_compose in E. exact E. Qed.
  Lemma omap_fmap' {A B C} (g : A -> B) (f : B -> option C) (l : list A) : omap f (g <$> l) = omap (fun x => f (g x)) l.
  Proof. induction l as [|x l IH]; [done|]. cbn. by rewrite IH. Qed.

  Lemma same_shape_owned p p' : same_shape p p' -> owned p' = owned p /\ pointers p' = pointers p.
  Proof.
    intros (E1 & E2 & E3 & _ & _ & _ & _ & E4).
    assert (E5 : mo_buf <$> np_mods p' = mo_buf <$> np_mods p) by exact (ptrs_fmap (fun x => x.1.1) _ _ E4).
    assert (E6 : omap mo_in (np_mods p') = omap mo_in (np_mods p)).
    { pose proof (f_equal (omap (fun x => x.2)) E4) as E. by rewrite !omap_fmap' in E. }
    assert (E7 : omap mo_out (np_mods p') = omap mo_out (np_mods p)).
    { pose proof (f_equal (omap (fun x => x.1.2)) E4) as E. by rewrite !omap_fmap' in E. }
    unfold pointers, owned. rewrite E1, E2, E3, E6, E7. by rewrite E5.
  Qed.
  Lemma same_shape_running p p' : same_shape p p' -> running p -> running p'.
  Proof.
    intros Hs Hr. destruct (same_shape_owned _ _ Hs) as [Ho Hp]. destruct Hs as (E1 & E2 & E3 & E4 & E5 & E6 & E7 & E8).
    pose proof (f_equal length E8) as E9. rewrite !fmap_length in E9. destruct Hr as [R1 R2 R3 R4 R5 R6 R7]. constructor.
    - by rewrite E1, E2.
    - by rewrite E1, E5.
    - by rewrite E3, E7.
    - by rewrite Ho, Hp.
    - assert (Hf : Forall (fun x : nat * option nat * option nat => is_Some x.2 <-> is_Some x.1.2) (mo_ptrs <$> np_mods p)) by (by apply Forall_fmap).
      rewrite <- E8 in Hf. apply Forall_fmap in Hf. exact Hf.
    - by rewrite E2, E4.
    - by rewrite E1, E3, E4, E6, E9.
  Qed.

  Lemma set_param_prog e i v : ex_prog (exec_set_param finc e i v) = ex_prog e.
  Proof.
    unfold exec_set_param. destruct (_ !! i); [|done]. destruct (find_idx _ _); [done|]. by destruct (find_idx _ _).
  Qed.

  Lemma message_own h e m l : hok h (mjoin (owned <$> msg_progs m) ++ owned (ex_prog e) ++ l) -> running (ex_prog e) ->
    (forall p, p ∈ msg_progs m -> ready p) -> (forall p, m = MClear p -> p = prog_empty) ->
    (forall i a, m = MAtom i a -> i < length (np_atoms (ex_prog e))) ->
    exists h' e' t, exec_message finc h e m = Some (h', e', t) /\ running (ex_prog e') /\
      hok h' (owned (ex_prog e') ++ mjoin (owned <$> t) ++ l).
  Proof.
    intros Hh Hrun Hready Hclear Hat. destruct m as [p|p copy|i a|i v|i a|bufs]; cbn [msg_progs fmap list_fmap mjoin list_join] in *.
    - rewrite (Hclear p eq_refl) in *. cbn [exec_message]. eexists _, _, _. split; [done|]. cbn. split; [apply running_empty|].
      rewrite app_nil_r. exact Hh.
    - rewrite app_nil_r in Hh. destruct (install_own h e p copy l Hh) as (h' & p' & prev & inp & -> & H1 & H2 & _); [apply Hready; left|].
      eexists _, _, _. split; [done|]. cbn. split; [done|]. by rewrite app_nil_r.
    - cbn [exec_message]. rewrite (proj2 (Nat.ltb_lt _ _)) by (by eapply Hat). eexists _, _, _. split; [done|]. cbn [ex_prog with_prog fmap list_fmap mjoin list_join app].
      assert (Hs : same_shape (ex_prog e) (prog_with_atoms (ex_prog e) (<[i := a]> (np_atoms (ex_prog e))))).
      { unfold same_shape. cbn. by rewrite insert_length. }
      destruct (same_shape_owned _ _ Hs) as [-> _]. split; [by eapply same_shape_running|done].
    - cbn [exec_message]. eexists _, _, _. split; [done|]. rewrite set_param_prog. done.
    - cbn [exec_message]. eexists _, _, _. split; [done|]. unfold exec_set_modamt.
      destruct (np_mods (ex_prog e) !! i) as [mo|] eqn:Em; [|done]. cbn [ex_prog with_prog fmap list_fmap mjoin list_join app].
      assert (Hs : same_shape (ex_prog e) (prog_with_mods (ex_prog e) (<[i := modop_set_amt mo a]> (np_mods (ex_prog e))))).
      { unfold same_shape. cbn. rewrite list_fmap_insert. split_and!; try done. rewrite list_insert_id; [done|].
        by rewrite list_lookup_fmap, Em. }
      destruct (same_shape_owned _ _ Hs) as [-> _]. split; [by eapply same_shape_running|done].
    - cbn [exec_message]. eexists _, _, _. done.
  Qed.
End exec.
