From Verif Require Import Base M_Atom M_Prog M_Grid M_Conf S_Conf.
Open Scope nat_scope.

Lemma foldm_app {S X} (f : S -> X -> option S) s xs ys :
  foldm f s (xs ++ ys) = let* s := foldm f s xs in foldm f s ys.
Proof.
  revert s; induction xs as [|x xs IH]; intros s; [done|]. cbn.
  destruct (f s x); cbn; [apply IH|done].
Qed.

Lemma foldm_inv {S X} (f : S -> X -> option S) (P : S -> Prop) xs s s' :
  (forall s x s', x ∈ xs -> P s -> f s x = Some s' -> P s') ->
  P s -> foldm f s xs = Some s' -> P s'.
Proof.
  revert s; induction xs as [|x xs IH]; intros s Hs HP; cbn; [by intros [= <-]|].
  destruct (f s x) as [s1|] eqn:E; cbn; [|done]. intros H.
  eapply IH; [|by eapply Hs; [left| |]|exact H]. intros; eapply Hs; [by right| |]; eauto.
Qed.

Lemma foldm_total {S X} (f : S -> X -> option S) (P : S -> Prop) xs s :
  (forall s x, x ∈ xs -> P s -> exists s', f s x = Some s' /\ P s') ->
  P s -> exists s', foldm f s xs = Some s' /\ P s'.
Proof.
  revert s; induction xs as [|x xs IH]; intros s Hs HP; cbn; [eauto|].
  destruct (Hs s x) as (s1 & -> & HP1); [left|done|]. cbn. apply IH; [|done].
  intros; apply Hs; [by right|done].
Qed.

Section conf.
  Context (T : ntable).

  (** number of modulated inputs below [j] *)
  Fixpoint rank (modamt : gmap pid (option f32)) (id : node_id) (j : nat) : nat :=
    match j with
    | 0 => 0
    | S j => rank modamt id j + match mjoin (modamt !! (id, j)) with Some _ => 1 | None => 0 end
    end.

  Definition pval_of (pv : gmap pid f32) (id : node_id) (j : nat) : f32 :=
    default (nt_def T (nid_kind id) j) (pv !! (id, j)).

  Definition mod_entry (modamt : gmap pid (option f32)) (id : node_id) (m0 j : nat) : option nat :=
    match mjoin (modamt !! (id, j)) with Some _ => Some (m0 + rank modamt id j) | None => None end.

  Lemma rank_mono modamt id j j' : j <= j' -> rank modamt id j <= rank modamt id j'.
  Proof. induction 1; cbn; lia. Qed.

  Lemma rank_lt modamt id j j' a :
    mjoin (modamt !! (id, j)) = Some a -> j < j' -> rank modamt id j < rank modamt id j'.
  Proof.
    intros E Hl. assert (rank modamt id (S j) <= rank modamt id j') by (apply rank_mono; lia).
    cbn in H. rewrite E in H. cbn in H. lia.
  Qed.

  (** the input loop of one node in closed form *)
  Lemma rebuild_inputs_spec modamt id start s n :
    n <= max_node_inputs ->
    exists s' map,
      foldm (rebuild_input T modamt id start) (s, replicate max_node_inputs None) (seq 0 n) = Some (s', map) /\
      rs_mod s' = rs_mod s + rank modamt id n /\
      length map = max_node_inputs /\
      (forall j, j < n -> map !! j = Some (mod_entry modamt id (rs_mod s) j)) /\
      (forall j, n <= j < max_node_inputs -> map !! j = Some None) /\
      (forall j, j < n -> rs_params s' !! (id, j) =
         Some (NParam (start + j) (pval_of (rs_pvals s) id j)
           (match mjoin (modamt !! (id, j)) with
            | Some a => Some (rs_mod s + rank modamt id j, a) | None => None end))) /\
      (forall p : pid, p.1 <> id \/ n <= p.2 -> rs_params s' !! p = rs_params s !! p) /\
      (forall j, j < n -> rs_pvals s' !! (id, j) = Some (pval_of (rs_pvals s) id j)) /\
      (forall p : pid, p.1 <> id \/ n <= p.2 -> rs_pvals s' !! p = rs_pvals s !! p).
  Proof.
    induction n as [|n IH]; intros Hn.
    - cbn [seq foldm]. eexists _, _. split; [done|]. cbn [rank].
      repeat split; try done; try lia.
      intros j Hj. apply lookup_replicate_2. lia.
    - destruct IH as (s1 & map1 & E & Hmod & Hlen & Hm1 & Hm2 & Hp1 & Hp2 & Hv1 & Hv2); [lia|].
      rewrite seq_S, foldm_app, E. cbn [mbind option_bind foldm].
      assert (Hpv : default (nt_def T (nid_kind id) n) (rs_pvals s1 !! (id, n)) = pval_of (rs_pvals s) id n).
      { unfold pval_of. rewrite (Hv2 (id, n)) by (right; cbn; lia). done. }
      unfold rebuild_input at 1. cbn [Nat.add].
      rewrite Hpv. destruct (mjoin (modamt !! (id, n))) as [a|] eqn:Ea.
      + destruct (Nat.ltb_spec n (length map1)); [|rewrite Hlen in *; lia].
        cbn [mbind option_bind]. eexists _, _. split; [done|]. cbn [rs_mod rs_params rs_pvals].
        assert (Hrk : rank modamt id (S n) = S (rank modamt id n)) by (cbn; rewrite Ea; cbn; lia).
        split; [rewrite Hrk; lia|]. split; [by rewrite insert_length|].
        split. { intros j Hj. destruct (decide (j = n)) as [->|].
          - rewrite list_lookup_insert by lia. unfold mod_entry. rewrite Ea. f_equal. f_equal. lia.
          - rewrite list_lookup_insert_ne by done. apply Hm1. lia. }
        split. { intros j Hj. rewrite list_lookup_insert_ne by lia. apply Hm2. lia. }
        split. { intros j Hj. destruct (decide (j = n)) as [->|].
          - rewrite lookup_insert, Ea. by rewrite Hmod.
          - rewrite lookup_insert_ne by congruence. apply Hp1. lia. }
        split. { intros [q1 q2] Hq. cbn in Hq. rewrite lookup_insert_ne by (intros [= <- <-]; lia || naive_solver lia).
          apply Hp2. cbn. destruct Hq; [by left|right; lia]. }
        split. { intros j Hj. destruct (decide (j = n)) as [->|].
          - by rewrite lookup_insert.
          - rewrite lookup_insert_ne by congruence. apply Hv1. lia. }
        intros [q1 q2] Hq. cbn in Hq. rewrite lookup_insert_ne by (intros [= <- <-]; lia || naive_solver lia).
        apply Hv2. cbn. destruct Hq; [by left|right; lia].
      + cbn [mbind option_bind]. eexists _, _. split; [done|]. cbn [rs_mod rs_params rs_pvals].
        assert (Hrk : rank modamt id (S n) = rank modamt id n) by (cbn; rewrite Ea; cbn; lia).
        split; [rewrite Hrk; lia|]. split; [done|].
        split. { intros j Hj. destruct (decide (j = n)) as [->|].
          - rewrite Hm2 by lia. unfold mod_entry. by rewrite Ea.
          - apply Hm1. lia. }
        split. { intros j Hj. apply Hm2. lia. }
        split. { intros j Hj. destruct (decide (j = n)) as [->|].
          - by rewrite lookup_insert, Ea.
          - rewrite lookup_insert_ne by congruence. apply Hp1. lia. }
        split. { intros [q1 q2] Hq. cbn in Hq. rewrite lookup_insert_ne by (intros [= <- <-]; lia || naive_solver lia).
          apply Hp2. cbn. destruct Hq; [by left|right; lia]. }
        split. { intros j Hj. destruct (decide (j = n)) as [->|].
          - by rewrite lookup_insert.
          - rewrite lookup_insert_ne by congruence. apply Hv1. lia. }
        intros [q1 q2] Hq. cbn in Hq. rewrite lookup_insert_ne by (intros [= <- <-]; lia || naive_solver lia).
        apply Hv2. cbn. destruct Hq; [by left|right; lia].
  Qed.

  Definition aval_of (av : gmap pid satom) (id : node_id) (j : nat) : satom :=
    default (nt_adef T (nid_kind id) j) (av !! (id, nt_at_id T (nid_kind id) j)).

  (** the atom loop in closed form *)
  Lemma rebuild_atoms_spec (HT : table_ok T) id start ats n :
    n <= nt_ats T (nid_kind id) ->
    let r := foldl (rebuild_atom T id start) ats (seq 0 n) in
    (forall j, j < n -> r.1 !! (id, nt_at_id T (nid_kind id) j) = Some (NAtom (start + j) (aval_of ats.2 id j))) /\
    (forall p : pid, (forall j, j < n -> p <> (id, nt_at_id T (nid_kind id) j)) -> r.1 !! p = ats.1 !! p) /\
    (forall j, j < n -> r.2 !! (id, nt_at_id T (nid_kind id) j) = Some (aval_of ats.2 id j)) /\
    (forall p : pid, (forall j, j < n -> p <> (id, nt_at_id T (nid_kind id) j)) -> r.2 !! p = ats.2 !! p).
  Proof.
    induction n as [|n IH]; intros Hn; [cbn; repeat split; intros; lia || done|].
    destruct IH as (H1 & H2 & H3 & H4); [lia|].
    rewrite seq_S, foldl_app. cbn [Nat.add foldl].
    set (r := foldl (rebuild_atom T id start) ats (seq 0 n)) in *. cbn zeta.
    unfold rebuild_atom at 1 2 3 4. cbn [fst snd].
    assert (Hne : forall j, j < n -> nt_at_id T (nid_kind id) n <> nt_at_id T (nid_kind id) j).
    { intros j Hj E. apply (tok_at_inj T HT) in E; lia. }
    assert (Hv : default (nt_adef T (nid_kind id) n) (r.2 !! (id, nt_at_id T (nid_kind id) n)) = aval_of ats.2 id n).
    { unfold aval_of. rewrite H4; [done|]. intros j Hj [= E]. by apply (Hne j). }
    rewrite Hv. split; [|split; [|split]].
    - intros j Hj. destruct (decide (j = n)) as [->|]; [by rewrite lookup_insert|].
      rewrite lookup_insert_ne by (intros [= E]; apply (Hne j); [lia|done]). apply H1. lia.
    - intros p Hp. rewrite lookup_insert_ne by (intros <-; by apply (Hp n); [lia|]).
      apply H2. intros; apply Hp; lia.
    - intros j Hj. destruct (decide (j = n)) as [->|]; [by rewrite lookup_insert|].
      rewrite lookup_insert_ne by (intros [= E]; apply (Hne j); [lia|done]). apply H3. lia.
    - intros p Hp. rewrite lookup_insert_ne by (intros <-; by apply (Hp n); [lia|]).
      apply H4. intros; apply Hp; lia.
  Qed.

  (** ** Lengths before node number [i] *)
  Definition psum (f : node_id -> nat) (ns : list node_id) (i : nat) : nat := sum_list (f <$> take i ns).

  Lemma psum_S f ns i n : ns !! i = Some n -> psum f ns (S i) = psum f ns i + f n.
  Proof.
    intros H. unfold psum. rewrite (take_S_r _ _ _ H), fmap_app.
    induction (take i ns) as [|x l IH]; cbn; [lia|]. cbn in IH. lia.
  Qed.

  Lemma psum_cons f n ns i : psum f (n :: ns) (S i) = f n + psum f ns i.
  Proof. reflexivity. Qed.
  Lemma psum_0 f ns : psum f ns 0 = 0.
  Proof. reflexivity. Qed.

  Definition n_outs (id : node_id) := nt_outs T (nid_kind id).
  Definition n_ins (id : node_id) := nt_ins T (nid_kind id).
  Definition n_ats (id : node_id) := nt_ats T (nid_kind id).
  Definition n_mods (modamt : gmap pid (option f32)) (id : node_id) := rank modamt id (n_ins id).

  Record inst_ok (modamt : gmap pid (option f32)) (ids : list node_id) (i : nat) (l : rlens) (m j : nat)
      (id : node_id) (ni : ninst) : Prop := {
    io_id : ni_id ni = id;
    io_used : ni_used ni = false;
    io_idx : ni_idx ni = i + j;
    io_out : ni_out ni = (rl_out l + psum n_outs ids j, rl_out l + psum n_outs ids j + n_outs id);
    io_in : ni_in ni = (rl_in l + psum n_ins ids j, rl_in l + psum n_ins ids j + n_ins id);
    io_at : ni_at ni = (rl_at l + psum n_ats ids j, rl_at l + psum n_ats ids j + n_ats id);
    io_mod : ni_mod ni = (m + psum (n_mods modamt) ids j, m + psum (n_mods modamt) ids j + n_mods modamt id);
    io_len : length (ni_map ni) = max_node_inputs;
    io_map : forall q, q < n_ins id ->
      ni_map ni !! q = Some (mod_entry modamt id (m + psum (n_mods modamt) ids j) q);
    io_map_out : forall q, n_ins id <= q < max_node_inputs -> ni_map ni !! q = Some None;
  }.

  Lemma rebuild_nodes_spec (HT : table_ok T) modamt ns : Forall (fun n => n.1 <> Nop) ns ->
    forall i l s ats,
    exists l2 s2 ats2 ns2, rebuild_nodes T modamt i l s ats ns = Some (l2, s2, ats2, ns2) /\
    (rl_out l2 = rl_out l + psum n_outs (ns.*1) (length ns) /\
     rl_in l2 = rl_in l + psum n_ins (ns.*1) (length ns) /\
     rl_at l2 = rl_at l + psum n_ats (ns.*1) (length ns) /\
     rs_mod s2 = rs_mod s + psum (n_mods modamt) (ns.*1) (length ns)) /\
    (ns2.*1) = (ns.*1) /\
    (forall j id, (ns.*1) !! j = Some id -> exists ni, ns2 !! j = Some (id, Some ni) /\
       inst_ok modamt (ns.*1) i l (rs_mod s) j id ni) /\
    (* parameters *)
    (NoDup (ns.*1) -> forall j id q, (ns.*1) !! j = Some id -> q < n_ins id ->
       rs_params s2 !! (id, q) =
         Some (NParam (rl_in l + psum n_ins (ns.*1) j + q) (pval_of (rs_pvals s) id q)
           (match mjoin (modamt !! (id, q)) with
            | Some a => Some (rs_mod s + psum (n_mods modamt) (ns.*1) j + rank modamt id q, a)
            | None => None end))) /\
    (forall p : pid, p.1 ∉ (ns.*1) \/ n_ins p.1 <= p.2 -> rs_params s2 !! p = rs_params s !! p) /\
    (forall p : pid, p.1 ∈ (ns.*1) -> p.2 < n_ins p.1 -> is_Some (rs_params s2 !! p)) /\
    (forall id q, id ∈ (ns.*1) -> q < n_ins id -> rs_pvals s2 !! (id, q) = Some (pval_of (rs_pvals s) id q)) /\
    (forall p : pid, p.1 ∉ (ns.*1) \/ n_ins p.1 <= p.2 -> rs_pvals s2 !! p = rs_pvals s !! p) /\
    (* atoms *)
    (NoDup (ns.*1) -> forall j id q, (ns.*1) !! j = Some id -> q < n_ats id ->
       ats2.1 !! (id, nt_at_id T (nid_kind id) q) =
         Some (NAtom (rl_at l + psum n_ats (ns.*1) j + q) (aval_of ats.2 id q))) /\
    (forall p : pid, p.1 ∉ (ns.*1) \/ (forall q, q < n_ats p.1 -> p.2 <> nt_at_id T (nid_kind p.1) q) ->
       ats2.1 !! p = ats.1 !! p) /\
    (forall id q, id ∈ (ns.*1) -> q < n_ats id -> is_Some (ats2.1 !! (id, nt_at_id T (nid_kind id) q))) /\
    (forall id q, id ∈ (ns.*1) -> q < n_ats id ->
       ats2.2 !! (id, nt_at_id T (nid_kind id) q) = Some (aval_of ats.2 id q)) /\
    (forall p : pid, p.1 ∉ (ns.*1) \/ (forall q, q < n_ats p.1 -> p.2 <> nt_at_id T (nid_kind p.1) q) ->
       ats2.2 !! p = ats.2 !! p).
  Proof.
    induction 1 as [|[id old] ns Hne Hnop IH]; intros i l s ats.
    - cbn [rebuild_nodes]. eexists _, _, _, _. split; [done|]. cbn.
      repeat split; try lia; try done; try (intros; set_solver || done).
    - cbn in Hne. cbn [rebuild_nodes].
      rewrite (decide_False _ _ Hne) || (destruct (decide (id = Nop)); [done|]).
      destruct (rebuild_inputs_spec modamt id (rl_in l) s (nt_ins T (nid_kind id)) (tok_ins T HT _))
        as (s1 & map & E & Hmod & Hlen & Hm1 & Hm2 & Hp1 & Hp2 & Hv1 & Hv2).
      rewrite E. cbn [mbind option_bind].
      pose proof (rebuild_atoms_spec HT id (rl_at l) ats (nt_ats T (nid_kind id)) (le_n _)) as Hats.
      cbn zeta in Hats.
      set (ats1 := foldl (rebuild_atom T id (rl_at l)) ats (seq 0 (nt_ats T (nid_kind id)))) in *.
      destruct Hats as (Ha1 & Ha2 & Ha3 & Ha4).
      set (l1 := RLens (rl_out l + nt_outs T (nid_kind id)) (rl_in l + nt_ins T (nid_kind id))
                       (rl_at l + nt_ats T (nid_kind id))).
      destruct (IH (S i) l1 s1 ats1) as (l2 & s2 & ats2 & ns2 & E2 & (L1 & L2 & L3 & L4) & Hids & Hin &
        P1 & P2 & P2' & V1 & V2 & A1 & A2 & A2' & B1 & B2).
      rewrite E2. cbn [mbind option_bind].
      eexists _, _, _, _. split; [done|]. cbn [fmap list_fmap length fst].
      rewrite !psum_cons.
      assert (Eo : n_outs id = nt_outs T (nid_kind id)) by done.
      assert (Ei : n_ins id = nt_ins T (nid_kind id)) by done.
      assert (Ea : n_ats id = nt_ats T (nid_kind id)) by done.
      assert (Em : n_mods modamt id = rank modamt id (nt_ins T (nid_kind id))) by done.
      assert (Hpv : forall q, pval_of (rs_pvals s1) id q = pval_of (rs_pvals s) id q).
      { intros q. unfold pval_of. destruct (decide (q < nt_ins T (nid_kind id))) as [Hq|Hq].
        - by rewrite Hv1 by done.
        - rewrite Hv2; [done|]. right. cbn. lia. }
      assert (Hpv' : forall id' q, pval_of (rs_pvals s1) id' q = pval_of (rs_pvals s) id' q).
      { intros id' q. destruct (decide (id' = id)) as [->|]; [apply Hpv|].
        unfold pval_of. rewrite Hv2; [done|]. by left. }
      assert (Hav' : forall id' q, q < n_ats id' -> aval_of ats1.2 id' q = aval_of ats.2 id' q).
      { intros id' q Hq. unfold aval_of. destruct (decide (id' = id)) as [->|].
        - by rewrite Ha3 by done.
        - rewrite Ha4; [done|]. intros j _ [= ? _]. done. }
      split.
      { cbn in L1, L2, L3. repeat split; lia. }
      split; [cbn; by rewrite Hids|].
      split.
      { intros [|j] id'; cbn [lookup list_lookup].
        - intros [= <-]. eexists. split; [done|].
          constructor; cbn [ni_id ni_used ni_idx ni_out ni_in ni_at ni_mod ni_map]; rewrite ?psum_0, ?Nat.add_0_r; try done.
          by rewrite Hmod.
        - intros Hj. destruct (Hin j id' Hj) as (ni & Hni & [? ? ? ? ? ? ? ? Hmq Hmo]).
          exists ni. split; [done|]. rewrite Hmod in *. cbn [l1 rl_out rl_in rl_at] in *.
          constructor; rewrite ?psum_cons; try done.
          + lia.
          + rewrite io_out0; f_equal; lia.
          + rewrite io_in0; f_equal; lia.
          + rewrite io_at0; f_equal; lia.
          + rewrite io_mod0; f_equal; lia.
          + intros q Hq. rewrite Hmq by done. do 2 f_equal. lia. }
      split.
      { intros Hnd [|j] id' q; cbn [lookup list_lookup].
        - intros [= <-] Hq. apply NoDup_cons in Hnd as [Hni _].
          rewrite P2 by (left; done). rewrite Hp1 by done. rewrite psum_0, Nat.add_0_r.
          rewrite Nat.add_0_r. done.
        - intros Hj Hq. apply NoDup_cons in Hnd as [_ Hnd]. rewrite (P1 Hnd j id' q Hj Hq).
          rewrite Hpv', Hmod. rewrite !psum_cons. cbn [l1 rl_in].
          destruct (mjoin (modamt !! (id', q))); do 2 f_equal; try lia.
          f_equal. f_equal. lia. }
      split.
      { intros p Hp. rewrite P2 by (destruct Hp as [Hp|Hp]; [left; set_solver|by right]).
        apply Hp2. destruct Hp as [Hp|Hp]; [left; set_solver|].
        destruct (decide (p.1 = id)) as [<-|]; [by right|by left]. }
      split.
      { intros p Hp Hq. destruct (decide (p.1 ∈ (ns.*1))) as [Hi|Hi]; [by apply P2'|].
        rewrite P2 by (by left). assert (p.1 = id) as Hpe by set_solver.
        destruct p as [p1 p2]. cbn in *. subst p1. rewrite Hp1 by done. by eexists. }
      split.
      { intros id' q Hi Hq. destruct (decide (id' ∈ (ns.*1))) as [Hi'|Hi'].
        - rewrite V1 by done. by rewrite Hpv'.
        - rewrite V2 by (by left). assert (id' = id) as -> by set_solver. by apply Hv1. }
      split.
      { intros p Hp. rewrite V2 by (destruct Hp as [Hp|Hp]; [left; set_solver|by right]).
        apply Hv2. destruct Hp as [Hp|Hp]; [left; set_solver|].
        destruct (decide (p.1 = id)) as [<-|]; [by right|by left]. }
      split.
      { intros Hnd [|j] id' q; cbn [lookup list_lookup].
        - intros [= <-] Hq. apply NoDup_cons in Hnd as [Hni _].
          rewrite A2 by (left; done). rewrite Ha1 by done. by rewrite psum_0, Nat.add_0_r.
        - intros Hj Hq. apply NoDup_cons in Hnd as [_ Hnd]. rewrite (A1 Hnd j id' q Hj Hq).
          rewrite Hav' by done. rewrite psum_cons. cbn [l1 rl_at].
          do 2 f_equal. lia. }
      assert (Hside : forall p : pid, p.1 ∉ id :: (ns.*1) \/ (forall q, q < n_ats p.1 -> p.2 <> nt_at_id T (nid_kind p.1) q) ->
        forall j, j < nt_ats T (nid_kind id) -> p <> (id, nt_at_id T (nid_kind id) j)).
      { intros p Hp j Hj ->. cbn in Hp. destruct Hp as [Hp|Hp]; [set_solver|]. by apply (Hp j). }
      split.
      { intros p Hp. rewrite A2 by (destruct Hp as [Hp|Hp]; [left; set_solver|by right]).
        apply Ha2. by apply Hside. }
      split.
      { intros id' q Hi Hq. destruct (decide (id' ∈ (ns.*1))) as [Hi'|Hi']; [by apply A2'|].
        rewrite A2 by (by left). assert (id' = id) as -> by set_solver. rewrite Ha1 by done. by eexists. }
      split.
      { intros id' q Hi Hq. destruct (decide (id' ∈ (ns.*1))) as [Hi'|Hi'].
        - rewrite B1 by done. by rewrite Hav'.
        - rewrite B2 by (by left). assert (id' = id) as -> by set_solver. by apply Ha3. }
      intros p Hp. rewrite B2 by (destruct Hp as [Hp|Hp]; [left; set_solver|by right]).
      apply Ha4. by apply Hside.
  Qed.
  (** ** Invariant of the configuration *)
  Record conf_inv (c : nconf) : Prop := {
    ci_nop : Forall (fun n => n.1 <> Nop) (cf_nodes c);
    ci_idx : forall n i, cf_idx c !! n = Some i -> exists oi, cf_nodes c !! i = Some (n, oi) /\
               forall ni, oi = Some ni -> ni_id ni = n;
    ci_dom : forall i n oi, cf_nodes c !! i = Some (n, oi) -> is_Some (cf_idx c !! n);
    ci_pvals : forall p, is_Some (cf_pvals c !! p) -> is_atom T p = false;
    ci_avals : forall p, is_Some (cf_avals c !! p) -> is_atom T p = true;
    ci_params : forall p, is_Some (cf_params c !! p) -> is_atom T p = false;
  }.

  Lemma conf_new_inv : conf_inv conf_new.
  Proof. constructor; cbn; try done. all: intros p [? H]; by rewrite lookup_empty in H. Qed.

  Lemma is_atom_input (p : pid) : p.2 < n_ins p.1 -> is_atom T p = false.
  Proof. intros H. unfold is_atom. destruct (Nat.ltb_spec p.2 (nt_ins T (nid_kind p.1))); [done|]. unfold n_ins in H; lia. Qed.

  Lemma is_atom_atom (HT : table_ok T) id q : q < n_ats id -> is_atom T (id, nt_at_id T (nid_kind id) q) = true.
  Proof.
    intros H. unfold is_atom. cbn [fst snd]. pose proof (tok_at_ge T HT (nid_kind id) q H).
    destruct (Nat.ltb_spec (nt_at_id T (nid_kind id) q) (nt_ins T (nid_kind id))); [lia|]. cbn.
    apply existsb_exists. exists q. split; [|by rewrite Nat.eqb_refl].
    apply in_seq. unfold n_ats in H. lia.
  Qed.

  Lemma conf_rebuild_spec (HT : table_ok T) h c : conf_inv c ->
    exists h' c' p, conf_rebuild T h c = Some (h', c', p) /\
    (let ids := (cf_nodes c).*1 in let N := length (cf_nodes c) in
    prog_new h (psum n_outs ids N) (psum n_ins ids N) (psum n_ats ids N)
       (psum (n_mods (cf_modamt c)) ids N) = (h', p) /\
    (cf_nodes c').*1 = ids /\ cf_idx c' = cf_idx c /\ cf_modamt c' = cf_modamt c /\
    (forall j id, ids !! j = Some id -> exists ni, cf_nodes c' !! j = Some (id, Some ni) /\
       inst_ok (cf_modamt c) ids 0 (RLens 0 0 0) 0 j id ni) /\
    (NoDup ids -> forall j id q, ids !! j = Some id -> q < n_ins id ->
       cf_params c' !! (id, q) =
         Some (NParam (psum n_ins ids j + q) (pval_of (cf_pvals c) id q)
           (match mjoin (cf_modamt c !! (id, q)) with
            | Some a => Some (psum (n_mods (cf_modamt c)) ids j + rank (cf_modamt c) id q, a)
            | None => None end))) /\
    (forall p : pid, p.1 ∉ ids \/ n_ins p.1 <= p.2 -> cf_params c' !! p = None) /\
    (forall p : pid, p.1 ∈ ids -> p.2 < n_ins p.1 -> is_Some (cf_params c' !! p)) /\
    (forall id q, id ∈ ids -> q < n_ins id -> cf_pvals c' !! (id, q) = Some (pval_of (cf_pvals c) id q)) /\
    (forall p : pid, p.1 ∉ ids \/ n_ins p.1 <= p.2 -> cf_pvals c' !! p = cf_pvals c !! p) /\
    (NoDup ids -> forall j id q, ids !! j = Some id -> q < n_ats id ->
       cf_atoms c' !! (id, nt_at_id T (nid_kind id) q) =
         Some (NAtom (psum n_ats ids j + q) (aval_of (cf_avals c) id q))) /\
    (forall p : pid, p.1 ∉ ids \/ (forall q, q < n_ats p.1 -> p.2 <> nt_at_id T (nid_kind p.1) q) ->
       cf_atoms c' !! p = None) /\
    (forall id q, id ∈ ids -> q < n_ats id ->
       cf_avals c' !! (id, nt_at_id T (nid_kind id) q) = Some (aval_of (cf_avals c) id q)) /\
    (forall p : pid, p.1 ∉ ids \/ (forall q, q < n_ats p.1 -> p.2 <> nt_at_id T (nid_kind p.1) q) ->
       cf_avals c' !! p = cf_avals c !! p)).
  Proof.
    intros Hc. unfold conf_rebuild.
    destruct (rebuild_nodes_spec HT (cf_modamt c) (cf_nodes c) (ci_nop c Hc) 0 (RLens 0 0 0)
      (RState ∅ (cf_pvals c) 0) (∅, cf_avals c))
      as (l2 & s2 & ats2 & ns2 & E & (L1 & L2 & L3 & L4) & Hids & Hin & P1 & P2 & P3 & V1 & V2 & A1 & A2 & A3 & B1 & B2).
    cbn [rl_out rl_in rl_at rs_mod rs_params rs_pvals fst snd Nat.add] in *.
    rewrite E. cbn [mbind option_bind].
    rewrite L1, L2, L3, L4.
    destruct (prog_new h _ _ _ _) as [h' p] eqn:Ep. eexists _, _, _. split; [done|].
    cbn zeta. cbn [cf_nodes cf_idx cf_modamt cf_params cf_pvals cf_atoms cf_avals].
    split; [done|]. do 3 (split; [done|]). split; [done|].
    split; [done|]. split. { intros q Hq. rewrite P2 by done. apply lookup_empty. }
    do 4 (split; [done|]). split. { intros q Hq. rewrite A2 by done. apply lookup_empty. }
    done.
  Qed.

  Lemma rebuild_inv (HT : table_ok T) h c h' c' p :
    conf_inv c -> conf_rebuild T h c = Some (h', c', p) -> conf_inv c'.
  Proof.
    intros Hc E. destruct (conf_rebuild_spec HT h c Hc) as (h2 & c2 & p2 & E2 & Hs). rewrite E in E2.
    injection E2 as <- <- <-. cbn zeta in Hs.
    destruct Hs as (_ & Hids & Hix & Hma & Hin & _ & P2 & _ & V1 & V2 & _ & _ & B1 & B2).
    assert (Hlook : forall i n oi, cf_nodes c' !! i = Some (n, oi) ->
      exists ni, oi = Some ni /\ ni_id ni = n /\ (cf_nodes c).*1 !! i = Some n).
    { intros i n oi Hi. assert (Hi' : (cf_nodes c').*1 !! i = Some n) by (by rewrite list_lookup_fmap, Hi).
      rewrite Hids in Hi'. destruct (Hin i n Hi') as (ni & Hni & Hok). rewrite Hi in Hni. injection Hni as ->.
      exists ni. split; [done|]. split; [apply (io_id _ _ _ _ _ _ _ _ Hok)|done]. }
    constructor.
    - apply Forall_lookup_2. intros i [n oi] Hi. cbn. destruct (Hlook _ _ _ Hi) as (ni & _ & _ & Hn).
      rewrite list_lookup_fmap in Hn. destruct (cf_nodes c !! i) as [[n' oi']|] eqn:Ei; [|done].
      cbn in Hn. injection Hn as ->. apply (proj1 (Forall_lookup _ _) (ci_nop c Hc) i _ Ei).
    - intros n i. rewrite Hix. intros Hi. destruct (ci_idx c Hc n i Hi) as (oi & Hoi & _).
      assert (Hn : (cf_nodes c).*1 !! i = Some n) by (by rewrite list_lookup_fmap, Hoi).
      destruct (Hin i n Hn) as (ni & Hni & Hok). exists (Some ni). split; [done|].
      intros ni' [= <-]. apply (io_id _ _ _ _ _ _ _ _ Hok).
    - intros i n oi Hi. rewrite Hix. destruct (Hlook _ _ _ Hi) as (ni & _ & _ & Hn).
      rewrite list_lookup_fmap in Hn. destruct (cf_nodes c !! i) as [[n' oi']|] eqn:Ei; [|done].
      cbn in Hn. injection Hn as ->. by eapply (ci_dom c Hc).
    - intros [id q] Hq. destruct (decide (id ∈ (cf_nodes c).*1)) as [Hi|Hi].
      + destruct (decide (q < n_ins id)) as [Hl|Hl]; [by apply is_atom_input|].
        rewrite V2 in Hq by (right; cbn; lia). by apply (ci_pvals c Hc).
      + rewrite V2 in Hq by (left; done). by apply (ci_pvals c Hc).
    - intros [id q] Hq. destruct (decide (id ∈ (cf_nodes c).*1)) as [Hi|Hi].
      + destruct (decide (Exists (fun j => q = nt_at_id T (nid_kind id) j) (seq 0 (n_ats id)))) as [Hx|Hx].
        * apply Exists_exists in Hx as (j & Hj & ->). apply elem_of_seq in Hj. apply is_atom_atom; [done|lia].
        * rewrite B2 in Hq; [by apply (ci_avals c Hc)|]. right. cbn. intros j Hj ->. apply Hx.
          apply Exists_exists. exists j. split; [apply elem_of_seq; lia|done].
      + rewrite B2 in Hq by (left; done). by apply (ci_avals c Hc).
    - intros [id q] [v Hq]. destruct (decide (q < n_ins id)) as [Hl|Hl]; [by apply is_atom_input|].
      rewrite P2 in Hq; [done|]. right. cbn. lia.
  Qed.

  (** the parts of a configuration that building a program does not touch *)
  Definition same_values (c c' : nconf) : Prop :=
    cf_idx c' = cf_idx c /\ cf_params c' = cf_params c /\ cf_pvals c' = cf_pvals c /\
    cf_modamt c' = cf_modamt c /\ cf_atoms c' = cf_atoms c /\ cf_avals c' = cf_avals c /\
    (cf_nodes c').*1 = (cf_nodes c).*1.

  Lemma mark_same c n : same_values c (conf_mark c n).
  Proof.
    unfold conf_mark. destruct (cf_idx c !! n) as [i|]; [|done].
    destruct (cf_nodes c !! i) as [[id [ni|]]|] eqn:E; [|done|done].
    repeat split; cbn. rewrite list_fmap_insert. cbn. apply list_insert_id.
    by rewrite list_lookup_fmap, E.
  Qed.

  Lemma same_values_trans c1 c2 c3 : same_values c1 c2 -> same_values c2 c3 -> same_values c1 c3.
  Proof. unfold same_values. naive_solver congruence. Qed.

  Lemma mark_inv c n : conf_inv c -> conf_inv (conf_mark c n).
  Proof.
    intros Hc. pose proof (mark_same c n) as (H1 & H2 & H3 & H4 & H5 & H6 & H7).
    assert (Hl : forall i x, (cf_nodes (conf_mark c n)) !! i = Some x -> exists y, cf_nodes c !! i = Some y /\ y.1 = x.1
       /\ match y.2, x.2 with Some a, Some b => ni_id b = ni_id a | None, None => True | _, _ => False end).
    { intros i x. unfold conf_mark. destruct (cf_idx c !! n) as [k|]; [|naive_solver (destruct x as [? []]; done)].
      destruct (cf_nodes c !! k) as [[id [ni|]]|] eqn:E; [|naive_solver (destruct x as [? []]; done)..].
      cbn. destruct (decide (i = k)) as [->|].
      - rewrite list_lookup_insert by (by apply lookup_lt_is_Some; eexists). intros [= <-]. eexists. split; [done|]. done.
      - rewrite list_lookup_insert_ne by done. intros Hx. exists x. split; [done|]. split; [done|]. by destruct x as [? []]. }
    assert (Hr : forall i y, cf_nodes c !! i = Some y -> exists x, cf_nodes (conf_mark c n) !! i = Some x /\ x.1 = y.1).
    { intros i y Hy. assert (Hf : (cf_nodes (conf_mark c n)).*1 !! i = Some y.1) by (by rewrite H7, list_lookup_fmap, Hy).
      rewrite list_lookup_fmap in Hf. destruct (cf_nodes (conf_mark c n) !! i) as [x|]; [|done]. injection Hf as Hf. eauto. }
    constructor.
    - apply Forall_lookup_2. intros i x Hi. destruct (Hl i x Hi) as (y & Hy & <- & _).
      apply (proj1 (Forall_lookup _ _) (ci_nop c Hc) i _ Hy).
    - intros m i. rewrite H1. intros Hi. destruct (ci_idx c Hc m i Hi) as (oi & Hoi & Hid).
      destruct (Hr i _ Hoi) as ([x1 x2] & Hx & Hx1). cbn in Hx1. subst x1. exists x2. split; [done|].
      intros ni ->. destruct (Hl i _ Hx) as ([y1 y2] & Hy & _ & Hm). rewrite Hoi in Hy. injection Hy as <- <-.
      cbn in Hm. destruct oi as [a|]; [|done]. rewrite Hm. by apply Hid.
    - intros i m oi Hi. rewrite H1. destruct (Hl i _ Hi) as ([y1 y2] & Hy & Hy1 & _). cbn in Hy1. subst y1.
      by eapply (ci_dom c Hc).
    - rewrite H3. apply (ci_pvals c Hc).
    - rewrite H6. apply (ci_avals c Hc).
    - rewrite H2. apply (ci_params c Hc).
  Qed.

  Lemma add_nodes_same cp order :
    same_values cp.1 (foldl (conf_add_node) cp order).1.
  Proof.
    revert cp; induction order as [|n order IH]; intros cp; [done|]. cbn [foldl].
    eapply same_values_trans; [|apply IH]. unfold conf_add_node.
    destruct (conf_inst cp.1 n); [apply mark_same|done].
  Qed.
  Lemma add_nodes_inv cp order : conf_inv cp.1 -> conf_inv (foldl conf_add_node cp order).1.
  Proof.
    revert cp; induction order as [|n order IH]; intros cp Hc; [done|]. cbn [foldl].
    apply IH. unfold conf_add_node. destruct (conf_inst cp.1 n); [by apply mark_inv|done].
  Qed.

  Lemma connect_same cp e cp' : conf_connect cp e = Some cp' ->
    same_values cp.1 cp'.1 /\ (conf_inv cp.1 -> conf_inv cp'.1).
  Proof.
    unfold conf_connect. destruct (conf_inst cp.1 (e_from e)); [|by intros [= <-]].
    destruct (conf_inst cp.1 (e_to e)); [|by intros [= <-]].
    destruct (ni_mod_global _ _); cbn [mbind option_bind]; [|done]. intros [= <-]. cbn.
    split; [apply mark_same|apply mark_inv].
  Qed.
  Lemma connects_same es cp cp' : foldm conf_connect cp es = Some cp' ->
    same_values cp.1 cp'.1 /\ (conf_inv cp.1 -> conf_inv cp'.1).
  Proof.
    intros H. revert H. apply (foldm_inv conf_connect
      (fun x => same_values cp.1 x.1 /\ (conf_inv cp.1 -> conf_inv x.1))); [|done].
    intros s x s' _ [H1 H2] E. destruct (connect_same _ _ _ E) as [H3 H4].
    split; [by eapply same_values_trans|naive_solver].
  Qed.

  Lemma program_conf h c order es h' c' p :
    conf_program T h c order es = Some (h', c', p) ->
    exists h1 c1 p1, conf_rebuild T h c = Some (h1, c1, p1) /\ same_values c1 c' /\ (conf_inv c1 -> conf_inv c').
  Proof.
    unfold conf_program. destruct (conf_rebuild T h c) as [[[h1 c1] p1]|]; cbn [mbind option_bind]; [|done].
    destruct (foldm conf_connect _ es) as [[c2 p2]|] eqn:E; cbn [mbind option_bind]; [|done].
    destruct (conf_fill c2 p2); cbn [mbind option_bind]; [|done]. intros [= <- <- <-].
    exists h1, c1, p1. split; [done|]. destruct (connects_same _ _ _ E) as [H1 H2]. cbn in H1, H2.
    pose proof (add_nodes_same (c1, p1) order) as H3. cbn in H3.
    split; [by eapply same_values_trans|]. intros Hc. apply H2. by apply (add_nodes_inv (c1, p1)).
  Qed.
End conf.
