(** The tree that is made of a program has the wiring of the program. *)
From stdpp Require Import strings pretty.
From Verif Require Import Base M_Block S_Block L_Block L_Block2 L_Block3 M_Comp S_Comp.
Open Scope string_scope.
Open Scope list_scope.
Open Scope nat_scope.

Section tree.
  Context (fs : list area) (a : area) (Ha : fs !! 0 = Some a) (Hok : area_ok a) (null : string).
  Context (Hflat : forall o b, a_blocks a !! o = Some b -> block_subs b = []).

  Definition out_at (x y : Z) (p : Z * Z) (name : string) : Prop :=
    exists b, ref_at a x y = Some (b, p) /\ b_outputs b !! Z.to_nat (y - p.2) = Some (Some name).
  (** the child for an input: the block whose output is there, or a zero *)
  Definition in_child (h : list jnode) (m : gmap (nat * (Z * Z)) nat) (ip : string) (x y : Z) (c : string * string * nat) : Prop :=
    c.1.1 = ip /\ ((exists p, out_at x y p c.1.2 /\ m !! (0, p) = Some c.2) \/
                   ((forall p name, ~ out_at x y p name) /\ c.1.2 = "" /\ h !! c.2 = Some (JNode 0 null "" []))).
  Definition sink_child (h : list jnode) (m : gmap (nat * (Z * Z)) nat) (s : Z * Z * option nat) (c : string * string * nat) : Prop :=
    c.1 = ("", "") /\
    match s.2 with
    | None => exists b p, ref_at a s.1.1 s.1.2 = Some (b, p) /\ m !! (0, p) = Some c.2
    | Some _ => exists c', h !! c.2 = Some (JNode 0 "<res>" "" [c']) /\ in_child h m "" s.1.1 s.1.2 c'
    end.
  Record tree_of (h : list jnode) (m : gmap (nat * (Z * Z)) nat) : Prop := {
    to_root : exists na chs, h !! 0 = Some (JNode 0 "<r>" "" [("", "", na)]) /\ h !! na = Some (JNode 0 "<a>" "" chs) /\
      Forall2 (sink_child h m) (rev (collect_sinks a)) chs;
    to_block : forall o n, m !! (0, o) = Some n -> exists b ch, a_blocks a !! o = Some b /\ h !! n = Some (JNode (b_id b) (b_typ b) (b_lbl b) ch) /\
      Forall2 (fun r c => in_child h m (in_name b r) (o.1 - 1) (o.2 + Z.of_nat r) c) (port_rows (b_rows b) (b_inputs b)) ch;
  }.

  (** ** Requests: what children a node is to get *)
  Inductive req := RAdd (n : nat) | RSink (x y : Z) | ROut (ip : string) (x y : Z).
  Definition is_zero (E : list (list req)) (h : list jnode) (c : nat) : Prop := E !! c = Some [] /\ exists ch, h !! c = Some (JNode 0 null "" ch).
  Definition sat (E : list (list req)) (h : list jnode) (m : gmap (nat * (Z * Z)) nat) (q : req) (c : string * string * nat) : Prop :=
    match q with
    | RAdd n => c = ("", "", n)
    | RSink x y => c.1 = ("", "") /\ exists b p, ref_at a x y = Some (b, p) /\ m !! (0, p) = Some c.2
    | ROut ip x y => c.1.1 = ip /\ ((exists p, out_at x y p c.1.2 /\ m !! (0, p) = Some c.2) \/
                                    ((forall p name, ~ out_at x y p name) /\ c.1.2 = "" /\ is_zero E h c.2))
    end.
  Definition job_req (j : tjob) : option (nat * req) :=
    match j with
    | JArea _ _ => None
    | JAdd n out => Some (out, RAdd n)
    | JSink _ x y out => Some (out, RSink x y)
    | JOut _ x y ip out => Some (out, ROut ip x y)
    end.
  Definition job_ok (len : nat) (j : tjob) : Prop :=
    match j with
    | JArea _ _ => False
    | JAdd n out => out < len
    | JSink aid x y out => aid = 0 /\ out < len /\ is_Some (ref_at a x y)
    | JOut aid x y ip out => aid = 0 /\ out < len
    end.
  Definition pend (n : nat) (js : list tjob) : list req :=
    omap (fun j => match job_req j with Some (k, q) => if decide (k = n) then Some q else None | None => None end) js.
  Definition block_reqs (o : Z * Z) (b : block) : list req :=
    (fun r => ROut (in_name b r) (o.1 - 1) (o.2 + Z.of_nat r)) <$> port_rows (b_rows b) (b_inputs b).

  Record tinv (E : list (list req)) (h : list jnode) (js : list tjob) (m : gmap (nat * (Z * Z)) nat) : Prop := {
    ti_len : length E = length h;
    ti_ch : forall n j rs, h !! n = Some j -> E !! n = Some rs -> exists dn, rs = dn ++ pend n js /\ Forall2 (sat E h m) dn (j_ch j);
    ti_map : forall aid o n, m !! (aid, o) = Some n -> aid = 0 /\ exists b ch, a_blocks a !! o = Some b /\
      h !! n = Some (JNode (b_id b) (b_typ b) (b_lbl b) ch) /\ E !! n = Some (block_reqs o b);
    ti_jobs : Forall (job_ok (length h)) js;
  }.

  Lemma pend_app n js js' : pend n (js ++ js') = pend n js ++ pend n js'.
  Proof. apply omap_app. Qed.
  Lemma pend_none n js : Forall (job_ok n) js -> forall k, n <= k -> pend k js = [].
  Proof.
    induction 1 as [|j js Hj Hjs IH]; intros k Hk; [done|]. cbn [pend omap list_omap]. fold (pend k js). unfold pend in IH.
    replace (match job_req j with Some (k0, q) => _ | None => None end) with (@None req); [by apply IH|].
    destruct j; cbn in *; [done|..]; rewrite decide_False; (done || lia).
  Qed.
  Lemma h_add_lookup h n i o c k : h_add h n i o c !! k =
    (fun j => if decide (k = n) then JNode (j_id j) (j_typ j) (j_lbl j) (j_ch j ++ [(i, o, c)]) else j) <$> h !! k.
  Proof.
    unfold h_add. destruct (decide (k = n)) as [->|Hne].
    - rewrite list_lookup_alter. done.
    - rewrite list_lookup_alter_ne by done. by destruct (h !! k).
  Qed.
  Lemma sat_mono E h m Ex h' m' q c : (forall n j, h !! n = Some j -> exists ch, h' !! n = Some (JNode (j_id j) (j_typ j) (j_lbl j) ch)) -> m ⊆ m' ->
    sat E h m q c -> sat (E ++ Ex) h' m' q c.
  Proof.
    intros Hh Hm. destruct q; cbn; [done| |].
    - intros (Hc & b & p & Hr & Hp). split; [done|]. exists b, p. split; [done|]. by eapply lookup_weaken.
    - intros (Hc & [(p & Ho & Hp)|(Hn & He & HE & ch & Hz)]); (split; [done|]).
      + left. exists p. split; [done|]. by eapply lookup_weaken.
      + right. split; [done|]. split; [done|]. split; [by apply lookup_app_l_Some|]. apply Hh in Hz as [ch' Hz]. by exists ch'.
  Qed.

  Lemma inv_step E h j js m out q hx Ex jx m' c :
    tinv E h (j :: js) m -> job_req j = Some (out, q) ->
    length Ex = length hx -> Forall (fun x => j_ch x = []) hx ->
    (forall k rs, Ex !! k = Some rs -> pend (length h + k) jx = rs) -> (forall n, n < length h -> pend n jx = []) ->
    Forall (job_ok (length (h ++ hx))) jx -> m ⊆ m' ->
    (forall aid o n, m' !! (aid, o) = Some n -> m !! (aid, o) = Some n \/ (aid = 0 /\ exists b ch, a_blocks a !! o = Some b /\
      (h ++ hx) !! n = Some (JNode (b_id b) (b_typ b) (b_lbl b) ch) /\ (E ++ Ex) !! n = Some (block_reqs o b))) ->
    sat (E ++ Ex) (h ++ hx) m' q c ->
    tinv (E ++ Ex) (h_add (h ++ hx) out c.1.1 c.1.2 c.2) (jx ++ js) m'.
  Proof.
    intros [Hlen Hch Hmap Hjobs] Hj Hlx Hhx HEx Hold Hjx Hm Hm' Hsat.
    assert (out < length h) as Hout.
    { inversion Hjobs as [|? ? Hjo _]; subst. destruct j; cbn in *; [done|..]; injection Hj as <- _; [done|by destruct Hjo as (_ & ? & _)|by destruct Hjo as (_ & ?)]. }
    assert (forall js' n, pend n (j :: js') = (if decide (out = n) then [q] else []) ++ pend n js') as Hpend.
    { intros js' n. cbn [pend omap list_omap]. rewrite Hj. by destruct (decide (out = n)). }
    set (h1 := h_add (h ++ hx) out c.1.1 c.1.2 c.2).
    assert (forall n j', (h ++ hx) !! n = Some j' -> exists ch, h1 !! n = Some (JNode (j_id j') (j_typ j') (j_lbl j') ch)) as Hh1.
    { intros n j' Hn. unfold h1. rewrite h_add_lookup, Hn. cbn. destruct (decide (n = out)); [by eexists|]. destruct j'. by eexists. }
    assert (forall n j', h !! n = Some j' -> exists ch, h1 !! n = Some (JNode (j_id j') (j_typ j') (j_lbl j') ch)) as Hh.
    { intros n j' Hn. apply Hh1. by apply lookup_app_l_Some. }
    assert (forall q c, sat (E ++ Ex) (h ++ hx) m' q c -> sat (E ++ Ex) h1 m' q c) as Hs1.
    { intros q' c' H'. pose proof (sat_mono (E ++ Ex) (h ++ hx) m' [] h1 m' q' c' Hh1 (reflexivity _) H') as H''. by rewrite app_nil_r in H''. }
    split.
    - unfold h1, h_add. rewrite alter_length, !app_length. lia.
    - intros n j' rs Hn HE. unfold h1 in Hn. rewrite h_add_lookup in Hn. rewrite pend_app.
      destruct (decide (n < length h)) as [Hlt|Hge].
      + rewrite lookup_app_l in Hn by done. rewrite lookup_app_l in HE by lia.
        destruct (h !! n) as [j0|] eqn:Hj0; [|done]. destruct (Hch _ _ _ Hj0 HE) as (dn & -> & Hdn). rewrite Hpend. rewrite Hold by done.
        assert (Forall2 (sat (E ++ Ex) h1 m') dn (j_ch j0)) as Hdn'.
        { eapply Forall2_impl; [exact Hdn|]. intros q' c' H'. by eapply sat_mono. }
        cbn [fmap option_fmap option_map] in Hn. destruct (decide (n = out)) as [->|Hne].
        * rewrite decide_True by done. injection Hn as <-. exists (dn ++ [q]). split; [by rewrite <- app_assoc|]. cbn [j_ch].
          apply Forall2_app; [done|]. constructor; [|done]. destruct c as [[ci co] cc]. by apply Hs1.
        * rewrite decide_False by done. injection Hn as <-. exists dn. done.
      + rewrite lookup_app_r in Hn by lia. rewrite lookup_app_r in HE by lia. rewrite Hlen in HE.
        destruct (hx !! (n - length h)) as [jx0|] eqn:Hx; [|done]. cbn [fmap option_fmap option_map] in Hn. rewrite decide_False in Hn by lia. injection Hn as <-.
        pose proof (HEx _ _ HE) as Hp. replace (length h + (n - length h)) with n in Hp by lia. exists []. rewrite Hp.
        rewrite (pend_none (length h)); [|by inversion Hjobs|lia]. rewrite app_nil_r. split; [done|].
        pose proof (Forall_lookup_1 _ _ _ _ Hhx Hx) as Hnil. cbn in Hnil. rewrite Hnil. constructor.
    - intros aid o n Hn. destruct (Hm' _ _ _ Hn) as [Hn'|(-> & b & ch & Hb & Hbn & HE)].
      + destruct (Hmap _ _ _ Hn') as (-> & b & ch & Hb & Hbn & HE). split; [done|]. apply Hh in Hbn as [ch' Hbn]. cbn in Hbn.
        exists b, ch'. split_and!; [done|done|by apply lookup_app_l_Some].
      + split; [done|]. apply Hh1 in Hbn as [ch' Hbn]. exists b, ch'. done.
    - unfold h1, h_add. rewrite alter_length. apply Forall_app. split; [done|]. inversion Hjobs as [|? ? _ Hjs]; subst.
      eapply Forall_impl; [exact Hjs|]. intros j' Hj'. rewrite app_length. destruct j'; cbn in *; [done|..]; [lia|destruct Hj' as (? & ? & ?); split_and!; [done|lia|done]|lia].
  Qed.

  Lemma pend_block o b n k : pend k ((fun r => JOut 0 (o.1 - 1) (o.2 + Z.of_nat r) (in_name b r) n) <$> port_rows (b_rows b) (b_inputs b)) =
    if decide (n = k) then block_reqs o b else [].
  Proof.
    unfold block_reqs. induction (port_rows (b_rows b) (b_inputs b)) as [|r rs IH]; [by destruct (decide _)|].
    cbn [fmap list_fmap pend omap list_omap job_req]. fold (pend k). destruct (decide (n = k)); [|exact IH]. f_equal. exact IH.
  Qed.
  Lemma block_jobs_eq o b n : a_blocks a !! o = Some b ->
    block_jobs 0 o b n = (fun r => JOut 0 (o.1 - 1) (o.2 + Z.of_nat r) (in_name b r) n) <$> port_rows (b_rows b) (b_inputs b).
  Proof. intros Hb. unfold block_jobs. rewrite (Hflat _ _ Hb). by rewrite app_nil_r. Qed.
  Lemma block_jobs_ok o b n len : a_blocks a !! o = Some b -> n < len -> Forall (job_ok len) (block_jobs 0 o b n).
  Proof. intros Hb Hn. rewrite (block_jobs_eq _ _ _ Hb). apply Forall_fmap. apply Forall_forall. intros r _. by cbn. Qed.

  (** the blocks that are still to be visited *)
  Definition seen (m : gmap (nat * (Z * Z)) nat) (s : gset (Z * Z)) : Prop := forall o, o ∈ s <-> is_Some (m !! (0, o)).
  Definition todo (s : gset (Z * Z)) : nat := pending (map_to_list (a_blocks a)) s.

  Lemma step_ok E h j js m s : tinv E h (j :: js) m -> seen m s -> exists E' h' js' m' s', tree_step fs null (h, j :: js, m) = inr (h', js', m') /\
    tinv (E ++ E') h' js' m' /\ seen m' s' /\ length js' + todo s' < length (j :: js) + todo s /\ m ⊆ m' /\
    (forall n x, h !! n = Some x -> exists ch, h' !! n = Some (JNode (j_id x) (j_typ x) (j_lbl x) ch)).
  Proof.
    intros Hinv Hs. pose proof (ti_jobs _ _ _ _ Hinv) as Hjobs. inversion Hjobs as [|? ? Hj Hjs]; subst. clear Hjobs.
    assert (forall hx (out : nat) c n x, h !! n = Some x -> exists ch, h_add (h ++ hx) out c.1.1 c.1.2 c.2 !! n = Some (JNode (j_id x) (j_typ x) (j_lbl x) ch)) as Hmono.
    { intros hx out c n x Hn. rewrite h_add_lookup, lookup_app_l by (by eapply lookup_lt_Some). rewrite Hn. cbn.
      destruct (decide (n = out)); [by eexists|]. destruct x. by eexists. }
    assert (forall o b, a_blocks a !! o = Some b -> m !! (0, o) = None -> forall hz Ez, Forall (fun x => j_ch x = []) hz -> length Ez = length hz -> Forall (fun rs => rs = []) Ez ->
      forall out q c, job_req j = Some (out, q) ->
      sat (E ++ block_reqs o b :: Ez) (h ++ JNode (b_id b) (b_typ b) (b_lbl b) [] :: hz) (<[(0, o) := length h]> m) q c ->
      exists s', tinv (E ++ block_reqs o b :: Ez) (h_add (h ++ JNode (b_id b) (b_typ b) (b_lbl b) [] :: hz) out c.1.1 c.1.2 c.2)
          (block_jobs 0 o b (length h) ++ js) (<[(0, o) := length h]> m) /\
        seen (<[(0, o) := length h]> m) s' /\ length (block_jobs 0 o b (length h) ++ js) + todo s' < length (j :: js) + todo s /\ m ⊆ <[(0, o) := length h]> m) as Hnew.
    { intros o b Hb Hm hz Ez Hhz HEz HEz0 out q c Hq Hsat. exists ({[o]} ∪ s). split; [|split; [|split]].
      - eapply inv_step; [done|done|cbn; lia|by constructor| | | | | |done].
        + intros k rs Hk. rewrite (block_jobs_eq _ _ _ Hb), pend_block. destruct k as [|k]; cbn in Hk.
          * rewrite decide_True by lia. congruence.
          * rewrite decide_False by lia. by pose proof (Forall_lookup_1 _ _ _ _ HEz0 Hk).
        + intros n Hn. rewrite (block_jobs_eq _ _ _ Hb), pend_block. by rewrite decide_False by lia.
        + apply block_jobs_ok; [done|]. rewrite app_length. cbn. lia.
        + by apply insert_subseteq.
        + intros aid o' n Hn. apply lookup_insert_Some in Hn as [[[= <- <-] <-]|[_ Hn]]; [|by left]. right. split; [done|]. exists b, [].
          split_and!; [done| |]; rewrite lookup_app_r; rewrite ?(ti_len _ _ _ _ Hinv); try lia; by rewrite Nat.sub_diag.
      - intros o'. rewrite elem_of_union, elem_of_singleton, (Hs o'). destruct (decide (o' = o)) as [->|Hne].
        + rewrite lookup_insert. split; [by eexists|by left].
        + rewrite lookup_insert_ne by congruence. naive_solver.
      - rewrite app_length, (block_jobs_eq _ _ _ Hb), fmap_length. pose proof (port_rows_length (b_rows b) (b_inputs b)).
        assert (1 <= b_rows b) by (by eapply (proj1 (proj2 Hok))).
        assert (todo s = todo ({[o]} ∪ s) + 2 * b_rows b).
        { apply pending_visit; [apply NoDup_fst_map_to_list|by apply elem_of_map_to_list|]. rewrite (Hs o), Hm. by intros [? ?]. }
        cbn [length]. lia.
      - by apply insert_subseteq. }
    assert (forall out q c hz Ez, job_req j = Some (out, q) -> Forall (fun x => j_ch x = []) hz -> length Ez = length hz -> Forall (fun rs => rs = []) Ez ->
      sat (E ++ Ez) (h ++ hz) m q c -> tinv (E ++ Ez) (h_add (h ++ hz) out c.1.1 c.1.2 c.2) js m) as Hold.
    { intros out q c hz Ez Hq Hhz HEz HEz0 Hsat. refine (inv_step E h j js m out q hz Ez [] m c Hinv Hq HEz Hhz _ _ _ _ _ Hsat); try done.
      - intros k rs Hk. by pose proof (Forall_lookup_1 _ _ _ _ HEz0 Hk).
      - intros aid o n Hn. by left. }
    destruct j as [aid out|n out|aid x y out|aid x y ip out]; cbn [tree_step].
    - done.
    - exists [], (h_add h out "" "" n), js, m, s. split; [done|]. split; [|split; [done|split; [cbn [length]; lia|split; [done|]]]].
      + pose proof (Hold out (RAdd n) ("", "", n) [] [] eq_refl ltac:(by constructor) eq_refl ltac:(by constructor) eq_refl) as H.
        by rewrite (app_nil_r h) in H.
      + intros k x Hk. pose proof (Hmono [] out ("", "", n) k x Hk) as H. by rewrite app_nil_r in H.
    - destruct Hj as (-> & Hout & [[b p] Hr]). rewrite Ha, Hr. pose proof Hr as Hr'. apply ref_at_ok in Hr' as [Hb Hc]; [|done].
      destruct (m !! (0, p)) as [n|] eqn:Hm.
      + exists [], (h_add h out "" "" n), js, m, s. split; [done|]. split; [|split; [done|split; [cbn [length]; lia|split; [done|]]]].
        * pose proof (Hold out (RSink x y) ("", "", n) [] [] eq_refl ltac:(by constructor) eq_refl ltac:(by constructor)) as H.
          rewrite (app_nil_r h) in H. apply H. split; [done|]. by exists b, p.
        * intros k x' Hk. pose proof (Hmono [] out ("", "", n) k x' Hk) as H. by rewrite app_nil_r in H.
      + destruct (Hnew p b Hb Hm [] [] ltac:(by constructor) eq_refl ltac:(by constructor) out (RSink x y) ("", "", length h) eq_refl) as (s' & H1 & H2 & H3 & H4).
        { split; [done|]. exists b, p. split; [done|]. by simplify_map_eq. }
        exists [block_reqs p b], (h_add (h ++ [JNode (b_id b) (b_typ b) (b_lbl b) []]) out "" "" (length h)), (block_jobs 0 p b (length h) ++ js), (<[(0, p) := length h]> m), s'.
        split; [done|]. split; [done|]. split_and!; [done|done|done|]. intros k x' Hk. exact (Hmono _ out ("", "", length h) k x' Hk).
    - destruct Hj as (-> & Hout). rewrite Ha. destruct (ref_at a x y) as [[b p]|] eqn:Hr.
      2:{ exists [[]], (h_add (h ++ [JNode 0 null "" []]) out ip "" (length h)), js, m, s. split; [done|].
          split; [|split; [done|split; [cbn [length]; lia|split; [done|]]]].
          - apply (Hold out (ROut ip x y) (ip, "", length h) [JNode 0 null "" []] [[]]); [done|by repeat constructor|done|by repeat constructor|].
            split; [done|]. right. split; [|split; [done|split]].
            + intros q name (b & Hb & _). by rewrite Hb in Hr.
            + cbn. rewrite <- (ti_len _ _ _ _ Hinv). apply list_lookup_middle. done.
            + exists []. by apply list_lookup_middle.
          - intros k x' Hk. exact (Hmono [JNode 0 null "" []] out (ip, "", length h) k x' Hk). }
      pose proof Hr as Hr'. apply ref_at_ok in Hr' as [Hb Hc]; [|done].
      assert (forall name, b_outputs b !! Z.to_nat (y - p.2) = Some (Some name) -> out_at x y p name) as Hyes by (intros name Hn; by exists b).
      assert ((forall name, b_outputs b !! Z.to_nat (y - p.2) <> Some (Some name)) -> forall q name, ~ out_at x y q name) as Hno.
      { intros Hn q name (b' & Hb' & Hname). rewrite Hr in Hb'. injection Hb' as <- <-. by eapply Hn. }
      destruct (m !! (0, p)) as [n|] eqn:Hm.
      + assert (forall name, b_outputs b !! Z.to_nat (y - p.2) = Some (Some name) -> exists E' h' js' m' s',
          (inr (h_add h out ip name n, js, m) : berr + tstate) = inr (h', js', m') /\ tinv (E ++ E') h' js' m' /\ seen m' s' /\ length js' + todo s' < length (JOut 0 x y ip out :: js) + todo s /\ m ⊆ m' /\
          (forall n x, h !! n = Some x -> exists ch, h' !! n = Some (JNode (j_id x) (j_typ x) (j_lbl x) ch))) as H1.
        { intros name Hname. exists [], (h_add h out ip name n), js, m, s. split; [done|]. split; [|split; [done|split; [cbn [length]; lia|split; [done|]]]].
          - pose proof (Hold out (ROut ip x y) (ip, name, n) [] [] eq_refl ltac:(by constructor) eq_refl ltac:(by constructor)) as H.
            rewrite (app_nil_r h) in H. apply H. split; [done|]. left. exists p. split; [by apply Hyes|done].
          - intros k x' Hk. pose proof (Hmono [] out (ip, name, n) k x' Hk) as H. by rewrite app_nil_r in H. }
        assert ((forall name, b_outputs b !! Z.to_nat (y - p.2) <> Some (Some name)) -> exists E' h' js' m' s',
          (inr (h_add (h ++ [JNode 0 null "" []]) out ip "" (length h), js, m) : berr + tstate) = inr (h', js', m') /\ tinv (E ++ E') h' js' m' /\ seen m' s' /\ length js' + todo s' < length (JOut 0 x y ip out :: js) + todo s /\ m ⊆ m' /\
          (forall n x, h !! n = Some x -> exists ch, h' !! n = Some (JNode (j_id x) (j_typ x) (j_lbl x) ch))) as H2.
        { intros Hname. exists [[]], (h_add (h ++ [JNode 0 null "" []]) out ip "" (length h)), js, m, s. split; [done|].
          split; [|split; [done|split; [cbn [length]; lia|split; [done|]]]].
          - apply (Hold out (ROut ip x y) (ip, "", length h) [JNode 0 null "" []] [[]]); [done|by repeat constructor|done|by repeat constructor|].
            split; [done|]. right. split; [by apply Hno|]. split; [done|]. split.
            + cbn. rewrite <- (ti_len _ _ _ _ Hinv). apply list_lookup_middle. done.
            + exists []. by apply list_lookup_middle.
          - intros k x' Hk. exact (Hmono [JNode 0 null "" []] out (ip, "", length h) k x' Hk). }
        destruct (b_outputs b !! Z.to_nat (y - p.2)) as [[name|]|] eqn:Hname; [by eapply H1|apply H2; by intros name [=]|apply H2; by intros name [=]].
      + assert (forall name, b_outputs b !! Z.to_nat (y - p.2) = Some (Some name) -> exists E' h' js' m' s',
          (inr (h_add (h ++ [JNode (b_id b) (b_typ b) (b_lbl b) []]) out ip name (length h), block_jobs 0 p b (length h) ++ js, <[(0, p) := length h]> m) : berr + tstate) = inr (h', js', m') /\
          tinv (E ++ E') h' js' m' /\ seen m' s' /\ length js' + todo s' < length (JOut 0 x y ip out :: js) + todo s /\ m ⊆ m' /\
          (forall n x, h !! n = Some x -> exists ch, h' !! n = Some (JNode (j_id x) (j_typ x) (j_lbl x) ch))) as H1.
        { intros name Hname.
          destruct (Hnew p b Hb Hm [] [] ltac:(by constructor) eq_refl ltac:(by constructor) out (ROut ip x y) (ip, name, length h) eq_refl) as (s' & H1 & H2 & H3 & H4).
          { split; [done|]. left. exists p. split; [by apply Hyes|]. by simplify_map_eq. }
          exists [block_reqs p b], (h_add (h ++ [JNode (b_id b) (b_typ b) (b_lbl b) []]) out ip name (length h)), (block_jobs 0 p b (length h) ++ js), (<[(0, p) := length h]> m), s'.
          split; [done|]. split; [done|]. split_and!; [done|done|done|]. intros k x' Hk. exact (Hmono _ out (ip, name, length h) k x' Hk). }
        assert ((forall name, b_outputs b !! Z.to_nat (y - p.2) <> Some (Some name)) -> exists E' h' js' m' s',
          (inr (h_add ((h ++ [JNode (b_id b) (b_typ b) (b_lbl b) []]) ++ [JNode 0 null "" []]) out ip "" (length (h ++ [JNode (b_id b) (b_typ b) (b_lbl b) []])),
            block_jobs 0 p b (length h) ++ js, <[(0, p) := length h]> m) : berr + tstate) = inr (h', js', m') /\
          tinv (E ++ E') h' js' m' /\ seen m' s' /\ length js' + todo s' < length (JOut 0 x y ip out :: js) + todo s /\ m ⊆ m' /\
          (forall n x, h !! n = Some x -> exists ch, h' !! n = Some (JNode (j_id x) (j_typ x) (j_lbl x) ch))) as H2.
        { intros Hname. rewrite <- app_assoc, app_length. cbn [app length].
          destruct (Hnew p b Hb Hm [JNode 0 null "" []] [[]] ltac:(by repeat constructor) eq_refl ltac:(by repeat constructor) out (ROut ip x y) (ip, "", length h + 1) eq_refl) as (s' & K1 & K2 & K3 & K4).
          { split; [done|]. right. split; [by apply Hno|]. split; [done|]. split.
            - cbn. rewrite lookup_app_r by (rewrite (ti_len _ _ _ _ Hinv); lia). rewrite (ti_len _ _ _ _ Hinv). by replace (length h + 1 - length h) with 1 by lia.
            - exists []. cbn. rewrite lookup_app_r by lia. by replace (length h + 1 - length h) with 1 by lia. }
          exists [block_reqs p b; []], (h_add (h ++ [JNode (b_id b) (b_typ b) (b_lbl b) []; JNode 0 null "" []]) out ip "" (length h + 1)), (block_jobs 0 p b (length h) ++ js), (<[(0, p) := length h]> m), s'.
          split; [done|]. split; [done|]. split_and!; [done|done|done|]. intros k x' Hk. exact (Hmono _ out (ip, "", length h + 1) k x' Hk). }
        cbn [h_new]. destruct (b_outputs b !! Z.to_nat (y - p.2)) as [[name|]|] eqn:Hname; [by eapply H1|apply H2; by intros name [=]|apply H2; by intros name [=]].
  Qed.

  Lemma loop_ok : forall fuel E h js m s, tinv E h js m -> seen m s -> length js + todo s < fuel ->
    exists E' h' m', tree_loop fuel fs null (h, js, m) = Some (inr h') /\ tinv (E ++ E') h' [] m' /\
      (forall n x, h !! n = Some x -> exists ch, h' !! n = Some (JNode (j_id x) (j_typ x) (j_lbl x) ch)).
  Proof.
    induction fuel as [|fuel IH]; intros E h js m s Hinv Hs Hlt; [lia|]. cbn [tree_loop fst snd]. destruct js as [|j js].
    - exists [], h, m. rewrite app_nil_r. split_and!; [done|done|]. intros n x Hn. exists (j_ch x). by destruct x.
    - destruct (step_ok _ _ _ _ _ _ Hinv Hs) as (E1 & h1 & js1 & m1 & s1 & -> & H1 & H2 & H3 & _ & H4).
      destruct (IH _ _ _ _ _ H1 H2) as (E2 & h2 & m2 & H5 & H6 & H7); [cbn [length] in *; lia|].
      exists (E1 ++ E2), h2, m2. rewrite app_assoc. split_and!; [done|done|]. intros n x Hn. apply H4 in Hn as [ch Hn]. by apply H7 in Hn.
  Qed.

  (** ** The first step *)
  Fixpoint sink_nodes (ss : list (Z * Z * option nat)) : list jnode :=
    match ss with
    | [] => []
    | (_, Some _) :: ss => JNode 0 "<res>" "" [] :: sink_nodes ss
    | (_, None) :: ss => sink_nodes ss
    end.
  Fixpoint sink_list (k an : nat) (ss : list (Z * Z * option nat)) : list tjob :=
    match ss with
    | [] => []
    | (x, y, Some _) :: ss => JOut 0 x y "" k :: JAdd k an :: sink_list (S k) an ss
    | (x, y, None) :: ss => JSink 0 x y an :: sink_list k an ss
    end.
  Fixpoint sink_reqs (k : nat) (ss : list (Z * Z * option nat)) : list req :=
    match ss with
    | [] => []
    | (x, y, Some _) :: ss => RAdd k :: sink_reqs (S k) ss
    | (x, y, None) :: ss => RSink x y :: sink_reqs k ss
    end.
  Fixpoint sink_E (ss : list (Z * Z * option nat)) : list (list req) :=
    match ss with
    | [] => []
    | (x, y, Some _) :: ss => [ROut "" x y] :: sink_E ss
    | (x, y, None) :: ss => sink_E ss
    end.
  Lemma sink_jobs_eq an ss : forall h, sink_jobs h 0 an ss = (h ++ sink_nodes ss, sink_list (length h) an ss).
  Proof.
    induction ss as [|[[x y] [r|]] ss IH]; intros h; cbn; [by rewrite app_nil_r| |].
    - rewrite IH, app_length, <- app_assoc. cbn. by rewrite Nat.add_1_r.
    - by rewrite IH.
  Qed.
  Lemma sink_E_len ss : length (sink_E ss) = length (sink_nodes ss).
  Proof. induction ss as [|[[x y] [r|]] ss IH]; cbn; [done|by f_equal|done]. Qed.
  Lemma pend_rev n js : pend n (rev js) = rev (pend n js).
  Proof.
    induction js as [|j js IH]; [done|]. cbn [rev]. rewrite pend_app, IH. cbn [pend omap list_omap].
    destruct (match job_req j with Some (k, q) => _ | None => None end); cbn [rev]; [done|by rewrite app_nil_r].
  Qed.
  Lemma pend_area an ss : forall k, an < k -> pend an (sink_list k an ss) = sink_reqs k ss.
  Proof.
    induction ss as [|[[x y] [r|]] ss IH]; intros k Hk; cbn [sink_list sink_reqs]; [done| |].
    - cbn [pend omap list_omap job_req]. rewrite decide_False by lia. rewrite decide_True by done. f_equal. apply IH. lia.
    - cbn [pend omap list_omap job_req]. rewrite decide_True by done. f_equal. by apply IH.
  Qed.
  Lemma pend_low an n ss : forall k, n < k -> n <> an -> pend n (sink_list k an ss) = [].
  Proof.
    induction ss as [|[[x y] [r|]] ss IH]; intros k Hk Hn; cbn [sink_list]; [done| |].
    - cbn [pend omap list_omap job_req]. rewrite !decide_False by lia. apply IH; [lia|done].
    - cbn [pend omap list_omap job_req]. rewrite decide_False by lia. by apply IH.
  Qed.
  Lemma pend_res an ss : forall k i rs, an < k -> sink_E ss !! i = Some rs -> pend (k + i) (sink_list k an ss) = rs.
  Proof.
    induction ss as [|[[x y] [r|]] ss IH]; intros k i rs Hk; cbn [sink_list sink_E]; [done| |].
    - destruct i as [|i]; cbn [lookup list_lookup].
      + intros [= <-]. cbn [pend omap list_omap job_req]. rewrite decide_True by lia. rewrite decide_False by lia. f_equal. apply (pend_low an (k + 0)); lia.
      + intros Hi. cbn [pend omap list_omap job_req]. rewrite !decide_False by lia. replace (k + S i) with (S k + i) by lia. apply IH; [lia|done].
    - intros Hi. cbn [pend omap list_omap job_req]. rewrite decide_False by lia. by apply IH.
  Qed.
  Lemma sinks_ref s : s ∈ collect_sinks a -> s.2 = None -> is_Some (ref_at a s.1.1 s.1.2).
  Proof.
    unfold collect_sinks. intros Hs Hn.
    assert (forall l, s ∈ foldr sink_insert [] l -> s ∈ l) as Hperm.
    { assert (forall t l, s ∈ sink_insert t l -> s = t \/ s ∈ l) as Hins.
      { intros t. induction l as [|u l IH]; cbn [sink_insert]; [rewrite elem_of_list_singleton; by left|].
        destruct (sink_leb t u); rewrite !elem_of_cons; naive_solver. }
      induction l as [|t l IH]; cbn; [done|]. intros H. apply Hins in H as [->|H]; [by left|right; by apply IH]. }
    apply Hperm in Hs. apply elem_of_list_join in Hs as (l & Hs & Hl). apply elem_of_list_fmap in Hl as ([o b] & -> & Hb).
    apply elem_of_map_to_list in Hb. cbn [fst snd] in Hs. unfold block_sinks in Hs.
    destruct (port_rows (b_rows b) (b_outputs b)) as [|r rs].
    - apply elem_of_list_singleton in Hs as ->. cbn. rewrite (ref_at_origin _ _ _ Hok Hb). by eexists.
    - apply elem_of_list_omap in Hs as (r' & _ & Hr'). destruct (find_port_at _ _ _ _); [done|]. by injection Hr' as <-.
  Qed.
  Lemma sink_list_ok an ss len : (forall s, s ∈ ss -> s.2 = None -> is_Some (ref_at a s.1.1 s.1.2)) -> forall k, an < len -> k + length (sink_nodes ss) <= len ->
    Forall (job_ok len) (sink_list k an ss).
  Proof.
    induction ss as [|[[x y] [r|]] ss IH]; intros Hs k Han Hk; cbn in *; [constructor| |].
    - constructor; [split; [done|lia]|]. constructor; [done|]. apply IH; [|done|lia]. intros s Hin. apply Hs. by right.
    - constructor; [split_and!; [done|done|]|].
      + by apply (Hs (x, y, None)); [left|].
      + apply IH; [|done|lia]. intros s Hin. apply Hs. by right.
  Qed.

  Lemma first_inv : exists h js, tree_step fs null ([JNode 0 "<r>" "" []], [JArea 0 0], ∅) = inr (h, js, ∅) /\
    tinv ([RAdd 1] :: rev (sink_reqs 2 (collect_sinks a)) :: sink_E (collect_sinks a)) h js ∅ /\
    h = JNode 0 "<r>" "" [("", "", 1)] :: JNode 0 "<a>" "" [] :: sink_nodes (collect_sinks a).
  Proof.
    cbn [tree_step]. rewrite Ha. cbn [h_new app length h_add alter list_alter j_id j_typ j_lbl j_ch]. rewrite sink_jobs_eq.
    eexists _, _. split; [reflexivity|]. split; [|done]. rewrite app_nil_r. cbn [app length]. set (ss := collect_sinks a).
    assert (forall s, s ∈ ss -> s.2 = None -> is_Some (ref_at a s.1.1 s.1.2)) as Href by (intros s; apply sinks_ref).
    clearbody ss. split.
    - cbn. by rewrite sink_E_len.
    - intros n j rs Hn HE. destruct n as [|[|n]]; cbn in Hn, HE.
      + injection Hn as <-. injection HE as <-. exists [RAdd 1]. rewrite pend_rev, pend_low by lia. cbn. split; [done|]. by repeat constructor.
      + injection Hn as <-. injection HE as <-. exists []. rewrite pend_rev, pend_area by lia. cbn. done.
      + exists []. rewrite pend_rev. pose proof (pend_res 1 ss 2 n rs ltac:(lia) HE) as Hres. cbn [Nat.add] in Hres. rewrite Hres.
        assert (j = JNode 0 "<res>" "" [] /\ exists q, rs = [q]) as [-> [q ->]]; [|split; [reflexivity|constructor]].
        clear Hres.
        clear Href. revert n Hn HE. induction ss as [|[[x y] [r|]] ss' IH]; intros n Hn HE; cbn in *; [done| |by eapply IH].
        destruct n as [|n]; cbn in *; [|by eapply IH]. injection Hn as <-. injection HE as <-. split; [done|by eexists].
    - intros aid o n Hn. by rewrite lookup_empty in Hn.
    - apply Forall_rev. apply sink_list_ok; [done|cbn; lia|cbn; lia].
  Qed.

  Lemma sat_in_child E h m ip x y c : tinv E h [] m -> sat E h m (ROut ip x y) c -> in_child h m ip x y c.
  Proof.
    intros Hinv (H1 & [H2|(H2 & H3 & HE & ch & Hz)]); (split; [done|]); [by left|]. right. split_and!; [done|done|].
    destruct (ti_ch _ _ _ _ Hinv _ _ _ Hz HE) as (dn & Hdn & HF). symmetry in Hdn. apply app_eq_nil in Hdn as [-> _].
    cbn in HF. apply Forall2_nil_inv_l in HF. subst ch. done.
  Qed.
  Lemma sink_final E h m : tinv E h [] m -> forall ss k, (forall i rs, sink_E ss !! i = Some rs -> E !! (k + i) = Some rs) ->
    (forall i x, sink_nodes ss !! i = Some x -> exists ch, h !! (k + i) = Some (JNode 0 "<res>" "" ch)) ->
    forall chs, Forall2 (sat E h m) (sink_reqs k ss) chs -> Forall2 (sink_child h m) ss chs.
  Proof.
    intros Hinv. induction ss as [|[[x y] [r|]] ss IH]; intros k HE Hh chs HF; cbn [sink_reqs] in HF.
    - apply Forall2_nil_inv_l in HF as ->. constructor.
    - apply Forall2_cons_inv_l in HF as (c & chs' & Hc & HF & ->). constructor.
      + cbn in Hc. subst c. split; [done|]. cbn [snd fst]. destruct (Hh 0 _ eq_refl) as [ch Hch]. rewrite Nat.add_0_r in Hch.
        pose proof (HE 0 _ eq_refl) as HE0. rewrite Nat.add_0_r in HE0. destruct (ti_ch _ _ _ _ Hinv _ _ _ Hch HE0) as (dn & Hdn & HF').
        cbn in Hdn. rewrite app_nil_r in Hdn. subst dn. cbn [j_ch] in HF'. apply Forall2_cons_inv_l in HF' as (c' & l' & Hc' & HF' & ->).
        apply Forall2_nil_inv_l in HF' as ->. exists c'. split; [done|]. by eapply sat_in_child.
      + eapply (IH (S k)); [| |done].
        * intros i rs Hi. replace (S k + i) with (k + S i) by lia. by apply HE.
        * intros i x' Hi. replace (S k + i) with (k + S i) by lia. by eapply Hh.
    - apply Forall2_cons_inv_l in HF as (c & chs' & Hc & HF & ->). constructor; [done|]. by eapply IH.
  Qed.

  Lemma sinks_rev_final E h m : tinv E h [] m -> forall chs, (forall i rs, sink_E (collect_sinks a) !! i = Some rs -> E !! (2 + i) = Some rs) ->
    (forall i x, sink_nodes (collect_sinks a) !! i = Some x -> exists ch, h !! (2 + i) = Some (JNode 0 "<res>" "" ch)) ->
    Forall2 (sat E h m) (rev (sink_reqs 2 (collect_sinks a))) chs -> Forall2 (sink_child h m) (rev (collect_sinks a)) chs.
  Proof.
    intros Hinv chs HE Hh HF.
    assert (forall A B (P : A -> B -> Prop) l k, Forall2 P l k -> Forall2 P (rev l) (rev k)) as Hrev.
    { intros A B P l k H. rewrite !rev_alt. by apply Forall2_reverse. }
    rewrite <- (rev_involutive chs). apply Hrev. eapply (sink_final E h m Hinv _ 2); [done|done|].
    rewrite <- (rev_involutive (sink_reqs 2 (collect_sinks a))). by apply Hrev.
  Qed.

  Lemma sink_nodes_res ss i x : sink_nodes ss !! i = Some x -> x = JNode 0 "<res>" "" [].
  Proof.
    revert i. induction ss as [|[[x' y] [r|]] ss' IH]; intros i Hn; cbn in *; [done| |by eapply IH].
    destruct i as [|i]; cbn in *; [by injection Hn as <-|by eapply IH].
  Qed.

  Lemma generate_ok : exists n, forall fuel, n <= fuel -> exists h m, tree_loop fuel fs null ([JNode 0 "<r>" "" []], [JArea 0 0], ∅) = Some (inr h) /\ tree_of h m.
  Proof.
    destruct first_inv as (h & js & Hstep & Hinv & Eh). exists (2 + (length js + todo ∅)). intros fuel Hf.
    destruct fuel as [|fuel]; [lia|]. cbn [tree_loop fst snd]. rewrite Hstep.
    destruct (loop_ok fuel _ _ _ _ ∅ Hinv) as (E' & h' & m' & -> & Hinv' & Hmono).
    { intros o. rewrite lookup_empty. split; [set_solver|by intros [? ?]]. }
    { lia. }
    exists h', m'. split; [done|]. set (E := _ ++ E') in Hinv'. split.
    - assert (exists ch, h' !! 0 = Some (JNode 0 "<r>" "" ch)) as [ch0 H0] by (eapply (Hmono 0 (JNode 0 "<r>" "" _)); by rewrite Eh).
      assert (exists ch, h' !! 1 = Some (JNode 0 "<a>" "" ch)) as [ch1 H1] by (eapply (Hmono 1 (JNode 0 "<a>" "" _)); by rewrite Eh).
      destruct (ti_ch _ _ _ _ Hinv' 0 _ [RAdd 1] H0 eq_refl) as (dn & Hdn & HF). cbn in Hdn. rewrite app_nil_r in Hdn. subst dn.
      cbn [j_ch] in HF. apply Forall2_cons_inv_l in HF as (c & l & Hc & HF & ->). apply Forall2_nil_inv_l in HF as ->. cbn in Hc. subst c.
      exists 1, ch1. split; [done|]. split; [done|].
      destruct (ti_ch _ _ _ _ Hinv' 1 _ _ H1 eq_refl) as (dn & Hdn & HF). cbn in Hdn. rewrite app_nil_r in Hdn. subst dn. cbn [j_ch] in HF.
      eapply sinks_rev_final; [done| | |done].
      + intros i rs Hi. unfold E. cbn. by apply lookup_app_l_Some.
      + intros i x Hi. pose proof (sink_nodes_res _ _ _ Hi) as ->. apply (Hmono (2 + i) (JNode 0 "<res>" "" [])). by rewrite Eh.
    - intros o n Hn. destruct (ti_map _ _ _ _ Hinv' _ _ _ Hn) as (_ & b & ch & Hb & Hh' & HE). exists b, ch. split_and!; [done|done|].
      destruct (ti_ch _ _ _ _ Hinv' _ _ _ Hh' HE) as (dn & Hdn & HF). cbn [pend omap list_omap] in Hdn. rewrite app_nil_r in Hdn. subst dn. cbn [j_ch] in HF.
      unfold block_reqs in HF. rewrite Forall2_fmap_l in HF. eapply Forall2_impl; [exact HF|]. intros r c Hc. cbn beta in Hc. by eapply sat_in_child.
  Qed.
End tree.
