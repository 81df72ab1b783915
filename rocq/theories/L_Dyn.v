(** Proofs about the exchange of the DSP code of the [Rust1x1] nodes *)
From Verif Require Import Base M_Atom M_Prog M_Dyn S_Dyn.
Open Scope nat_scope.

Section dyn.
  Context {U In Out : Type} (dummy : U) (process : U -> In -> U * Out).
  Local Notation history := (list (dcall U In)).
  Local Notation state := (@dyn U In).
  Local Notation step := (dyn_step dummy process).
  Local Notation run := (dyn_run dummy process).
  Local Notation code := (code dummy process).
  Local Notation outputs := (outputs dummy process).

  Lemma run_snoc l a : forall s s' o, run s (l ++ [a]) = Some (s', o) ->
    exists s1 o1 o2, run s l = Some (s1, o1) /\ step s1 a = Some (s', o2) /\ o = o1 ++ o2.
  Proof.
    induction l as [|b l IH]; intros s s' o E; cbn [dyn_run app] in *.
    - apply bind_Some in E as ([s1 o1] & E1 & E). cbn in E. injection E as <- <-. by exists s, [], o1; rewrite app_nil_r.
    - apply bind_Some in E as ([s1 o1] & E1 & E). apply bind_Some in E as ([s2 o2] & E2 & E). injection E as <- <-.
      destruct (IH _ _ _ E2) as (s3 & o3 & o4 & E3 & E4 & ->). exists s3, (o1 ++ o3), o4. rewrite E1. cbn [mbind option_bind]. rewrite E3. cbn [mbind option_bind].
      by rewrite app_assoc.
  Qed.

  Definition tbwf (t : @tbuf U) : Prop :=
    length (tb_slots t) = 3 /\ tb_in t < 3 /\ tb_back t < 3 /\ tb_out t < 3 /\
    tb_in t <> tb_back t /\ tb_in t <> tb_out t /\ tb_back t <> tb_out t.
  Definition latest (t : @tbuf U) : option U := tb_slots t !! (if tb_dirty t then tb_back t else tb_out t).
  Definition linrun (a : @apc In) : option (nat * In) :=
    match a with AUpdate k inp false | AProcess k inp => Some (k, inp) | _ => None end.
  Definition later (a : @apc In) : option (nat * In) := match a with AUpdate k inp true => Some (k, inp) | _ => None end.
  Definition nodecode (a : @apc In) (k : nat) (t : @tbuf U) : option U :=
    match linrun a with
    | Some (k', inp) => if decide (k = k') then if tb_dirty t then tb_slots t !! tb_back t else (fun u => (process u inp).1) <$> tb_slots t !! tb_out t else latest t
    | None => latest t
    end.

  Record inv (s : state) (w : option (nat * U)) (r : option (nat * In)) (h : history) (outs : list Out) : Prop := Inv {
    i_len : length (dy_nodes s) = length (created h);
    i_wf b t : dy_bufs s !! b = Some t -> tbwf t;
    i_node k b : dy_nodes s !! k = Some b -> b < length (dy_bufs s);
    i_nodup : NoDup (dy_nodes s);
    i_none i : dy_handles s !! i = None -> waiting h i = None /\ i ∉ created h;
    i_wait i hd b : dy_handles s !! i = Some hd -> dh_output hd = Some b ->
      dh_input hd = b /\ i ∉ created h /\ b ∉ dy_nodes s /\ exists t, dy_bufs s !! b = Some t /\ latest t = Some (default dummy (waiting h i));
    i_att i hd : dy_handles s !! i = Some hd -> dh_output hd = None -> exists k, newest h i k /\ dy_nodes s !! k = Some (dh_input hd);
    i_inj i j hi hj : dy_handles s !! i = Some hi -> dy_handles s !! j = Some hj -> dh_input hi = dh_input hj -> i = j;
    i_lt i hd : dy_handles s !! i = Some hd -> dh_input hd < length (dy_bufs s);
    i_front : match dy_front s with
              | None => w = None
              | Some b => exists i u hd t, w = Some (i, u) /\ dy_handles s !! i = Some hd /\ dh_input hd = b /\ dy_bufs s !! b = Some t /\ tb_slots t !! tb_in t = Some u
              end;
    i_code k b t : dy_nodes s !! k = Some b -> dy_bufs s !! b = Some t -> code h k = nodecode (dy_audio s) k t;
    i_r : r = later (dy_audio s);
    i_outs : match linrun (dy_audio s) with
             | None => outputs h = Some <$> outs
             | Some (k, inp) => exists b t u, dy_nodes s !! k = Some b /\ dy_bufs s !! b = Some t /\ tb_slots t !! tb_out t = Some u /\
                                outputs h = (Some <$> outs) ++ [Some (process u inp).2]
             end;
    i_dirty k inp : dy_audio s = AUpdate k inp true -> exists b t, dy_nodes s !! k = Some b /\ dy_bufs s !! b = Some t /\ tb_dirty t = true;
  }.

  Lemma inv_new : inv dyn_new None None [] [].
  Proof. split; cbn; try done; try set_solver. apply NoDup_nil. done. Qed.

  Lemma newest_unique (h : history) i k k' : newest h i k -> newest h i k' -> k = k'.
  Proof.
    intros [H1 H2] [H3 H4]. destruct (Nat.lt_trichotomy k k') as [Hl|[|Hl]]; [|done|].
    - destruct H2. apply elem_of_list_lookup. exists (k' - S k). rewrite lookup_drop. by replace (S k + (k' - S k)) with k' by lia.
    - destruct H4. apply elem_of_list_lookup. exists (k - S k'). rewrite lookup_drop. by replace (S k' + (k - S k')) with k by lia.
  Qed.
  Lemma tbwf_slot (t : @tbuf U) j : tbwf t -> j < 3 -> is_Some (tb_slots t !! j).
  Proof. intros (H & _) Hj. apply lookup_lt_is_Some. lia. Qed.
  Lemma tbwf_new : tbwf (tb_new dummy).
  Proof. repeat split; cbn; lia. Qed.

  (** making sure that there is a handle changes nothing *)
  Lemma inv_handle s w r h outs i s' hd : inv s w r h outs -> w = None -> dy_front s = None -> dyn_handle dummy s i = (s', hd) ->
    inv s' w r h outs /\ dy_handles s' !! i = Some hd /\ dy_front s' = None /\ dy_audio s' = dy_audio s /\ dy_nodes s' = dy_nodes s.
  Proof.
    intros HI Hw Hf E. unfold dyn_handle in E. destruct (dy_handles s !! i) as [hd0|] eqn:Ei; [by injection E as <- <-|].
    injection E as <- <-. cbn. rewrite lookup_insert. split; [|done].
    assert (Hb : forall b t, dy_bufs s !! b = Some t -> (dy_bufs s ++ [tb_new dummy]) !! b = Some t) by (intros; by apply lookup_app_l_Some).
    assert (Hb' : forall b t, (dy_bufs s ++ [tb_new dummy]) !! b = Some t -> b < length (dy_bufs s) -> dy_bufs s !! b = Some t).
    { intros b t H1 H2. by rewrite lookup_app_l in H1. }
    destruct (i_none _ _ _ _ _ HI i Ei) as [Hn1 Hn2].
    assert (Hfresh : length (dy_bufs s) ∉ dy_nodes s).
    { intros [k Hk]%elem_of_list_lookup. pose proof (i_node _ _ _ _ _ HI _ _ Hk). lia. }
    split; cbn.
    - apply (i_len _ _ _ _ _ HI).
    - intros b t [H1|[H1 H2]]%lookup_app_Some; [by eapply i_wf|]. apply list_lookup_singleton_Some in H2 as [_ <-]. apply tbwf_new.
    - intros k b Hk. rewrite app_length. cbn. pose proof (i_node _ _ _ _ _ HI _ _ Hk). lia.
    - apply (i_nodup _ _ _ _ _ HI).
    - intros j [Hj _]%lookup_insert_None. by apply (i_none _ _ _ _ _ HI).
    - intros j hd b [[<- <-]|[Hj Hh]]%lookup_insert_Some.
      + cbn. intros [= <-]. split; [done|]. split; [done|]. split; [done|]. exists (tb_new dummy). split; [|by rewrite Hn1].
        rewrite lookup_app_r; [|lia]. by rewrite Nat.sub_diag.
      + intros Ho. destruct (i_wait _ _ _ _ _ HI _ _ _ Hh Ho) as (H1 & H2 & H3 & t & H4 & H5). split; [done|]. split; [done|]. split; [done|]. exists t. auto.
    - intros j hd [[<- <-]|[Hj Hh]]%lookup_insert_Some; [done|]. intros Ho. by apply (i_att _ _ _ _ _ HI).
    - intros j1 j2 h1 h2 [[<- <-]|[Hj1 Hh1]]%lookup_insert_Some [[<- <-]|[Hj2 Hh2]]%lookup_insert_Some; cbn; [done| | |].
      + intros He. pose proof (i_lt _ _ _ _ _ HI _ _ Hh2). lia.
      + intros He. pose proof (i_lt _ _ _ _ _ HI _ _ Hh1). lia.
      + by apply (i_inj _ _ _ _ _ HI).
    - intros j hd [[<- <-]|[Hj Hh]]%lookup_insert_Some; rewrite app_length; cbn; [lia|]. pose proof (i_lt _ _ _ _ _ HI _ _ Hh). lia.
    - by rewrite Hf.
    - intros k b t Hk Ht. pose proof (i_node _ _ _ _ _ HI _ _ Hk). eapply (i_code _ _ _ _ _ HI); eauto.
    - apply (i_r _ _ _ _ _ HI).
    - pose proof (i_outs _ _ _ _ _ HI) as H. destruct (linrun (dy_audio s)) as [[k inp]|]; [|done]. destruct H as (b & t & u & H1 & H2 & H3 & H4).
      exists b, t, u. auto.
    - intros k inp Ha. destruct (i_dirty _ _ _ _ _ HI _ _ Ha) as (b & t & H1 & H2 & H3). exists b, t. auto.
  Qed.

  Lemma inv_send s w r h outs i u s' o : inv s w r h outs -> step s (DSend i u) = Some (s', o) ->
    w = None /\ o = [] /\ inv s' (Some (i, u)) r h outs.
  Proof.
    intros HI E. cbn [dyn_step] in E. apply bind_Some in E as (s1 & E & [= <- <-]). unfold dyn_send in E.
    pose proof (i_front _ _ _ _ _ HI) as Hf. destruct (dy_front s) as [|] eqn:Ef; [done|]. split; [done|]. split; [done|].
    destruct (dyn_handle dummy s i) as [s2 hd] eqn:Eh. destruct (inv_handle _ _ _ _ _ _ _ _ HI Hf Ef Eh) as (HI2 & Hh & Hf2 & Ha & Hn).
    clear HI Eh. apply bind_Some in E as (t & Et & [= <-]). set (b := dh_input hd) in *.
    pose proof (i_wf _ _ _ _ _ HI2 _ _ Et) as Hwf. destruct (Hwf) as (W1 & W2 & W3 & W4 & W5 & W6 & W7).
    assert (Hl : latest (tb_store t u) = latest t).
    { unfold latest, tb_store. cbn. destruct (tb_dirty t); apply list_lookup_insert_ne; done. }
    assert (Hlk : forall b' t', <[b := tb_store t u]> (dy_bufs s2) !! b' = Some t' ->
              exists t0, dy_bufs s2 !! b' = Some t0 /\ (t' = t0 \/ (b' = b /\ t0 = t /\ t' = tb_store t u))).
    { intros b' t' H. apply list_lookup_insert_Some in H as [(<- & <- & _)|[_ H]]; [exists t; auto|exists t'; auto]. }
    assert (Hlk2 : forall b' t', dy_bufs s2 !! b' = Some t' ->
              exists t0, <[b := tb_store t u]> (dy_bufs s2) !! b' = Some t0 /\ (t0 = t' \/ (t' = t /\ t0 = tb_store t u))).
    { intros b' t' H. destruct (decide (b' = b)) as [->|Hne].
      - exists (tb_store t u). rewrite list_lookup_insert; [|by eapply lookup_lt_Some]. split; [done|]. right. by simplify_eq.
      - exists t'. rewrite list_lookup_insert_ne; [auto|done]. }
    split; cbn.
    - apply (i_len _ _ _ _ _ HI2).
    - intros b' t' H. destruct (Hlk _ _ H) as (t0 & H0 & [->|(-> & -> & ->)]); [by eapply i_wf|].
      unfold tbwf, tb_store. cbn. rewrite insert_length. tauto.
    - intros k b' Hk. rewrite insert_length. by apply (i_node _ _ _ _ _ HI2 k).
    - apply (i_nodup _ _ _ _ _ HI2).
    - apply (i_none _ _ _ _ _ HI2).
    - intros j hd' b' Hj Ho. destruct (i_wait _ _ _ _ _ HI2 _ _ _ Hj Ho) as (H1 & H2 & H3 & t' & H4 & H5).
      split; [done|]. split; [done|]. split; [done|]. destruct (Hlk2 _ _ H4) as (t0 & H6 & [->|(-> & ->)]); [by exists t'|].
      exists (tb_store t u). split; [done|]. by rewrite Hl.
    - apply (i_att _ _ _ _ _ HI2).
    - apply (i_inj _ _ _ _ _ HI2).
    - intros j hd' Hj. rewrite insert_length. by apply (i_lt _ _ _ _ _ HI2 j).
    - exists i, u, hd, (tb_store t u). split; [done|]. split; [done|]. split; [done|]. split; [apply list_lookup_insert; by eapply lookup_lt_Some|].
      unfold tb_store. cbn. apply list_lookup_insert. lia.
    - intros k b' t' Hk Ht. destruct (Hlk _ _ Ht) as (t0 & H0 & [->|(-> & -> & ->)]); [by eapply i_code|].
      rewrite (i_code _ _ _ _ _ HI2 _ _ _ Hk H0). unfold nodecode. rewrite Hl. cbn.
      rewrite !list_lookup_insert_ne; done.
    - apply (i_r _ _ _ _ _ HI2).
    - pose proof (i_outs _ _ _ _ _ HI2) as H. destruct (linrun (dy_audio s2)) as [[k inp]|]; [|done]. destruct H as (b' & t' & v & H1 & H2 & H3 & H4).
      destruct (Hlk2 _ _ H2) as (t0 & H6 & [->|(-> & ->)]); [by exists b', t', v|].
      exists b', (tb_store t u), v. split; [done|]. split; [done|]. split; [|done]. cbn. by rewrite list_lookup_insert_ne.
    - intros k inp Hk. destruct (i_dirty _ _ _ _ _ HI2 _ _ Hk) as (b' & t' & H1 & H2 & H3).
      destruct (Hlk2 _ _ H2) as (t0 & H6 & [->|(-> & ->)]); [by exists b', t'|]. by exists b', (tb_store t u).
  Qed.

  Lemma inv_publish s w r h outs s' o : inv s w r h outs -> step s DPublish = Some (s', o) ->
    exists i u, w = Some (i, u) /\ o = [] /\ inv s' None r (CSend i u :: h) outs.
  Proof.
    intros HI E. cbn [dyn_step] in E. apply bind_Some in E as (s1 & E & [= <- <-]). unfold dyn_publish in E.
    pose proof (i_front _ _ _ _ _ HI) as Hf. apply bind_Some in E as (b & Eb & E). rewrite Eb in Hf.
    destruct Hf as (i & u & hd & t & -> & Hh & Hb & Ht & Hu). exists i, u. split; [done|]. split; [done|].
    rewrite Ht in E. cbn [mbind option_bind] in E. injection E as <-.
    pose proof (i_wf _ _ _ _ _ HI _ _ Ht) as Hwf. destruct (Hwf) as (W1 & W2 & W3 & W4 & W5 & W6 & W7).
    assert (Hlk : forall b' t', <[b := tb_publish t]> (dy_bufs s) !! b' = Some t' ->
              exists t0, dy_bufs s !! b' = Some t0 /\ ((b' <> b /\ t' = t0) \/ (b' = b /\ t0 = t /\ t' = tb_publish t))).
    { intros b' t' H. apply list_lookup_insert_Some in H as [(<- & <- & _)|[Hne H]]; [exists t; auto|exists t'; auto]. }
    assert (Hlk2 : forall b' t', dy_bufs s !! b' = Some t' ->
              exists t0, <[b := tb_publish t]> (dy_bufs s) !! b' = Some t0 /\ ((b' <> b /\ t0 = t') \/ (b' = b /\ t' = t /\ t0 = tb_publish t))).
    { intros b' t' H. destruct (decide (b' = b)) as [->|Hne].
      - exists (tb_publish t). rewrite list_lookup_insert; [|by eapply lookup_lt_Some]. split; [done|]. right. by simplify_eq.
      - exists t'. rewrite list_lookup_insert_ne; [auto|done]. }
    assert (Hlp : latest (tb_publish t) = Some u) by (unfold latest, tb_publish; cbn; done).
    split; cbn.
    - apply (i_len _ _ _ _ _ HI).
    - intros b' t' H. destruct (Hlk _ _ H) as (t0 & H0 & [(_ & ->)|(-> & -> & ->)]); [by eapply i_wf|].
      unfold tbwf, tb_publish. cbn. repeat split; auto.
    - intros k b' Hk. rewrite insert_length. by apply (i_node _ _ _ _ _ HI k).
    - apply (i_nodup _ _ _ _ _ HI).
    - intros j Hj. destruct (i_none _ _ _ _ _ HI j Hj) as [H1 H2]. split; [|done]. rewrite decide_False; [done|]. intros ->. congruence.
    - intros j hd' b' Hj Ho. destruct (i_wait _ _ _ _ _ HI _ _ _ Hj Ho) as (H1 & H2 & H3 & t' & H4 & H5).
      split; [done|]. split; [done|]. split; [done|]. destruct (Hlk2 _ _ H4) as (t0 & H6 & [(Hne & ->)|(-> & -> & ->)]).
      + exists t'. split; [done|]. rewrite decide_False; [done|]. intros ->. congruence.
      + exists (tb_publish t). split; [done|]. rewrite decide_True; [done|]. eapply (i_inj _ _ _ _ _ HI); eauto. congruence.
    - intros j hd' Hj Ho. destruct (i_att _ _ _ _ _ HI _ _ Hj Ho) as (k & Hk1 & Hk2). exists k. auto.
    - apply (i_inj _ _ _ _ _ HI).
    - intros j hd' Hj. rewrite insert_length. by apply (i_lt _ _ _ _ _ HI j).
    - done.
    - intros k b' t' Hk Ht'. destruct (Hlk _ _ Ht') as (t0 & H0 & [(Hne & ->)|(-> & -> & ->)]).
      + rewrite decide_False; [by eapply i_code|]. intros Hnew. destruct (dh_output hd) as [b2|] eqn:Eo.
        * destruct (i_wait _ _ _ _ _ HI _ _ _ Hh Eo) as (_ & H2 & _). apply H2. apply elem_of_list_lookup. exists k. apply Hnew.
        * destruct (i_att _ _ _ _ _ HI _ _ Hh Eo) as (k2 & Hk1 & Hk2). pose proof (newest_unique _ _ _ _ Hnew Hk1) as ->. congruence.
      + destruct (dh_output hd) as [b2|] eqn:Eo.
        * destruct (i_wait _ _ _ _ _ HI _ _ _ Hh Eo) as (H1 & _ & H3 & _). destruct H3. rewrite <- H1, Hb. by apply elem_of_list_lookup_2 with k.
        * destruct (i_att _ _ _ _ _ HI _ _ Hh Eo) as (k2 & Hk1 & Hk2). rewrite Hb in Hk2.
          pose proof (NoDup_lookup _ _ _ _ (i_nodup _ _ _ _ _ HI) Hk Hk2) as ->. rewrite decide_True; [|done].
          unfold nodecode. rewrite Hlp. cbn. rewrite Hu. destruct (linrun (dy_audio s)) as [[k' inp]|]; [|done]. by destruct (decide _).
    - apply (i_r _ _ _ _ _ HI).
    - pose proof (i_outs _ _ _ _ _ HI) as H. destruct (linrun (dy_audio s)) as [[k inp]|]; [|done]. destruct H as (b' & t' & v & H1 & H2 & H3 & H4).
      destruct (Hlk2 _ _ H2) as (t0 & H6 & [(_ & ->)|(-> & -> & ->)]); [by exists b', t', v|].
      exists b, (tb_publish t), v. done.
    - intros k inp Hk. destruct (i_dirty _ _ _ _ _ HI _ _ Hk) as (b' & t' & H1 & H2 & H3).
      destruct (Hlk2 _ _ H2) as (t0 & H6 & [(_ & ->)|(-> & -> & ->)]); [by exists b', t'|]. by exists b, (tb_publish t).
  Qed.

  Lemma newest_new (h : history) i : newest (CCreate i :: h) i (length (created h)).
  Proof.
    split; cbn; [by rewrite lookup_app_r, Nat.sub_diag by lia|]. rewrite drop_ge; [by apply not_elem_of_nil|]. rewrite app_length. cbn. lia.
  Qed.
  Lemma newest_other (h : history) i j k : i <> j -> newest h j k -> newest (CCreate i :: h) j k.
  Proof.
    intros Hn [H1 H2]. split; cbn; [by apply lookup_app_l_Some|]. pose proof (lookup_lt_Some _ _ _ H1).
    rewrite drop_app_le; [|lia]. rewrite not_elem_of_app. split; [done|]. set_solver.
  Qed.

  (** a new node [length nodes] with buffer [b], which holds what is waiting *)
  Lemma inv_created s r h outs i b t bufs' :
    inv s None r h outs -> dy_front s = None ->
    (forall b' t', dy_bufs s !! b' = Some t' -> bufs' !! b' = Some t') ->
    (forall b' t', bufs' !! b' = Some t' -> (dy_bufs s !! b' = Some t' \/ (b' = b /\ tbwf t'))) ->
    length (dy_bufs s) <= length bufs' ->
    bufs' !! b = Some t -> b ∉ dy_nodes s ->
    (forall j hd, dy_handles s !! j = Some hd -> dh_input hd = b -> i = j) ->
    latest t = Some (if decide (i ∈ created h) then dummy else default dummy (waiting h i)) ->
    inv (Dyn bufs' (<[i := DHandle b None]> (dy_handles s)) (dy_nodes s ++ [b]) None (dy_audio s)) None r (CCreate i :: h) outs.
  Proof.
    intros HI Hf Hb1 Hb2 Hb3 Hb Hnb Hinj Hlat. split; cbn.
    - rewrite !app_length. cbn. by rewrite (i_len _ _ _ _ _ HI).
    - intros b' t' [H|[_ H]]%Hb2; [by eapply i_wf|done].
    - intros k b' [H|[_ H]]%lookup_app_Some.
      + pose proof (i_node _ _ _ _ _ HI _ _ H). lia.
      + apply list_lookup_singleton_Some in H as [_ <-]. by eapply lookup_lt_Some.
    - apply NoDup_app. split; [apply (i_nodup _ _ _ _ _ HI)|]. split; [|apply NoDup_singleton]. set_solver.
    - intros j [Hj Hne]%lookup_insert_None. destruct (i_none _ _ _ _ _ HI j Hj) as [H1 H2]. split; [done|]. set_solver.
    - intros j hd b' [[<- <-]|[Hne Hj]]%lookup_insert_Some; [done|]. intros Ho.
      destruct (i_wait _ _ _ _ _ HI _ _ _ Hj Ho) as (H1 & H2 & H3 & t' & H4 & H5). split; [done|]. split; [set_solver|]. split.
      + apply not_elem_of_app. split; [done|]. intros ->%elem_of_list_singleton. destruct Hne. by eapply Hinj.
      + exists t'. auto.
    - intros j hd [[<- <-]|[Hne Hj]]%lookup_insert_Some Ho.
      + exists (length (created h)). split; [apply newest_new|]. cbn. by rewrite lookup_app_r, (i_len _ _ _ _ _ HI), Nat.sub_diag by (rewrite (i_len _ _ _ _ _ HI); lia).
      + destruct (i_att _ _ _ _ _ HI _ _ Hj Ho) as (k & Hk1 & Hk2). exists k. split; [by apply newest_other|]. by apply lookup_app_l_Some.
    - intros j1 j2 h1 h2 [[<- <-]|[Hj1 Hh1]]%lookup_insert_Some [[<- <-]|[Hj2 Hh2]]%lookup_insert_Some; cbn; [done| | |].
      + intros He. by eapply Hinj.
      + intros He. symmetry. by eapply Hinj.
      + by apply (i_inj _ _ _ _ _ HI).
    - intros j hd [[<- <-]|[Hne Hj]]%lookup_insert_Some; cbn; [by eapply lookup_lt_Some|]. pose proof (i_lt _ _ _ _ _ HI _ _ Hj). lia.
    - done.
    - intros k b' t' [Hk|[Hk1 Hk2]]%lookup_app_Some Ht'.
      + pose proof (lookup_lt_Some _ _ _ Hk) as Hlt. rewrite (i_len _ _ _ _ _ HI) in Hlt. rewrite decide_False by lia.
        eapply (i_code _ _ _ _ _ HI); [done|]. destruct (lookup_lt_is_Some_2 (dy_bufs s) b') as [t2 Ht2]; [by eapply i_node|].
        rewrite Ht2. pose proof (Hb1 _ _ Ht2). congruence.
      + apply list_lookup_singleton_Some in Hk2 as [Hk2 <-]. rewrite (i_len _ _ _ _ _ HI) in Hk1, Hk2. rewrite decide_True by lia.
        assert (t' = t) as -> by congruence. rewrite <- Hlat. unfold nodecode. destruct (linrun (dy_audio s)) as [[k' inp]|] eqn:El; [|done].
        rewrite decide_False; [done|]. intros <-. pose proof (i_outs _ _ _ _ _ HI) as H. rewrite El in H. destruct H as (b2 & _ & _ & H & _).
        apply lookup_lt_Some in H. rewrite (i_len _ _ _ _ _ HI) in H. lia.
    - apply (i_r _ _ _ _ _ HI).
    - pose proof (i_outs _ _ _ _ _ HI) as H. destruct (linrun (dy_audio s)) as [[k inp]|]; [|done]. destruct H as (b' & t' & v & H1 & H2 & H3 & H4).
      exists b', t', v. split; [by apply lookup_app_l_Some|]. auto.
    - intros k inp Hk. destruct (i_dirty _ _ _ _ _ HI _ _ Hk) as (b' & t' & H1 & H2 & H3). exists b', t'. split; [by apply lookup_app_l_Some|]. auto.
  Qed.

  Lemma inv_create s w r h outs i s' o : inv s w r h outs -> step s (DCreate i) = Some (s', o) ->
    w = None /\ o = [] /\ inv s' None r (CCreate i :: h) outs.
  Proof.
    intros HI E. cbn [dyn_step] in E. apply bind_Some in E as (s1 & E & [= <- <-]). unfold dyn_create in E.
    pose proof (i_front _ _ _ _ _ HI) as Hf. destruct (dy_front s) as [|] eqn:Ef; [done|]. split; [done|]. split; [done|].
    destruct (dyn_handle dummy s i) as [s2 hd] eqn:Eh. destruct (inv_handle _ _ _ _ _ _ _ _ HI Hf Ef Eh) as (HI2 & Hh & Hf2 & Ha & Hn).
    clear HI Eh Ha Hn Ef. subst w. destruct (dh_output hd) as [b|] eqn:Eo; injection E as <-.
    - destruct (i_wait _ _ _ _ _ HI2 _ _ _ Hh Eo) as (<- & H2 & H3 & t & H4 & H5).
      eapply inv_created; [done|done|auto|auto|done|exact H4|done| |].
      + intros j hd' Hj He. eapply (i_inj _ _ _ _ _ HI2); eauto.
      + by rewrite decide_False.
    - destruct (i_att _ _ _ _ _ HI2 _ _ Hh Eo) as (k & [Hk1 Hk2] & Hk3).
      eapply inv_created; [done|done| | | | | | |].
      + intros. by apply lookup_app_l_Some.
      + intros b' t' [H|[H1 H2]]%lookup_app_Some; [by left|]. apply list_lookup_singleton_Some in H2 as [H2 <-]. right. split; [lia|apply tbwf_new].
      + rewrite app_length. lia.
      + rewrite lookup_app_r, Nat.sub_diag by lia. done.
      + intros [k2 Hx]%elem_of_list_lookup. pose proof (i_node _ _ _ _ _ HI2 _ _ Hx). lia.
      + intros j hd' Hj He. pose proof (i_lt _ _ _ _ _ HI2 _ _ Hj). lia.
      + rewrite decide_True; [done|]. by apply elem_of_list_lookup_2 with k.
  Qed.

  Lemma inv_look s w r h outs k inp s' o : inv s w r h outs -> step s (DLook k inp) = Some (s', o) ->
    r = None /\ o = [] /\ (inv s' w None (CRun k inp :: h) outs \/ inv s' w (Some (k, inp)) h outs).
  Proof.
    intros HI E. cbn [dyn_step] in E. apply bind_Some in E as (s1 & E & [= <- <-]). unfold dyn_look in E.
    pose proof (i_r _ _ _ _ _ HI) as Hr. pose proof (i_outs _ _ _ _ _ HI) as Ho.
    destruct (dy_audio s) eqn:Ea; [|done..]. cbn in Hr, Ho. split; [done|]. split; [done|].
    apply bind_Some in E as (b & Eb & E). apply bind_Some in E as (t & Et & [= <-]). subst r.
    pose proof (i_wf _ _ _ _ _ HI _ _ Et) as Hwf. destruct (tbwf_slot t (tb_out t) Hwf) as [u Hu]; [apply Hwf|].
    pose proof (i_code _ _ _ _ _ HI _ _ _ Eb Et) as Hc. rewrite Ea in Hc. unfold nodecode, latest in Hc. cbn in Hc.
    destruct (tb_dirty t) eqn:Ed; [right|left]; destruct HI; split; cbn; try done.
    - intros k' b' t' Hk' Ht'. rewrite (i_code0 _ _ _ Hk' Ht'). rewrite Ea. done.
    - intros k' inp' [= <- <-]. by exists b, t.
    - intros k' b' t' Hk' Ht'. unfold nodecode. cbn. destruct (decide (k' = k)) as [->|].
      + assert (b' = b) as -> by congruence. assert (t' = t) as -> by congruence. by rewrite Ed, Hc.
      + rewrite (i_code0 _ _ _ Hk' Ht'). by rewrite Ea.
    - exists b, t, u. split; [done|]. split; [done|]. split; [done|]. by rewrite Ho, Hc, Hu.
  Qed.

  Lemma inv_update s w r h outs s' o : inv s w r h outs -> step s DUpdate = Some (s', o) ->
    o = [] /\ ((r = None /\ inv s' w None h outs) \/ (exists k inp, r = Some (k, inp) /\ inv s' w None (CRun k inp :: h) outs)).
  Proof.
    intros HI E. cbn [dyn_step] in E. apply bind_Some in E as (s1 & E & [= <- <-]). unfold dyn_update in E.
    pose proof (i_r _ _ _ _ _ HI) as Hr. pose proof (i_outs _ _ _ _ _ HI) as Ho.
    destruct (dy_audio s) as [|k inp new|] eqn:Ea; [done| |done]. split; [done|].
    apply bind_Some in E as (b & Eb & E). apply bind_Some in E as (t & Et & [= <-]). destruct new; cbn in Hr, Ho; subst r.
    - right. exists k, inp. split; [done|]. destruct (i_dirty _ _ _ _ _ HI _ _ Ea) as (b2 & t2 & H1 & H2 & H3).
      assert (b2 = b) as -> by congruence. assert (t2 = t) as -> by congruence. clear H1 H2.
      pose proof (i_wf _ _ _ _ _ HI _ _ Et) as Hwf. destruct (tbwf_slot t (tb_back t) Hwf) as [u Hu]; [apply Hwf|].
      destruct (Hwf) as (W1 & W2 & W3 & W4 & W5 & W6 & W7).
      pose proof (i_code _ _ _ _ _ HI _ _ _ Eb Et) as Hc. rewrite Ea in Hc. unfold nodecode, latest in Hc. cbn in Hc. rewrite H3 in Hc.
      assert (Hlk : forall b' t', <[b := tb_swap t]> (dy_bufs s) !! b' = Some t' ->
                exists t0, dy_bufs s !! b' = Some t0 /\ ((b' <> b /\ t' = t0) \/ (b' = b /\ t0 = t /\ t' = tb_swap t))).
      { intros b' t' H. apply list_lookup_insert_Some in H as [(<- & <- & _)|[Hne H]]; [exists t; auto|exists t'; auto]. }
      assert (Hlk2 : forall b' t', dy_bufs s !! b' = Some t' ->
                exists t0, <[b := tb_swap t]> (dy_bufs s) !! b' = Some t0 /\ ((b' <> b /\ t0 = t') \/ (b' = b /\ t' = t /\ t0 = tb_swap t))).
      { intros b' t' H. destruct (decide (b' = b)) as [->|Hne].
        - exists (tb_swap t). rewrite list_lookup_insert; [|by eapply lookup_lt_Some]. split; [done|]. right. by simplify_eq.
        - exists t'. rewrite list_lookup_insert_ne; [auto|done]. }
      assert (Hls : latest (tb_swap t) = latest t) by (unfold latest; cbn; by rewrite H3).
      destruct HI. split; cbn; try done.
      + intros b' t' H. destruct (Hlk _ _ H) as (t0 & H0 & [(_ & ->)|(-> & -> & ->)]); [by eapply i_wf0|].
        unfold tbwf, tb_swap. cbn. repeat split; auto.
      + intros k' b' Hk. rewrite insert_length. by apply (i_node0 k').
      + intros j hd' b' Hj Hoj. destruct (i_wait0 _ _ _ Hj Hoj) as (H1 & H2 & H4 & t' & H5 & H6).
        split; [done|]. split; [done|]. split; [done|]. destruct (Hlk2 _ _ H5) as (t0 & H7 & [(_ & ->)|(-> & -> & ->)]); [by exists t'|].
        exists (tb_swap t). split; [done|]. by rewrite Hls.
      + intros j hd' Hj. rewrite insert_length. by apply (i_lt0 j).
      + destruct (dy_front s) as [bf|]; [|done]. destruct i_front0 as (i & v & hd & t' & H1 & H2 & H4 & H5 & H6).
        destruct (Hlk2 _ _ H5) as (t0 & H7 & [(_ & ->)|(-> & -> & ->)]); [by exists i, v, hd, t'|]. by exists i, v, hd, (tb_swap t).
      + intros k' b' t' Hk' Ht'. unfold nodecode. cbn. destruct (Hlk _ _ Ht') as (t0 & H0 & [(Hne & ->)|(-> & -> & ->)]).
        * rewrite (i_code0 _ _ _ Hk' H0), Ea. destruct (decide (k' = k)) as [->|]; [congruence|done].
        * pose proof (NoDup_lookup _ _ _ _ i_nodup0 Hk' Eb) as ->. rewrite decide_True by done. rewrite decide_True by done. cbn. by rewrite Hc.
      + exists b, (tb_swap t), u. split; [done|]. split; [apply list_lookup_insert; by eapply lookup_lt_Some|]. split; [done|]. by rewrite Ho, Hc, Hu.
    - left. split; [done|]. destruct HI. split; cbn; try done. intros k' b' t' Hk' Ht'. rewrite (i_code0 _ _ _ Hk' Ht'), Ea. done.
  Qed.

  Lemma inv_process s w r h outs s' o : inv s w r h outs -> step s DProcess = Some (s', o) ->
    r = None /\ inv s' w None h (outs ++ o).
  Proof.
    intros HI E. cbn [dyn_step] in E. apply bind_Some in E as ([s1 o1] & E & [= <- <-]). unfold dyn_process in E.
    pose proof (i_r _ _ _ _ _ HI) as Hr. pose proof (i_outs _ _ _ _ _ HI) as Ho.
    destruct (dy_audio s) as [| |k inp] eqn:Ea; [done..|]. cbn in Hr, Ho. split; [done|]. subst r.
    destruct Ho as (b & t & u & Hb & Ht & Hu & Ho). rewrite Hb in E. cbn [mbind option_bind] in E. rewrite Ht in E. cbn [mbind option_bind] in E.
    rewrite Hu in E. cbn [mbind option_bind] in E. destruct (process u inp) as [u' out] eqn:Ep. injection E as <- <-.
    pose proof (i_wf _ _ _ _ _ HI _ _ Ht) as Hwf. destruct (Hwf) as (W1 & W2 & W3 & W4 & W5 & W6 & W7).
    set (t2 := TBuf (<[tb_out t := u']> (tb_slots t)) (tb_in t) (tb_back t) (tb_dirty t) (tb_out t)) in *.
    assert (Hlk : forall b' t', <[b := t2]> (dy_bufs s) !! b' = Some t' ->
              exists t0, dy_bufs s !! b' = Some t0 /\ ((b' <> b /\ t' = t0) \/ (b' = b /\ t0 = t /\ t' = t2))).
    { intros b' t' H. apply list_lookup_insert_Some in H as [(<- & <- & _)|[Hne H]]; [exists t; auto|exists t'; auto]. }
    assert (Hlk2 : forall b' t', dy_bufs s !! b' = Some t' ->
              exists t0, <[b := t2]> (dy_bufs s) !! b' = Some t0 /\ ((b' <> b /\ t0 = t') \/ (b' = b /\ t' = t /\ t0 = t2))).
    { intros b' t' H. destruct (decide (b' = b)) as [->|Hne].
      - exists t2. rewrite list_lookup_insert; [|by eapply lookup_lt_Some]. split; [done|]. right. by simplify_eq.
      - exists t'. rewrite list_lookup_insert_ne; [auto|done]. }
    destruct HI. split; cbn; try done.
    - intros b' t' H. destruct (Hlk _ _ H) as (t0 & H0 & [(_ & ->)|(-> & -> & ->)]); [by eapply i_wf0|].
      unfold tbwf, t2. cbn. rewrite insert_length. repeat split; auto.
    - intros k' b' Hk. rewrite insert_length. by apply (i_node0 k').
    - intros j hd' b' Hj Hoj. destruct (i_wait0 _ _ _ Hj Hoj) as (H1 & H2 & H4 & t' & H5 & H6).
      split; [done|]. split; [done|]. split; [done|]. destruct (Hlk2 _ _ H5) as (t0 & H7 & [(_ & ->)|(-> & -> & ->)]); [by exists t'|].
      destruct H4. by apply elem_of_list_lookup_2 with k.
    - intros j hd' Hj. rewrite insert_length. by apply (i_lt0 j).
    - destruct (dy_front s) as [bf|]; [|done]. destruct i_front0 as (i & v & hd & t' & H1 & H2 & H4 & H5 & H6).
      destruct (Hlk2 _ _ H5) as (t0 & H7 & [(_ & ->)|(-> & -> & ->)]); [by exists i, v, hd, t'|]. exists i, v, hd, t2.
      split; [done|]. split; [done|]. split; [done|]. split; [done|]. cbn. rewrite list_lookup_insert_ne; [done|]. auto.
    - intros k' b' t' Hk' Ht'. unfold nodecode, latest. cbn. destruct (Hlk _ _ Ht') as (t0 & H0 & [(Hne & ->)|(-> & -> & ->)]).
      + rewrite (i_code0 _ _ _ Hk' H0), Ea. unfold nodecode. cbn. destruct (decide (k' = k)) as [->|]; [congruence|done].
      + pose proof (NoDup_lookup _ _ _ _ i_nodup0 Hk' Hb) as ->. rewrite (i_code0 _ _ _ Hk' H0), Ea. unfold nodecode. cbn. rewrite decide_True by done.
        destruct (tb_dirty t); [by rewrite list_lookup_insert_ne|]. rewrite Hu. cbn. rewrite Ep. rewrite list_lookup_insert; [done|lia].
    - rewrite Ho, fmap_app. done.
  Qed.

  (** every execution can be seen as calls that happen at one moment *)
  Lemma linearised tr : forall s outs, run dyn_new tr = Some (s, outs) -> exists w r h, happened tr w r h /\ inv s w r h outs.
  Proof.
    induction tr as [|a tr IH] using rev_ind; intros s outs E.
    - injection E as <- <-. exists None, None, []. split; [constructor|apply inv_new].
    - apply run_snoc in E as (s1 & o1 & o2 & E1 & E2 & ->). destruct (IH _ _ E1) as (w & r & h & Hh & HI). destruct a as [i u| |i|k inp| |].
      + destruct (inv_send _ _ _ _ _ _ _ _ _ HI E2) as (-> & -> & HI2). rewrite app_nil_r. exists (Some (i, u)), r, h. split; [by constructor|done].
      + destruct (inv_publish _ _ _ _ _ _ _ HI E2) as (i & u & -> & -> & HI2). rewrite app_nil_r. exists None, r, (CSend i u :: h). split; [by constructor|done].
      + destruct (inv_create _ _ _ _ _ _ _ _ HI E2) as (-> & -> & HI2). rewrite app_nil_r. exists None, r, (CCreate i :: h). split; [by constructor|done].
      + destruct (inv_look _ _ _ _ _ _ _ _ _ HI E2) as (-> & -> & [HI2|HI2]); rewrite app_nil_r.
        * exists w, None, (CRun k inp :: h). split; [by constructor|done].
        * exists w, (Some (k, inp)), h. split; [by constructor|done].
      + destruct (inv_update _ _ _ _ _ _ _ HI E2) as (-> & [(-> & HI2)|(k & inp & -> & HI2)]); rewrite app_nil_r.
        * exists w, None, h. split; [by constructor|done].
        * exists w, None, (CRun k inp :: h). split; [by constructor|done].
      + destruct (inv_process _ _ _ _ _ _ _ HI E2) as (-> & HI2). exists w, None, h. split; [by constructor|done].
  Qed.
End dyn.
