(** Proofs about the modulation amounts in the audio thread *)
From Verif Require Import Base M_Atom M_Graph M_Dir M_Grid S_Grid M_Layout S_Layout M_Prog M_Conf M_Exec M_Sync M_Engine.
From Verif Require Import S_Conf S_Sync S_Prog S_Own L_Graph L_Grid L_Layout L_Conf L_Conf2 L_Conf3 L_Sync L_Prog L_Build L_Fill L_Wire L_Own L_Own2 L_Own3 L_Flow S_Settle L_Settle L_Settle2 L_Settle3 L_Settle4 S_Tuned.
Open Scope nat_scope.
Local Opaque block_size.

(** the modulators of every operation, and the amounts of all modulators *)
Definition view : Type := list (node_id * (nat * nat)) * list f32.
Definition opair (op : nodeop) : node_id * (nat * nat) := (op_node op, op_mod op).
Definition pview (p : nprog) : view := (opair <$> np_ops p, mo_amt <$> np_mods p).
Definition vapplied (A : view) (m : gmsg) : view :=
  match m with
  | MClear p | MNewProg p _ => pview p
  | MModamt i a => (A.1, <[i := a]> A.2)
  | _ => A
  end.
Lemma vapplied_none ms A : Forall (fun m => match m with MClear _ | MNewProg _ _ | MModamt _ _ => False | _ => True end) ms -> foldl vapplied A ms = A.
Proof. induction 1 as [|m ms Hm _ IH]; [done|]. cbn. by destruct m. Qed.
Lemma monitor_none ms : (forall x, x ∈ ms -> exists bs, x = MMonitor bs) ->
  Forall (fun m => match m with MClear _ | MNewProg _ _ | MModamt _ _ => False | _ => True end) ms.
Proof. intros H. apply Forall_forall. intros x Hx. by destruct (H x Hx) as [bs ->]. Qed.

Lemma opair_add_input (ops : list nodeop) idx ii oi md : opair <$> ops_add_input ops idx ii oi md = opair <$> ops.
Proof.
  induction ops as [|o ops IH]; [done|]. cbn [ops_add_input]. destruct (op_idx o =? idx).
  - cbn. f_equal. unfold opair, op_push_input, op_set_in_flag. by destruct (in_range _ _).
  - cbn. by rewrite IH.
Qed.
Lemma opair_out (ops : list nodeop) g : opair <$> ((fun o => op_set_out_flag o g) <$> ops) = opair <$> ops.
Proof.
  rewrite <- list_fmap_compose. apply list_fmap_ext. intros i o _. cbn. unfold opair, op_set_out_flag. by destruct (in_range _ _).
Qed.

Lemma assign_input_amt inp out st io st' : assign_input inp out st io = Some st' -> mo_amt <$> st'.2 = mo_amt <$> st.2.
Proof.
  destruct st as [cur mods], io as [[oi ii] md]. unfold assign_input.
  destruct (out !! oi); cbn [mbind option_bind]; [|done]. destruct (negb _); [done|]. destruct md as [m|]; [|by intros [= <-]].
  destruct (mods !! m) as [mo|] eqn:Em; cbn [mbind option_bind]; [|done]. destruct (inp !! ii); cbn [mbind option_bind]; [|done].
  intros [= <-]. cbn [snd]. rewrite list_fmap_insert. apply list_insert_id. rewrite list_lookup_fmap, Em. done.
Qed.
Lemma assign_view p p' : prog_assign p = Some p' -> pview p' = pview p.
Proof.
  unfold prog_assign. destruct (foldm _ _ _) as [[cur mods]|] eqn:E; cbn [mbind option_bind]; [|done]. intros [= <-].
  unfold pview. cbn. f_equal. change mods with ((cur, mods).2).
  eapply (foldm_inv _ (fun st => mo_amt <$> st.2 = mo_amt <$> np_mods p)); [| |exact E]; [|done].
  intros s op s' _ Hs. unfold assign_op. destruct (copy_range _ _ _) as [c|]; cbn [mbind option_bind]; [|done]. intros E2.
  eapply (foldm_inv _ (fun st => mo_amt <$> st.2 = mo_amt <$> np_mods p)); [| |exact E2]; [|exact Hs].
  intros a io a' _ Ha E3. by rewrite (assign_input_amt _ _ _ _ _ E3).
Qed.
Lemma swap_view p prev : pview (prog_swap p prev).1 = pview p.
Proof.
  unfold prog_swap. destruct (swap_zip _ _) as [a b]. cbn. unfold pview. cbn. destruct (np_locked p); [|done]. cbn. f_equal.
  rewrite <- list_fmap_compose. by apply list_fmap_ext.
Qed.

Section tuned.
  Context (T : ntable) (HT : table_ok T).

  (** the tables of the frontend agree with the audio thread *)
  Record tinv (c : nconf) (A : view) : Prop := {
    ti_at : forall id r, (id, r) ∈ A.1 -> r.2 = r.1 + length (modulated T (cf_modamt c) id) /\
      forall k j, modulated T (cf_modamt c) id !! k = Some j -> exists x a, cf_params c !! (id, j) = Some x /\ npa_mod x = Some (r.1 + k, a);
    ti_amt : forall k x i a, cf_params c !! k = Some x -> npa_mod x = Some (i, a) -> A.2 !! i = Some a /\ conf_get_modamt c k = Some a;
    ti_inj : forall k k' x x' i a a', cf_params c !! k = Some x -> cf_params c !! k' = Some x' ->
      npa_mod x = Some (i, a) -> npa_mod x' = Some (i, a') -> k = k';
  }.
  Lemma tinv_new M : tinv conf_new ([], M).
  Proof. constructor; cbn; try done. by intros id r ?%elem_of_nil. Qed.

  Lemma tinv_same c c' A : cf_params c' = cf_params c -> cf_modamt c' = cf_modamt c -> tinv c A -> tinv c' A.
  Proof. intros E1 E2 [H1 H2 H3]. constructor; unfold conf_get_modamt; rewrite ?E1, ?E2; done. Qed.

  Lemma create_cells_same ns c c' : conf_create_cells T c ns = Some c' -> cf_params c' = cf_params c /\ cf_modamt c' = cf_modamt c.
  Proof.
    assert (H1 : forall c n c', conf_create T c n = Some c' -> cf_params c' = cf_params c /\ cf_modamt c' = cf_modamt c).
    { intros a n a'. unfold conf_create. destruct (nt_known T (nid_kind n)); [|done]. by intros [= <-]. }
    intros E. eapply (foldm_inv _ (fun s => cf_params s = cf_params c /\ cf_modamt s = cf_modamt c)); [|done|exact E].
    intros s n s' _ [Hs1 Hs2]. unfold conf_create_cell. destruct (decide (n = Nop)); [by intros [= <-]|].
    destruct (cf_idx s !! n); [by intros [= <-]|].
    destruct (foldm (conf_ensure T) s _) as [s1|] eqn:E1; cbn [mbind option_bind]; [|done]. intros [E2 E3]%H1. rewrite E2, E3.
    eapply (foldm_inv _ (fun s => cf_params s = cf_params c /\ cf_modamt s = cf_modamt c)); [|done|exact E1].
    intros a m a' _ [Ha1 Ha2]. unfold conf_ensure. destruct (cf_idx a !! m); [by intros [= <-]|]. intros [E4 E5]%H1. by rewrite E4, E5.
  Qed.

  Lemma program_tuned h c order es h' c' p : conf_fine T c -> conf_program T h c order es = Some (h', c', p) -> tinv c' (pview p).
  Proof.
    intros Hg. destruct (rebuild_laid T HT h c Hg) as (h1 & c1 & p1 & E & Hl & Hp). cbn zeta in Hp.
    unfold conf_program. rewrite E. cbn [mbind option_bind].
    destruct (foldm conf_connect _ es) as [[c3 p3]|] eqn:E3; cbn [mbind option_bind]; [|done].
    destruct (prog_new_lengths _ _ _ _ _ _ _ Hp) as (L1 & L2 & L3 & L4 & Ho & Hcur & Hpar & Hlk & Hfb & Hats).
    destruct (program_ops_fit T c c1 p1 order es Hl Ho _ E3) as (V & ops & Hp3 & Hf). cbn zeta in *. cbn [fst snd] in *. subst p3.
    destruct (fill_spec T c c1 c3 (with_ops p1 ops) Hl V) as (ps & ms & ats & -> & P1 & P2 & P3 & V1 & V2 & V3 & V4); cbn; try done.
    { by rewrite Hpar, replicate_length. }
    cbn [mbind option_bind]. intros [= <- <- <-]. destruct V as (_ & Sp & Sv & Sm & Sa & Sw & Sn). unfold pview. cbn [np_ops np_mods].
    pose proof (ld_modamt _ _ _ Hl) as Hma.
    constructor; cbn [fst snd]; rewrite ?Sp, ?Sm, ?Hma.
    - assert (Hw : forall n ni, conf_inst c1 n = Some ni -> exists j, created c !! j = Some (ni_id ni) /\
        ni_mod ni = (psum (n_mods T (cf_modamt c)) (created c) j, psum (n_mods T (cf_modamt c)) (created c) j + n_mods T (cf_modamt c) (ni_id ni))).
      { intros n ni Hn. destruct (laid_inst_inv T _ _ _ _ Hl Hn) as (j & Hj & Hok). exists j.
        rewrite (io_id _ _ _ _ _ _ _ _ _ Hok), (io_mod _ _ _ _ _ _ _ _ _ Hok). done. }
      assert (F1 : Forall (fun x => exists j, created c !! j = Some x.1 /\
        x.2 = (psum (n_mods T (cf_modamt c)) (created c) j, psum (n_mods T (cf_modamt c)) (created c) j + n_mods T (cf_modamt c) x.1)) (opair <$> np_ops (foldl conf_add_node (c1, p1) order).2)).
      { clear E3. induction order as [|n order IH] using rev_ind; [cbn; rewrite Ho; constructor|].
        rewrite foldl_app. cbn [foldl]. destruct (add_nodes_any T c c1 p1 order Hl) as (S1 & _). cbn zeta in *.
        set (cp := foldl conf_add_node (c1, p1) order) in *. unfold conf_add_node.
        destruct (conf_inst cp.1 n) as [ni|] eqn:En; [|done]. cbn [snd].
        unfold prog_append_op. destruct (existsb _ _); [done|]. cbn [np_ops with_ops]. rewrite fmap_app. apply Forall_app. split; [done|].
        constructor; [|constructor]. destruct (same_inst_some _ _ _ _ S1 En) as (ni1 & Hn1 & Hop & _). rewrite Hop. by eapply Hw. }
      assert (F2 : opair <$> np_ops (c3, with_ops p1 ops).2 = opair <$> np_ops (foldl conf_add_node (c1, p1) order).2).
      { eapply (foldm_inv conf_connect (fun s => opair <$> np_ops s.2 = opair <$> np_ops (foldl conf_add_node (c1, p1) order).2)); [|reflexivity|exact E3].
        intros s e s' _ Hs. unfold conf_connect. destruct (conf_inst s.1 (e_from e)); [|by intros [= <-]].
        destruct (conf_inst s.1 (e_to e)); [|by intros [= <-]]. destruct (ni_mod_global _ _); cbn [mbind option_bind]; [|done].
        intros [= <-]. cbn [snd]. destruct (local2global _ _); [|done]. destruct (local2global _ _); [|done].
        unfold prog_append_edge. cbn [np_ops with_ops]. by rewrite opair_add_input, opair_out. }
      cbn [snd np_ops with_ops] in F2. cbn [np_ops with_ops]. rewrite F2. intros id r Hin.
      destruct (proj1 (Forall_forall _ _) F1 _ Hin) as (j & Hj & Hr). cbn in Hj, Hr. subst r. cbn.
      rewrite modulated_length. split; [done|]. intros k q Hk.
      destruct (modulated_inv T _ _ _ _ Hk) as (Hs & Hq & ->).
      destruct Hs as [a Ha]. eexists _, a. split; [by apply (ld_param _ _ _ Hl)|]. cbn. by rewrite Ha.
    - intros [id q] x i a Hx Hm. split; [rewrite list_lookup_fmap; by eapply V2|].
      unfold conf_get_modamt. rewrite Sm, Hma. destruct (laid_param_inv T _ _ _ _ _ Hl Hx) as (j & Hj & Hq & _ & _ & Hmx).
      rewrite Hm in Hmx. destruct (mjoin (cf_modamt c !! (id, q))); [|done]. by injection Hmx as _ ->.
    - intros [id q] [id' q'] x x' i a a' Hx Hx' Hm Hm'.
      destruct (laid_param_inv T _ _ _ _ _ Hl Hx) as (j & Hj & Hq & _ & _ & Hmx).
      destruct (laid_param_inv T _ _ _ _ _ Hl Hx') as (j' & Hj' & Hq' & _ & _ & Hmx').
      rewrite Hm in Hmx. rewrite Hm' in Hmx'.
      destruct (mjoin (cf_modamt c !! (id, q))) as [b|] eqn:Eb; [|done]. destruct (mjoin (cf_modamt c !! (id', q'))) as [b'|] eqn:Eb'; [|done].
      injection Hmx as E1 ->. injection Hmx' as E2 ->.
      destruct (psum_inj (n_mods T (cf_modamt c)) (created c) j j' id id' (rank (cf_modamt c) id q) (rank (cf_modamt c) id' q') Hj Hj') as [<- Hr].
      + unfold n_mods. by eapply rank_lt.
      + unfold n_mods. by eapply rank_lt.
      + congruence.
      + rewrite Hj in Hj'. injection Hj' as <-. f_equal. destruct (decide (q < q')) as [Hlt|Hge].
        * pose proof (rank_lt (cf_modamt c) id q q' _ Eb Hlt). lia.
        * destruct (decide (q' < q)) as [Hlt|]; [|lia]. pose proof (rank_lt (cf_modamt c) id q' q _ Eb' Hlt). lia.
  Qed.

  Lemma tuned_sync h m h' m' ms A : mx_inv T m -> matrix_sync T h m = Some (h', m', ms, None) -> tinv (mx_conf m') (foldl vapplied A ms).
  Proof.
    intros Hm E. destruct (sync_cases T HT _ _ _ _ _ _ Hm E) as (c1 & Ec & Hg1 & _ & _ & _ & order & p & mon & _ & Ep & -> & Hmon).
    cbn [foldl vapplied]. rewrite vapplied_none by (by apply monitor_none). eapply program_tuned, Ep. by apply good_fine.
  Qed.
  Lemma tuned_sync_err h m h' m' ms e A : mx_inv T m -> tinv (mx_conf m) A -> matrix_sync T h m = Some (h', m', ms, Some e) -> tinv (mx_conf m') (foldl vapplied A ms).
  Proof.
    intros Hm HA E. destruct (sync_cases T HT _ _ _ _ _ _ Hm E) as (c1 & Ec & Hg1 & _ & _ & _ & _ & -> & -> & -> & _).
    destruct (create_cells_same _ _ _ Ec) as [E1 E2]. by eapply tinv_same.
  Qed.

  Context (i2f : Z -> f32) (load_sample : satom -> satom).

  Lemma tuned_set_param c p a A : tinv c A -> let cm := conf_set_param T i2f load_sample c p a in tinv cm.1 (foldl vapplied A cm.2).
  Proof.
    intros Hf. cbn zeta. unfold conf_set_param. destruct (is_atom T p).
    - destruct (cf_atoms c !! p); cbn [fst snd foldl vapplied]; by apply (tinv_same c).
    - destruct (cf_params c !! p) as [y|] eqn:Ey; cbn [fst snd foldl vapplied]; [|by apply (tinv_same c)].
      set (c' := NConf _ _ _ _ _ _ _).
      assert (Hp : forall k x, cf_params c' !! k = Some x -> exists x0, cf_params c !! k = Some x0 /\ npa_mod x = npa_mod x0).
      { intros k x. cbn. destruct (decide (k = p)) as [->|Hne]; [rewrite lookup_insert|rewrite lookup_insert_ne by done; by exists x].
        intros [= <-]. by exists y. }
      constructor.
      + intros id r Hin. destruct (ti_at _ _ Hf id r Hin) as [H1 H2]. split; [done|]. intros k j Hk. destruct (H2 k j Hk) as (x & b & Hx & Hb).
        cbn. destruct (decide ((id, j) = p)) as [Heq|Hne]; [|rewrite lookup_insert_ne by done; by exists x, b].
        rewrite Heq in *. rewrite lookup_insert. eexists _, b. split; [done|]. cbn. congruence.
      + intros k x i b Hx Hb. destruct (Hp k x Hx) as (x0 & Hx0 & E). rewrite E in Hb. by eapply (ti_amt _ _ Hf).
      + intros k k' x x' i b b' Hx Hx' Hb Hb'. destruct (Hp k x Hx) as (x0 & Hx0 & E). destruct (Hp k' x' Hx') as (x0' & Hx0' & E').
        rewrite E in Hb. rewrite E' in Hb'. by eapply (ti_inj _ _ Hf).
  Qed.

  (** a changed amount *)
  Lemma tuned_set_modamt c p v A cm : tinv c A -> conf_set_modamt T c p v = (cm, false) -> tinv cm.1 (foldl vapplied A cm.2).
  Proof.
    intros Hf. unfold conf_set_modamt. destruct (is_atom T p); [by intros [= <-]|].
    destruct (conf_get_modamt c p) as [old|] eqn:Eo; [|done]. destruct v as [a|]; [|done]. intros [= <-]. cbn [fst snd].
    assert (Hmo : forall id, modulated T (<[p := Some a]> (cf_modamt c)) id = modulated T (cf_modamt c) id).
    { intros id. unfold modulated. apply list_filter_iff. intros j. destruct (decide ((id, j) = p)) as [->|Hne].
      - rewrite lookup_insert. cbn. unfold conf_get_modamt in Eo. rewrite Eo. split; intros _; by eexists.
      - by rewrite lookup_insert_ne. }
    destruct (cf_params c !! p) as [[i w [[mi am]|]]|] eqn:Ep; cbn [mbind option_bind npa_mod fst].
    - cbn [foldl vapplied]. destruct (ti_amt _ _ Hf p _ mi am Ep eq_refl) as [HM _]. constructor; cbn [cf_params cf_modamt fst snd].
      + intros id r Hin. rewrite Hmo. destruct (ti_at _ _ Hf id r Hin) as [H1 H2]. split; [done|]. intros k j Hk.
        destruct (H2 k j Hk) as (x & b & Hx & Hb). destruct (decide ((id, j) = p)) as [Heq|Hne]; [|rewrite lookup_insert_ne by done; by exists x, b].
        rewrite Heq in *. rewrite lookup_insert. eexists _, a. split; [done|]. cbn. rewrite Ep in Hx. injection Hx as <-. cbn in Hb. injection Hb as -> _. done.
      + intros k x j b Hx Hb. unfold conf_get_modamt. cbn [cf_modamt]. destruct (decide (k = p)) as [->|Hne].
        * rewrite lookup_insert in Hx. injection Hx as <-. cbn in Hb. injection Hb as -> ->. rewrite lookup_insert. split; [|done].
          apply list_lookup_insert. by eapply lookup_lt_Some.
        * rewrite lookup_insert_ne in Hx by done. rewrite lookup_insert_ne by done. destruct (ti_amt _ _ Hf k x j b Hx Hb) as [G1 G2]. split; [|done].
          rewrite list_lookup_insert_ne; [done|]. intros ->. apply Hne. symmetry. eapply (ti_inj _ _ Hf p k); [exact Ep|exact Hx|done|exact Hb].
      + intros k k' x x' j b b' Hx Hx' Hb Hb'.
        assert (Hn : forall k x j b, <[p:=NParam i w (Some (mi, a))]> (cf_params c) !! k = Some x -> npa_mod x = Some (j, b) ->
          exists x0 b0, cf_params c !! k = Some x0 /\ npa_mod x0 = Some (j, b0)).
        { intros k0 x0 j0 b0. destruct (decide (k0 = p)) as [->|Hne]; [rewrite lookup_insert|rewrite lookup_insert_ne by done; by exists x0, b0].
          intros [= <-]. cbn. intros [= <- <-]. by eexists _, am. }
        destruct (Hn _ _ _ _ Hx Hb) as (y & c1 & Hy & Hc). destruct (Hn _ _ _ _ Hx' Hb') as (y' & c1' & Hy' & Hc'). by eapply (ti_inj _ _ Hf).
    - cbn [foldl]. constructor; cbn [cf_params cf_modamt].
      + intros id r Hin. rewrite Hmo. by apply (ti_at _ _ Hf).
      + intros k x j b Hx Hb. unfold conf_get_modamt. cbn [cf_modamt]. rewrite lookup_insert_ne; [by eapply (ti_amt _ _ Hf)|].
        intros <-. rewrite Ep in Hx. injection Hx as <-. done.
      + apply (ti_inj _ _ Hf).
    - cbn [foldl]. constructor; cbn [cf_params cf_modamt].
      + intros id r Hin. rewrite Hmo. by apply (ti_at _ _ Hf).
      + intros k x j b Hx Hb. unfold conf_get_modamt. cbn [cf_modamt]. rewrite lookup_insert_ne; [by eapply (ti_amt _ _ Hf)|].
        intros <-. congruence.
      + apply (ti_inj _ _ Hf).
  Qed.
End tuned.

Section engine.
  Context (T : ntable) (HT : table_ok T) (i2f : Z -> f32) (load_sample : satom -> satom).
  Context (finc : f32 -> f32 -> nat -> f32) (fadd : f32 -> f32 -> f32) (mix : f32 -> f32 -> f32 -> f32).
  Context {St : Type}.
  Context (node_sem : node_id -> St -> nat -> N -> N -> list satom ->
                      list (list f32) -> list (list f32) -> list (list f32) -> St * list (list f32)).

  Lemma tuned_step b (n : engine St) o h' m' ms A : mx_inv T (en_mx n) -> (b = true -> tinv T (mx_conf (en_mx n)) A) ->
    matrix_step T i2f load_sample (en_heap n) (en_mx n) o = Some (h', m', ms) ->
    published T b n (EMx o) = true -> tinv T (mx_conf m') (foldl vapplied A ms).
  Proof.
    intros Hm Hf. destruct o as [o| | |p a|p v|ps ats nrm|c]; cbn [matrix_step published].
    - intros E Hb. specialize (Hf Hb). revert E. destruct (lop_pure o); [|by intros [= <- <- <-]].
      destruct (lay_step _ _ o) as [[l1 r]|]; cbn [mbind option_bind]; [|done]. by intros [= <- <- <-].
    - destruct (matrix_sync T (en_heap n) (en_mx n)) as [[[[h1 m1] ms1] r]|] eqn:E; cbn [mbind option_bind]; [|done].
      intros [= <- <- <-]. destruct r as [e|]; [|intros _; by eapply tuned_sync]. intros Hb. eapply tuned_sync_err; [done|exact Hm|by apply Hf|exact E].
    - unfold matrix_clear. cbn [conf_delete_nodes]. unfold matrix_monitor. cbn [mx_lay mx_conf].
      match goal with |- context [matrix_sync T (en_heap n) ?mm] => set (m1 := mm) end.
      destruct (matrix_sync T (en_heap n) m1) as [[[[h2 m2] ms2] r]|] eqn:E; cbn [mbind option_bind]; [|done].
      intros [= <- <- <-] _.
      assert (Hm1 : mx_inv T m1) by (split; [apply cleared_ok, Hm|apply good_new]).
      match goal with |- context [MClear prog_empty :: ?a ++ ms2] => set (mm := a) end.
      cbn [foldl vapplied]. rewrite foldl_app, (vapplied_none mm) by (apply monitor_none, monitor_msgs).
      destruct r as [e|]; [eapply tuned_sync_err; [done|exact Hm1|apply tinv_new|exact E]|by eapply tuned_sync].
    - unfold matrix_set_param. intros E Hb. pose proof (tuned_set_param T i2f load_sample (mx_conf (en_mx n)) p a A (Hf Hb)) as H1. revert E.
      destruct (conf_set_param _ _ _ _ _ _) as [c1 ms1]. by intros [= <- <- <-].
    - unfold matrix_set_modamt. pose proof (set_modamt_good T (mx_conf (en_mx n)) p v (proj2 Hm)) as Hg.
      pose proof (tuned_set_modamt T (mx_conf (en_mx n)) p v A) as H2.
      destruct (conf_set_modamt _ _ _ _) as [[c1 ms1] d]. cbn [fst snd] in *.
      destruct d; cbn [mbind option_bind].
      + destruct (matrix_sync T (en_heap n) _) as [[[[h1 m1] ms2] r]|] eqn:E; cbn [mbind option_bind]; [|done].
        intros [= <- <- <-]. destruct r as [e|]; [done|]. intros _. rewrite foldl_app. eapply tuned_sync; [done| |exact E]. by split; [apply Hm|].
      + intros [= <- <- <-] Hb. cbn. by apply (H2 (c1, ms1) (Hf Hb)).
    - done.
    - unfold matrix_monitor. intros [= <- <- <-] Hb. cbn [mx_conf]. rewrite vapplied_none by (apply monitor_none, monitor_msgs). by apply Hf.
  Qed.

  Lemma message_view h e m h' e' t : exec_message finc h e m = Some (h', e', t) -> pview (ex_prog e') = vapplied (pview (ex_prog e)) m.
  Proof.
    destruct m as [p|p copy|i a|i v|i a|bufs]; cbn [exec_message vapplied].
    - by intros [= <- <- <-].
    - destruct (prog_init_inputs h p); cbn [mbind option_bind]; [|done].
      assert (Hsw : pview (if copy then prog_swap p (ex_prog e) else (p, ex_prog e)).1 = pview p) by (destruct copy; [apply swap_view|done]).
      destruct (if copy then _ else _) as [p1 p2]. cbn in Hsw.
      destruct (prog_assign p1) as [p3|] eqn:Ea; cbn [mbind option_bind]; [|done]. intros [= <- <- <-]. cbn. by rewrite (assign_view _ _ Ea).
    - destruct (_ <? _); [|done]. by intros [= <- <- <-].
    - intros E. apply (inj Some) in E. injection E as <- <- <-. unfold exec_set_param. destruct (np_params _ !! i); [|done].
      destruct (find_idx _ _); [|destruct (find_idx _ _)]; done.
    - intros E. apply (inj Some) in E. injection E as <- <- <-. unfold exec_set_modamt. destruct (np_mods _ !! i) as [mo|] eqn:Em.
      + unfold pview. cbn. f_equal. by rewrite list_fmap_insert.
      + unfold pview. cbn. f_equal. rewrite list_insert_ge; [done|]. rewrite fmap_length. by apply lookup_ge_None.
    - by intros [= <- <- <-].
  Qed.
  Lemma drain_view q : forall h e h' e' t, exec_drain finc h e q = Some (h', e', t) ->
    pview (ex_prog e') = foldl vapplied (pview (ex_prog e)) q.
  Proof.
    induction q as [|m q IH]; intros h e h' e' t; cbn [exec_drain]; [by intros [= <- <- <-]|].
    destruct (exec_message finc h e m) as [[[h1 e1] t1]|] eqn:Em; cbn [mbind option_bind]; [|done].
    destruct (exec_drain finc h1 e1 q) as [[[h2 e2] t2]|] eqn:Ed; cbn [mbind option_bind]; [|done]. intros [= <- <- <-].
    cbn [foldl]. rewrite <- (message_view _ _ _ _ _ _ Em). by eapply IH.
  Qed.
  Lemma process_view h e (st : St) nf h' e' st' fed : exec_process fadd mix node_sem h e st nf = Some (h', e', st', fed) ->
    pview (ex_prog e') = pview (ex_prog e).
  Proof.
    unfold exec_process. destruct (exec_smoothers fadd h e nf) as [[h1 e1]|] eqn:E1; cbn [mbind option_bind]; [|done].
    destruct (exec_smoothers_prog _ _ _ _ _ _ E1) as [ps Hps].
    destruct (foldm _ _ _) as [[[h2 st2] fb]|]; cbn [mbind option_bind]; [|done].
    destruct (foldm (monitor_slot _ _ _) _ _) as [fd|]; cbn [mbind option_bind]; [|done]. intros [= <- <- <- <-]. cbn. by rewrite Hps.
  Qed.

  Lemma tuned_reach b n : tuned T i2f load_sample finc fadd mix node_sem b n ->
    mx_inv T (en_mx n) /\ (b = true -> tinv T (mx_conf (en_mx n)) (foldl vapplied (pview (ex_prog (en_exec n))) (en_queue n))).
  Proof.
    induction 1 as [w h slope st|b n o n' _ [Hm Hi] Hfit E].
    - split; [apply mx_inv_new|]. intros _. apply tinv_new.
    - destruct o as [o|k|nf|]; cbn [engine_step] in E.
      + destruct (matrix_step _ _ _ _ _ o) as [[[h1 m1] ms]|] eqn:E1; cbn [mbind option_bind] in E; [|done].
        specialize (Hfit _ _ _ _ eq_refl E1). unfold push in E.
        rewrite queue_push_fits in E by exact Hfit. cbn [mbind option_bind] in E. injection E as <-. cbn [en_mx en_exec en_queue].
        split; [by eapply matrix_step_inv|]. intros Hb. rewrite foldl_app. by eapply tuned_step.
      + destruct (exec_drain _ _ _ _) as [[[h1 e1] t]|] eqn:E1; cbn [mbind option_bind] in E; [|done]. injection E as <-.
        split; [done|]. cbn [published en_mx en_exec en_queue]. intros Hb. rewrite (drain_view _ _ _ _ _ _ E1), <- foldl_app, take_drop. by apply Hi.
      + destruct (exec_process _ _ _ _ _ _ _) as [[[[h1 e1] st1] fed]|] eqn:E1; cbn [mbind option_bind] in E; [|done]. injection E as <-.
        split; [done|]. cbn [published en_mx en_exec en_queue]. intros Hb. rewrite (process_view _ _ _ _ _ _ _ _ E1). by apply Hi.
      + destruct (en_trash n) as [|p t]; [by injection E as <-|].
        destruct (prog_drop (en_heap n) p) as [h1|]; cbn [mbind option_bind] in E; [|done]. injection E as <-. done.
  Qed.
End engine.
