(** C68: the graphs of the nodes *)
From Coq Require Import QArith Lqa.
From stdpp Require Import strings.
From Verif Require Import Base M_Atom M_Graph M_Nodes M_Gen M_Draw S_Gen S_Draw.
Open Scope string_scope.
Open Scope list_scope.
Open Scope nat_scope.

(** The indices of the parameters, by the table of the nodes *)
Lemma ports_ad : port "ad" "atk" = Some 2 /\ port "ad" "dcy" = Some 3 /\ port "ad" "ashp" = Some 4 /\ port "ad" "dshp" = Some 5.
Proof. by vm_compute. Qed.
Lemma ports_adsr : port "adsr" "atk" = Some 2 /\ port "adsr" "dcy" = Some 3 /\ port "adsr" "sus" = Some 4 /\ port "adsr" "rel" = Some 5 /\
  port "adsr" "ashp" = Some 6 /\ port "adsr" "dshp" = Some 7 /\ port "adsr" "rshp" = Some 8.
Proof. by vm_compute. Qed.
Lemma ports_bosc : port "bosc" "wtype" = Some 3 /\ port "bosc" "pw" = Some 2.
Proof. by vm_compute. Qed.
Lemma ports_vosc : port "vosc" "v" = Some 3 /\ port "vosc" "vs" = Some 4 /\ port "vosc" "d" = Some 2 /\ port "vosc" "damt" = Some 5 /\ port "vosc" "dist" = Some 6.
Proof. by vm_compute. Qed.
Lemma ports_tslfo : port "tslfo" "time" = Some 0 /\ port "tslfo" "rev" = Some 2.
Proof. by vm_compute. Qed.

Lemma atom_i_setting f2i a : from_option (atom_i f2i) 0%Z a = setting f2i a.
Proof. by destruct a as [[]|]. Qed.

Section drawing.
  Context {F : Type} (O : fops F) (X : genlib F).

  (** A graph whose calls after the first are frames of a machine *)
  Lemma draw_machine {S} (g : S -> bool -> F -> F -> option (S * F)) (frame : S -> S * F) :
    (forall s x xn, g s false x xn = Some (frame s)) ->
    forall pts s, exists s', draw_from g false s pts = Some (s', values frame (length pts) s).
  Proof.
    intros Hg. induction pts as [|[x xn] pts IH]; intros s; [by eexists|].
    cbn [draw_from length values]. rewrite Hg. destruct (frame s) as [s1 v] eqn:E. cbn [mbind option_bind].
    destruct (IH s1) as (s' & ->). cbn [mbind option_bind]. by eexists.
  Qed.
  Lemma draw_machine_init {S} (g : S -> bool -> F -> F -> option (S * F)) (frame : S -> S * F) (start : S -> S) :
    (forall s x xn, g s false x xn = Some (frame s)) -> (forall s x xn, g s true x xn = Some (frame (start s))) ->
    forall pts s, exists s', draw_graph g s pts = Some (s', values frame (length pts) (start s)).
  Proof.
    intros Hg Hi pts s. destruct pts as [|[x xn] pts]; [by eexists|].
    unfold draw_graph. cbn [draw_from length values]. rewrite Hi. destruct (frame (start s)) as [s1 v] eqn:E. cbn [mbind option_bind].
    destruct (draw_machine g frame Hg pts s1) as (s' & ->). cbn [mbind option_bind]. by eexists.
  Qed.

  (** ** Adsr *)
  Section adsr.
    Context {E : Type} (e_reset : E -> E) (e_tick : E -> F -> adsr F -> E * adsr F * F) (above : F -> bool) (sq : F -> F).
    Lemma adsr_tick gd env params x xn :
      graph_adsr O e_reset e_tick above sq gd (env, params) false x xn = Some (e_tick env (if above x then o_q O 0%Q else o_q O 1%Q) params).
    Proof. unfold graph_adsr. by destruct (e_tick env _ params) as [[]]. Qed.
    Lemma adsr_init gd env params x xn :
      graph_adsr O e_reset e_tick above sq gd (env, params) true x xn = Some (e_reset env, shown O sq gd, o_q O 0%Q).
    Proof. unfold graph_adsr. destruct ports_adsr as (-> & -> & -> & -> & -> & -> & ->). done. Qed.
    Lemma adsr_on gd pts env params : exists s',
      draw_from (graph_adsr O e_reset e_tick above sq gd) false (env, params) pts =
        Some (s', answers e_tick (map (fun p => if above p.1 then o_q O 0%Q else o_q O 1%Q) pts) env params).
    Proof.
      revert env params. induction pts as [|[x xn] pts IH]; intros env params; [by eexists|].
      cbn [draw_from map answers fst]. rewrite adsr_tick.
      destruct (e_tick env (if above x then o_q O 0%Q else o_q O 1%Q) params) as [[env1 params1] y]. cbn [mbind option_bind].
      destruct (IH env1 params1) as (s' & ->). cbn [mbind option_bind]. by eexists.
    Qed.
    (** The picture begins with 0.0; the rest are the values of an envelope that was reset, with the settings of the first call, a gate that is
        open while the place is not above 0.70, and closed from there on. It never panics. *)
    Theorem C68_adsr gd s x xn pts : exists s',
      draw_graph (graph_adsr O e_reset e_tick above sq gd) s ((x, xn) :: pts) =
        Some (s', o_q O 0%Q :: answers e_tick (map (fun p => if above p.1 then o_q O 0%Q else o_q O 1%Q) pts) (e_reset s.1) (shown O sq gd)).
    Proof.
      destruct s as [env params]. unfold draw_graph. cbn [draw_from fst]. rewrite adsr_init. cbn [mbind option_bind].
      destruct (adsr_on gd pts (e_reset env) (shown O sq gd)) as (s' & Ed).
      rewrite Ed. cbn [mbind option_bind]. by eexists.
    Qed.
  End adsr.

  (** ** BOsc *)
  Section bosc.
    Context (f2i : f32 -> Z) (b_reset : g_blep X -> g_blep X).
    Lemma warm_after n o freq israte : warm X n o freq israte = after (fun o => g_tri X o freq israte) n o.
    Proof.
      unfold after. revert o. induction n as [|n IH]; intros o; [done|].
      cbn [warm]. rewrite IH, Nat.iter_succ_r. done.
    Qed.
    (** The picture shows the wave of the node itself, at 2 Hz and 128 frames a second, from a reset oscillator (for the triangle after 256 frames),
        moved from -1..1 to 0.05..0.95. The setting wtype is parameter 3, the pulse width 2. *)
    Theorem C68_bosc gd osc pts : exists osc',
      draw_graph (graph_bosc O X f2i b_reset gd) osc pts =
        Some (osc',
          let wtype := setting f2i (gd_get gd 3) in
          let frame o := bosc_wave O X wtype (o_q O 128%Q) o (o_q O 2%Q) (gd_denorm gd 2) in
          map (seen O) (values frame (length pts) (if (wtype =? 1)%Z then after frame 256 (b_reset osc) else b_reset osc))).
    Proof.
      cbn zeta. set (wtype := setting f2i (gd_get gd 3)).
      set (frame := fun o => bosc_wave O X wtype (o_q O 128%Q) o (o_q O 2%Q) (gd_denorm gd 2)).
      set (start := fun osc => if (wtype =? 1)%Z then after frame 256 (b_reset osc) else b_reset osc).
      assert (Hg : forall init o x xn, graph_bosc O X f2i b_reset gd o init x xn =
                   let '(o', y) := frame (if init : bool then start o else o) in Some (o', seen O y)).
      { intros init o x xn. unfold graph_bosc. destruct ports_bosc as (-> & ->). cbn [mbind option_bind].
        rewrite atom_i_setting. change (setting f2i (gd_get gd 3)) with wtype.
        assert (Hs : (if init then if (wtype =? 1)%Z then warm X 256 (b_reset o) (o_q O 2%Q) (o_div O (o_q O 1%Q) (o_q O 128%Q)) else b_reset o else o)
                     = (if init then start o else o)).
        { destruct init; [|done]. unfold start. destruct (Z.eqb_spec wtype 1) as [H1|H1]; [|done].
          rewrite warm_after. unfold frame, bosc_wave. by rewrite H1. }
        cbn zeta. rewrite Hs. set (o1 := if init then start o else o). unfold frame, bosc_wave. cbn zeta.
        destruct wtype as [|[[]|[]|]|]; unfold seen;
          match goal with |- context [match (let '(_, _) := ?e in _) with _ => _ end] => by destruct e end. }
      assert (Hv : forall n o, values (fun o => let '(o', y) := frame o in (o', seen O y)) n o = map (seen O) (values frame n o)).
      { induction n as [|n IH]; intros o; [done|]. cbn [values]. destruct (frame o) as [o' y]. cbn [map]. by rewrite IH. }
      destruct (draw_machine_init (graph_bosc O X f2i b_reset gd) (fun o => let '(o', y) := frame o in (o', seen O y)) start) with (pts := pts) (s := osc) as (s' & Hd).
      - intros s x xn. rewrite Hg. by destruct (frame s).
      - intros s x xn. rewrite Hg. by destruct (frame (start s)).
      - exists s'. rewrite Hd. by rewrite Hv.
    Qed.
  End bosc.

  (** ** VOsc *)
  Section vosc.
    Context (f2i : f32 -> Z) (v_reset : g_vps X -> g_vps X) (ov : g_over X).
    (** The picture shows the node itself without oversampling, at 1 Hz and 128 frames a second, from a reset oscillator, moved from -1..1 to 0..1.
        Parameters: d 2, v 3, vs 4, damt 5, dist 6. The graph does not clamp damt; within its range that makes no difference.
        128, 4 and 1/128 are powers of two, so the rates agree exactly in [f32]. *)
    Theorem C68_vosc gd osc pts :
      o_mul O (o_div O (o_q O 1%Q) (o_mul O (o_q O 128%Q) (o_q O 4%Q))) (o_q O 4%Q) = o_div O (o_q O 1%Q) (o_q O 128%Q) ->
      o_clamp O (gd_denorm gd 5) (o_q O 0%Q) (o_q O 1%Q) = gd_denorm gd 5 ->
      exists osc',
      draw_graph (graph_vosc O X f2i v_reset gd) osc pts =
        Some (osc',
          let dist := (setting f2i (gd_get gd 6) mod 256)%Z in
          let frame st := vosc_frame O X false dist (o_q O 128%Q) st (o_q O 1%Q) (gd_denorm gd 3) (gd_denorm gd 2) (gd_denorm gd 4) (gd_denorm gd 5) in
          map (fun y => o_mul O (o_add O y (o_q O 1%Q)) (o_q O (1 # 2))) (values frame (length pts) (v_reset osc, ov))).
    Proof.
      intros Hr Hc. cbn zeta. set (dist := (setting f2i (gd_get gd 6) mod 256)%Z).
      set (frame := fun st => vosc_frame O X false dist (o_q O 128%Q) st (o_q O 1%Q) (gd_denorm gd 3) (gd_denorm gd 2) (gd_denorm gd 4) (gd_denorm gd 5)).
      set (mv := fun y => o_mul O (o_add O y (o_q O 1%Q)) (o_q O (1 # 2))).
      set (fr := fun o => let '(o', y) := frame (o, ov) in (o'.1, mv y)).
      assert (Hg : forall init o x xn, graph_vosc O X f2i v_reset gd o init x xn = Some (fr (if init : bool then v_reset o else o))).
      { intros init o x xn. unfold graph_vosc. destruct ports_vosc as (-> & -> & -> & -> & ->). cbn [mbind option_bind].
        rewrite atom_i_setting. unfold fr, frame, vosc_frame, dist. cbn zeta.
        change (inject_Z (Z.of_nat oversampling)) with 4%Q. rewrite Hr, Hc. set (o1 := if init then v_reset o else o).
        by destruct (g_vps_next X o1 _ _ _ _). }
      assert (Hv : forall n o, values fr n o = map mv (values frame n (o, ov))).
      { induction n as [|n IH]; intros o; [done|]. cbn [values]. unfold fr at 1.
        assert (Hov : (frame (o, ov)).1.2 = ov). { unfold frame, vosc_frame. cbn zeta. by destruct (g_vps_next X o _ _ _ _). }
        destruct (frame (o, ov)) as [[o' ov'] y]. cbn [fst snd] in Hov. subst ov'. cbn [map fst]. by rewrite IH. }
      destruct (draw_machine_init (graph_vosc O X f2i v_reset gd) fr v_reset) with (pts := pts) (s := osc) as (s' & Hd);
        [intros; apply (Hg false)|intros; apply (Hg true)|].
      exists s'. rewrite Hd. by rewrite Hv.
    Qed.
  End vosc.

  (** ** TsLFO *)
  Section tslfo.
    Context {L : Type} (l_reset : L -> L) (l_set : L -> F -> F -> L) (l_next : L -> L * F) (sqrt : F -> F).
    (** The picture shows a reset LFO of the period [5 * (1 - time) + time], where [time] is the square root of the knob's position (parameter 0; rev is 2). *)
    Theorem C68_tslfo gd lfo pts : exists lfo',
      draw_graph (graph_tslfo O l_reset l_set l_next sqrt gd) lfo pts =
        Some (lfo',
          let time := sqrt (gd_norm gd 0) in
          let period := o_add O (o_mul O (o_q O 5%Q) (o_sub O (o_q O 1%Q) time)) (o_mul O time (o_q O 1%Q)) in
          values l_next (length pts) (l_set (l_reset lfo) period (gd_norm gd 2))).
    Proof.
      cbn zeta.
      set (start := fun lfo => l_set (l_reset lfo) (o_add O (o_mul O (o_q O 5%Q) (o_sub O (o_q O 1%Q) (sqrt (gd_norm gd 0)))) (o_mul O (sqrt (gd_norm gd 0)) (o_q O 1%Q))) (gd_norm gd 2)).
      apply (draw_machine_init (graph_tslfo O l_reset l_set l_next sqrt gd) l_next start); intros s x xn; unfold graph_tslfo; [done|].
      destruct ports_tslfo as (-> & ->). cbn [mbind option_bind]. by destruct (l_next _).
    Qed.
  End tslfo.

  (** ** Pictures do not depend on earlier ones *)
  Lemma draw_again {S} (g : S -> bool -> F -> F -> option (S * F)) s s' x xn pts :
    g s true x xn = g s' true x xn -> draw_graph g s ((x, xn) :: pts) = draw_graph g s' ((x, xn) :: pts).
  Proof. intros H. unfold draw_graph. cbn [draw_from]. by rewrite H. Qed.
  (** Whatever was drawn before, with whatever parameters, the same parameters give the same picture, if the resets of synfx_dsp forget the past. *)
  Theorem C68_repeatable {E L} (e_reset : E -> E) e_tick above sq (b_reset : g_blep X -> g_blep X) (v_reset : g_vps X -> g_vps X)
      (l_reset : L -> L) l_set l_next sqrt f2i :
    (forall s s', e_reset s = e_reset s') -> (forall s s', b_reset s = b_reset s') -> (forall s s', v_reset s = v_reset s') -> (forall s s', l_reset s = l_reset s') ->
    forall gd x xn pts,
      (forall s s', draw_graph (graph_adsr O e_reset e_tick above sq gd) s ((x, xn) :: pts) = draw_graph (graph_adsr O e_reset e_tick above sq gd) s' ((x, xn) :: pts)) /\
      (forall s s', draw_graph (graph_bosc O X f2i b_reset gd) s ((x, xn) :: pts) = draw_graph (graph_bosc O X f2i b_reset gd) s' ((x, xn) :: pts)) /\
      (forall s s', draw_graph (graph_vosc O X f2i v_reset gd) s ((x, xn) :: pts) = draw_graph (graph_vosc O X f2i v_reset gd) s' ((x, xn) :: pts)) /\
      (forall s s', draw_graph (graph_tslfo O l_reset l_set l_next sqrt gd) s ((x, xn) :: pts) = draw_graph (graph_tslfo O l_reset l_set l_next sqrt gd) s' ((x, xn) :: pts)).
  Proof.
    intros He Hb Hv Hl gd x xn pts. split; [|split; [|split]]; intros s s'; apply draw_again.
    - destruct s as [e p], s' as [e' p']. rewrite !adsr_init. by rewrite (He e e').
    - unfold graph_bosc. by rewrite (Hb s s').
    - unfold graph_vosc. by rewrite (Hv s s').
    - unfold graph_tslfo. by rewrite (Hl s s').
  Qed.

  (** ** Test *)
  Theorem C68_test (gd : gdata F) pts : draw_graph (graph_test gd) tt pts = Some (tt, map fst pts).
  Proof.
    unfold draw_graph. generalize true. induction pts as [|[x xn] pts IH]; intros b; [done|].
    cbn [draw_from]. change (graph_test gd tt b x xn) with (Some (tt, x)). cbn [mbind option_bind]. rewrite IH. done.
  Qed.
End drawing.

(** ** Ad *)
Section ad.
  Context (bend : Q -> Q -> Q) (gd : gdata Q).
  Implicit Types (x y : Q) (i j : nat).

  Definition ad_y x xn : Q :=
    let a := (gd_norm gd 2 * (1 # 2))%Q in let d := (gd_norm gd 3 * (1 # 2))%Q in
    if Qle_bool x a then
      if negb (Qle_bool xn a) then 1%Q else if negb (Qle_bool (1 # 10000) a) then 0%Q else bend (1 - ((a - x) / a))%Q (gd_denorm gd 4)
    else if Qle_bool (x - a)%Q d then
      if negb (Qle_bool (1 # 10000) d) then 0%Q else bend ((d - (x - a)) / d)%Q (gd_denorm gd 5)
    else 0%Q.
  Lemma graph_ad_y init x xn : graph_ad bend gd tt init x xn = Some (tt, ad_y x xn).
  Proof. unfold graph_ad. destruct ports_ad as (-> & -> & -> & ->). done. Qed.
  Lemma draw_ad pts : draw_graph (graph_ad bend gd) tt pts = Some (tt, map (fun p => ad_y p.1 p.2) pts).
  Proof.
    unfold draw_graph. generalize true. induction pts as [|[x xn] pts IH]; intros b; [done|].
    cbn [draw_from map fst snd]. rewrite graph_ad_y. cbn [mbind option_bind]. by rewrite IH.
  Qed.

  Lemma qle x y : Qle_bool x y = true \/ (Qle_bool x y = false /\ (y < x)%Q).
  Proof.
    destruct (Qle_bool x y) eqn:E; [by left|right]. split; [done|]. apply Qnot_le_lt. intros H. apply Qle_bool_iff in H. congruence.
  Qed.
  Ltac cases e H := let E := fresh in destruct e as [E|[E H]]; [pose proof (proj1 (Qle_bool_iff _ _) E) as H|]; rewrite E; clear E; cbn [negb].

  Notation a := (gd_norm gd 2 * (1 # 2))%Q.
  Notation d := (gd_norm gd 3 * (1 # 2))%Q.
  Hypothesis Hb : bends bend.

  Lemma up_arg x : (0 <= x)%Q -> (x <= a)%Q -> (1 # 10000 <= a)%Q -> (0 <= 1 - (a - x) / a <= 1)%Q.
  Proof.
    intros H0 H1 H2. assert (0 < a)%Q by lra. assert (E : (1 - (a - x) / a == x / a)%Q) by (field; lra). rewrite E. split.
    - apply Qle_shift_div_l; lra.
    - apply Qle_shift_div_r; lra.
  Qed.
  Lemma up_mono x y : (x <= y)%Q -> (1 # 10000 <= a)%Q -> (1 - (a - x) / a <= 1 - (a - y) / a)%Q.
  Proof.
    intros H0 H2. assert (0 < a)%Q by lra. assert (E : (1 - (a - x) / a == x / a)%Q) by (field; lra).
    assert (E' : (1 - (a - y) / a == y / a)%Q) by (field; lra). rewrite E, E'.
    apply Qmult_le_compat_r; [done|]. apply Qlt_le_weak, Qinv_lt_0_compat. lra.
  Qed.
  Lemma down_arg x : (a < x)%Q -> (x - a <= d)%Q -> (1 # 10000 <= d)%Q -> (0 <= (d - (x - a)) / d <= 1)%Q.
  Proof. intros H0 H1 H2. split; [apply Qle_shift_div_l|apply Qle_shift_div_r]; lra. Qed.
  Lemma down_mono x y : (x <= y)%Q -> (1 # 10000 <= d)%Q -> ((d - (y - a)) / d <= (d - (x - a)) / d)%Q.
  Proof. intros H0 H2. apply Qmult_le_compat_r; [lra|]. apply Qlt_le_weak, Qinv_lt_0_compat. lra. Qed.

  Lemma ad_range x xn : (0 <= x)%Q -> (0 <= ad_y x xn <= 1)%Q.
  Proof.
    intros H0. destruct Hb as [Hr _]. unfold ad_y. cbv zeta. cases (qle x a) H1.
    - cases (qle xn a) H2; [|lra]. cases (qle (1 # 10000) a) H3; [|lra]. apply Hr. by apply up_arg.
    - cases (qle (x - a) d) H2; [|lra]. cases (qle (1 # 10000) d) H3; [|lra]. apply Hr. by apply down_arg.
  Qed.
  Lemma ad_up x xn y yn : (0 <= x)%Q -> (xn <= y)%Q -> (x <= y)%Q -> (y <= a)%Q -> (ad_y x xn <= ad_y y yn)%Q.
  Proof.
    intros H0 Hxy Hle Hya. destruct (ad_range y yn) as [Hy0 Hy1]; [lra|]. revert Hy0 Hy1. unfold ad_y. cbv zeta.
    destruct Hb as [Hr Hm].
    cases (qle x a) H1; [|lra]. cases (qle xn a) H2; [|lra]. cases (qle y a) H3; [|lra].
    cases (qle (1 # 10000) a) H4; [|intros; cases (qle yn a) H5; lra].
    cases (qle yn a) H5; intros _ _.
    - apply Hm; [|by apply up_arg; lra]. split; [by apply up_arg|by apply up_mono].
    - apply Hr. by apply up_arg.
  Qed.
  Lemma ad_down x xn y yn : (a < x)%Q -> (x <= y)%Q -> (0 <= a)%Q -> (ad_y y yn <= ad_y x xn)%Q.
  Proof.
    intros H0 Hle Ha. destruct (ad_range x xn) as [Hx0 _]; [lra|]. revert Hx0. unfold ad_y. cbv zeta. destruct Hb as [Hr Hm].
    cases (qle x a) H1; [lra|]. cases (qle y a) H2; [lra|].
    cases (qle (y - a) d) H3; [|done]. cases (qle (x - a) d) H4; [|lra]. cases (qle (1 # 10000) d) H5; [|done]. intros _.
    apply Hm; [|by apply down_arg]. split; [by apply down_arg|by apply down_mono].
  Qed.

  Lemma picture_lookup (xs : list Q) i x xn : picture xs !! i = Some (x, xn) <-> xs !! i = Some x /\ xs !! (S i) = Some xn.
  Proof.
    unfold picture. rewrite lookup_zip_with_Some. setoid_rewrite lookup_tail. split.
    - intros (u & v & [= -> ->] & ? & ?). done.
    - intros [? ?]. by exists x, xn.
  Qed.
  Lemma right_le xs : to_the_right xs -> forall i j x y, i <= j -> xs !! i = Some x -> xs !! j = Some y -> (x <= y)%Q.
  Proof.
    intros Hx i j x y Hij. revert y. induction Hij as [|j Hij IH]; intros y Hi Hj.
    - assert (x = y) by congruence. subst. lra.
    - destruct (xs !! j) as [z|] eqn:Ez; [|apply lookup_ge_None in Ez; apply lookup_lt_Some in Hj; lia].
      pose proof (IH _ Hi eq_refl). pose proof (Hx _ _ _ Ez Hj). lra.
  Qed.

  (** The picture of the attack and decay envelope, drawn at the places [xs], from 0 to the right: the attack takes the knob's position halved, and so
      does the decay after it. All values are in 0..1; the curve rises during the attack and reaches 1 at the last place of the attack, whatever
      the raster; it falls afterwards; and it is 0 when the decay is over. In between it is the part of the attack that is over, bent by the attack's shape,
      and the part of the decay that is left, bent by the decay's shape. *)
  Theorem C68_ad xs : to_the_right xs -> (forall x, xs !! 0 = Some x -> (0 <= x)%Q) -> (0 <= gd_norm gd 2)%Q ->
    exists ys, draw_graph (graph_ad bend gd) tt (picture xs) = Some (tt, ys) /\ length ys = length xs - 1 /\
      (forall i y, ys !! i = Some y -> (0 <= y <= 1)%Q) /\
      (forall i j x y y', i <= j -> xs !! j = Some x -> (x <= gd_norm gd 2 / 2)%Q -> ys !! i = Some y -> ys !! j = Some y' -> (y <= y')%Q) /\
      (forall i x xn, xs !! i = Some x -> xs !! (S i) = Some xn -> (x <= gd_norm gd 2 / 2)%Q -> (gd_norm gd 2 / 2 < xn)%Q -> ys !! i = Some 1%Q) /\
      (forall i j x y y', i <= j -> xs !! i = Some x -> (gd_norm gd 2 / 2 < x)%Q -> ys !! i = Some y -> ys !! j = Some y' -> (y' <= y)%Q) /\
      (forall i x y, xs !! i = Some x -> (gd_norm gd 2 / 2 + gd_norm gd 3 / 2 < x)%Q -> (0 <= gd_norm gd 3)%Q -> ys !! i = Some y -> y = 0%Q) /\
      (forall i x xn, xs !! i = Some x -> xs !! (S i) = Some xn -> (xn <= gd_norm gd 2 / 2)%Q -> (1 # 10000 <= gd_norm gd 2 / 2)%Q ->
         exists u, (u == x / (gd_norm gd 2 / 2))%Q /\ ys !! i = Some (bend u (gd_denorm gd 4))) /\
      (forall i x, S i < length xs -> xs !! i = Some x -> (gd_norm gd 2 / 2 < x)%Q -> (x <= gd_norm gd 2 / 2 + gd_norm gd 3 / 2)%Q -> (1 # 10000 <= gd_norm gd 3 / 2)%Q ->
         exists u, (u == 1 - (x - gd_norm gd 2 / 2) / (gd_norm gd 3 / 2))%Q /\ ys !! i = Some (bend u (gd_denorm gd 5))).
  Proof.
    intros Hx H0 Ha. rewrite draw_ad. eexists. split; [done|]. rewrite map_length.
    assert (Hn : forall i x, xs !! i = Some x -> (0 <= x)%Q).
    { intros i x Hi. destruct (xs !! 0) as [z|] eqn:Ez; [|apply lookup_ge_None in Ez; apply lookup_lt_Some in Hi; lia].
      pose proof (right_le xs Hx 0 i z x ltac:(lia) Ez Hi). pose proof (H0 z eq_refl). lra. }
    assert (E2 : (gd_norm gd 2 / 2 == a)%Q) by (field; lra). assert (E3 : (gd_norm gd 3 / 2 == d)%Q) by (field; lra).
    assert (Hl : forall i y, map (fun p => ad_y p.1 p.2) (picture xs) !! i = Some y ->
      exists x xn, xs !! i = Some x /\ xs !! (S i) = Some xn /\ y = ad_y x xn).
    { intros i y H. change (map ?f ?l) with (f <$> l) in H. apply list_lookup_fmap_Some in H as ([x xn] & H & ->). apply picture_lookup in H as [??]. eauto. }
    assert (Hp : forall i x xn, xs !! i = Some x -> xs !! (S i) = Some xn -> map (fun p => ad_y p.1 p.2) (picture xs) !! i = Some (ad_y x xn)).
    { intros i x xn Hi Hin. change (map ?f ?l) with (f <$> l). apply list_lookup_fmap_Some. exists (x, xn). split; [by apply picture_lookup|done]. }
    split; [|split; [|split; [|split; [|split; [|split; [|split]]]]]].
    - unfold picture. rewrite zip_with_length. destruct xs; cbn [tail length]; lia.
    - intros i y H. apply Hl in H as (x & xn & Hi & _ & ->). apply ad_range. eauto.
    - intros i j x y y' Hij Hj Hxa Hy Hy'. apply Hl in Hy as (u & un & Hu & Hun & ->). apply Hl in Hy' as (v & vn & Hv & Hvn & ->).
      assert (x = v) by congruence. subst v.
      destruct (decide (i = j)) as [->|Hne]; [assert (u = x) by congruence; assert (un = vn) by congruence; subst; lra|].
      apply ad_up; [eauto| | |lra]; [apply (right_le xs Hx (S i) j)|apply (right_le xs Hx i j)]; (lia || done).
    - intros i x xn Hi Hin Hxa Hxn. change (map ?f ?l) with (f <$> l). apply list_lookup_fmap_Some. exists (x, xn). split; [by apply picture_lookup|].
      cbn [fst snd]. unfold ad_y. cbv zeta. cases (qle x a) H1; [|lra]. cases (qle xn a) H2; [lra|done].
    - intros i j x y y' Hij Hi Hxa Hy Hy'. apply Hl in Hy as (u & un & Hu & Hun & ->). apply Hl in Hy' as (v & vn & Hv & Hvn & ->).
      assert (x = u) by congruence. subst u. apply ad_down; [lra| |lra]. by apply (right_le xs Hx i j).
    - intros i x y Hi Hxa Hd Hy. apply Hl in Hy as (u & un & Hu & Hun & ->). assert (x = u) by congruence. subst u.
      unfold ad_y. cbv zeta. cases (qle x a) H1; [lra|]. cases (qle (x - a) d) H2; [lra|done].
    - intros i x xn Hi Hin Hxn Hs. pose proof (Hx _ _ _ Hi Hin). rewrite (Hp _ _ _ Hi Hin). exists (1 - (a - x) / a)%Q.
      split; [rewrite E2; field; lra|]. f_equal. unfold ad_y. cbv zeta. cases (qle x a) H1; [|lra]. cases (qle xn a) H2; [|lra].
      cases (qle (1 # 10000) a) H3; [done|lra].
    - intros i x Hlt Hi Hxa Hxd Hs. destruct (lookup_lt_is_Some_2 xs (S i) Hlt) as (xn & Hin). rewrite (Hp _ _ _ Hi Hin).
      exists ((d - (x - a)) / d)%Q. split; [rewrite E2, E3; field; lra|]. f_equal. unfold ad_y. cbv zeta.
      cases (qle x a) H1; [lra|]. cases (qle (x - a) d) H2; [|lra]. cases (qle (1 # 10000) d) H3; [done|lra].
  Qed.
End ad.

(** A wave within -1..1 is drawn within 0.05..0.95, in exact numbers. *)
Theorem C68_inside pow4 y : (-(1) <= y <= 1)%Q -> (5 # 100 <= seen (exact pow4) y <= 95 # 100)%Q.
Proof. intros H. unfold seen, exact. cbn [o_add o_mul o_q]. lra. Qed.

(** ** A concrete case: an envelope with the attack at 0.5 and the decay at 0.25, drawn at nine places with straight curves *)
Definition ex_gd : gdata Q := GData (fun _ => None) (fun _ => (1 # 2)%Q) (fun i => if i =? 2 then (1 # 2)%Q else (1 # 4)%Q).
Definition ex_xs : list Q := [0; 1 # 8; 2 # 8; 3 # 10; 3 # 8; 4 # 8; 5 # 8; 1]%Q.
Example C68_ad_ex : bends (fun x _ => x) /\ to_the_right ex_xs /\
  (let* (_, ys) := draw_graph (graph_ad (fun x _ => x) ex_gd) tt (picture ex_xs) in Some (map Qred ys)) =
    Some [0; 1 # 2; 1; 3 # 5; 0; 0; 0]%Q.
Proof.
  split; [|split].
  - split; [done|]. intros x y s H _. lra.
  - intros i x y H1 H2. do 8 (destruct i as [|i]; [cbn in H1, H2; first [discriminate H2|apply (inj Some) in H1, H2; subst; reflexivity]|]). done.
  - vm_compute. reflexivity.
Qed.

(** Rounded numbers, an oscillator that is its phase, and an envelope that follows the gate by halves *)
Definition ex_ops : fops Q :=
  FOps Qred (fun x y => Qred (x + y)) (fun x y => Qred (x - y)) (fun x y => Qred (x * y)) (fun x y => Qred (x / y)) (fun x => Qred (- x))
    xmax xclamp Qabs.Qabs (fun x => x) (fun x => Qle_bool x 0).
Definition ex_lib : genlib Q :=
  GenLib Q (fun o f i => (Qred (o + f * i), o)) (fun o f i => (Qred (o + f * i), o)) (fun o f i => (Qred (o + f * i), o))
    (fun o f i _ => (Qred (o + f * i), o)) (fun o f i _ => (Qred (o + f * i), o))
    Q (fun o f i d v => (Qred (o + f * i), o)) (fun d v => v) (fun s a _ => s) Q (fun _ bs => (0, default 0 (last bs))%Q)
    Q (fun l _ => l) (fun _ x => x) Q (fun p x => (x, p + x)%Q) Q (fun b x => (x, b + x)%Q).
Example C68_vosc_ex :
  o_mul ex_ops (o_div ex_ops (o_q ex_ops 1%Q) (o_mul ex_ops (o_q ex_ops 128%Q) (o_q ex_ops 4%Q))) (o_q ex_ops 4%Q) = o_div ex_ops (o_q ex_ops 1%Q) (o_q ex_ops 128%Q) /\
  o_clamp ex_ops (gd_denorm ex_gd 5) (o_q ex_ops 0%Q) (o_q ex_ops 1%Q) = gd_denorm ex_gd 5 /\
  snd <$> draw_graph (graph_vosc ex_ops ex_lib (fun _ => 0%Z) (fun _ => 0%Q) ex_gd) 7%Q (picture ex_xs) =
    Some [1 # 2; 129 # 256; 65 # 128; 131 # 256; 33 # 64; 133 # 256; 67 # 128]%Q.
Proof. split; [vm_compute; reflexivity|]. split; vm_compute; reflexivity. Qed.
Example C68_bosc_ex :
  snd <$> draw_graph (graph_bosc ex_ops ex_lib (fun _ => 0%Z) (fun _ => 0%Q) ex_gd) 7%Q (take 3 (picture ex_xs)) = Some [1 # 2; 649 # 1280; 329 # 640]%Q.
Proof. vm_compute. reflexivity. Qed.
Example C68_adsr_ex :
  snd <$> draw_graph (graph_adsr ex_ops (fun _ => 0%Q) (fun e g p => (Qred ((e + g) / 2), p, Qred ((e + g) / 2))%Q) (fun x => negb (Qle_bool x (7 # 10))) (fun x => x) ex_gd)
    (9%Q, Adsr 0 0 0 0 0 0 0)%Q (picture [0; 1 # 4; 1 # 2; 3 # 4; 1; 2]%Q) = Some [0; 1 # 2; 3 # 4; 3 # 8; 3 # 16]%Q.
Proof. vm_compute. reflexivity. Qed.

Print Assumptions C68_adsr.
Print Assumptions C68_bosc.
Print Assumptions C68_vosc.
Print Assumptions C68_tslfo.
Print Assumptions C68_test.
Print Assumptions C68_repeatable.
Print Assumptions C68_ad.
Print Assumptions C68_inside.
