(** Specification for C53: what an observer and the generation counter have to tell *)
From stdpp Require Import strings.
From Verif Require Import Base M_Atom M_Graph M_Dir M_Grid S_Grid M_Layout M_Prog M_Conf M_Exec M_Sync S_Sync M_Nodes M_Repr M_Patch M_Obs.
Open Scope nat_scope.

Section spec.
  Context (T : ntable) (i2f : Z -> f32) (load_sample : satom -> satom).

  (** what can be read from a matrix: values, modulation amounts, properties, the monitored cell *)
  Definition value_of (o : observed) (p : pid) : option satom := conf_get_param T (mx_conf (ob_mx o)) p.
  Definition amount_of (o : observed) (p : pid) : option f32 := conf_get_modamt (mx_conf (ob_mx o)) p.
  Definition monitored (o : observed) : cell := mx_mon (ob_mx o).
  Definition board_of (o : observed) : grid := lay_grid (mx_lay (ob_mx o)).

  (** a history: the calls made, each with what the observer was told and the result *)
  Definition event : Type := ocall * list gmsg * list note * option merror.
  Inductive history : heap * observed -> list event -> heap * observed -> Prop :=
  | history_nil s : history s [] s
  | history_snoc s tr h o c h' o' ms ns r : history s tr (h, o) -> obs_step T i2f load_sample h o c = Some (h', o', ms, ns, r) ->
      history s (tr ++ [(c, ms, ns, r)]) (h', o').

  (** matrices that some history of calls leads to *)
  Definition made (h : heap) (o : observed) : Prop := exists w hh tr, history (Heap ∅ 0, observed_new w hh) tr (h, o).

  (** the observer was called for [n] or for everything *)
  Definition told (ns : list note) (n : note) : Prop := n ∈ ns \/ NAll ∈ ns.

  (** the last cell the observer was given as monitored *)
  Fixpoint last_monitor (ns : list note) : option cell :=
    match ns with
    | [] => None
    | n :: ns => match last_monitor ns with Some c => Some c | None => match n with NMon c => Some c | _ => None end end
    end.

  (** the audio thread was sent a new program *)
  Definition program_sent (ms : list gmsg) : Prop := exists p b, MNewProg p b ∈ ms.

  Definition is_modamt (c : ocall) : bool := match c with OModamt _ _ => true | _ => false end.

  (** Copies of the matrix that an observer keeps. After a call it reads again what it was told of: a property; value and amount of a
      parameter; all parameters if the graph changed; everything. The monitored cell comes with the call. *)
  Record mirror := Mirror {
    mi_prop : string -> option satom;
    mi_value : pid -> option satom;
    mi_amount : pid -> option f32;
    mi_mon : cell }.
  Definition mirror_of (o : observed) : mirror := Mirror (obs_get_prop o) (value_of o) (amount_of o) (monitored o).
  Record refreshed (old : mirror) (ns : list note) (o : observed) (new : mirror) : Prop := {
    rf_prop_told k : told ns (NProp k) -> mi_prop new k = obs_get_prop o k;
    rf_prop_kept k : ~ told ns (NProp k) -> mi_prop new k = mi_prop old k;
    rf_param_told p : told ns (NParam p) \/ NMatrix ∈ ns -> mi_value new p = value_of o p /\ mi_amount new p = amount_of o p;
    rf_param_kept p : ~ (told ns (NParam p) \/ NMatrix ∈ ns) -> mi_value new p = mi_value old p /\ mi_amount new p = mi_amount old p;
    rf_mon : mi_mon new = default (mi_mon old) (last_monitor ns);
  }.
  Record same_mirror (a b : mirror) : Prop := {
    sm_prop k : mi_prop a k = mi_prop b k;
    sm_value p : mi_value a p = mi_value b p;
    sm_amount p : mi_amount a p = mi_amount b p;
    sm_mon : mi_mon a = mi_mon b }.
  (** The graph is as it was published: every node of the board exists, every DSP node has its values *)
  Definition up_to_date (o : observed) : Prop :=
    (forall n, on_board (board_of o) n -> n ∈ created (mx_conf (ob_mx o))) /\
    (forall p, table_param T p.1 p.2 = true -> p.1 ∈ created (mx_conf (ob_mx o)) -> is_Some (value_of o p)).
  (** the monitored cell is the one of the board, if it is on the board *)
  Definition monitors_board (o : observed) : Prop :=
    forall c, board (board_of o) (c_x (monitored o), c_y (monitored o)) = Some c -> c = monitored o.

  (** Calls that leave nothing untold: all but changes of modulation amounts; and those if they set an amount where there was none, or
      take one away, on a matrix without unpublished changes. *)
  Definition tells_all (o : observed) (c : ocall) : Prop :=
    match c with
    | OModamt p v => (amount_of o p = None \/ v = None \/ v = amount_of o p) /\ up_to_date o /\ monitors_board o
    | _ => True
    end.

  (** an observer that keeps its copy up to date through calls that leave nothing untold *)
  Inductive follows : heap * observed -> mirror -> list event -> heap * observed -> mirror -> Prop :=
  | follows_nil s m : follows s m [] s m
  | follows_snoc s m tr h o m1 c h' o' ms ns r m2 : follows s m tr (h, o) m1 -> tells_all o c ->
      obs_step T i2f load_sample h o c = Some (h', o', ms, ns, r) -> refreshed m1 ns o' m2 ->
      follows s m (tr ++ [(c, ms, ns, r)]) (h', o') m2.

  (** no change of a modulation amount failed *)
  Definition no_failed_modamt (tr : list event) : Prop :=
    forall c ms ns r, (c, ms, ns, r) ∈ tr -> is_modamt c = true -> r = None.

  (** calls that have a reason to call the observer with [n] *)
  Definition caused (c : ocall) (n : note) : Prop :=
    match n with
    | NProp k => exists v, c = OProp k v
    | NParam p => (exists a, c = OSet p a) \/ exists v, c = OModamt p v
    | NMon x => c = OMonitor x \/ c = OSync \/ c = OClear \/ exists r, c = OLoad r
    | NMatrix => c = OSync \/ c = OClear \/ exists r, c = OLoad r
    | NAll => c = OClear \/ exists r, c = OLoad r
    end.
End spec.

(** the value of a property after a call *)
Definition property_after (c : ocall) (k : string) (before : option satom) : option satom :=
  match c with
  | OProp k' v => if decide (k' = k) then Some v else before
  | OClear => None
  | OLoad r => last (omap (fun e : string * satom => if decide (e.1 = k) then Some e.2 else None) (mr_props r))
  | _ => before
  end.
