(** Model of the tables of src/global.rs that connect frontend handles and nodes: scopes and trackers. The feedback buffers
    are kept in a table of the same kind; dynamic nodes and block functions are in [M_Dyn] and [M_CodeN]. *)
From Verif Require Import Base M_Prog M_Scope M_Track.
Open Scope nat_scope.

(** src/global.rs:27-47: one of the [HashMap]s of [struct NodeGlobalData]. The objects live on the heap, [gt_objs]; the map
    gives the object of an instance. *)
Record gtab (O : Type) := GTab { gt_ids : gmap nat nat; gt_objs : list O }.
Arguments GTab {O}. Arguments gt_ids {O}. Arguments gt_objs {O}.

Section table.
  Context {O : Type} (new : O).

  (** src/global.rs:49-60 [new_ref]: the table is empty *)
  Definition tab_new : gtab O := GTab ∅ [].
  (** src/global.rs:62-71 [get_scope_handle], 94-100 [get_pattern_data], 112-118 [get_tracker_backend]: the object of the instance,
      which is made when there is none *)
  Definition tab_get (t : gtab O) (i : nat) : gtab O * nat :=
    match gt_ids t !! i with
    | Some h => (t, h)
    | None => (GTab (<[i := length (gt_objs t)]> (gt_ids t)) (gt_objs t ++ [new]), length (gt_objs t))
    end.
  (** a call on the object behind a handle ([Arc]) *)
  Definition tab_call (f : O -> option O) (t : gtab O) (h : nat) : option (gtab O) :=
    let* o := gt_objs t !! h in
    let* o := f o in
    Some (GTab (gt_ids t) (<[h := o]> (gt_objs t))).
End table.

Section global.
  Context {V : Type} (zero : V) (val note gate : Z -> V) (lerp : V -> V -> nat -> nat -> V).

  (** src/global.rs:27-47 [struct NodeGlobalData], with the handles that were given out, in their order. Of a tracker, the flag
      says that its first backend was given out, [seq.is_none()] in src/dsp/tracker/mod.rs:113. *)
  Record gdata := GData {
    gd_scopes : gtab (scope V);
    gd_sh : list nat;
    gd_tracks : gtab (@tracker V * bool);
    gd_ph : list nat;
  }.
  Definition gdata_new : gdata := GData tab_new [] tab_new [].

  (** The calls of frontend and nodes:
      - [GScope]: [get_scope_handle] (62-71), called by the Scope node and src/matrix.rs:604-610
      - [GScopeDo]: a call on a handle
      - [GPat], [GPatDo]: [get_pattern_data] (94-100) and an edit of the pattern by a handle
      - [GCheck]: [check_pattern_data] (124-128)
      - [GBackend]: [get_tracker_backend] (112-118), called by the TSeq node
      - [GRecv]: [check_updates] of the backend that was given out last. Older backends are not followed. *)
  Inductive gop :=
  | GScope (i : nat)
  | GScopeDo (k : nat) (o : scop V)
  | GPat (i : nat)
  | GPatDo (k : nat) (o : pop)
  | GCheck (i : nat)
  | GBackend (i : nat)
  | GRecv (i : nat).

  (** src/global.rs:102-105 [has_tracker] *)
  Definition has_tracker (g : gdata) (i : nat) : bool := match gt_ids (gd_tracks g) !! i with Some _ => true | None => false end.

  Definition on_tracker (o : trop) (tb : @tracker V * bool) : option (@tracker V * bool) :=
    let* t := track_step zero val note gate lerp tb.1 o in Some (t, tb.2).
  (** src/dsp/tracker/mod.rs:112-126 [get_backend]: the first one was made with the tracker *)
  Definition give_backend (tb : @tracker V * bool) : option (@tracker V * bool) :=
    let '(t, b) := tb in Some (if b : bool then tracker_get_backend zero t else t, true).

  Definition track_fresh : @tracker V * bool := (tracker_new zero, false).
  Definition global_step (g : gdata) (o : gop) : option gdata :=
    match o with
    | GScope i => let '(t, h) := tab_get (scope_new zero) (gd_scopes g) i in Some (GData t (gd_sh g ++ [h]) (gd_tracks g) (gd_ph g))
    | GScopeDo k c =>
        let* h := gd_sh g !! k in
        let* t := tab_call (fun s => scope_step s c) (gd_scopes g) h in
        Some (GData t (gd_sh g) (gd_tracks g) (gd_ph g))
    | GPat i => let '(t, h) := tab_get track_fresh (gd_tracks g) i in Some (GData (gd_scopes g) (gd_sh g) t (gd_ph g ++ [h]))
    | GPatDo k e =>
        let* h := gd_ph g !! k in
        let* t := tab_call (on_tracker (TEdit e)) (gd_tracks g) h in
        Some (GData (gd_scopes g) (gd_sh g) t (gd_ph g))
    | GCheck i =>
        match gt_ids (gd_tracks g) !! i with
        | Some h => let* t := tab_call (on_tracker TSend) (gd_tracks g) h in Some (GData (gd_scopes g) (gd_sh g) t (gd_ph g))
        | None => Some g
        end
    | GBackend i =>
        let '(t, h) := tab_get track_fresh (gd_tracks g) i in
        let* t := tab_call give_backend t h in
        Some (GData (gd_scopes g) (gd_sh g) t (gd_ph g))
    | GRecv i =>
        let* h := gt_ids (gd_tracks g) !! i in
        let* tb := gt_objs (gd_tracks g) !! h in
        if tb.2 : bool then
          let* t := tab_call (on_tracker TRecv) (gd_tracks g) h in Some (GData (gd_scopes g) (gd_sh g) t (gd_ph g))
        else None
    end.
  Definition global_run (os : list gop) : option gdata := foldm global_step gdata_new os.

  (** what is behind the handles that were given out *)
  Definition scope_behind (g : gdata) (k : nat) : option (scope V) := let* h := gd_sh g !! k in gt_objs (gd_scopes g) !! h.
  Definition track_behind (g : gdata) (k : nat) : option (@tracker V) := let* h := gd_ph g !! k in fst <$> gt_objs (gd_tracks g) !! h.
End global.
