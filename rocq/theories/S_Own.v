(** Ownership of sample buffers in the running engine (C19) *)
From Verif Require Import Base M_Atom M_Grid M_Layout M_Prog M_Conf M_Exec M_Sync M_Engine.
Open Scope nat_scope.

(** the buffers that a program releases when it is dropped *)
Definition owned (p : nprog) : list nat := np_inp p ++ np_out p ++ (mo_buf <$> np_mods p).

(** programs in a message *)
Definition msg_progs (m : gmsg) : list nprog :=
  match m with MClear p | MNewProg p _ => [p] | _ => [] end.

(** every program that exists: on its way to the audio thread, running there, and waiting for the
    drop thread *)
Definition live_progs {St} (n : engine St) : list nprog :=
  mjoin (msg_progs <$> en_queue n) ++ [ex_prog (en_exec n)] ++ en_trash n.

(** every pointer that the program uses while it runs *)
Definition pointers (p : nprog) : list nat :=
  owned p ++ omap id (np_cur p) ++ omap mo_in (np_mods p) ++ omap mo_out (np_mods p).

(** a node writes full blocks into the output buffers it is given *)
Definition node_fits {St} (node_sem : node_id -> St -> nat -> N -> N -> list satom ->
    list (list f32) -> list (list f32) -> list (list f32) -> St * list (list f32)) : Prop :=
  forall n st k oc ic ats ps is os,
    Forall (fun b => length b = block_size) os ->
    length (node_sem n st k oc ic ats ps is os).2 = length os /\
    Forall (fun b => length b = block_size) (node_sem n st k oc ic ats ps is os).2.

(** the heap holds exactly the listed buffers, each of them once, and all have the full size *)
Definition holds (h : heap) (l : list nat) : Prop :=
  NoDup l /\ (forall b, is_Some (h_bufs h !! b) <-> b ∈ l) /\
  (forall b c, h_bufs h !! b = Some c -> length c = block_size).

(** engines that some interleaving of API calls, audio blocks, message handling and releases leads to *)
Definition engine_reachable {St} (T : ntable) (i2f : Z -> f32) (load_sample : satom -> satom)
    (finc : f32 -> f32 -> nat -> f32) (fadd : f32 -> f32 -> f32) (mix : f32 -> f32 -> f32 -> f32)
    (node_sem : node_id -> St -> nat -> N -> N -> list satom ->
      list (list f32) -> list (list f32) -> list (list f32) -> St * list (list f32)) (n : engine St) : Prop :=
  exists w h slope st os,
    engine_run T i2f load_sample finc fadd mix node_sem (engine_new w h slope st) os = Some n.
