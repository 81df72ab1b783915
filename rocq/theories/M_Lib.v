(** The sample library (src/sample_lib.rs) and its use by the configurator (src/nodes/node_conf.rs).

    The WAV reader [hound] is external: a file opens with a header, and gives a sequence of samples of which some cannot be read.
    Simplifications: an error is its kind; a shared pointer to a sample is the sample; the configurator's part is the sample library
    and the list of errors, the parameter store is in M_Conf.v. *)
From stdpp Require Import strings.
From Verif Require Import Base M_Atom.
Open Scope nat_scope.

(** [samples::<f32>()] or [samples::<i16>()] of the reader, by [spec().sample_format]; [None] is a sample that gives an error *)
Inductive wav_data := WFloat (xs : list (option f32)) | WInt (xs : list (option Z)).
Record wav := Wav { wv_channels : nat; wv_rate : nat; wv_data : wav_data }.
(** [hound::WavReader::open] at some moment *)
Notation files := (string -> option wav).

(** [Iterator::step_by]: the first element, then every [n]-th; it panics for 0 (see [lib_read]) *)
Fixpoint step_by {A} (fuel n : nat) (xs : list A) : list A :=
  match fuel, xs with
  | S fuel, x :: xs => x :: step_by fuel n (drop (n - 1) xs)
  | _, _ => []
  end.

Section lib.
  (** [u32 as f32]; [s as f32 / 0x8000 as f32] of an [i16] *)
  Context (rate_f : nat -> f32) (i16_f : Z -> f32).

  (** [for s in rd.samples().step_by(channels).take(max) { v.push(conv(s?)) }]: [None] is an error *)
  Definition collect {A} (conv : A -> f32) (channels max : nat) (xs : list (option A)) : option (list f32) :=
    mapM (fun s => conv <$> s) (take max (step_by (length xs) channels xs)).

  (** src/sample_lib.rs:47-71: outside [None] is a panic, inside it is an error *)
  Definition lib_read (w : wav) : option (option (list f32)) :=
    let max := 60 * wv_rate w in
    if wv_channels w =? 0 then None else
    Some (let* v := match wv_data w with
                    | WFloat xs => collect (fun x => x) (wv_channels w) max xs
                    | WInt xs => collect i16_f (wv_channels w) max xs
                    end in
          Some (rate_f (wv_rate w) :: v)).

  (** src/sample_lib.rs:39-77 [load]: the library maps the paths of the loaded samples to their atoms *)
  Definition lib_load (fs : files) (lib : gmap string satom) (path : string) : option (gmap string satom * option satom) :=
    match lib !! path with
    | Some a => Some (lib, Some a)
    | None =>
        match fs path with
        | None => Some (lib, None)
        | Some w =>
            let* r := lib_read w in
            match r with
            | None => Some (lib, None)
            | Some v => let a := AAudio path (Some v) in Some (<[path := a]> lib, Some a)
            end
        end
    end.

  (** the sample library and the errors of the configurator; an error is the path in its text *)
  Record loader := Loader { ld_lib : gmap string satom; ld_errors : list string }.
  Definition loader_new : loader := Loader ∅ [].

  (** src/nodes/node_conf.rs:469-487: the atom that [set_param] stores and sends to the audio thread *)
  Definition loader_set (fs : files) (l : loader) (a : satom) : option (loader * satom) :=
    match a with
    | AAudio path None =>
        if decide (path = EmptyString) then Some (l, a) else
        let* (lib, r) := lib_load fs (ld_lib l) path in
        match r with
        | Some s => Some (Loader lib (ld_errors l), s)
        | None => Some (Loader lib (ld_errors l ++ [path]), a)
        end
    | _ => Some (l, a)
    end.

  (** src/nodes/node_conf.rs:379-381 [pop_error] *)
  Definition loader_pop (l : loader) : loader * option string :=
    match last (ld_errors l) with
    | Some e => (Loader (ld_lib l) (take (length (ld_errors l) - 1) (ld_errors l)), Some e)
    | None => (l, None)
    end.

  (** a history of calls; the files may change between them *)
  Inductive lcall := LSet (fs : files) (a : satom) | LPop.
  Definition loader_step (l : loader) (k : lcall) : option loader :=
    match k with
    | LSet fs a => let* (l, _) := loader_set fs l a in Some l
    | LPop => Some (loader_pop l).1
    end.
End lib.
