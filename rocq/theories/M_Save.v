(** Model of saving to a file, src/matrix_repr.rs:305-320, and of what the operating system does for it. *)
From stdpp Require Import strings.
From Verif Require Import Base.
Open Scope string_scope.
Open Scope list_scope.
Open Scope nat_scope.

(** A file system: names of files, and the bytes of each file. Two names may stand for the same file (links).
    Directories, permissions and what happens when the power is lost are left out. *)
Record fsys := FSys { fs_names : gmap string nat; fs_data : gmap nat (list Ascii.ascii) }.
Definition fs_read (f : fsys) (p : string) : option (list Ascii.ascii) := let* n := fs_names f !! p in fs_data f !! n.

(** src/matrix_repr.rs:309: the name of the temporary file *)
Definition tmp_name (p : string) : string := p +:+ "~".

(** Where [write_to_file] is: before opening the temporary file, with bytes left to write, before renaming, or returned (with or without success) *)
Inductive wstate := WOpen | WWrite (file : nat) (rest : list Ascii.ascii) | WRename | WDone (ok : bool).

(** src/matrix_repr.rs:305-320 [write_to_file]: one system call each. Calls can fail, and the function returns then ([?]).
    [write_all] calls [write] until all is written, and each call may write any part of it. *)
Inductive wstep (p : string) (c : list Ascii.ascii) : fsys * wstate -> fsys * wstate -> Prop :=
| w_open_new f n : fs_names f !! tmp_name p = None -> fs_data f !! n = None ->
    wstep p c (f, WOpen) (FSys (<[tmp_name p := n]> (fs_names f)) (<[n := []]> (fs_data f)), WWrite n c)
| w_open_trunc f n : fs_names f !! tmp_name p = Some n -> wstep p c (f, WOpen) (FSys (fs_names f) (<[n := []]> (fs_data f)), WWrite n c)
| w_open_fail f : wstep p c (f, WOpen) (f, WDone false)
| w_write f n rest k old : fs_data f !! n = Some old -> 0 < k <= length rest ->
    wstep p c (f, WWrite n rest) (FSys (fs_names f) (<[n := old ++ take k rest]> (fs_data f)), WWrite n (drop k rest))
| w_write_fail f n rest : wstep p c (f, WWrite n rest) (f, WDone false)
| w_written f n : wstep p c (f, WWrite n []) (f, WRename)
| w_rename f n : fs_names f !! tmp_name p = Some n -> fs_names f !! p <> Some n ->
    wstep p c (f, WRename) (FSys (<[p := n]> (delete (tmp_name p) (fs_names f))) (fs_data f), WDone true)
(** [rename(2)] does nothing if both names stand for the same file *)
| w_rename_same f n : fs_names f !! tmp_name p = Some n -> fs_names f !! p = Some n -> wstep p c (f, WRename) (f, WDone true)
| w_rename_fail f : wstep p c (f, WRename) (f, WDone false).
