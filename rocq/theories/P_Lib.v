(** Loading samples (C52) *)
From stdpp Require Import strings.
From Verif Require Import Base M_Atom M_Prog M_Lib S_Lib L_Conf.
Open Scope nat_scope.

Lemma step_by_lookup {A} n fuel : forall (xs : list A) i, 0 < n -> length xs <= fuel -> step_by fuel n xs !! i = xs !! (n * i).
Proof.
  induction fuel as [|fuel IH]; intros [|x xs] i Hn Hl; cbn [length] in Hl; [done|lia|done|]. cbn [step_by].
  destruct i as [|i]; [by rewrite Nat.mul_0_r|]. cbn. rewrite IH; [|done|rewrite drop_length; lia]. rewrite lookup_drop.
  replace (n * S i) with (S (n - 1 + n * i)) by lia. done.
Qed.

Lemma mapM_lookup {A} (conv : A -> f32) (ys : list (option A)) v :
  mapM (fun s => conv <$> s) ys = Some v <-> forall i, Some <$> v !! i = (fun s : option A => conv <$> s) <$> ys !! i.
Proof.
  rewrite mapM_Some. split.
  - intros H i. destruct (v !! i) as [b|] eqn:E.
    + destruct (Forall2_lookup_r _ _ _ _ _ H E) as (x & -> & Hx). cbn. by rewrite Hx.
    + assert (ys !! i = None) as ->; [|done]. apply lookup_ge_None. rewrite (Forall2_length _ _ _ H). by apply lookup_ge_None.
  - intros H. apply Forall2_same_length_lookup. split.
    + apply Nat.le_antisymm; apply Nat.nlt_ge; intros Hl.
      * destruct (lookup_lt_is_Some_2 _ _ Hl) as [y Hy]. specialize (H (length v)). rewrite Hy, lookup_ge_None_2 in H; [done|lia].
      * destruct (lookup_lt_is_Some_2 _ _ Hl) as [y Hy]. specialize (H (length ys)). rewrite Hy, (lookup_ge_None_2 ys) in H; [done|lia].
    + intros i x y Hx Hy. specialize (H i). rewrite Hx, Hy in H. cbn in H. by injection H.
Qed.

Section theorems.
  Context (rate_f : nat -> f32) (i16_f : Z -> f32).
  Local Notation set := (loader_set rate_f i16_f).

  Lemma collect_spec {A} (conv : A -> f32) c max xs v : 0 < c ->
    collect conv c max xs = Some v <-> forall i, Some <$> v !! i = if i <? max then (fun s : option A => conv <$> s) <$> xs !! (c * i) else None.
  Proof.
    intros Hc. unfold collect. rewrite mapM_lookup. split; intros H i; rewrite H; destruct (Nat.ltb_spec i max).
    all: try (rewrite lookup_take, step_by_lookup by done; done).
    all: try (rewrite lookup_take_ge by done; done).
  Qed.

  Lemma read_spec w : 0 < wv_channels w -> exists r, lib_read rate_f i16_f w = Some r /\
    match r with
    | Some v => loaded_from rate_f i16_f w v
    | None => exists i, first_channel i16_f w i = Some None
    end.
  Proof.
    intros Hc. unfold lib_read. destruct (Nat.eqb_spec (wv_channels w) 0); [lia|]. eexists. split; [done|].
    assert (G : forall A (conv : A -> f32) xs, (forall i, file_sample i16_f w i = (fun s : option A => conv <$> s) <$> xs !! i) ->
      match (let* v := collect conv (wv_channels w) (60 * wv_rate w) xs in Some (rate_f (wv_rate w) :: v)) with
      | Some v => loaded_from rate_f i16_f w v
      | None => exists i, first_channel i16_f w i = Some None
      end).
    { intros A conv xs Hx. destruct (collect conv _ _ xs) as [v|] eqn:E; cbn [mbind option_bind].
      - rewrite collect_spec in E by done. split; [done|]. intros i. cbn [lookup list_lookup]. unfold first_channel. rewrite Hx. apply E.
      - unfold collect in E. apply mapM_None in E. apply Exists_exists in E as (x & Hin & Hn). apply elem_of_list_lookup in Hin as [i Hi].
        destruct x as [x|]; [done|]. exists i. unfold first_channel. assert (Hlt : i < 60 * wv_rate w).
        { apply lookup_lt_Some in Hi. rewrite take_length in Hi. lia. }
        destruct (Nat.ltb_spec i (60 * wv_rate w)); [|lia]. rewrite lookup_take, step_by_lookup in Hi by done. by rewrite Hx, Hi. }
    destruct w as [c r [xs|xs]]; cbn [wv_data] in *.
    - apply G. intros i. unfold file_sample. cbn. destruct (xs !! i) as [[x|]|]; done.
    - apply G. intros i. done.
  Qed.
  Lemma loaded_fun w v v' : loaded_from rate_f i16_f w v -> loaded_from rate_f i16_f w v' -> v = v'.
  Proof.
    intros [H1 H2] [H3 H4]. apply list_eq. intros [|i]; [congruence|]. specialize (H2 i). specialize (H4 i). rewrite <- H4 in H2.
    destruct (v !! S i), (v' !! S i); cbn in H2; congruence.
  Qed.

  (** the library only holds what was loaded for the path *)
  Lemma lib_paths ks l path a : after_calls rate_f i16_f ks l -> ld_lib l !! path = Some a -> exists v, a = AAudio path (Some v).
  Proof.
    intros H. unfold after_calls in H. revert path a. revert H. apply (foldm_inv _ (fun l => forall path a, ld_lib l !! path = Some a -> exists v, a = AAudio path (Some v))); [|done].
    clear. intros l [fs a|] l' _ IH E path b Hb; cbn [loader_step] in E.
    - unfold loader_set in E. destruct a as [| |p [d|]| |]; try by (injection E as <-; eauto). destruct (decide (p = EmptyString)); [by (injection E as <-; eauto)|].
      unfold lib_load in E. destruct (ld_lib l !! p) as [a|] eqn:El; [by (injection E as <-; eauto)|]. destruct (fs p) as [w|]; [|by (injection E as <-; eauto)].
      destruct (lib_read _ _ w) as [[v|]|]; [|by (injection E as <-; eauto)|done]. injection E as <-. cbn in Hb.
      destruct (decide (path = p)) as [->|]; [|rewrite lookup_insert_ne in Hb by done; eauto]. rewrite lookup_insert in Hb. injection Hb as <-. eauto.
    - injection E as <-. unfold loader_pop in Hb. destruct (last _); eauto.
  Qed.

  (** No call panics, whatever files there are (with at least one channel). *)
  Theorem C52_never_panics ks : Forall sane_call ks -> exists l, after_calls rate_f i16_f ks l.
  Proof.
    unfold after_calls. generalize loader_new. induction ks as [|k ks IH]; intros l Hk; [by exists l|]. apply Forall_cons in Hk as [H1 H2]. cbn [foldm].
    assert (exists l', loader_step rate_f i16_f l k = Some l') as [l' ->]; [|by apply IH].
    destruct k as [fs a|]; [|by eexists]. cbn [loader_step]. unfold loader_set. destruct a as [| |p [d|]| |]; try by eexists.
    destruct (decide (p = EmptyString)); [by eexists|]. unfold lib_load. destruct (ld_lib l !! p); [by eexists|].
    destruct (fs p) as [w|] eqn:Ew; [|by eexists]. destruct (read_spec w (H1 _ _ Ew)) as (r & -> & _). destruct r; by eexists.
  Qed.

  (** Setting a sample by its path gives, if it was not loaded before: the sample rate and the first 60 seconds of the first channel of the file;
      or the atom itself and an error that names the path, if there is no such file or one of these samples cannot be read. *)
  Theorem C52_load l fs path l' a : sane fs -> path <> EmptyString -> ld_lib l !! path = None ->
    set fs l (AAudio path None) = Some (l', a) ->
    match fs path with
    | Some w =>
        ((forall i, first_channel i16_f w i <> Some None) -> exists v, a = AAudio path (Some v) /\ loaded_from rate_f i16_f w v /\ ld_errors l' = ld_errors l) /\
        ((exists i, first_channel i16_f w i = Some None) -> a = AAudio path None /\ ld_errors l' = ld_errors l ++ [path] /\ ld_lib l' = ld_lib l)
    | None => a = AAudio path None /\ ld_errors l' = ld_errors l ++ [path] /\ ld_lib l' = ld_lib l
    end.
  Proof.
    intros Hfs Hp Hn E. unfold loader_set in E. rewrite decide_False in E by done. unfold lib_load in E. rewrite Hn in E.
    destruct (fs path) as [w|] eqn:Ew; [|cbn [mbind option_bind] in E; by injection E as <- <-].
    destruct (read_spec w (Hfs _ _ Ew)) as (r & Er & Hr). rewrite Er in E. cbn [mbind option_bind] in E. destruct r as [v|]; cbn [mbind option_bind] in E; injection E as <- <-.
    - split; [eauto|]. intros [i Hi]. exfalso. destruct Hr as [_ Hr]. specialize (Hr i). rewrite Hi in Hr. by destruct (v !! S i).
    - split; [|done]. intros Hall. destruct Hr as [i Hi]. by destruct (Hall i).
  Qed.

  (** Once a path was loaded, it gives the same sample for ever, whatever happens to the files and whatever else is loaded. *)
  Theorem C52_again l fs path v l' ks l'' fs' : path <> EmptyString ->
    set fs l (AAudio path None) = Some (l', AAudio path (Some v)) -> foldm (loader_step rate_f i16_f) l' ks = Some l'' ->
    set fs' l'' (AAudio path None) = Some (l'', AAudio path (Some v)).
  Proof.
    intros Hp E Hks. assert (H1 : ld_lib l' !! path = Some (AAudio path (Some v))).
    { unfold loader_set in E. rewrite decide_False in E by done. unfold lib_load in E. destruct (ld_lib l !! path) as [a|] eqn:El.
      - cbn [mbind option_bind] in E. by injection E as <- ->.
      - destruct (fs path) as [w|]; [|done]. destruct (lib_read _ _ w) as [[u|]|]; cbn [mbind option_bind] in E; [|done|done]. injection E as <- ->. cbn. by rewrite lookup_insert. }
    assert (H2 : ld_lib l'' !! path = Some (AAudio path (Some v))).
    { revert Hks. apply (foldm_inv _ (fun l => ld_lib l !! path = Some (AAudio path (Some v)))); [|done]. clear -Hp. intros l [fs a|] l' _ IH E; cbn [loader_step] in E.
      - unfold loader_set in E. destruct a as [| |p [d|]| |]; try by injection E as <-. destruct (decide (p = EmptyString)); [by injection E as <-|].
        unfold lib_load in E. destruct (ld_lib l !! p) as [a|] eqn:El; [by injection E as <-|]. destruct (fs p) as [w|]; [|by injection E as <-].
        destruct (lib_read _ _ w) as [[u|]|]; [|by injection E as <-|done]. injection E as <-. cbn.
        destruct (decide (path = p)) as [->|]; [congruence|by rewrite lookup_insert_ne].
      - injection E as <-. unfold loader_pop. by destruct (last _). }
    unfold loader_set. rewrite decide_False by done. unfold lib_load. rewrite H2. cbn [mbind option_bind]. by destruct l''.
  Qed.

  (** A path never gives the sample of another path. *)
  Theorem C52_path ks l fs path l' a : after_calls rate_f i16_f ks l -> set fs l (AAudio path None) = Some (l', a) -> exists d, a = AAudio path d.
  Proof.
    intros Hl E. unfold loader_set in E. destruct (decide (path = EmptyString)); [injection E as <- <-; eauto|]. unfold lib_load in E.
    destruct (ld_lib l !! path) as [b|] eqn:El.
    - cbn [mbind option_bind] in E. injection E as <- <-. destruct (lib_paths _ _ _ _ Hl El) as [v ->]. eauto.
    - destruct (fs path) as [w|]; [|injection E as <- <-; eauto]. destruct (lib_read _ _ w) as [[u|]|]; cbn [mbind option_bind] in E; [| |done]; injection E as <- <-; eauto.
  Qed.

  (** What is not a sample that still has to be loaded is kept as it is, and no error is reported. *)
  Theorem C52_others fs l a : (forall path, a = AAudio path None -> path = EmptyString) -> set fs l a = Some (l, a).
  Proof. intros H. destruct a as [| |p [d|]| |]; try done. unfold loader_set. by rewrite decide_True by auto. Qed.

  (** The errors are reported one by one, the last one first. *)
  Theorem C52_errors l es e : ld_errors l = es ++ [e] -> loader_pop l = (Loader (ld_lib l) es, Some e).
  Proof. intros H. unfold loader_pop. rewrite H, last_snoc, app_length. cbn [length]. rewrite Nat.add_sub, take_app. done. Qed.
  Theorem C52_no_errors l : ld_errors l = [] -> loader_pop l = (l, None).
  Proof. intros H. unfold loader_pop. by rewrite H. Qed.
End theorems.
Print Assumptions C52_never_panics.
Print Assumptions C52_load.
Print Assumptions C52_again.
Print Assumptions C52_path.
Print Assumptions C52_others.
Print Assumptions C52_errors.
Print Assumptions C52_no_errors.

(** a stereo file of which the second channel is broken at one place; a broken file; a missing one *)
Open Scope string_scope.
Definition lib_files : files := fun p =>
  if decide (p = "a.wav") then Some (Wav 2 3 (WInt [Some 10; Some 20; Some 11; None; Some 12]%Z))
  else if decide (p = "b.wav") then Some (Wav 2 3 (WFloat [Some 1; Some 2; None; Some 3]%Z)) else None.
Example C52_case : (n ← foldm (loader_step Z.of_nat (fun z => z)) loader_new [LSet lib_files (AAudio "b.wav" None); LSet lib_files (AAudio "a.wav" None); LSet (fun _ => None) (AAudio "c.wav" None)];
   r ← loader_set Z.of_nat (fun z => z) (fun _ => None) n (AAudio "a.wav" None); Some (r.2, ld_errors r.1, (loader_pop r.1).2)) =
  Some (AAudio "a.wav" (Some [3; 10; 11; 12]%Z), ["b.wav"; "c.wav"], Some "c.wav").
Proof. vm_compute. reflexivity. Qed.
Example C52_sane : sane lib_files.
Proof. intros p w. unfold lib_files. repeat case_decide; intros [= <-]; cbn; lia. Qed.
(** A second request for a broken file is tried again. *)
Example C52_retry : (n ← foldm (loader_step Z.of_nat (fun z => z)) loader_new [LSet lib_files (AAudio "b.wav" None)];
   r ← loader_set Z.of_nat (fun z => z) (fun _ => Some (Wav 1 1 (WFloat [Some 5]%Z))) n (AAudio "b.wav" None); Some (r.2)) = Some (AAudio "b.wav" (Some [1; 5]%Z)).
Proof. vm_compute. reflexivity. Qed.
