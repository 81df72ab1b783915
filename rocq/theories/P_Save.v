(** C25: saving is all or nothing. *)
From Coq Require Import Ascii.
From stdpp Require Import strings.
From Verif Require Import Base M_Atom M_Json M_Block M_Repr S_Repr P_Repr M_Save S_Save.
Open Scope string_scope.
Open Scope list_scope.
Open Scope nat_scope.

Lemma tmp_ne p : tmp_name p <> p.
Proof.
  intros E. apply (f_equal String.length) in E. unfold tmp_name in E.
  assert (forall a b, String.length (a +:+ b) = String.length a + String.length b) as H .
  { intros a b. induction a as [|x a IH]; [done|]. change (S (String.length (a +:+ b)) = S (String.length a) + String.length b). rewrite IH. lia. }
  rewrite H in E. cbn in E. lia.
Qed.
Local Opaque tmp_name.

Section save.
Context (p : string) (c : list Ascii.ascii).
(** names and files that the call does not touch *)
Definition apart (f : fsys) (q : string) : Prop := q <> p /\ q <> tmp_name p /\ distinct f (tmp_name p) q.

Definition st_ok (f0 : fsys) (st : fsys * wstate) : Prop :=
  fs_ok st.1 /\ distinct st.1 (tmp_name p) p /\ (forall q, apart f0 q -> apart st.1 q /\ fs_read st.1 q = fs_read f0 q) /\
  match st.2 with
  | WOpen => st.1 = f0
  | WWrite n rest => fs_read st.1 p = fs_read f0 p /\ fs_names st.1 !! tmp_name p = Some n /\ exists w, fs_data st.1 !! n = Some w /\ w ++ rest = c
  | WRename => fs_read st.1 p = fs_read f0 p /\ fs_read st.1 (tmp_name p) = Some c
  | WDone false => fs_read st.1 p = fs_read f0 p
  | WDone true => fs_read st.1 p = Some c /\ fs_names st.1 !! tmp_name p = None
  end.
Lemma read_data_ne f n d q : fs_names f !! q <> Some n -> fs_read (FSys (fs_names f) (<[n := d]> (fs_data f))) q = fs_read f q.
Proof.
  intros H. unfold fs_read. cbn [fs_names fs_data]. destruct (fs_names f !! q) as [m|]; [|done]. cbn. apply lookup_insert_ne. congruence.
Qed.
Lemma step_ok f0 st st' : st_ok f0 st -> wstep p c st st' -> st_ok f0 st'.
Proof.
  intros (Hok & Hd & Ha & H) Hs. inversion Hs; subst; cbn [fst snd] in *; unfold st_ok; cbn [fst snd]; try (subst f0).
  - (* new *) assert (forall q m, fs_names f !! q = Some m -> m <> n) as Hfr by (intros q m Hq ->; destruct (Hok q n Hq); congruence).
    assert (forall q, q <> tmp_name p -> fs_read (FSys (<[tmp_name p:=n]> (fs_names f)) (<[n:=[]]> (fs_data f))) q = fs_read f q) as Hr.
    { intros q Hq. unfold fs_read. cbn [fs_names fs_data]. rewrite lookup_insert_ne by done. destruct (fs_names f !! q) as [m|] eqn:Eq; [|done].
      cbn. apply lookup_insert_ne. intros <-. by eapply Hfr. }
    split_and!.
    + intros q m Hq. cbn [fs_names fs_data] in *. destruct (decide (n = m)) as [->|Hne]; [rewrite lookup_insert; eauto|]. rewrite lookup_insert_ne by done.
      apply lookup_insert_Some in Hq as [[_ ?]|[_ Hq]]; [done|by eapply Hok].
    + intros m Hm. cbn [fs_names] in *. rewrite lookup_insert in Hm. injection Hm as <-. rewrite lookup_insert_ne by apply tmp_ne. intros Hq. by eapply Hfr.
    + intros q Hq. destruct (Ha q Hq) as ((Q1 & Q2 & Q3) & Q4). split; [|by rewrite Hr]. split_and!; [done|done|]. intros m Hm. cbn [fs_names] in *.
      rewrite lookup_insert in Hm. injection Hm as <-. rewrite lookup_insert_ne by done. intros Hq'. by eapply Hfr.
    + apply Hr. intros E. by apply (tmp_ne p).
    + cbn [fs_names]. apply lookup_insert.
    + exists []. cbn [fs_data]. by rewrite lookup_insert.
  - (* truncate *) assert (forall q m, fs_names f !! q = Some m -> is_Some (<[n := []]> (fs_data f) !! m)) as Hok'.
    { intros q m Hq. destruct (decide (n = m)) as [->|Hne]; [rewrite lookup_insert; eauto|]. rewrite lookup_insert_ne by done. by eapply Hok. }
    split_and!; [done|done| | | |].
    + intros q Hq. destruct (Ha q Hq) as ((Q1 & Q2 & Q3) & Q4). split; [done|]. rewrite read_data_ne; [done|]. by apply Q3.
    + apply read_data_ne. by apply Hd.
    + done.
    + exists []. cbn [fs_data]. by rewrite lookup_insert.
  - done.
  - (* write *) destruct H as (K1 & K2 & w & K3 & K4). rewrite K3 in *. match goal with H : Some _ = Some _ |- _ => injection H as -> end.
    split_and!.
    + intros q m Hq. cbn [fs_names fs_data] in *. destruct (decide (n = m)) as [->|Hne]; [rewrite lookup_insert; eauto|]. rewrite lookup_insert_ne by done. by eapply Hok.
    + done.
    + intros q Hq. destruct (Ha q Hq) as ((Q1 & Q2 & Q3) & Q4). split; [done|]. rewrite read_data_ne; [done|]. by apply Q3.
    + rewrite read_data_ne; [done|]. by apply Hd.
    + done.
    + eexists. cbn [fs_data]. rewrite lookup_insert. split; [done|]. rewrite <- app_assoc, take_drop. done.
  - (* fail *) destruct H as (K1 & _). done.
  - (* written *) destruct H as (K1 & K2 & w & K3 & K4). split_and!; [done|done|done|done|]. unfold fs_read. rewrite K2. cbn. rewrite app_nil_r in K4. by subst w.
  - (* rename *) destruct H as (K1 & K2).
    assert (fs_data f !! n = Some c) as Hc by (unfold fs_read in K2; by rewrite H0 in K2).
    split_and!.
    + intros q m Hq. cbn [fs_names fs_data] in *. apply lookup_insert_Some in Hq as [[_ <-]|[_ Hq]]; [eauto|]. apply lookup_delete_Some in Hq as [_ Hq]. by eapply Hok.
    + intros m Hm. cbn [fs_names] in *. rewrite lookup_insert_ne, lookup_delete in Hm by (intros E; by apply (tmp_ne p)). done.
    + intros q Hq. destruct (Ha q Hq) as ((Q1 & Q2 & Q3) & Q4). split.
      * split_and!; [done|done|]. intros m Hm. cbn [fs_names] in *. rewrite lookup_insert_ne, lookup_delete in Hm by (intros E; by apply (tmp_ne p)). done.
      * rewrite <- Q4. unfold fs_read. cbn [fs_names fs_data]. by rewrite lookup_insert_ne, lookup_delete_ne by done.
    + unfold fs_read. cbn [fs_names fs_data]. rewrite lookup_insert. done.
    + cbn [fs_names]. rewrite lookup_insert_ne, lookup_delete by (intros E; by apply (tmp_ne p)). done.
  - (* same *) by destruct (Hd _ H0).
  - destruct H as (K1 & _). done.
Qed.
Lemma run_ok f0 st : fs_ok f0 -> distinct f0 (tmp_name p) p -> rtc (wstep p c) (f0, WOpen) st -> st_ok f0 st.
Proof.
  intros Hok Hd H. assert (st_ok f0 (f0, WOpen)) as H0 by (by split_and!). revert H0. induction H as [|x y z Hs _ IH]; [done|]. intros Hx. apply IH. by eapply step_ok.
Qed.
End save.

(** Wherever the call is interrupted, the file has the old contents or the new ones; it has the new ones once the call has returned with success,
    and the old ones if it returned with an error. Other files are as they were, except for the temporary one. *)
Theorem C25_atomic (p : string) (c : list Ascii.ascii) (f f' : fsys) (s : wstate) :
  fs_ok f -> distinct f (tmp_name p) p -> interrupted p c f f' s ->
  (fs_read f' p = fs_read f p \/ fs_read f' p = Some c) /\
  (s = WDone true -> fs_read f' p = Some c) /\ (s = WDone false -> fs_read f' p = fs_read f p) /\
  (forall q, q <> p -> q <> tmp_name p -> distinct f (tmp_name p) q -> fs_read f' q = fs_read f q).
Proof.
  intros Hok Hd H. destruct (run_ok p c f _ Hok Hd H) as (_ & _ & Ha & Hs). cbn [fst snd] in *. split_and!.
  - destruct s as [|n r| |[]]; [subst; by left|left; apply Hs|left; apply Hs|right; apply Hs|by left].
  - by intros ->; apply Hs.
  - by intros ->.
  - intros q Q1 Q2 Q3. by apply Ha.
Qed.
Print Assumptions C25_atomic.

(** A call can always get to its end. *)
Theorem C25_completes (p : string) (c : list Ascii.ascii) (f : fsys) : exists f', interrupted p c f f' (WDone true).
Proof.
  assert (exists f1 n, wstep p c (f, WOpen) (f1, WWrite n c) /\ fs_names f1 !! tmp_name p = Some n /\ fs_data f1 !! n = Some []) as (f1 & n & S1 & N1 & D1).
  { destruct (fs_names f !! tmp_name p) as [n|] eqn:E.
    - eexists _, n. split; [by eapply w_open_trunc|]. cbn [fs_names fs_data]. by rewrite lookup_insert.
    - exists (FSys (<[tmp_name p := fresh (dom (fs_data f))]> (fs_names f)) (<[fresh (dom (fs_data f)) := []]> (fs_data f))), (fresh (dom (fs_data f))).
      split; [apply w_open_new; [done|]; apply not_elem_of_dom, is_fresh|]. cbn [fs_names fs_data]. by rewrite !lookup_insert. }
  assert (exists f2, rtc (wstep p c) (f1, WWrite n c) (f2, WWrite n []) /\ fs_names f2 !! tmp_name p = Some n) as (f2 & S2 & N2).
  { destruct (decide (c = [])) as [Ec|Ec]; [exists f1; rewrite Ec; split; [done|done]|].
    assert (0 < length c <= length c) as Hl by (destruct c; [done|cbn; lia]).
    pose proof (w_write p c f1 n c (length c) [] D1 Hl) as Hw. rewrite drop_all in Hw. eexists. split; [by apply rtc_once|]. done. }
  destruct (decide (fs_names f2 !! p = Some n)) as [E|E].
  - exists f2. eapply rtc_l; [exact S1|]. eapply rtc_transitive; [exact S2|]. eapply rtc_l; [apply w_written|]. apply rtc_once. by eapply w_rename_same.
  - eexists. eapply rtc_l; [exact S1|]. eapply rtc_transitive; [exact S2|]. eapply rtc_l; [apply w_written|]. apply rtc_once. by eapply w_rename.
Qed.
Print Assumptions C25_completes.

(** After any history of saves the file has the contents it started with, or the contents of one of the saves; whatever temporary file was left
    behind does no harm to the next save. *)
Theorem C25_history (p : string) (f f' : fsys) (l : list (list Ascii.ascii)) :
  fs_ok f -> distinct f (tmp_name p) p -> saves p f l f' ->
  fs_ok f' /\ distinct f' (tmp_name p) p /\ (fs_read f' p = fs_read f p \/ exists c, c ∈ l /\ fs_read f' p = Some c).
Proof.
  intros Hok Hd. induction 1 as [|l f1 c f2 s _ (IH1 & IH2 & IH3) Hi]; [auto|].
  pose proof (run_ok p c f1 _ IH1 IH2 Hi) as (H1 & H2 & _). split_and!; [done|done|].
  destruct (C25_atomic p c f1 f2 s IH1 IH2 Hi) as ([E|E] & _).
  - rewrite E. destruct IH3 as [?|(c' & Hc & ?)]; [by left|right; exists c'; split; [by right|done]].
  - right. exists c. split; [left|done].
Qed.
Print Assumptions C25_history.

(** A description that was saved with success is read back, however the text was written in parts. *)
Theorem C25_save_load (print : json -> string) (parse : string -> option json) (i2f : Z -> M_Atom.f32) (ord : area -> list (Z * Z * block))
    (r : mrepr) (j : json) (p : string) (f f' : fsys) :
  (forall j, parse (print j) = Some j /\ parse (print j +:+ String (Ascii.ascii_of_nat 10) "") = Some j) ->
  any_order ord -> repr_fits r -> (mr_version r <= 2)%Z -> repr_json ord r = Some j -> fs_ok f -> distinct f (tmp_name p) p ->
  interrupted p (list_ascii_of_string (print j +:+ String (Ascii.ascii_of_nat 10) "")) f f' (WDone true) ->
  exists bytes r', fs_read f' p = Some bytes /\ repr_read i2f <$> parse (string_of_list_ascii bytes) = Some (ok r') /\ same_repr r r'.
Proof.
  intros Hp Ho Hr Hv Ej Hok Hd Hi. destruct (C24_text print parse i2f ord r Hp Ho Hr Hv) as (t & r' & Et & _ & E & Hs).
  rewrite Ej in Et. injection Et as <-. eexists _, r'. split; [by apply (C25_atomic p _ f f' _ Hok Hd Hi)|]. by rewrite string_of_list_ascii_of_string.
Qed.
Print Assumptions C25_save_load.

(** *** Cases *)
Definition ex_fs : fsys := FSys {["a" := 0; "a~" := 1; "b" := 2]} {[0 := ["x"%char]; 1 := ["t"%char]; 2 := []]}.
Example C25_case : fs_ok ex_fs /\ distinct ex_fs (tmp_name "a") "a" /\
  interrupted "a" ["n"; "e"; "w"]%char ex_fs (FSys (fs_names ex_fs) (<[1 := ["n"; "e"]%char]> (<[1 := []]> (fs_data ex_fs)))) (WWrite 1 ["w"%char]).
Proof.
  split_and!.
  - intros q n Hq. cbn in Hq. repeat (apply lookup_insert_Some in Hq as [[_ <-]|[_ Hq]]; [by vm_compute; eexists|]).
    apply lookup_singleton_Some in Hq as [_ <-]. by vm_compute; eexists.
  - intros n Hn Hp. vm_compute in Hn, Hp. congruence.
  - eapply rtc_l; [by apply (w_open_trunc "a" _ ex_fs 1)|]. apply rtc_once.
    assert (fs_data (FSys (fs_names ex_fs) (<[1 := []]> (fs_data ex_fs))) !! 1 = Some []) as E by (by vm_compute).
    assert (0 < 2 <= length ["n"; "e"; "w"]%char) as Hl by (cbn; lia).
    exact (w_write "a" ["n"; "e"; "w"]%char (FSys (fs_names ex_fs) (<[1 := []]> (fs_data ex_fs))) 1 ["n"; "e"; "w"]%char 2 [] E Hl).
Qed.

(** If the name with the tilde is a link to the file itself, the old contents are lost at once. *)
Theorem C25_link_refuted : exists p c f f' s, fs_ok f /\ interrupted p c f f' s /\ fs_read f' p <> fs_read f p /\ fs_read f' p <> Some c.
Proof.
  exists "a", ["n"%char], (FSys {["a" := 0; "a~" := 0]} {[0 := ["x"%char]]}). eexists _, _. split_and!.
  - intros q n Hq. cbn in Hq. apply lookup_insert_Some in Hq as [[_ <-]|[_ Hq]]; [by vm_compute; eexists|]. apply lookup_singleton_Some in Hq as [_ <-]. by vm_compute; eexists.
  - apply rtc_once. by apply (w_open_trunc _ _ _ 0).
  - by vm_compute.
  - by vm_compute.
Qed.
Print Assumptions C25_link_refuted.
(** A file whose name is that of the temporary one is lost. *)
Theorem C25_tilde_refuted : exists p c f f', fs_ok f /\ distinct f (tmp_name p) p /\ interrupted p c f f' (WDone true) /\
  is_Some (fs_read f (tmp_name p)) /\ fs_read f' (tmp_name p) = None.
Proof.
  destruct C25_case as (H1 & H2 & _). exists "a", [], ex_fs. eexists. split_and!; [done|done| | |].
  - eapply rtc_l; [by apply (w_open_trunc _ _ _ 1)|]. eapply rtc_l; [apply w_written|]. apply rtc_once. eapply (w_rename _ _ _ 1); by vm_compute.
  - by vm_compute; eexists.
  - by vm_compute.
Qed.
Print Assumptions C25_tilde_refuted.
