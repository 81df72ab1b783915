(** Properties of the pattern editor and the tracker: C21, C22, C23, C45 *)
From Coq Require Import String Ascii QArith Qabs.
From Verif Require Import Base M_Prog M_Track S_Track L_Track L_Track2 M_Seq S_Seq L_Seq.
Open Scope nat_scope.

Lemma hex_digit_at n : (0 <= n < 16)%Z -> hex_digits !! Z.to_nat n = Some (hex_digit n).
Proof.
  intros Hn. assert (exists k : nat, k < 16 /\ n = Z.of_nat k) as (k & Hk & ->) by (exists (Z.to_nat n); lia).
  do 16 (destruct k as [|k]; [vm_compute; reflexivity|]). lia.
Qed.
Lemma hex3_text v : (0 <= v < 65536)%Z -> hex_text v (hex3 v).
Proof.
  intros Hv.
  assert (Hd : forall n, (0 <= n mod 16 < 16)%Z) by (intros; apply Z.mod_pos_bound; lia).
  pose proof (Z.div_mod v 16 ltac:(lia)) as E1. pose proof (Z.div_mod (v / 16) 16 ltac:(lia)) as E2. pose proof (Z.div_mod (v / 16 / 16) 16 ltac:(lia)) as E3.
  pose proof (Hd v) as M1. pose proof (Hd (v / 16)%Z) as M2. pose proof (Hd (v / 16 / 16)%Z) as M3.
  unfold hex3. cbn [hex_fuel].
  destruct (Z.ltb_spec v 16) as [H1|H1]; [|destruct (Z.ltb_spec (v / 16) 16) as [H2|H2]; [|destruct (Z.ltb_spec (v / 16 / 16) 16) as [H3|H3]; [|destruct (Z.ltb_spec (v / 16 / 16 / 16) 16) as [H4|H4]; [|lia]]]];
    cbn [app length replicate Nat.sub].
  - exists [0; 0; Z.to_nat v]. split_and!; [|cbn; lia|cbn; lia|cbn; lia]. repeat constructor. apply hex_digit_at. lia.
  - exists [0; Z.to_nat (v / 16); Z.to_nat (v mod 16)]. split_and!; [|cbn; lia|cbn; lia|cbn; lia]. repeat constructor; apply hex_digit_at; lia.
  - exists [Z.to_nat (v / 16 / 16); Z.to_nat (v / 16 mod 16); Z.to_nat (v mod 16)]. split_and!; [|cbn; lia|cbn; lia|cbn; lia]. repeat constructor; apply hex_digit_at; lia.
  - exists [Z.to_nat (v / 16 / 16 / 16); Z.to_nat (v / 16 / 16 mod 16); Z.to_nat (v / 16 mod 16); Z.to_nat (v mod 16)].
    split_and!; [|cbn; lia|cbn; lia|cbn; intros _ [= H]; lia]. repeat constructor; apply hex_digit_at; lia.
Qed.
(** a text is that of one number only *)
Lemma hex_text_inj v v' s : hex_text v s -> hex_text v' s -> v = v'.
Proof.
  intros (ds & H1 & <- & _) (ds' & H2 & <- & _). f_equal. revert ds' H2. induction H1 as [|d c ds s Hd _ IH]; intros ds' H2; inversion H2 as [|d' ? ds2 ? Hd' H3]; subst; [done|].
  f_equal; [|by apply IH]. assert (NoDup hex_digits) as Hn by (apply (bool_decide_unpack _); vm_compute; done). by eapply NoDup_lookup.
Qed.

Section editor.
  Context {V : Type} (zero : V).
  Local Notation reached n os p := (pat_run (pat_new zero n) os = Some p).

  (** C21: after setting a cell of the pattern, that cell reads back the value and every other cell reads what it read
      before. *)
  Theorem C21_set_cell n os (p : pattern V) row col v :
    reached n os p -> row < 256 -> col < 6 -> (0 <= v < 65536)%Z ->
    exists p', pat_step p (PPut row col v) = Some p' /\
      forall r c, pat_get_value p' r c = if decide (r = row /\ c = col) then Some v else pat_get_value p r c.
  Proof.
    intros H Hr Hc Hv. pose proof (run_shaped _ _ _ (new_shaped zero n) H) as S. cbn [pat_step].
    destruct (put_inside p row col (Some (v mod 65536)%Z) S) as (p' & E & S' & G & _); [done|done|intros ? [= <-]; apply Z.mod_pos_bound; lia|].
    exists p'. split; [done|]. intros r c. destruct (decide (r < max_pattern_len /\ c < max_cols)) as [[Hr' Hc']|Ho].
    - destruct (get2_some _ _ _ r c (sh_data _ S') Hr' Hc') as [x Hx]. rewrite (value_inside _ _ _ _ S' Hx). rewrite G in Hx.
      case_decide; [injection Hx as <-; cbn; by rewrite Z.mod_small|]. by rewrite (value_inside _ _ _ _ S Hx).
    - rewrite !value_outside by done. rewrite decide_False; [done|]. intros [-> ->]. by apply Ho.
  Qed.

  (** C21: after clearing a cell it reads as zero and shows nothing, and every other cell is unaffected. *)
  Theorem C21_clear_cell n os (p : pattern V) row col :
    reached n os p -> row < 256 -> col < 6 ->
    exists p', pat_step p (PClear row col) = Some p' /\ shown p' row col = Some None /\
      forall r c, pat_get_value p' r c = if decide (r = row /\ c = col) then Some 0%Z else pat_get_value p r c.
  Proof.
    intros H Hr Hc. pose proof (run_shaped _ _ _ (new_shaped zero n) H) as S. cbn [pat_step].
    destruct (put_inside p row col None S) as (p' & E & S' & G & Gs & _); [done|done|done|].
    exists p'. split; [done|]. split.
    - destruct (get_cell_spec p' row col S') as (p2 & s & E2 & _ & _ & _ & _ & _ & _ & _ & _ & _ & _ & G1 & _).
      unfold shown. rewrite E2. cbn. f_equal. apply (G1 None); [rewrite G|rewrite Gs]; by rewrite decide_True.
    - intros r c. destruct (decide (r < max_pattern_len /\ c < max_cols)) as [[Hr' Hc']|Ho].
      + destruct (get2_some _ _ _ r c (sh_data _ S') Hr' Hc') as [x Hx]. rewrite (value_inside _ _ _ _ S' Hx). rewrite G in Hx.
        case_decide; [by injection Hx as <-|]. by rewrite (value_inside _ _ _ _ S Hx).
      + rewrite !value_outside by done. rewrite decide_False; [done|]. intros [-> ->]. by apply Ho.
  Qed.

  (** C21: changing a cell adds the offset and clamps to 0 .. 0xfff. *)
  Theorem C21_change_cell n os (p : pattern V) row col v offs :
    reached n os p -> row < 256 -> col < 6 ->
    pat_get_value p row col = Some v -> (v <= 4095)%Z -> (-28672 <= offs <= 28672)%Z ->
    exists p', pat_step p (PChange row col offs) = Some p' /\
      forall r c, pat_get_value p' r c =
        if decide (r = row /\ c = col) then Some (Z.max 0 (Z.min 4095 (v + offs)))%Z else pat_get_value p r c.
  Proof.
    intros H Hr Hc Hv Hv1 Ho. pose proof (run_shaped _ _ _ (new_shaped zero n) H) as S.
    assert (0 <= v)%Z as Hv0.
    { destruct (get2_some _ _ _ row col (sh_data _ S) Hr Hc) as [[x|] Hx]; rewrite (value_inside _ _ _ _ S Hx) in Hv; cbn in Hv; injection Hv as <-; [|done].
      pose proof (sh_cells _ S _ _ _ Hx). lia. }
    set (w := Z.max 0 (Z.min 4095 (v + offs))).
    destruct (C21_set_cell n os p row col w H Hr Hc) as (p' & E & G); [unfold w; lia|]. exists p'. split; [|done].
    rewrite <- E. cbn [pat_step]. rewrite Z.mod_small by (unfold w; lia). unfold pat_change. rewrite Hv. cbn [mbind option_bind].
    unfold i16_of. rewrite Z.mod_small by lia. destruct (Z.ltb_spec v 32768); [|lia]. unfold w.
    destruct (Z.leb_spec (-32768) (v + offs)), (Z.leb_spec (v + offs) 32767); try lia. cbn [andb]. f_equal. f_equal. lia.
  Qed.

  (** C21: editing or reading outside of the pattern has no effect and shows nothing. *)
  Theorem C21_outside n os (p : pattern V) row col v :
    reached n os p -> 256 <= row \/ 6 <= col ->
    pat_step p (PPut row col v) = Some p /\ pat_step p (PClear row col) = Some p /\
    pat_get_value p row col = Some 0%Z /\ shown p row col = Some None.
  Proof.
    intros H Ho. pose proof (run_shaped _ _ _ (new_shaped zero n) H) as S.
    assert (~ (row < max_pattern_len /\ col < max_cols)) as Ho' by (unfold max_pattern_len, max_cols; lia).
    cbn [pat_step]. rewrite !put_outside, value_outside, shown_outside by done. done.
  Qed.

  (** C21: the text shown for a cell is that of its current value, or nothing when the cell is not set, in every history
      that loads no stored pattern. *)
  Theorem C21_shown_partial n os (p : pattern V) row col :
    reached n os p -> no_load os -> row < 256 -> col < 6 ->
    (shown p row col = Some None /\ pat_get_value p row col = Some 0%Z) \/
    exists v s, shown p row col = Some (Some s) /\ hex_text v s /\ pat_get_value p row col = Some v.
  Proof.
    intros H N Hr Hc. pose proof (run_shaped _ _ _ (new_shaped zero n) H) as S.
    pose proof (run_cache _ _ _ (new_shaped zero n) N (new_cache zero n) H) as C.
    destruct (get2_some _ _ _ row col (sh_data _ S) Hr Hc) as [x Hx].
    rewrite (shown_spec _ _ _ _ S C Hx), (value_inside _ _ _ _ S Hx). destruct x as [v|]; [right|by left].
    exists v, (hex3 v). split_and!; [done| |done]. apply hex3_text. by eapply (sh_cells _ S).
  Qed.

  (** C21: after setting a cell the text shown for it is that of the new value, in every history. *)
  Theorem C21_shown_after_set n os (p p' : pattern V) row col v :
    reached n os p -> row < 256 -> col < 6 -> (0 <= v < 65536)%Z -> pat_step p (PPut row col v) = Some p' ->
    exists s, shown p' row col = Some (Some s) /\ hex_text v s.
  Proof.
    intros H Hr Hc Hv Hp. exists (hex3 v). split; [|by apply hex3_text]. revert H Hr Hc Hv Hp.
    intros H Hr Hc Hv Hp. pose proof (run_shaped _ _ _ (new_shaped zero n) H) as S. cbn [pat_step] in Hp.
    destruct (put_inside p row col (Some (v mod 65536)%Z) S) as (p2 & E & S' & G & Gs & _); [done|done|intros ? [= <-]; apply Z.mod_pos_bound; lia|].
    rewrite Hp in E. injection E as <-. rewrite Z.mod_small in G by done.
    destruct (get_cell_spec p' row col S') as (p2 & s & E2 & _ & _ & _ & _ & _ & _ & _ & _ & _ & _ & G1 & _).
    unfold shown. rewrite E2. cbn. f_equal. apply (G1 (Some v)); [rewrite G|rewrite Gs]; by rewrite decide_True.
  Qed.

  (** C22: a pattern that is converted to its stored form and loaded into any other pattern is the same there. *)
  Theorem C22_roundtrip n os n' os' (p q : pattern V) :
    reached n os p -> reached n' os' q ->
    exists q', pat_step q (PRepr (pat_to_repr p)) = Some q' /\
      (forall r c, pat_get_value q' r c = pat_get_value p r c) /\
      pt_data q' = pt_data p /\ pt_types q' = pt_types p /\ pt_rows q' = pt_rows p /\ pt_step q' = pt_step p /\ pt_cursor q' = pt_cursor p.
  Proof.
    intros H H'. pose proof (run_shaped _ _ _ (new_shaped zero n) H) as S. pose proof (run_shaped _ _ _ (new_shaped zero n') H') as S'.
    destruct (repr_roundtrip p q S S') as (q' & E & D & ? & ? & ? & ?). exists q'. cbn [pat_step].
    replace (length (pr_types (pat_to_repr p)) =? max_cols) with true
      by (symmetry; apply Nat.eqb_eq; cbn [pat_to_repr pr_types]; rewrite fmap_length; apply (sh_types _ S)).
    split_and!; try done. intros r c. unfold pat_get_value. by rewrite D.
  Qed.
End editor.
Print Assumptions C21_set_cell.
Print Assumptions C21_clear_cell.
Print Assumptions C21_change_cell.
Print Assumptions C21_outside.
Print Assumptions C21_shown_partial.
Print Assumptions C21_shown_after_set.
Print Assumptions C22_roundtrip.

(** A pattern of the right shape is set, shown and changed *)
Definition edit_demo : list pop := [PPut 2 1 1026%Z; PGet 2 1; PChange 2 1 16%Z; PType 1 CNote; PRows 16; PStep 2; PCursor 3 1].
Example C21_example :
  match pat_run (pat_new 0%Z 256) edit_demo with
  | Some p => shown p 2 1 = Some (Some ["4"; "1"; "2"]%char) /\ pat_get_value p 2 1 = Some 1042%Z /\ shown p 2 2 = Some None
  | None => False
  end.
Proof. vm_compute. done. Qed.
Example C22_example :
  match pat_run (pat_new 0%Z 256) edit_demo with
  | Some p => match pat_step (pat_new 0%Z 256) (PRepr (pat_to_repr p)) with
              | Some q => pat_get_value q 2 1 = Some 1042%Z /\ pt_types q !! 1 = Some CNote /\ pt_rows q = 16 /\ pt_cursor q = (3, 1)
              | None => False
              end
  | None => False
  end.
Proof. vm_compute. done. Qed.

(** C21, refuted in general: the text of a cell that was shown before a stored pattern is loaded is still shown
    afterwards, although the cell has another value. *)
Theorem C21_shown_refuted : exists (os : list pop) (p : pattern Z) v s,
  pat_run (pat_new 0%Z 256) os = Some p /\ pat_get_value p 0 0 = Some v /\ shown p 0 0 = Some (Some s) /\ ~ hex_text v s.
Proof.
  eexists [PPut 0 0 17%Z; PGet 0 0; PRepr (PatRepr (replicate 6 0%Z) [[5%Z]] 16 4 (2, 2))], _, 5%Z, (hex3 17).
  split; [vm_compute; reflexivity|]. split; [vm_compute; reflexivity|]. split; [vm_compute; reflexivity|].
  intros H. pose proof (hex_text_inj _ _ _ H (hex3_text 17 ltac:(lia))). lia.
Qed.
Print Assumptions C21_shown_refuted.

Section tracker.
  Context {V : Type} (zero : V) (val note gate : Z -> V) (lerp : V -> V -> nat -> nat -> V).
  Local Notation send := (tracker_send zero val note gate lerp).
  Local Notation history := (history zero val note gate lerp).
  Local Notation plays := (column_plays zero val note gate lerp).

  (** C23: once the editor has no more updates to send and the backend has received all of them, the backend has the
      row count and the column types of the pattern and every column plays the pattern's cells. The row count used for
      the interpolation of a value column is the one the pattern had when the column was sent last, and a column that
      was sent while the pattern had no rows is excluded. *)
  Theorem C23_backend_plays_pattern_partial t sent :
    history t sent -> send t = Some (t, false) -> tr_queue t = [] ->
    bk_rows (tr_back t) = pt_rows (tr_pat t) /\
    forall c, c < 6 -> exists ty d R,
      bk_types (tr_back t) !! c = Some ty /\ pt_types (tr_pat t) !! c = Some ty /\
      bk_data (tr_back t) !! c = Some d /\ sent !! c = Some R /\
      (0 < R -> plays ty (column (tr_pat t) c) R d).
  Proof.
    intros H Hs Hq. pose proof (history_tinv _ _ _ _ _ _ _ H) as [S Ls _ _ HC HL]. rewrite Hq in HC, HL. unfold pend_len, pend_col in *. cbn in HC, HL.
    assert (forall c, pt_dirty (tr_pat t) !! c <> Some true) as Hd.
    { unfold tracker_send in Hs. destruct (first_dirty (take max_cols (pt_dirty (tr_pat t))) 0) as [c|] eqn:E.
      - apply bind_Some in Hs as (p & _ & Hs). apply bind_Some in Hs as (o & _ & Hs). done.
      - intros c. pose proof (first_dirty_none _ _ E c) as E'. rewrite take_ge in E' by (rewrite (sh_dirty _ S); lia). done. }
    split; [destruct HL as [|[c Hc]]; [done|by apply Hd in Hc]|].
    intros c Hc. destruct (lookup_lt_is_Some_2 (pt_dirty (tr_pat t)) c) as [b Hb]; [rewrite (sh_dirty _ S); done|].
    destruct b; [by apply Hd in Hb|]. destruct (HC c Hc Hb) as (ty & d & R & E & Et & Es & P).
    destruct (bk_types (tr_back t) !! c) as [ty'|]; [|done]. cbn in E. destruct (bk_data (tr_back t) !! c) as [d'|]; [|done]. cbn in E.
    injection E as -> ->. exists ty, d, R. done.
  Qed.

  (** C23, when every column was sent with the present row count. *)
  Corollary C23_backend_plays_current t sent :
    history t sent -> send t = Some (t, false) -> tr_queue t = [] -> 0 < pt_rows (tr_pat t) ->
    (forall c, c < 6 -> pt_types (tr_pat t) !! c = Some CValue -> sent !! c = Some (pt_rows (tr_pat t))) ->
    (forall c R, c < 6 -> sent !! c = Some R -> 0 < R) ->
    bk_rows (tr_back t) = pt_rows (tr_pat t) /\
    forall c, c < 6 -> exists ty d, bk_types (tr_back t) !! c = Some ty /\ pt_types (tr_pat t) !! c = Some ty /\
      bk_data (tr_back t) !! c = Some d /\ plays ty (column (tr_pat t) c) (pt_rows (tr_pat t)) d.
  Proof.
    intros H Hs Hq Hr Hv HR. destruct (C23_backend_plays_pattern_partial t sent H Hs Hq) as [E G]. split; [done|].
    intros c Hc. destruct (G c Hc) as (ty & d & R & E1 & E2 & E3 & E4 & P). exists ty, d. split_and!; try done.
    specialize (P (HR _ _ Hc E4)). destruct ty; try exact P. rewrite (Hv c Hc E2) in E4. by injection E4 as <-.
  Qed.
End tracker.
Print Assumptions C23_backend_plays_pattern_partial.
Print Assumptions C23_backend_plays_current.

(** A checked run of such a history over whole numbers, in which one step of the slope is a floor division *)
Definition zlerp (s e : Z) (i n : nat) : Z := ((s * Z.of_nat (n - i) + e * Z.of_nat i) / Z.of_nat n)%Z.
Local Notation zsend := (tracker_send 0%Z id (fun v => v - 69)%Z id zlerp).
Local Notation zstep := (track_step 0%Z id (fun v => v - 69)%Z id zlerp).
Local Notation zhistory := (history 0%Z id (fun v => v - 69)%Z id zlerp).
Local Notation zplays := (column_plays 0%Z id (fun v => v - 69)%Z id zlerp).
Definition hstep (ts : @tracker Z * list nat) (o : trop) : option (@tracker Z * list nat) :=
  let '(t, sent) := ts in
  match o with
  | TSend =>
      if length (tr_queue t) <? max_ringbuf_size then
        match zsend t with
        | Some (t', true) =>
            let* col := head (filter (fun c => pt_dirty (tr_pat t) !! c = Some true /\ pt_dirty (tr_pat t') !! c = Some false) (seq 0 6)) in
            Some (t', <[col := pt_rows (tr_pat t)]> sent)
        | _ => None
        end
      else None
  | TBackend => None
  | _ => let* t' := zstep t o in Some (t', sent)
  end.
Lemma hstep_history t sent o ts' : zhistory t sent -> hstep (t, sent) o = Some ts' -> zhistory ts'.1 ts'.2.
Proof.
  intros H E. destruct o as [o| | |]; cbn [hstep] in E; [| | |done].
  - apply bind_Some in E as (t' & E & [= <-]). by eapply h_edit.
  - destruct (Nat.ltb_spec (length (tr_queue t)) max_ringbuf_size); [|done].
    destruct (zsend t) as [[t' []]|] eqn:Es; try done. apply bind_Some in E as (col & E & [= <-]).
    apply head_Some_elem_of, elem_of_list_filter in E as [[? ?] _]. by eapply h_send.
  - apply bind_Some in E as (t' & E & [= <-]). by eapply h_recv.
Qed.
Lemma hrun_history os : forall t sent ts', zhistory t sent -> foldm hstep (t, sent) os = Some ts' -> zhistory ts'.1 ts'.2.
Proof.
  induction os as [|o os IH]; intros t sent ts' H E; cbn [foldm] in E; [by injection E as <-|].
  apply bind_Some in E as ([t1 s1] & E1 & E). eapply IH; [|exact E]. by apply (hstep_history _ _ _ _ H E1).
Qed.
Definition flush : list trop := replicate 6 TSend ++ replicate 6 TRecv.
Definition track_demo : list trop :=
  [TEdit (PRows 4); TEdit (PPut 0 1 8%Z); TEdit (PPut 0 2 72%Z); TEdit (PType 2 CNote)] ++ flush.

(** Column 1 falls from 8 to 0 within the four rows, column 2 holds a note. *)
Example C23_example :
  match foldm hstep (tracker_new 0%Z, replicate 6 0) track_demo with
  | Some (t, sent) =>
      snd <$> zsend t = Some false /\ length (tr_queue t) = 0 /\ pt_rows (tr_pat t) = 4 /\ sent = replicate 6 4 /\
      take 4 <$> bk_data (tr_back t) !! 1 = Some [(8%Z, 0); (5%Z, 0); (2%Z, 0); (0%Z, 1)] /\
      take 4 <$> bk_data (tr_back t) !! 2 = Some [(3%Z, 1); (3%Z, 0); (3%Z, 0); (3%Z, 0)]
  | None => False
  end.
Proof. vm_compute. split_and!; reflexivity. Qed.

(** C23, refuted for changes of the row count: only the first column is sent again, so that the other value columns
    still play the slopes of the old row count. *)
Lemma rows_witness (o : option (@tracker Z * list nat)) :
  (let* (t, sent) := o in
   let* (_, b) := zsend t in
   let* d := bk_data (tr_back t) !! 1 in
   let* x := d !! 1 in
   Some (first_dirty (take max_cols (pt_dirty (tr_pat t))) 0, length (tr_queue t), bk_rows (tr_back t), pt_rows (tr_pat t),
         pt_types (tr_pat t) !! 1, column (tr_pat t) 1 0, column (tr_pat t) 1 1, x.2)) =
   Some (None, 0, 2, 2, Some CValue, Some 8%Z, None, 0) ->
  exists t sent d, o = Some (t, sent) /\ zsend t = Some (t, false) /\ tr_queue t = [] /\ bk_rows (tr_back t) = pt_rows (tr_pat t) /\
    pt_types (tr_pat t) !! 1 = Some CValue /\ bk_data (tr_back t) !! 1 = Some d /\
    ~ zplays CValue (column (tr_pat t) 1) (pt_rows (tr_pat t)) d.
Proof.
  intros H. apply bind_Some in H as ([t sent] & -> & H). apply bind_Some in H as ([t' b] & Es & H).
  apply bind_Some in H as (d & Ed & H). apply bind_Some in H as (x & Ex & H). injection H as E1 E2 E3 E4 E5 E6 E7 E8.
  exists t, sent, d. split_and!; try done.
  - unfold tracker_send. by rewrite E1.
  - by apply nil_length_inv.
  - congruence.
  - intros [P _]. rewrite E4 in P. specialize (P 1 0%Z ltac:(lia)). unfold anchor in P. rewrite E7 in P. specialize (P eq_refl).
    rewrite Ex in P. cbn in P. injection P as ->. cbn in E8. lia.
Qed.
Theorem C23_rows_change_refuted : exists t sent d,
  zhistory t sent /\ zsend t = Some (t, false) /\ tr_queue t = [] /\ bk_rows (tr_back t) = pt_rows (tr_pat t) /\
  pt_types (tr_pat t) !! 1 = Some CValue /\ bk_data (tr_back t) !! 1 = Some d /\
  ~ zplays CValue (column (tr_pat t) 1) (pt_rows (tr_pat t)) d.
Proof.
  destruct (rows_witness (foldm hstep (tracker_new 0%Z, replicate 6 0) (track_demo ++ [TEdit (PRows 2); TSend; TRecv]))) as (t & sent & d & E & P).
  { vm_compute. reflexivity. }
  exists t, sent, d. split; [|exact P]. apply (hrun_history _ _ _ _ (h_new _ _ _ _ _) E).
Qed.
Print Assumptions C23_rows_change_refuted.

(** C23, refuted for a queue that overflows: the column is no longer marked although its last update was dropped. *)
Lemma drop_witness (o : option (@tracker Z)) :
  (let* t := o in
   let* d := bk_data (tr_back t) !! 0 in
   let* x := d !! 0 in
   Some (first_dirty (take max_cols (pt_dirty (tr_pat t))) 0, length (tr_queue t), column (tr_pat t) 0 0, x)) =
   Some (None, 0, Some 2%Z, (1%Z, 0)) ->
  exists t, o = Some t /\ zsend t = Some (t, false) /\ tr_queue t = [] /\ column (tr_pat t) 0 0 = Some 2%Z /\
    exists d, bk_data (tr_back t) !! 0 = Some d /\ d !! 0 = Some (1%Z, 0).
Proof.
  intros H. apply bind_Some in H as (t & -> & H).
  apply bind_Some in H as (d & Ed & H). apply bind_Some in H as (x & Ex & H). injection H as E1 E2 E3 ->.
  exists t. split_and!; eauto.
  - unfold tracker_send. by rewrite E1.
  - by apply nil_length_inv.
Qed.
Theorem C23_overflow_refuted : exists os t,
  foldm zstep (tracker_new 0%Z) os = Some t /\ zsend t = Some (t, false) /\ tr_queue t = [] /\ column (tr_pat t) 0 0 = Some 2%Z /\
  exists d, bk_data (tr_back t) !! 0 = Some d /\ d !! 0 = Some (1%Z, 0).
Proof.
  exists (mjoin (replicate 64 [TEdit (PPut 0 0 1%Z); TSend]) ++ [TEdit (PPut 0 0 2%Z)] ++ replicate 6 TSend ++ replicate 64 TRecv).
  apply drop_witness. vm_compute. reflexivity.
Qed.
Print Assumptions C23_overflow_refuted.

(** C23, refuted for a second backend: it starts empty and is not sent the pattern. *)
Lemma second_witness (o : option (@tracker Z)) :
  (let* t := o in
   let* d := bk_data (tr_back t) !! 2 in
   let* x := d !! 0 in
   Some (first_dirty (take max_cols (pt_dirty (tr_pat t))) 0, length (tr_queue t), column (tr_pat t) 2 0, pt_types (tr_pat t) !! 2, bk_types (tr_back t) !! 2, x)) =
   Some (None, 0, Some 72%Z, Some CNote, Some CValue, (0%Z, 0)) ->
  exists t, o = Some t /\ zsend t = Some (t, false) /\ tr_queue t = [] /\ column (tr_pat t) 2 0 = Some 72%Z /\
    pt_types (tr_pat t) !! 2 = Some CNote /\ bk_types (tr_back t) !! 2 = Some CValue /\
    exists d, bk_data (tr_back t) !! 2 = Some d /\ d !! 0 = Some (0%Z, 0).
Proof.
  intros H. apply bind_Some in H as (t & -> & H).
  apply bind_Some in H as (d & Ed & H). apply bind_Some in H as (x & Ex & H). injection H as E1 E2 E3 E4 E5 ->.
  exists t. split_and!; eauto.
  - unfold tracker_send. by rewrite E1.
  - by apply nil_length_inv.
Qed.
Theorem C23_second_backend_refuted : exists os t,
  foldm zstep (tracker_new 0%Z) os = Some t /\ zsend t = Some (t, false) /\ tr_queue t = [] /\ column (tr_pat t) 2 0 = Some 72%Z /\
  pt_types (tr_pat t) !! 2 = Some CNote /\ bk_types (tr_back t) !! 2 = Some CValue /\
  exists d, bk_data (tr_back t) !! 2 = Some d /\ d !! 0 = Some (0%Z, 0).
Proof.
  exists (track_demo ++ [TBackend; TSend; TRecv]). apply second_witness. vm_compute. reflexivity.
Qed.
Print Assumptions C23_second_backend_refuted.

Section rows.
  (** [rnd] is the rounding of the arithmetic, to the [f32] values or to a finer set *)
  Context (F : Q -> Prop) (rnd : Q -> Q) (R : rounds_to_nearest F rnd) (HF : forall x, f32_grid x -> F x).

  (** C45: for every phase in [0, 1] the sequencer selects a row inside of the pattern. *)
  Theorem C45_row_inside rows phase : 0 < rows <= 256 -> (0 <= phase <= 1)%Q ->
    exists r, row_at rnd rows phase = Some r /\ r < rows.
  Proof. intros H Hp. destruct (row_at_spec F rnd R HF rows phase H Hp) as (r & E & Hr & _). eauto. Qed.

  (** C45: the rows are visited in increasing order as the phase grows. *)
  Theorem C45_rows_in_order rows x y r s : 0 < rows <= 256 -> (0 <= x)%Q -> (x <= y)%Q -> (y <= 1)%Q ->
    row_at rnd rows x = Some r -> row_at rnd rows y = Some s -> r <= s.
  Proof. apply (row_at_mono F rnd R HF). Qed.

  (** C45: gate columns clamp every phase into that range, so that any phase selects a row of the pattern. *)
  Theorem C45_gate_row_inside rows phase : 0 < rows <= 256 -> exists r, gate_row_at rnd rows phase = Some r /\ r < rows.
  Proof.
    intros H. apply C45_row_inside; [done|]. unfold clamp01. destruct (Qle_bool phase 0) eqn:E0; [by split|].
    destruct (Qle_bool 1 phase) eqn:E1; [by split|].
    assert (~ (phase <= 0)%Q) as N0 by (rewrite <- Qle_bool_iff; congruence).
    assert (~ (1 <= phase)%Q) as N1 by (rewrite <- Qle_bool_iff; congruence).
    apply Qnot_le_lt in N0, N1. split; by apply Qlt_le_weak.
  Qed.
End rows.
Print Assumptions C45_row_inside.
Print Assumptions C45_rows_in_order.
Print Assumptions C45_gate_row_inside.

(** C45, in exact arithmetic: row [k] is selected exactly in the interval from [k/L] to [(k+1)/L], where [L] is the number
    of rows less 0.00001. All rows have the same share of the phase, except for the last one that ends at phase 1. *)
Theorem C45_equal_share rows phase k : 0 < rows <= 256 -> (0 <= phase <= 1)%Q ->
  let L := (q_of_nat rows - row_eps)%Q in
  row_at (fun x => x) rows phase = Some k <-> (q_of_nat k / L <= phase < (q_of_nat k + 1) / L)%Q.
Proof.
  intros H Hp L. rewrite (exact_row rows phase k H Hp). fold L.
  assert (0 < L)%Q as HL. { destruct (last_row_lt _ _ exact_nearest ltac:(done) rows H) as [HL _]. exact HL. }
  split; intros [H1 H2]; split.
  - apply Qle_shift_div_r; done.
  - apply Qlt_shift_div_l; done.
  - apply Qmult_le_compat_r with (z := L) in H1; [|by apply Qlt_le_weak]. revert H1. unfold Qdiv. rewrite <- Qmult_assoc, (Qmult_comm (/ L)), Qmult_inv_r, Qmult_1_r; [done|].
    intros E. rewrite E in HL. by apply Qlt_irrefl in HL.
  - apply Qmult_lt_r with (z := L) in H2; [|done]. revert H2. unfold Qdiv. rewrite <- Qmult_assoc, (Qmult_comm (/ L)), Qmult_inv_r, Qmult_1_r; [done|].
    intros E. rewrite E in HL. by apply Qlt_irrefl in HL.
Qed.
Print Assumptions C45_equal_share.

(** The hypotheses about the rounding hold of exact arithmetic; some rows of a pattern with 16 rows *)
Example C45_example :
  rounds_to_nearest (fun _ => True) (fun x => x) /\
  (fun x => row_at (fun x => x) 16 x) <$> [0; 1 # 16; 1 # 2; 31 # 32; 1]%Q = [Some 0; Some 0; Some 7; Some 15; Some 15].
Proof. split; [apply exact_nearest|]. vm_compute. reflexivity. Qed.

(** A backend that is fetched when nothing is left to send hears nothing of what was sent before, even of what is still
    under way to the one before it: its columns are silent values until the next edit. *)
Theorem C23_new_backend V (zero : V) val note gate lerp (t t' : @tracker V) os :
  tracker_send zero val note gate lerp t = Some (t, false) ->
  (forall o, o ∈ os -> o = TSend \/ o = TRecv) ->
  foldm (track_step zero val note gate lerp) t (TBackend :: os) = Some t' ->
  tr_pat t' = tr_pat t /\ bk_rows (tr_back t') = 256 /\
  forall c d ty, bk_data (tr_back t') !! c = Some d -> bk_types (tr_back t') !! c = Some ty ->
    ty = CValue /\ length d = 256 /\ forall r v, d !! r = Some v -> v = (zero, 0).
Proof.
  intros Hs Hos E. set (t1 := Tracker (tr_pat t) [] (backend_new zero)).
  assert (E1 : foldm (track_step zero val note gate lerp) t1 os = Some t') by exact E. clear E.
  assert (t' = t1) as ->.
  { assert (H1 : tracker_send zero val note gate lerp t1 = Some (t1, false)).
    { unfold tracker_send in Hs |- *. cbn [t1 tr_pat]. destruct (first_dirty _ _) eqn:Ed; [|done].
      apply bind_Some in Hs as (? & _ & Hs). apply bind_Some in Hs as (? & _ & Hs). done. }
    clear Hs. revert E1. induction os as [|o os IH]; intros E1; [by injection E1|].
    cbn [foldm] in E1. apply bind_Some in E1 as (t2 & Ht & E1).
    assert (t2 = t1) as ->.
    { destruct (Hos o ltac:(left)) as [->| ->]; cbn [track_step] in Ht; [rewrite H1 in Ht|]; by injection Ht. }
    apply IH; [|done]. intros o' Ho'. apply Hos. by right. }
  split_and!; [done|done|]. intros c d ty Hd Hty. unfold t1 in Hd, Hty. cbn [tr_back backend_new bk_data bk_types] in Hd, Hty.
  apply lookup_replicate in Hd as [-> _]. apply lookup_replicate in Hty as [-> _].
  split_and!; [done|apply replicate_length|]. intros r v Hv. by apply lookup_replicate in Hv as [-> _].
Qed.
Print Assumptions C23_new_backend.
(** with an update still under way when the new backend is fetched *)
Example C23_case_new_backend :
  match foldm zstep (tracker_new 0%Z) (track_demo ++ [TEdit (PPut 1 0 7%Z); TSend]) with
  | Some t => match zsend t with Some (_, b) => b = false | None => False end /\ length (tr_queue t) = 1
  | None => False
  end.
Proof. vm_compute. done. Qed.
