(** Properties of the log: C40 *)
From Verif Require Import Base M_Log S_Log.
Open Scope nat_scope.

(** Text has no byte 255 *)
Ltac leb_all := repeat match goal with |- context [(?a <=? ?b)%Z] => first [rewrite (proj2 (Z.leb_le a b)) by lia | rewrite (proj2 (Z.leb_gt a b)) by lia] end.
Lemma char_utf8 c l : scalar c -> utf8 (utf8_char c ++ l) = utf8 l.
Proof.
  intros Hc. unfold utf8_char. unfold scalar in Hc.
  assert (exists a b d e, c = 262144 * a + 4096 * b + 64 * d + e /\ 0 <= a /\ 0 <= b < 64 /\ 0 <= d < 64 /\ 0 <= e < 64 /\
    c mod 64 = e /\ (c / 64) mod 64 = d /\ (c / 4096) mod 64 = b /\ c / 262144 = a /\ c / 64 = 4096 * a + 64 * b + d /\ c / 4096 = 64 * a + b)%Z
    as (a & b & d & e & Ec & Ha & Hb & Hd & He & E1 & E2 & E3 & E4 & E5 & E6).
  { assert (0 <= c)%Z by lia.
    exists (c / 262144)%Z, ((c / 4096) mod 64)%Z, ((c / 64) mod 64)%Z, (c mod 64)%Z.
    pose proof (Z.div_mod c 64 ltac:(lia)). pose proof (Z.div_mod (c / 64) 64 ltac:(lia)) as H2. pose proof (Z.div_mod (c / 4096) 64 ltac:(lia)) as H3.
    rewrite Z.div_div in H2 by lia. rewrite Z.div_div in H3 by lia. change (64 * 64)%Z with 4096%Z in H2. change (4096 * 64)%Z with 262144%Z in H3.
    pose proof (Z.mod_pos_bound c 64 ltac:(lia)). pose proof (Z.mod_pos_bound (c / 64) 64 ltac:(lia)). pose proof (Z.mod_pos_bound (c / 4096) 64 ltac:(lia)).
    pose proof (Z.div_pos c 262144 ltac:(lia) ltac:(lia)). split_and!; try done; lia. }
  rewrite E1, E2, E3, E4, E5, E6. clear E1 E2 E3 E4 E5 E6. subst c. set (c := (262144 * a + 4096 * b + 64 * d + e)%Z) in *.
  destruct (Z.ltb_spec c 128); [|destruct (Z.ltb_spec c 2048); [|destruct (Z.ltb_spec c 65536)]]; subst c; cbn [app utf8]; unfold cont.
  - leb_all. done.
  - assert (a = 0)%Z as -> by lia. assert (b = 0)%Z as -> by lia. leb_all. done.
  - assert (a = 0)%Z as -> by lia. leb_all.
    destruct (Z.eqb_spec (224 + (64 * 0 + b)) 224), (Z.eqb_spec (224 + (64 * 0 + b)) 237); leb_all; done.
  - leb_all. destruct (Z.eqb_spec (240 + a) 240), (Z.eqb_spec (240 + a) 244); leb_all; done.
Qed.

Lemma text_utf8 m : text m -> utf8 m = true.
Proof.
  intros (cs & Hc & ->). induction Hc as [|c cs H Hc IH]; [done|]. cbn [fmap list_fmap].
  change (utf8 (utf8_char c ++ mjoin (utf8_char <$> cs)) = true). by rewrite char_utf8.
Qed.

Lemma utf8_no_mark : forall l, utf8 l = true -> 255%Z ∉ l.
Proof.
  assert (forall n l, length l <= n -> utf8 l = true -> 255%Z ∉ l) as H; [|eauto].
  induction n as [|n IH]; intros l Hl Hu; [destruct l; [apply not_elem_of_nil|cbn in Hl; lia]|].
  destruct l as [|a l]; [apply not_elem_of_nil|]. cbn [length] in Hl. cbn [utf8] in Hu. unfold cont in Hu.
  destruct ((0 <=? a)%Z && (a <=? 127)%Z) eqn:E1.
  { rewrite not_elem_of_cons. split; [lia|]. apply IH; [lia|done]. }
  destruct l as [|b l]; [done|]. cbn [length] in Hl. destruct ((194 <=? a)%Z && (a <=? 223)%Z) eqn:E2.
  { apply andb_prop in Hu as [Hb Hu]. rewrite !not_elem_of_cons. split_and!; [lia|lia|]. apply IH; [lia|done]. }
  destruct l as [|c l]; [done|]. cbn [length] in Hl. destruct ((224 <=? a)%Z && (a <=? 239)%Z) eqn:E3.
  { apply andb_prop in Hu as [[Hb Hc]%andb_prop Hu]. rewrite !not_elem_of_cons.
    assert (b <> 255%Z) by (destruct (a =? 224)%Z, (a =? 237)%Z; lia). split_and!; [lia|done|lia|]. apply IH; [lia|done]. }
  destruct l as [|d l]; [done|]. cbn [length] in Hl.
  apply andb_prop in Hu as [[[[Ha Hb]%andb_prop Hc]%andb_prop Hd]%andb_prop Hu]. rewrite !not_elem_of_cons.
  assert (b <> 255%Z) by (destruct (a =? 240)%Z, (a =? 244)%Z; lia). split_and!; [lia|done|lia|lia|]. apply IH; [lia|done].
Qed.

Definition encode (msgs : list (list byte)) : list byte := mjoin ((fun m => m ++ [255%Z]) <$> msgs).
Lemma encode_app a b : encode (a ++ b) = encode a ++ encode b.
Proof.
  unfold encode. rewrite fmap_app. generalize ((fun m : list byte => m ++ [255%Z]) <$> a), ((fun m : list byte => m ++ [255%Z]) <$> b). intros l l2.
  induction l as [|x l IH]; [done|]. change (x ++ mjoin (l ++ l2) = (x ++ mjoin l) ++ mjoin l2). by rewrite IH, app_assoc.
Qed.

Definition message_ok (m : list byte) : Prop := utf8 m = true /\ length m <= 1024.
(** The messages on the way: the gathered bytes and the queue hold exactly them *)
Definition linv (rest : list (list byte)) (s : lstate) : Prop :=
  lg_cur s ++ lg_queue s = encode rest /\ Forall message_ok rest.

Lemma cut (m : list byte) cur b q tail : 255%Z ∉ m -> cur ++ b :: q = (m ++ [255%Z]) ++ tail ->
  255%Z ∉ cur ->
  (b = 255%Z /\ cur = m /\ q = tail) \/ (b <> 255%Z /\ exists m', m = cur ++ b :: m').
Proof.
  revert m. induction cur as [|c cur IH]; intros m Hm E Hc.
  - destruct m as [|x m]; cbn in E; injection E as -> ->.
    + left. done.
    + right. split; [set_solver|]. by exists m.
  - destruct m as [|x m]; cbn in E; injection E as -> E.
    + set_solver.
    + destruct (IH m) as [(-> & -> & ->)|(Hb & m' & ->)]; [set_solver|done|set_solver|by left|]. right. split; [done|]. by exists m'.
Qed.

Record linv' (rest : list (list byte)) (s : lstate) : Prop := { l1 : linv rest s; l2 : 255%Z ∉ lg_cur s }.

Lemma pop_inv rest s : linv' rest s -> exists s' got rest', log_step s LPop = Some (s', got) /\ rest = got ++ rest' /\ linv' rest' s'.
Proof.
  intros [[E F] Hc]. destruct s as [q cur]. cbn [lg_cur lg_queue] in *. cbn [log_step lg_queue lg_cur].
  destruct q as [|b q].
  - exists (LState [] []), [], rest. split_and!; try done. split; [|apply not_elem_of_nil].
    rewrite app_nil_r in E. destruct rest as [|m rest]; [done|]. exfalso. apply Hc. rewrite E. unfold encode. cbn.
    rewrite !elem_of_app. left. right. by apply elem_of_list_singleton.
  - destruct rest as [|m rest]; [cbn in E; by destruct cur|]. inversion F as [|? ? [Hu Hl] F']; subst.
    change (encode (m :: rest)) with ((m ++ [255%Z]) ++ encode rest) in E.
    destruct (cut m cur b q (encode rest) (utf8_no_mark m Hu) E Hc) as [(-> & -> & ->)|(Hb & m' & ->)].
    + rewrite orb_true_r, Hu. exists (LState (encode rest) []), [m], rest. split_and!; try done. split; [done|apply not_elem_of_nil].
    + rewrite app_length in Hl. cbn [length] in Hl. destruct (Nat.leb_spec log_recv_buf (length cur)) as [H|H]; [unfold log_recv_buf in H; lia|].
      destruct (Z.eqb_spec b 255); [done|]. cbn [orb]. exists (LState q (cur ++ [b])), [], ((cur ++ b :: m') :: rest). split_and!; try done.
      split; [split; [|done]|].
      * cbn [lg_cur lg_queue]. rewrite <- app_assoc. exact E.
      * cbn [lg_cur]. rewrite not_elem_of_app, elem_of_list_singleton. split; [done|]. congruence.
Qed.

Lemma put_inv rest s m : linv' rest s -> message_ok m -> length (lg_queue s) + length m + 1 <= 4096 ->
  push_slice (lg_queue s) (m ++ [255%Z]) = lg_queue s ++ m ++ [255%Z] /\
  push_slice (push_slice (lg_queue s) m) [255%Z] = lg_queue s ++ m ++ [255%Z] /\
  linv' (rest ++ [m]) (LState (lg_queue s ++ m ++ [255%Z]) (lg_cur s)).
Proof.
  intros [[E F] Hc] Hm Hl. unfold push_slice, log_ring.
  rewrite (take_ge m), (take_ge [255%Z]), (take_ge (m ++ [255%Z])) by (rewrite ?app_length; cbn [length]; lia).
  split_and!; [done|by rewrite app_assoc|]. split; [|done]. split; cbn [lg_cur lg_queue].
  - rewrite app_assoc, E, encode_app. unfold encode at 2. cbn. by rewrite app_nil_r.
  - apply Forall_app. split; [done|]. by apply Forall_singleton.
Qed.

Lemma log_run_app s acts acts' :
  log_run s (acts ++ acts') = (let* (s, d) := log_run s acts in let* (s, d') := log_run s acts' in Some (s, d ++ d')).
Proof.
  revert s. induction acts as [|a acts IH]; intros s; cbn [log_run app mbind option_bind].
  - destruct (log_run s acts') as [[? ?]|]; done.
  - destruct (log_step s a) as [[s1 d]|]; [|done]. cbn [mbind option_bind]. rewrite IH.
    destruct (log_run s1 acts) as [[s2 d2]|]; [|done]. cbn [mbind option_bind]. destruct (log_run s2 acts') as [[s3 d3]|]; [|done].
    cbn [mbind option_bind]. by rewrite app_assoc.
Qed.

Lemma history_inv acts sent : history acts sent ->
  exists s got rest, log_run log_new acts = Some (s, got) /\ sent = got ++ rest /\ linv' rest s.
Proof.
  induction 1 as [|acts sent msg _ (s & got & rest & E & -> & Hi) Hu Hl Hr|acts sent msg _ (s & got & rest & E & -> & Hi) Hu Hl Hr|acts sent _ (s & got & rest & E & -> & Hi)].
  - exists log_new, [], []. split_and!; try done. split; [split; [done|constructor]|apply not_elem_of_nil].
  - destruct (put_inv rest s msg Hi) as (P1 & _ & P3); [split; [by apply text_utf8|lia]|by eapply Hr|].
    rewrite log_run_app, E. cbn [mbind option_bind log_run log_step].
    unfold log_send_buf in *. destruct (Nat.ltb_spec 512 (length msg)); [lia|]. destruct (Nat.ltb_spec (length msg) (512 - 1)); [|lia].
    cbn [mbind option_bind]. rewrite P1. eexists _, _, _. split; [done|]. split; [|exact P3]. by rewrite !app_nil_r, <- app_assoc.
  - destruct (put_inv rest s msg Hi) as (_ & P2 & P3); [split; [by apply text_utf8|lia]|by eapply Hr|].
    rewrite log_run_app, E. cbn [mbind option_bind log_run log_step lg_queue lg_cur]. rewrite P2.
    eexists _, _, _. split; [done|]. split; [|exact P3]. by rewrite !app_nil_r, <- app_assoc.
  - destruct (pop_inv rest s Hi) as (s1 & got1 & rest1 & Es & -> & Hi1).
    rewrite log_run_app, E. cbn [mbind option_bind log_run]. rewrite Es. cbn [mbind option_bind].
    eexists _, _, _. split; [done|]. split; [|exact Hi1]. by rewrite app_nil_r, <- app_assoc.
Qed.

(** C40: whatever the interleaving of sending and receiving, what has been delivered is a prefix of the messages sent,
    each unchanged and separate; once the buffer is empty, all of them have been delivered. *)
Theorem C40_delivery acts sent : history acts sent ->
  exists s got rest, log_run log_new acts = Some (s, got) /\ sent = got ++ rest /\ (lg_queue s = [] -> rest = []).
Proof.
  intros H. destruct (history_inv _ _ H) as (s & got & rest & E & E' & Hi).
  exists s, got, rest. split_and!; [done|done|]. intros Hq. destruct Hi as [[Ei _] Hc]. rewrite Hq, app_nil_r in Ei.
  destruct rest as [|m rest]; [done|]. exfalso. apply Hc. rewrite Ei. unfold encode. cbn. rewrite !elem_of_app. left. right. by apply elem_of_list_singleton.
Qed.
Print Assumptions C40_delivery.

(** Two messages, the second one sent while the first is being read; "é" has two bytes *)
Definition log_demo : list lact := [LLog [72; 195; 169]%Z; LPop; LPop; LSlice [104]%Z; LMark; LPop; LPop; LPop; LPop; LPop].
Example C40_example : history log_demo [[72; 195; 169]; [104]]%Z /\
  exists s, log_run log_new log_demo = Some (s, [[72; 195; 169]; [104]]%Z) /\ lg_queue s = [].
Proof.
  split; [|eexists; split; [vm_compute; reflexivity|reflexivity]].
  change log_demo with ((((((((([] ++ [LLog [72; 195; 169]%Z]) ++ [LPop]) ++ [LPop]) ++ [LSlice [104]%Z; LMark]) ++ [LPop]) ++ [LPop]) ++ [LPop]) ++ [LPop]) ++ [LPop]).
  do 5 apply hist_pop. change [[72; 195; 169]; [104]]%Z with ([[72; 195; 169]] ++ [[104]])%Z. apply hist_buf; [|exists [104]%Z; split; [apply Forall_singleton; unfold scalar; lia|done]|cbn; lia|].
  - do 2 apply hist_pop. apply (hist_log [] []); [constructor|exists [72; 233]%Z; split; [repeat constructor; unfold scalar; lia|done]|cbn; lia|]. intros s got E. injection E as <- _. cbn. lia.
  - intros s got E. injection E as <- _. cbn. lia.
Qed.

Definition drain (n : nat) : list lact := replicate n LPop.

(** C40, refuted for messages of 511 bytes: two of them are delivered as one. *)
Theorem C40_511_refuted : exists m got s, length m = 511 /\ utf8 m = true /\
  log_run log_new ([LLog m; LLog [65]%Z] ++ drain 600) = Some (s, got) /\ got = [m ++ [65%Z]].
Proof. exists (replicate 511 66%Z). eexists _, _. split_and!; [reflexivity|vm_compute; reflexivity|vm_compute; reflexivity|vm_compute; reflexivity]. Qed.
Print Assumptions C40_511_refuted.

(** C40, refuted for messages of more than 512 bytes: the sending thread panics. *)
Theorem C40_513_refuted m : length m = 513 -> log_run log_new [LLog m] = None.
Proof. intros E. cbn [log_run log_step]. by rewrite E. Qed.
Print Assumptions C40_513_refuted.

(** C40, refuted for [log_buf] when messages are retrieved between its two steps: the message is lost, an empty one arrives. *)
Theorem C40_interrupted_refuted : exists s, log_run log_new [LSlice [72; 105]%Z; LPop; LPop; LPop; LMark; LPop; LPop] = Some (s, [[]]).
Proof. eexists. vm_compute. reflexivity. Qed.
Print Assumptions C40_interrupted_refuted.

(** C40, refuted for [log_buf] with more than 1024 bytes: a byte is lost at the cut. *)
Theorem C40_cut_refuted : exists s got, log_run log_new ([LSlice (replicate 1024 66%Z ++ [67; 68]%Z); LMark] ++ drain 1100) = Some (s, got) /\
  got = [replicate 1024 66%Z; [68%Z]].
Proof. eexists _, _. split; [vm_compute; reflexivity|vm_compute; reflexivity]. Qed.
Print Assumptions C40_cut_refuted.
