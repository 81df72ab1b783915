(** Loops over the frames of a block (C65) *)
From Coq Require Import QArith.
From Verif Require Import Base M_Atom M_Graph M_Prog M_Conf M_Nodes M_Path M_Fx S_Own S_Fx.
Open Scope nat_scope.
Local Opaque block_size.

(** what is written last to output [j] *)
Definition lastw (j : nat) (ws : list (nat * f32)) : option f32 := foldl (fun a jv => if jv.1 =? j then Some jv.2 else a) None ws.

Lemma write1_shape f outs jv : length (write1 f outs jv) = length outs.
Proof. apply alter_length. Qed.
Lemma writes_shape f ws : forall outs, length (foldl (write1 f) outs ws) = length outs.
Proof. induction ws as [|w ws IH]; intros outs; [done|]. cbn [foldl]. by rewrite IH, write1_shape. Qed.

Lemma writes_at f j ws : forall outs b, outs !! j = Some b -> exists b', foldl (write1 f) outs ws !! j = Some b' /\ length b' = length b /\
  (forall i, i <> f -> b' !! i = b !! i) /\
  (f < length b -> b' !! f = match lastw j ws with Some v => Some v | None => b !! f end).
Proof.
  induction ws as [|[k v] ws IH] using rev_ind; intros outs b Hb; [by exists b|].
  destruct (IH outs b Hb) as (b1 & B1 & B2 & B3 & B4). unfold lastw in *. rewrite !foldl_app. cbn [foldl]. unfold write1 at 1. cbn [fst snd].
  destruct (Nat.eqb_spec k j) as [->|Hk].
  - exists (<[f:=v]> b1). rewrite list_lookup_alter, B1. split; [done|]. rewrite insert_length. split; [done|]. split.
    + intros i Hi. rewrite list_lookup_insert_ne by done. by apply B3.
    + intros Hf. apply list_lookup_insert. lia.
  - exists b1. rewrite list_lookup_alter_ne by done. done.
Qed.

Lemma frames_spec {S} (body : S -> nat -> S * list (nat * f32)) n : forall s f outs s' outs', frames body s f n outs = (s', outs') ->
  length outs' = length outs /\
  exists (st : nat -> S) (w : nat -> list (nat * f32)), st f = s /\ st (f + n) = s' /\
    (forall i, f <= i < f + n -> body (st i) i = (st (Datatypes.S i), w i)) /\
    forall j b, outs !! j = Some b -> exists b', outs' !! j = Some b' /\ length b' = length b /\
      (forall i, ~ (f <= i < f + n) -> b' !! i = b !! i) /\
      (forall i, f <= i < f + n -> i < length b -> b' !! i = match lastw j (w i) with Some v => Some v | None => b !! i end).
Proof.
  induction n as [|n IH]; intros s f outs s' outs' E; cbn [frames] in E.
  - injection E as <- <-. split; [done|]. exists (fun _ => s), (fun _ => []). rewrite Nat.add_0_r. do 2 (split; [done|]). split; [lia|].
    intros j b Hb. exists b. do 3 (split; [done|]). lia.
  - destruct (body s f) as [s1 ws] eqn:Eb. apply IH in E as (Hl & st & w & W1 & W2 & W3 & W4). rewrite writes_shape in Hl. split; [done|].
    exists (fun i => if i =? f then s else st i), (fun i => if i =? f then ws else w i). rewrite Nat.eqb_refl. split; [done|]. split.
    { destruct (Nat.eqb_spec (f + Datatypes.S n) f); [lia|]. by replace (f + Datatypes.S n) with (Datatypes.S f + n) by lia. }
    split.
    { intros i Hi. destruct (Nat.eqb_spec (Datatypes.S i) f); [lia|]. destruct (Nat.eqb_spec i f) as [->|Hne]; [by rewrite Eb, W1|]. apply W3. lia. }
    intros j b Hb. destruct (writes_at f j ws outs b Hb) as (b1 & B1 & B2 & B3 & B4).
    destruct (W4 j b1 B1) as (b2 & C1 & C2 & C3 & C4). exists b2. split; [done|]. split; [congruence|]. split.
    { intros i Hi. rewrite C3 by lia. apply B3. lia. }
    intros i Hi Hlen. destruct (Nat.eqb_spec i f) as [->|Hne]; [rewrite C3 by lia; by apply B4|].
    rewrite C4 by lia. destruct (lastw j (w i)); [done|]. by apply B3.
Qed.

Lemma frames_fits {S} (body : S -> nat -> S * list (nat * f32)) n : forall s f outs, Forall (fun b : list f32 => length b = block_size) outs ->
  Forall (fun b : list f32 => length b = block_size) (frames body s f n outs).2.
Proof.
  intros s f outs H. destruct (frames body s f n outs) as [s' outs'] eqn:E. apply frames_spec in E as (Hl & st & w & _ & _ & _ & W). cbn [snd].
  apply Forall_lookup. intros j b' Hb'. destruct (lookup_lt_is_Some_2 outs j) as [b Hb]; [rewrite <- Hl; by eapply lookup_lt_Some|].
  destruct (W j b Hb) as (b2 & C1 & C2 & _). assert (b2 = b') as -> by congruence. rewrite C2. by eapply Forall_lookup_1 in H.
Qed.
Lemma frames_length {S} (body : S -> nat -> S * list (nat * f32)) n s f outs : length (frames body s f n outs).2 = length outs.
Proof. destruct (frames body s f n outs) as [s' outs'] eqn:E. by apply frames_spec in E as [Hl _]. Qed.

Section fits.
  Context (denorm : nat -> nat -> f32 -> f32) (q2f : Q -> f32) (fadd fmul fsub fdiv : f32 -> f32 -> f32) (fclamp : f32 -> f32 -> f32 -> f32) (f2i : f32 -> Z).
  Context (n2f : N -> f32) (atom_f : satom -> f32) (X : fxlib) (host : node_id -> nat -> option (nat -> nat -> f32)).
  Context {R : Type}.
  Context (other : node_id -> R -> nat -> N -> N -> list satom -> list (list f32) -> list (list f32) -> list (list f32) -> R * list (list f32)).
  Local Notation process := (fx_process denorm q2f fadd fmul fsub fdiv fclamp f2i n2f atom_f X host).

  Lemma process_fits n s nf oc ic ats ins outs : Forall (fun b : list f32 => length b = block_size) outs ->
    length (process n s nf oc ic ats ins outs).2 = length outs /\ Forall (fun b : list f32 => length b = block_size) (process n s nf oc ic ats ins outs).2.
  Proof.
    intros H. unfold fx_process. cbv beta zeta.
    repeat match goal with |- context [if ?b then _ else _] => destruct b end; try done.
    all: try by (split; [apply frames_length|by apply frames_fits]).
    - destruct (host _ _); [|done]. split; [apply frames_length|by apply frames_fits].
    - destruct (test_arm _ _) as [a b]. match goal with |- context [frames ?B ?s ?f ?n ?o] => pose proof (frames_length B n s f o) as H1; pose proof (frames_fits B n s f o H) as H2; destruct (frames B s f n o) as [[? ?] ?] end.
      done.
  Qed.
  Lemma fx_fits : node_fits other -> node_fits (fx_rest denorm q2f fadd fmul fsub fdiv fclamp f2i n2f atom_f X host other).
  Proof.
    intros Ho n st k oc ic ats ps is os H. unfold fx_rest. destruct (decide _).
    - pose proof (process_fits n (st.1 n) k oc ic ats is os H) as HP. by destruct (process _ _ _ _ _ _ _ _).
    - pose proof (Ho n st.2 k oc ic ats ps is os H) as HP. by destruct (other _ _ _ _ _ _ _ _ _).
  Qed.
End fits.
