(** Specification vocabulary of the log *)
From Verif Require Import Base M_Log.
Open Scope nat_scope.

(** There is room for a message and its end mark after some actions *)
Definition room (acts : list lact) (msg : list byte) : Prop :=
  forall s got, log_run log_new acts = Some (s, got) -> length (lg_queue s) + length msg + 1 <= 4096.

(** The UTF-8 encoding of a unicode scalar value (RFC 3629), and texts *)
Definition scalar (c : Z) : Prop := (0 <= c <= 55295)%Z \/ (57344 <= c <= 1114111)%Z.
Definition utf8_char (c : Z) : list byte :=
  (if c <? 128 then [c]
   else if c <? 2048 then [192 + c / 64; 128 + c mod 64]
   else if c <? 65536 then [224 + c / 4096; 128 + (c / 64) mod 64; 128 + c mod 64]
   else [240 + c / 262144; 128 + (c / 4096) mod 64; 128 + (c / 64) mod 64; 128 + c mod 64])%Z.
Definition text (m : list byte) : Prop := exists cs, Forall scalar cs /\ m = mjoin (utf8_char <$> cs).

(** A history of sending and receiving; [sent] are the messages. Every message is valid text, at
    most 510 bytes (1024 for [log_buf], whose two steps are not interrupted), and there is room for it. *)
Inductive history : list lact -> list (list byte) -> Prop :=
| hist_nil : history [] []
| hist_log acts sent msg : history acts sent ->
    text msg -> length msg <= 510 -> room acts msg -> history (acts ++ [LLog msg]) (sent ++ [msg])
| hist_buf acts sent msg : history acts sent ->
    text msg -> length msg <= 1024 -> room acts msg -> history (acts ++ [LSlice msg; LMark]) (sent ++ [msg])
| hist_pop acts sent : history acts sent -> history (acts ++ [LPop]) sent.
