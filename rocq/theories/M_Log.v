(** Model of src/log.rs: one logger of a thread and its receiver *)
From Verif Require Import Base.
Open Scope nat_scope.

(** A byte, 0 to 255 *)
Notation byte := Z.

(** The check of std::str::from_utf8 (RFC 3629) *)
Definition cont (lo hi b : byte) : bool := (lo <=? b)%Z && (b <=? hi)%Z.
Fixpoint utf8 (l : list byte) : bool :=
  match l with
  | [] => true
  | a :: l =>
      if cont 0 127 a then utf8 l
      else match l with
      | [] => false
      | b :: l =>
          if cont 194 223 a then cont 128 191 b && utf8 l
          else match l with
          | [] => false
          | c :: l =>
              if cont 224 239 a then
                cont (if (a =? 224)%Z then 160 else 128) (if (a =? 237)%Z then 159 else 191) b && cont 128 191 c && utf8 l
              else match l with
              | [] => false
              | d :: l =>
                  cont 240 244 a && cont (if (a =? 240)%Z then 144 else 128) (if (a =? 244)%Z then 143 else 191) b &&
                  cont 128 191 c && cont 128 191 d && utf8 l
              end
          end
      end
  end.

(** The bytes in the ring buffer, and those that the running [retrieve_messages] has gathered for the next message *)
Record lstate := LState { lg_queue : list byte; lg_cur : list byte }.
Definition log_new : lstate := LState [] [].

(** src/log.rs:48 MAX_LOG_BUFFER; 61 and 95 the sizes of the two local buffers *)
Definition log_ring : nat := 4096.
Definition log_recv_buf : nat := 1024.
Definition log_send_buf : nat := 512.

(** [push_slice] of the ring buffer: as much as there is room for *)
Definition push_slice (q data : list byte) : list byte := q ++ take (log_ring - length q) data.

(** What happens at the two ends. [LPop] is one round of the loop in [retrieve_messages] (src/log.rs:64-72): the rounds of one call
    go on until the buffer is empty, and sending may happen between any two of them. [log_buf] (src/log.rs:99-102) is made of two steps. *)
Inductive lact :=
| LLog (msg : list byte)
| LSlice (data : list byte)
| LMark
| LPop.

(** One step and the messages it delivers; [None] is a panic.
    - [LLog]: src/log.rs:104-119. [msg] is what the closure writes, below 8192 bytes and without flushing. The bytes go to [buf] when the
      BufWriter is dropped; a length of more than 512 is out of its range.
    - [LPop]: src/log.rs:59-74. At the end of a call the bytes of an incomplete message are dropped. *)
Definition log_step (s : lstate) (a : lact) : option (lstate * list (list byte)) :=
  match a with
  | LLog msg =>
      let len := length msg in
      if log_send_buf <? len then None
      else
        let data := if len <? log_send_buf - 1 then msg ++ [255%Z] else msg in
        Some (LState (push_slice (lg_queue s) data) (lg_cur s), [])
  | LSlice data => Some (LState (push_slice (lg_queue s) data) (lg_cur s), [])
  | LMark => Some (LState (push_slice (lg_queue s) [255%Z]) (lg_cur s), [])
  | LPop =>
      match lg_queue s with
      | [] => Some (LState [] [], [])
      | b :: q =>
          if (log_recv_buf <=? length (lg_cur s)) || (b =? 255)%Z then
            if utf8 (lg_cur s) then Some (LState q [], [lg_cur s]) else None
          else Some (LState q (lg_cur s ++ [b]), [])
      end
  end.

Fixpoint log_run (s : lstate) (acts : list lact) : option (lstate * list (list byte)) :=
  match acts with
  | [] => Some (s, [])
  | a :: acts =>
      let* (s, d) := log_step s a in
      let* (s, ds) := log_run s acts in
      Some (s, d ++ ds)
  end.
