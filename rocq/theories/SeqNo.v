(** The message sequence number and the detection of another node using our
    address (src/olsr.c:126-160, src/duplicate_handler.c). *)
From Verif Require Import Base.

(** src/olsr.c:143-147 get_msg_seqno: value returned, new value of message_seqno *)
Definition get_msg_seqno (message_seqno : Z) : Z * Z := (message_seqno, u16 (message_seqno + 1)).
(** [n] calls of get_msg_seqno; src/olsr.c:126-160 *)
Fixpoint advance (n : nat) (message_seqno : Z) : Z :=
  match n with O => message_seqno | S n' => advance n' (snd (get_msg_seqno message_seqno)) end.

(** src/olsr.c:149-160 olsr_is_bad_duplicate_msg_seqno *)
Definition is_bad_duplicate (message_seqno seqno : Z) : bool :=
  let diff := seqno - message_seqno in
  let diff := if diff <? -32768 then diff + 65536 else if diff >? 32767 then diff - 65536 else diff in
  diff >? 0.

(** src/duplicate_handler.h:54 *)
Definition MAX_SYSLOG_EACH_HOUR : Z := 10.

(** src/duplicate_handler.c:96-115 olsr_test_originator_collision: [spam] is
    spam_orig_counter, result: new counter, whether the warning is logged,
    handlers called with the message type *)
Definition test_originator_collision (message_seqno spam : Z) (handlers : list Z) (ty seqno : Z) : Z * bool * list (Z * Z) :=
  if negb (is_bad_duplicate message_seqno seqno) then (spam, false, [])
  else let spam' := u32 (spam + 1) in (spam', spam' <? MAX_SYSLOG_EACH_HOUR, map (fun h => (h, ty)) handlers).

(** src/duplicate_handler.c:61-74 handle_duplicate_spam_timer, one counter: new
    counter, number of skipped warnings reported *)
Definition spam_timer (spam : Z) : Z * Z :=
  (0, if spam >? MAX_SYSLOG_EACH_HOUR then u32 (spam - MAX_SYSLOG_EACH_HOUR) else 0).

(** [n] collisions since the last timer: counter, warnings logged
    (src/duplicate_handler.c:103,120,137: the same for all three counters) *)
Fixpoint collisions (n : nat) : Z * Z :=
  match n with
  | O => (0, 0)
  | S n' => let (spam, logged) := collisions n' in
            let spam' := u32 (spam + 1) in
            (spam', if spam' <? MAX_SYSLOG_EACH_HOUR then logged + 1 else logged)
  end.
