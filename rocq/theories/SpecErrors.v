(** * SpecErrors: what the texts of errors are compared with. *)

From Verif Require Import Base Wide Common Client SpecClient Tags Irc MsgBase MsgTypes MsgNotice Message SpecIrc SpecMsg SpecDbg Errors.

(** A message received in a line, with tags which the accessors can read. *)
Definition readable (m : msg_own) : Prop :=
  exists bd s v r, parsed bd s v r /\ own_parse bd s = Ret (Some m).

Definition printable (e : connect_error) : Prop :=
  match e with CWelcome m | CNotice m => readable m | _ => True end.

(** The beginnings of the crate's own texts. *)
Definition own_phrases : list str :=
  [b "connection timed out"; b "invalid credentials"; b "expected `NOTICE`"; b "received unrecognized notice";
   b "failed to open tls stream"; b "tls config error"; b "failed to read message"].

(** The texts of other libraries do not look like the crate's own. *)
Record ordinary (F : foreign) : Prop :=
  { or_io : forall e p x, In p own_phrases -> io_text F e <> p ++ x;
    or_dns : forall p x, In p own_phrases -> dns_text F <> p ++ x;
    or_apart : forall e, io_text F e <> dns_text F;
    or_closed : forall e, io_text F e <> b "stream closed";
    or_invalid : forall e x, io_text F e <> b "invalid message `" ++ x;
    or_format : forall e x, io_text F e <> b "message was incorrectly formatted" ++ x }.

(** All accessors agree. *)
Definition same_own (m m' : msg_own) : Prop :=
  own_tags m = own_tags m' /\ own_prefix m = own_prefix m' /\ own_command m = own_command m' /\
  own_channel m = own_channel m' /\ own_params m = own_params m'.

(** The same failure: same kind, same contents; I/O errors count by their text. *)
Inductive same_error (F : foreign) : connect_error -> connect_error -> Prop :=
| se_read_io e e' : io_text F e = io_text F e' -> same_error F (CRead (RecvIo e)) (CRead (RecvIo e'))
| se_read_line s : same_error F (CRead (RecvParse s)) (CRead (RecvParse s))
| se_read_closed : same_error F (CRead RecvStreamClosed) (CRead RecvStreamClosed)
| se_io e e' : io_text F e = io_text F e' -> same_error F (CIo e) (CIo e')
| se_dns : same_error F CDns CDns
| se_tls : same_error F CTls CTls
| se_open e e' : io_text F e = io_text F e' -> same_error F (COpen e) (COpen e')
| se_timeout : same_error F CTimeout CTimeout
| se_welcome m m' : same_own m m' -> same_error F (CWelcome m) (CWelcome m')
| se_auth : same_error F CAuth CAuth
| se_notice m m' : same_own m m' -> same_error F (CNotice m) (CNotice m').

(** The same failure of sending. *)
Inductive same_send (F : foreign) : send_error -> send_error -> Prop :=
| ss_io e e' : io_text F e = io_text F e' -> same_send F (SendIo e) (SendIo e')
| ss_closed : same_send F SendStreamClosed SendStreamClosed
| ss_invalid : same_send F SendInvalidMessage SendInvalidMessage.

(** The error of one attempt to reconnect. *)
Definition attempt_error (a : attempt) (e : connect_error) : Prop :=
  retried a e \/ settles a (Finished (Err e)).

(** Texts of other libraries without control characters. *)
Definition visible_foreign (F : foreign) : Prop :=
  (forall e, Forall visible (io_text F e)) /\ Forall visible (dns_text F) /\ Forall visible (cert_text F).
