(** * Errors: the texts of the crate's errors (model, no proofs).

    [Display] and [Error::source] of the error types in src/client.rs,
    src/client/{conn,read,write}.rs, src/msg.rs and src/common/channel.rs. *)

From Verif Require Import Base Common Client Tags Irc Dbg.

(** What other libraries print: [std::io::Error] by its kind, [InvalidDnsNameError],
    the error inside [TlsConfigError] (an [io::Error] or a [rustls::Error]); and which
    characters [char::escape_debug] leaves as they are. *)
Record foreign := mk_foreign
  { io_text : io_kind -> str; dns_text : str; cert_text : str; shown : uchar -> bool }.

(** [Display for InvalidMessage]: write.rs:272-276. *)
Definition invalid_message_text : str := b "not terminated by ""\r\n""".

(** [Display for SendError]: write.rs:221-232. *)
Definition send_error_text (F : foreign) (e : send_error) : str :=
  match e with
  | SendIo e => b "failed to write message: " ++ io_text F e
  | SendStreamClosed => b "failed to write message: stream closed"
  | SendInvalidMessage =>
    b "failed to write message: message was incorrectly formatted, " ++ invalid_message_text
  end.

(** [Display for RecvError]: read.rs:61-69. *)
Definition recv_error_text (F : foreign) (e : recv_error) : str :=
  match e with
  | RecvIo e => b "failed to read message: " ++ io_text F e
  | RecvParse s => b "failed to read message: invalid message `" ++ s ++ b "`"
  | RecvStreamClosed => b "failed to read message: stream closed"
  end.

(** [Display for OpenStreamError]: conn.rs:39-45; [for TlsConfigError]: conn.rs:103-110. *)
Definition open_error_text (F : foreign) (e : io_kind) : str := b "failed to open tls stream: " ++ io_text F e.
Definition tls_error_text (F : foreign) : str := b "tls config error: " ++ cert_text F.

(** [Display for ConnectError]: client.rs:524-544.  The message is printed with
    [{msg:?}], which reads all of its parts. *)
Definition connect_error_text (F : foreign) (e : connect_error) : res str :=
  match e with
  | CRead e => Ret (b "failed to connect: " ++ recv_error_text F e)
  | CIo e => Ret (b "failed to connect: " ++ io_text F e)
  | CDns => Ret (b "failed to connect: " ++ dns_text F)
  | CTls => Ret (b "failed to connect: " ++ tls_error_text F)
  | COpen e => Ret (b "failed to connect: " ++ open_error_text F e)
  | CTimeout => Ret (b "failed to connect: connection timed out")
  | CWelcome m =>
    let! d := dbg_own m in
    Ret (b "failed to connect: expected `NOTICE` or `001` as first message, instead received: " ++ show (shown F) false d)
  | CAuth => Ret (b "failed to connect: invalid credentials")
  | CNotice m =>
    let! d := dbg_own m in
    Ret (b "failed to connect: received unrecognized notice: " ++ show (shown F) false d)
  end.

(** [ReconnectError]: client.rs:417-421. *)
Record reconnect_error := mk_reconnect_error { re_cause : connect_error }.

(** [Display for ReconnectError]: client.rs:423-431; [source], [cause]: client.rs:433-441. *)
Definition reconnect_error_text (F : foreign) (e : reconnect_error) : res str :=
  let! t := connect_error_text F (re_cause e) in
  Ret (b "all reconnect attempts failed. last error was: " ++ t).
Definition reconnect_source (e : reconnect_error) : option connect_error := Some (re_cause e).

(** The error returned by [reconnect] ([From]: client.rs:443-449, and client.rs:318). *)
Definition returned (o : outcome) : option reconnect_error :=
  match o with
  | Finished (Err e) => Some (mk_reconnect_error e)
  | _ => None
  end.
