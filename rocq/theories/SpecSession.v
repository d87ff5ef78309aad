(** * SpecSession: what a server sends during a whole connection.

    Nothing here mentions the parser or the client: a session is the bytes of the two
    answers to the handshake followed by the bytes of typed messages, one per line. *)

From Verif Require Import Base Client SpecIrc MsgBase MsgTypes MsgNotice Message SpecMsg SpecWrite SpecClient.

(** A typed message that fits on a line: its values can be written (see [able]), the line is
    well-formed text of less than 4 GiB, each tag is shorter than 64 KiB, and nothing in it
    is a line feed. *)
Definition sendable (c : content) : Prop :=
  able c /\ wf_message (line c) /\ Forall short_tag (m_tags (line c)) /\
  utf8_valid (render (line c)) = true /\ below_4gib (render (line c)) /\ ~ In lf (render (line c)).

(** Typed messages one after the other, each on a line of its own. *)
Fixpoint stream (cs : list content) : str :=
  match cs with
  | [] => []
  | c :: cs' => render (line c) ++ crlf ++ stream cs'
  end.

(** The first bytes of a text that arrive in some reads. *)
Definition holds (s : str) (reads : list read) : Prop :=
  exists rest, concat (map (fun r => match r with Got bytes => bytes | Fault _ => [] end) reads) = s ++ rest.

(** What the server sends on a connection: a line that acknowledges the capabilities, a
    welcome and typed messages. The bytes arrive in any chunks: some before the first wait
    ends, some before the second one does and some later ([more]); each answer is complete
    when the wait for it ends. *)
Definition serves (h : handshake_out) (more : list read) (ct : list content) : Prop :=
  exists (l1 l2 : str) (v1 v2 : view),
    ~ In lf l1 /\ fit_line (w_build (h_first h)) l1 /\ spec_view l1 = Some v1 /\ acknowledges v1 /\
    ~ In lf l2 /\ fit_line (w_build (h_second h)) l2 /\ spec_view l2 = Some v2 /\ v_command v2 = b "001" /\
    Forall sendable ct /\
    chunked (l1 ++ crlf ++ l2 ++ crlf ++ stream ct) (w_reads (h_first h) ++ w_reads (h_second h) ++ more) /\
    holds (l1 ++ crlf) (w_reads (h_first h)) /\
    holds (l1 ++ crlf ++ l2 ++ crlf) (w_reads (h_first h) ++ w_reads (h_second h)).
