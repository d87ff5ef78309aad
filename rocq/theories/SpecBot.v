(** * SpecBot: what the example program should answer, per line.

    The argument types are imported from the model, its functions are not. *)

From Verif Require Import Base Tags Irc SpecIrc SpecText MsgBase MsgTypes MsgNotice Message SpecMsg Client SpecClient Bot.

(** The bytes sent for a line with parts [v]: a PONG with the text of a PING; a
    reply [yo] to a PRIVMSG whose text starts with [!yo], unless logged in
    anonymously; nothing for every other line. *)
Inductive answer (anon : bool) (v : view) : str -> Prop :=
| an_pong t :
    v_command v = b "PING" -> has_text v t -> answer anon v (b "PONG :" ++ t ++ crlf)
| an_pong_only :
    v_command v = b "PING" -> (forall t, ~ has_text v t) -> answer anon v (b "PONG" ++ crlf)
| an_yo q r :
    v_command v = b "PRIVMSG" -> privmsg_of v q -> anon = false -> pm_text q = b "!yo" ++ r ->
    answer anon v (b "@reply-parent-msg-id=" ++ pm_id q ++ b " PRIVMSG " ++ pm_channel q ++ b " :yo" ++ crlf)
| an_message q :
    v_command v = b "PRIVMSG" -> privmsg_of v q ->
    anon = true \/ (forall r, pm_text q <> b "!yo" ++ r) -> answer anon v []
| an_nothing :
    v_command v <> b "PING" -> v_command v <> b "PRIVMSG" -> v_command v <> b "RECONNECT" ->
    answer anon v [].

(** The line is one the program can go on after: it parses, and has a typed form. *)
Definition readable (bd : build) (pf : profile) (l : str) (v : view) : Prop :=
  exists m t, parsed bd l v m /\ from_irc pf m = Ret (Some t).

(** The answers to several lines, one turn per line, all of them written. *)
Inductive answers (pf : profile) (anon : bool) : list turn -> list str -> list str -> Prop :=
| as_nil : answers pf anon [] [] []
| as_cons x xs l ls v a os :
    t_write x = WOk -> readable (t_build x) pf l v -> answer anon v a ->
    answers pf anon xs ls os -> answers pf anon (x :: xs) (l :: ls) (a :: os).

(** A line that ends the program, given the outcome of the write; with what is
    still sent. *)
Inductive fatal (pf : profile) (anon : bool) (x : turn) (l : str) : str -> bot_error -> Prop :=
| ft_not_text : utf8_valid l = false -> fatal pf anon x l [] (BotRecv (RecvIo InvalidData))
| ft_not_irc :
    utf8_valid l = true -> own_parse (t_build x) l = Ret None -> fatal pf anon x l [] (BotRecv (RecvParse l))
| ft_not_typed v m :
    parsed (t_build x) l v m -> from_irc pf m = Ret None -> fatal pf anon x l [] BotMessage
| ft_write v a k e r :
    readable (t_build x) pf l v -> answer anon v (a ++ r) -> a ++ r <> [] -> t_write x = WErr k e ->
    a = firstn k (a ++ r) -> fatal pf anon x l a (BotSend (SendIo e)).

(** The lines printed for a line with parts [v]: for a PRIVMSG, who says what; and the
    answer, once it is sent. *)
Inductive printed (anon : bool) (v : view) : list str -> Prop :=
| pr_answered q r name :
    v_command v = b "PRIVMSG" -> privmsg_of v q -> anon = false -> pm_text q = b "!yo" ++ r ->
    shown (u_name (pm_sender q)) name ->
    printed anon v [name ++ b ": " ++ pm_text q; b "< " ++ pm_channel q ++ b " yo"]
| pr_message q name :
    v_command v = b "PRIVMSG" -> privmsg_of v q -> anon = true \/ (forall r, pm_text q <> b "!yo" ++ r) ->
    shown (u_name (pm_sender q)) name ->
    printed anon v [name ++ b ": " ++ pm_text q]
| pr_nothing : v_command v <> b "PRIVMSG" -> printed anon v [].

(** The same for several lines. *)
Definition all_printed (anon : bool) (ls : list str) (out : list str) : Prop :=
  exists outs, out = concat outs /\
    Forall2 (fun l o => exists v, spec_view l = Some v /\ printed anon v o) ls outs.

(** What is printed for the line that ends the program: what comes before the failed
    write; nothing if it is not understood. *)
Definition last_printed (anon : bool) (l : str) (e : bot_error) (out : list str) : Prop :=
  match e with
  | BotSend _ => exists v o, spec_view l = Some v /\ printed anon v o /\ out = firstn 1 o
  | _ => out = []
  end.

(** The channels, as listed. *)
Definition listed (chs : list str) : str :=
  match chs with
  | [] => []
  | ch :: chs' => ch ++ flat_map (fun x => b ", " ++ x) chs'
  end.
