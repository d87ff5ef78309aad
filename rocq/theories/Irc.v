(** * Irc: the base message parser, src/irc.rs, src/irc/prefix.rs,
    src/irc/command.rs, src/irc/channel.rs, src/irc/params.rs (model, no proofs). *)

From Verif Require Import Base Wide Tags.

(** ** Prefix: src/irc/prefix.rs *)

(** [RawPrefix]: prefix.rs:3-8. *)
Record raw_prefix := mk_raw_prefix
  { rp_nick : option span; rp_user : option span; rp_host : span }.

(** [Prefix]: prefix.rs:26-34. *)
Record prefix := mk_prefix { nick : option str; user : option str; host : str }.

(** [Option::map(|span| &src[span])]. *)
Definition opt_span_get (src : str) (o : option span) : res (option str) :=
  match o with
  | None => Ret None
  | Some sp => rmap Some (span_get src sp)
  end.

(** [RawPrefix::get]: prefix.rs:10-18. *)
Definition raw_prefix_get (src : str) (p : raw_prefix) : res prefix :=
  let! n := opt_span_get src (rp_nick p) in
  let! u := opt_span_get src (rp_user p) in
  let! h := span_get src (rp_host p) in
  Ret (mk_prefix n u h).

(** [Display for Prefix]: prefix.rs:36-45. *)
Definition prefix_display (p : prefix) : str :=
  match nick p, user p with
  | Some n, Some u => n ++ b "!" ++ u ++ b "@" ++ host p
  | Some n, None => n ++ b "@" ++ host p
  | None, None => host p
  | None, Some _ => []
  end.

(** The [for i in start..bytes.len()] loop of prefix.rs:64-85, [n] iterations
    left.  [bytes.get_unchecked(i)] out of bounds is [Ub]. *)
Fixpoint prefix_loop (n : nat) (src : str) (start i host_start : nat)
         (nick : option span) (nick_end : option nat) (user : option span)
  : res (option (raw_prefix * nat)) :=
  match n with
  | 0 => Ret None
  | S n' =>
    match nth_error src i with
    | None => Ub
    | Some c =>
      if Byte.eqb c " " then
        Ret (Some (mk_raw_prefix nick user (span_from host_start i), i + 1))
      else if Byte.eqb c "@" then
        match nick_end with
        | Some ne =>
          prefix_loop n' src start (i + 1) (i + 1) nick nick_end (Some (span_from (ne + 1) i))
        | None =>
          prefix_loop n' src start (i + 1) (i + 1) (Some (span_from start i)) nick_end user
        end
      else if Byte.eqb c "!" then
        prefix_loop n' src start (i + 1) host_start (Some (span_from start i)) (Some i) user
      else prefix_loop n' src start (i + 1) host_start nick nick_end user
    end
  end.

(** [prefix::parse(src, pos)]: prefix.rs:49-88.  Result and new [*pos]. *)
Definition prefix_parse (src : str) (pos : nat) : res (option raw_prefix * nat) :=
  let! s := slice_from src pos in
  if negb (starts_with (b ":") s) then Ret (None, pos)
  else
    let start := pos + 1 in
    let! r := prefix_loop (length src - start) src start start start None None None in
    match r with
    | Some (p, pos') => Ret (Some p, pos')
    | None => Ret (None, pos)
    end.

(** ** Command: src/irc/command.rs *)

(** [RawCommand]: command.rs:5-32. *)
Inductive raw_command :=
| RPing | RPong | RJoin | RPart | RPrivmsg | RWhisper | RClearchat | RClearmsg
| RGlobalUserState | RNotice | RReconnect | RRoomState | RUserNotice | RUserState
| RCapability | RRplWelcome | RRplYourHost | RRplCreated | RRplMyInfo | RRplNamReply
| RRplEndOfNames | RRplMotd | RRplMotdStart | RRplEndOfMotd
| ROther (sp : span).

(** [Command]: command.rs:68-121. *)
Inductive command :=
| Ping | Pong | Join | Part | Privmsg | Whisper | ClearChat | ClearMsg
| GlobalUserState | Notice | Reconnect | RoomState | UserNotice | UserState
| Capability | RplWelcome | RplYourHost | RplCreated | RplMyInfo | RplNames
| RplEndOfNames | RplMotd | RplMotdStart | RplEndOfMotd
| Other (cmd : str).

(** [RawCommand::get]: command.rs:34-64. *)
Definition raw_command_get (src : str) (c : raw_command) : res command :=
  match c with
  | RPing => Ret Ping
  | RPong => Ret Pong
  | RJoin => Ret Join
  | RPart => Ret Part
  | RPrivmsg => Ret Privmsg
  | RWhisper => Ret Whisper
  | RClearchat => Ret ClearChat
  | RClearmsg => Ret ClearMsg
  | RGlobalUserState => Ret GlobalUserState
  | RNotice => Ret Notice
  | RReconnect => Ret Reconnect
  | RRoomState => Ret RoomState
  | RUserNotice => Ret UserNotice
  | RUserState => Ret UserState
  | RCapability => Ret Capability
  | RRplWelcome => Ret RplWelcome
  | RRplYourHost => Ret RplYourHost
  | RRplCreated => Ret RplCreated
  | RRplMyInfo => Ret RplMyInfo
  | RRplNamReply => Ret RplNames
  | RRplEndOfNames => Ret RplEndOfNames
  | RRplMotd => Ret RplMotd
  | RRplMotdStart => Ret RplMotdStart
  | RRplEndOfMotd => Ret RplEndOfMotd
  | ROther sp => rmap Other (span_get src sp)
  end.

(** [Command::as_str], [Display]: command.rs:123-160. *)
Definition command_as_str (c : command) : str :=
  match c with
  | Ping => b "PING"
  | Pong => b "PONG"
  | Join => b "JOIN"
  | Part => b "PART"
  | Privmsg => b "PRIVMSG"
  | Whisper => b "WHISPER"
  | ClearChat => b "CLEARCHAT"
  | ClearMsg => b "CLEARMSG"
  | GlobalUserState => b "GLOBALUSERSTATE"
  | Notice => b "NOTICE"
  | Reconnect => b "RECONNECT"
  | RoomState => b "ROOMSTATE"
  | UserNotice => b "USERNOTICE"
  | UserState => b "USERSTATE"
  | Capability => b "CAP"
  | RplWelcome => b "001"
  | RplYourHost => b "002"
  | RplCreated => b "003"
  | RplMyInfo => b "004"
  | RplNames => b "353"
  | RplEndOfNames => b "366"
  | RplMotd => b "372"
  | RplMotdStart => b "375"
  | RplEndOfMotd => b "376"
  | Other cmd => cmd
  end.

(** The literal arms of [command::parse]: command.rs:177-202. *)
Definition command_table : list (str * raw_command) :=
  [ (b "PING", RPing);
    (b "PONG", RPong);
    (b "JOIN", RJoin);
    (b "PART", RPart);
    (b "PRIVMSG", RPrivmsg);
    (b "WHISPER", RWhisper);
    (b "CLEARCHAT", RClearchat);
    (b "CLEARMSG", RClearmsg);
    (b "GLOBALUSERSTATE", RGlobalUserState);
    (b "NOTICE", RNotice);
    (b "RECONNECT", RReconnect);
    (b "ROOMSTATE", RRoomState);
    (b "USERNOTICE", RUserNotice);
    (b "USERSTATE", RUserState);
    (b "CAP", RCapability);
    (b "001", RRplWelcome);
    (b "002", RRplYourHost);
    (b "003", RRplCreated);
    (b "004", RRplMyInfo);
    (b "353", RRplNamReply);
    (b "366", RRplEndOfNames);
    (b "372", RRplMotd);
    (b "375", RRplMotdStart);
    (b "376", RRplEndOfMotd) ].

(** [command::parse(src, pos)]: command.rs:163-209.  [None] leaves [*pos]. *)
Definition command_parse (src : str) (pos : nat) : res (option raw_command * nat) :=
  let! s := slice_from src pos in
  let '(e, next_pos) :=
    match find_byte " " s with
    | Some e => (pos + e, pos + e + 1)
    | None => (length src, length src)
    end in
  let! w := slice src pos e in
  match assoc w command_table with
  | Some c => Ret (Some c, next_pos)
  | None =>
    match w with
    | [] => Ret (None, pos)
    | _ => Ret (Some (ROther (span_from pos e)), next_pos)
    end
  end.

(** ** Channel and params *)

(** [channel::parse(src, pos)]: channel.rs:5-24. *)
Definition channel_parse (src : str) (pos : nat) : res (option span * nat) :=
  let! s := slice_from src pos in
  if starts_with (b "#") s then
    let! s' := slice_from src pos in
    match find_byte " " s' with
    | Some e => Ret (Some (span_from pos (pos + e)), pos + e + 1)
    | None => Ret (Some (span_from pos (length src)), length src)
    end
  else Ret (None, pos).

(** [params::parse(src, pos)]: params.rs:4-10. *)
Definition params_parse (src : str) (pos : nat) : res (option span) :=
  let! s := slice_from src pos in
  match s with
  | [] => Ret None
  | _ => Ret (Some (span_from pos (length src)))
  end.

(** ** Messages: src/irc.rs *)

(** [IrcMessageParts]: irc.rs:45-52. *)
Record parts := mk_parts
  { p_tags : list tag_pair;
    p_prefix : option raw_prefix;
    p_command : raw_command;
    p_channel : option span;
    p_params : option span }.

(** [IrcMessageRef]: irc.rs:39-43. *)
Record msg_ref := mk_ref { r_src : str; r_parts : parts }.

(** [IrcMessage]: irc.rs:182-185. *)
Record msg_own := mk_own { o_src : str; o_parts : parts }.

(** [IrcMessageRef::parse], [parse_inner]: irc.rs:56-80. *)
Definition ref_parse (bd : build) (src : str) : res (option msg_ref) :=
  let! (tags, pos) := tags_parse bd src 0 in
  let tags := match tags with Some t => t | None => [] end in
  let! (prefix, pos) := prefix_parse src pos in
  let! (cmd, pos) := command_parse src pos in
  match cmd with
  | None => Ret None
  | Some cmd =>
    let! (channel, pos) := channel_parse src pos in
    let! params := params_parse src pos in
    Ret (Some (mk_ref src (mk_parts tags prefix cmd channel params)))
  end.

(** [raw]: irc.rs:83-85. *)
Definition ref_raw (m : msg_ref) : str := r_src m.

Fixpoint mapM {A B : Type} (f : A -> res B) (l : list A) : res (list B) :=
  match l with
  | [] => Ret []
  | a :: l' => let! y := f a in let! ys := mapM f l' in Ret (y :: ys)
  end.

(** [tags], collected: irc.rs:88-90. *)
Definition ref_tags (m : msg_ref) : res (list (str * str)) :=
  mapM (pair_get (r_src m)) (p_tags (r_parts m)).

(** [prefix]: irc.rs:93-95. *)
Definition ref_prefix (m : msg_ref) : res (option prefix) :=
  match p_prefix (r_parts m) with
  | None => Ret None
  | Some p => rmap Some (raw_prefix_get (r_src m) p)
  end.

(** [command]: irc.rs:98-100. *)
Definition ref_command (m : msg_ref) : res command :=
  raw_command_get (r_src m) (p_command (r_parts m)).

(** [params]: irc.rs:120-122. *)
Definition ref_params (m : msg_ref) : res (option str) :=
  opt_span_get (r_src m) (p_params (r_parts m)).

(** [channel]: irc.rs:103-115. *)
Definition ref_channel (m : msg_ref) : res (option str) :=
  let! c := ref_command m in
  match c with
  | RplNames =>
    let! p := ref_params m in
    Ret (opt_bind p (fun p => nth_error (split_whitespace p) 2))
  | RplEndOfNames =>
    let! p := ref_params m in
    Ret (opt_bind p (fun p => nth_error (split_whitespace p) 1))
  | _ => opt_span_get (r_src m) (p_channel (r_parts m))
  end.

(** [iter().find(|pair| &src[pair.key()] == key).map(|pair| &src[pair.value()])]:
    irc.rs:141-147 and irc.rs:255-260. *)
Fixpoint tag_find (src : str) (l : list tag_pair) (key : str) : res (option str) :=
  match l with
  | [] => Ret None
  | p :: l' =>
    let! ks := pair_key p in
    let! k := span_get src ks in
    if str_eqb k key then
      let! vs := pair_value p in
      rmap Some (span_get src vs)
    else tag_find src l' key
  end.

(** [tag(t)] for a [Tag]: irc.rs:140-148. *)
Definition ref_tag (m : msg_ref) (t : tag_name) : res (option str) :=
  tag_find (r_src m) (p_tags (r_parts m)) (tag_as_str t).

(** [tag(name)] for a [&str]: the argument goes through [Tag::from]. *)
Definition ref_tag_str (m : msg_ref) (name : str) : res (option str) :=
  ref_tag m (tag_parse name).

(** [text]: irc.rs:153-164.  [params.find(':')], then [&params[start + 1..]]. *)
Definition ref_text (m : msg_ref) : res (option str) :=
  match p_params (r_parts m) with
  | Some sp =>
    let! ps := span_get (r_src m) sp in
    match find_byte ":" ps with
    | Some start => rmap Some (slice_from ps (start + 1))
    | None => Ret (Some ps)
    end
  | None => Ret None
  end.

(** ** The owned variant: irc.rs:187-272 *)

(** [IrcMessage::parse]: irc.rs:189-193.  The text is copied first, so [bd]
    carries the address of the copy. *)
Definition own_parse (bd : build) (src : str) : res (option msg_own) :=
  let! m := ref_parse bd src in
  match m with
  | None => Ret None
  | Some m => Ret (Some (mk_own src (r_parts m)))
  end.

(** [raw]: irc.rs:196-198. *)
Definition own_raw (m : msg_own) : str := o_src m.

(** [tags]: irc.rs:201-203. *)
Definition own_tags (m : msg_own) : res (list (str * str)) :=
  mapM (pair_get (o_src m)) (p_tags (o_parts m)).

(** [prefix]: irc.rs:206-208. *)
Definition own_prefix (m : msg_own) : res (option prefix) :=
  match p_prefix (o_parts m) with
  | None => Ret None
  | Some p => rmap Some (raw_prefix_get (o_src m) p)
  end.

(** [command]: irc.rs:211-213. *)
Definition own_command (m : msg_own) : res command :=
  raw_command_get (o_src m) (p_command (o_parts m)).

(** [params]: irc.rs:233-235. *)
Definition own_params (m : msg_own) : res (option str) :=
  opt_span_get (o_src m) (p_params (o_parts m)).

(** [channel]: irc.rs:216-228. *)
Definition own_channel (m : msg_own) : res (option str) :=
  let! c := own_command m in
  match c with
  | RplNames =>
    let! p := own_params m in
    Ret (opt_bind p (fun p => nth_error (split_whitespace p) 2))
  | RplEndOfNames =>
    let! p := own_params m in
    Ret (opt_bind p (fun p => nth_error (split_whitespace p) 1))
  | _ => opt_span_get (o_src m) (p_channel (o_parts m))
  end.

(** [tag]: irc.rs:253-261. *)
Definition own_tag (m : msg_own) (t : tag_name) : res (option str) :=
  tag_find (o_src m) (p_tags (o_parts m)) (tag_as_str t).

Definition own_tag_str (m : msg_own) (name : str) : res (option str) :=
  own_tag m (tag_parse name).

(** [text]: irc.rs:264-272. *)
Definition own_text (m : msg_own) : res (option str) :=
  let! p := own_params m in
  match p with
  | Some ps =>
    match find_byte ":" ps with
    | Some start => rmap Some (slice_from ps (start + 1))
    | None => Ret None
    end
  | None => Ret None
  end.

(** [IrcMessageRef::into_owned]: irc.rs:316-324. *)
Definition ref_into_owned (m : msg_ref) : msg_own := mk_own (r_src m) (r_parts m).

(** [IrcMessage::as_ref]: irc.rs:326-334. *)
Definition own_as_ref (m : msg_own) : msg_ref := mk_ref (o_src m) (o_parts m).
