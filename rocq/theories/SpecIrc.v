(** * SpecIrc: what a Twitch IRC line means, stated without positions.

    This file is independent of the parser's model: it only uses byte strings.
    (The few names imported from [Irc] are the public result types [prefix] and
    [command].)  *)

From Verif Require Import Base Tags Irc.

(** [cut c s]: the text before the first [c] and, if there is one, the text
    after it. *)
Fixpoint cut (c : byte) (s : str) : str * option str :=
  match s with
  | [] => ([], None)
  | x :: s' =>
    if Byte.eqb x c then ([], Some s')
    else let '(l, r) := cut c s' in (x :: l, r)
  end.

(** [cut_last c s]: the texts around the last [c], if there is one. *)
Fixpoint cut_last (c : byte) (s : str) : option (str * str) :=
  match s with
  | [] => None
  | x :: s' =>
    match cut_last c s' with
    | Some (l, r) => Some (x :: l, r)
    | None => if Byte.eqb x c then Some ([], s') else None
    end
  end.

Definition or_empty (o : option str) : str := match o with Some s => s | None => [] end.

(** ** Tags *)

(** [tag_section s l]: the text [s] between ['@'] and the first space carries
    the tags [l], in order.  A key extends to the first ['='], a value to the
    next [';'] (or the end); text after the last [';'] that has no ['='] is
    ignored. *)
Inductive tag_section : str -> list (str * str) -> Prop :=
| ts_none s :
    ~ In "="%byte s -> tag_section s []
| ts_last k v :
    ~ In "="%byte k -> ~ In ";"%byte v ->
    tag_section (k ++ b "=" ++ v) [(k, v)]
| ts_more k v s l :
    ~ In "="%byte k -> ~ In ";"%byte v -> tag_section s l ->
    tag_section (k ++ b "=" ++ v ++ b ";" ++ s) ((k, v) :: l).

(** The same as a function (equivalence: [tag_list_section] in IrcFacts.v). *)
Fixpoint tag_walk (k : str) (v : option str) (s : str) : list (str * str) :=
  match s, v with
  | [], None => []
  | [], Some v => [(k, v)]
  | c :: s', None =>
    if Byte.eqb c "=" then tag_walk k (Some []) s' else tag_walk (k ++ [c]) None s'
  | c :: s', Some v =>
    if Byte.eqb c ";" then (k, v) :: tag_walk [] None s' else tag_walk k (Some (v ++ [c])) s'
  end.

Definition tag_list (s : str) : list (str * str) := tag_walk [] None s.

(** ** Prefix

    For the text between [':'] and the next space: the host is what follows the
    last ['@'], or everything; the nick is what precedes the last ['!'], or
    without a ['!'] what precedes the last ['@']; the user is what is between
    the last ['@'] and the last ['!'] before it. *)
Definition spec_prefix (p : str) : prefix :=
  {| host := match cut_last "@" p with Some (_, h) => h | None => p end;
     nick := match cut_last "!" p with
             | Some (n, _) => Some n
             | None => match cut_last "@" p with Some (n, _) => Some n | None => None end
             end;
     user := match cut_last "@" p with
             | Some (q, _) => match cut_last "!" q with Some (_, u) => Some u | None => None end
             | None => None
             end |}.

(** ** Command words *)

Definition known_commands : list (str * command) :=
  [ (b "PING", Ping); (b "PONG", Pong); (b "JOIN", Join); (b "PART", Part);
    (b "PRIVMSG", Privmsg); (b "WHISPER", Whisper); (b "CLEARCHAT", ClearChat);
    (b "CLEARMSG", ClearMsg); (b "GLOBALUSERSTATE", GlobalUserState);
    (b "NOTICE", Notice); (b "RECONNECT", Reconnect); (b "ROOMSTATE", RoomState);
    (b "USERNOTICE", UserNotice); (b "USERSTATE", UserState); (b "CAP", Capability);
    (b "001", RplWelcome); (b "002", RplYourHost); (b "003", RplCreated);
    (b "004", RplMyInfo); (b "353", RplNames); (b "366", RplEndOfNames);
    (b "372", RplMotd); (b "375", RplMotdStart); (b "376", RplEndOfMotd) ].

Definition spec_command (w : str) : command :=
  match assoc w known_commands with
  | Some c => c
  | None => Other w
  end.

(** ** Whole lines *)

(** The parts of a line. *)
Record view := mk_view
  { v_tags : list (str * str);
    v_prefix : option prefix;
    v_command : str;
    v_channel : option str;
    v_params : option str }.

(** ["@tags rest"]: the tag text and the rest, or no tags. *)
Definition spec_tags (s : str) : list (str * str) * str :=
  match s with
  | c :: r =>
    if Byte.eqb c "@" then
      match cut " " r with
      | (t, Some rest) => (tag_list t, rest)
      | (_, None) => ([], s)
      end
    else ([], s)
  | [] => ([], s)
  end.

(** [":prefix rest"]. *)
Definition spec_split_prefix (s : str) : option prefix * str :=
  match s with
  | c :: r =>
    if Byte.eqb c ":" then
      match cut " " r with
      | (p, Some rest) => (Some (spec_prefix p), rest)
      | (_, None) => (None, s)
      end
    else (None, s)
  | [] => (None, s)
  end.

(** ["#channel rest"]. *)
Definition spec_split_channel (s : str) : option str * str :=
  match s with
  | c :: _ =>
    if Byte.eqb c "#" then let '(ch, r) := cut " " s in (Some ch, or_empty r)
    else (None, s)
  | [] => (None, s)
  end.

(** [[@tags ][:prefix ]command[ [#channel ]params]]; no message without a
    command word. *)
Definition spec_view (s : str) : option view :=
  let '(tags, s1) := spec_tags s in
  let '(pfx, s2) := spec_split_prefix s1 in
  let '(w, r) := cut " " s2 in
  match w with
  | [] => None
  | _ =>
    let '(ch, ps) := spec_split_channel (or_empty r) in
    Some (mk_view tags pfx w ch (match ps with [] => None | _ => Some ps end))
  end.

(** Text that starts with ['@'] and has no space at all. *)
Definition unterminated_tags (s : str) : Prop :=
  (exists r, s = b "@" ++ r) /\ ~ In " "%byte s.

(** ** Accessors *)

(** First tag with the given key. *)
Fixpoint lookup (k : str) (l : list (str * str)) : option str :=
  match l with
  | [] => None
  | (k', v) :: l' => if str_eqb k' k then Some v else lookup k l'
  end.

(** The channel accessor reads the params of the two NAMES replies. *)
Definition spec_channel (v : view) : option str :=
  if str_eqb (v_command v) (b "353") then
    opt_bind (v_params v) (fun p => nth_error (split_whitespace p) 2)
  else if str_eqb (v_command v) (b "366") then
    opt_bind (v_params v) (fun p => nth_error (split_whitespace p) 1)
  else v_channel v.

(** Text of a borrowed message: after the first [':'] of the params, or all of
    them. *)
Definition spec_text (v : view) : option str :=
  match v_params v with
  | None => None
  | Some p => match cut ":" p with (_, Some t) => Some t | (_, None) => Some p end
  end.

(** ** Further notions used in property statements *)

(** A tag section is at the head of the line. *)
Definition has_section (s sec rest : str) : Prop :=
  s = b "@" ++ sec ++ b " " ++ rest /\ ~ In " "%byte sec.

(** Removing a complete leading [c...␣] part, if there is one. *)
Definition removed (c : byte) (s s' : str) : Prop :=
  (exists t, s = [c] ++ t ++ b " " ++ s' /\ ~ In " "%byte t) \/
  (((forall r, s <> [c] ++ r) \/ ~ In " "%byte s) /\ s' = s).

(** Contiguous part. *)
Definition infix (x s : str) : Prop := exists l r, s = l ++ x ++ r.

(** The limits inside which tag keys and values are stored without loss. *)
Definition short_tag (kv : str * str) : Prop :=
  (N.of_nat (length (fst kv)) < 65536)%N /\ (N.of_nat (length (snd kv)) < 65536)%N.

(** Texts shorter than 4 GiB. *)
Definition below_4gib (s : str) : Prop := (N.of_nat (length s) < 4294967296)%N.

(** ** Well-formed messages and how they are written *)

Inductive sender :=
| SHost (host : str)
| SNickHost (nick host : str)
| SFull (nick user host : str).

Definition render_sender (p : sender) : str :=
  match p with
  | SHost h => h
  | SNickHost n h => n ++ b "@" ++ h
  | SFull n u h => n ++ b "!" ++ u ++ b "@" ++ h
  end.

Definition sender_prefix (p : sender) : prefix :=
  match p with
  | SHost h => mk_prefix None None h
  | SNickHost n h => mk_prefix (Some n) None h
  | SFull n u h => mk_prefix (Some n) (Some u) h
  end.

Definition no_delim (s : str) : Prop :=
  ~ In "!"%byte s /\ ~ In "@"%byte s /\ ~ In " "%byte s.

(** Only the delimiter that ends a part (and the space) is excluded from it: the
    last ['!'] and the last ['@'] count, so a nick may contain both and a user
    may contain ['@']. *)
Definition wf_sender (p : sender) : Prop :=
  match p with
  | SHost h => no_delim h
  | SNickHost n h => (~ In "!"%byte n /\ ~ In " "%byte n) /\ no_delim h
  | SFull n u h => ~ In " "%byte n /\ (~ In "!"%byte u /\ ~ In " "%byte u) /\ no_delim h
  end.

Record message := mk_message
  { m_tags : list (str * str);
    m_sender : option sender;
    m_command : str;
    m_channel : option str;
    m_params : option str }.

Fixpoint render_tags (l : list (str * str)) : str :=
  match l with
  | [] => []
  | [(k, v)] => k ++ b "=" ++ v
  | (k, v) :: l' => k ++ b "=" ++ v ++ b ";" ++ render_tags l'
  end.

(** [@k=v;k=v :nick!user@host COMMAND #channel params]. *)
Definition render (m : message) : str :=
  match m_tags m with [] => [] | l => b "@" ++ render_tags l ++ b " " end ++
  match m_sender m with None => [] | Some p => b ":" ++ render_sender p ++ b " " end ++
  m_command m ++
  match m_channel m with None => [] | Some c => b " " ++ c end ++
  match m_params m with None => [] | Some p => b " " ++ p end.

Definition starts (c : byte) (s : str) : Prop := exists r, s = c :: r.

Definition wf_tag (kv : str * str) : Prop :=
  ~ In "="%byte (fst kv) /\ ~ In " "%byte (fst kv) /\
  ~ In ";"%byte (snd kv) /\ ~ In " "%byte (snd kv).

(** No part contains the delimiter that ends it, and an absent part is not
    imitated by the next one. *)
Definition wf_message (m : message) : Prop :=
  Forall wf_tag (m_tags m) /\
  match m_sender m with Some p => wf_sender p | None => ~ starts ":" (m_command m) end /\
  (m_tags m = [] -> m_sender m = None -> ~ starts "@" (m_command m)) /\
  m_command m <> [] /\ ~ In " "%byte (m_command m) /\
  match m_channel m with
  | Some c => starts "#" c /\ ~ In " "%byte c
  | None => forall p, m_params m = Some p -> ~ starts "#" p
  end /\
  m_params m <> Some [].

(** ** Whitespace-separated words *)

(** [words_of cs ws]: [ws] are the maximal runs of non-whitespace characters
    of [cs], in order. *)
Inductive words_of : list uchar -> list str -> Prop :=
| wo_nil : words_of [] []
| wo_space c cs ws :
    In c whitespace_chars -> words_of cs ws -> words_of (c :: cs) ws
| wo_word w cs ws :
    w <> [] -> Forall (fun c => ~ In c whitespace_chars) w ->
    match cs with [] => True | c :: _ => In c whitespace_chars end ->
    words_of cs ws -> words_of (w ++ cs) (concat w :: ws).

(** ** How a line is put together *)

(** An optional leading part with its marker and closing space. *)
Definition marked (c : byte) (o : option str) : str :=
  match o with Some t => [c] ++ t ++ b " " | None => [] end.

(** [composed s sec pt w ch ps]: the line [s] is the tag section [sec], the
    prefix text [pt], the command word [w], the channel [ch] and the params
    [ps], separated by single spaces; a space may also stand at the very end,
    after the command or the channel. *)
Definition composed (s : str) (sec pt : option str) (w : str) (ch ps : option str) : Prop :=
  exists sp1 sp2,
    s = marked "@" sec ++ marked ":" pt ++ w ++ sp1 ++ or_empty ch ++ sp2 ++ or_empty ps /\
    (sp1 = b " " \/ sp1 = [] /\ ch = None /\ ps = None) /\
    (ch <> None /\ sp2 = b " " \/ sp2 = [] /\ (ch = None \/ ps = None)).

(** ** Names of the [Tag] variants

    Kebab case of a CamelCase identifier: lower case, with a dash before every
    capital but the first. *)
Definition upper (c : byte) : bool := in_range 65 90 c.
Definition lower (c : byte) : byte :=
  if upper c then match Byte.of_N (Byte.to_N c + 32) with Some x => x | None => c end else c.
Definition kebab (s : str) : str :=
  match s with
  | [] => []
  | c :: r => lower c :: flat_map (fun x => if upper x then [ "-"%byte; lower x ] else [x]) r
  end.

(** The variants whose name is the kebab case of their identifier. *)
Definition kebab_variants : list (string * tag_name) :=
  [ ("MsgId", TMsgId); ("Badges", TBadges); ("BadgeInfo", TBadgeInfo);
    ("DisplayName", TDisplayName); ("EmoteOnly", TEmoteOnly); ("Emotes", TEmotes);
    ("Flags", TFlags); ("Id", TId); ("Mod", TMod); ("RoomId", TRoomId);
    ("Subscriber", TSubscriber); ("TmiSentTs", TTmiSentTs); ("Turbo", TTurbo);
    ("UserId", TUserId); ("UserType", TUserType); ("ClientNonce", TClientNonce);
    ("FirstMsg", TFirstMsg); ("ReplyParentDisplayName", TReplyParentDisplayName);
    ("ReplyParentMsgBody", TReplyParentMsgBody); ("ReplyParentMsgId", TReplyParentMsgId);
    ("ReplyParentUserId", TReplyParentUserId); ("ReplyParentUserLogin", TReplyParentUserLogin);
    ("ReplyThreadParentMsgId", TReplyThreadParentMsgId);
    ("ReplyThreadParentUserLogin", TReplyThreadParentUserLogin);
    ("FollowersOnly", TFollowersOnly); ("Rituals", TRituals); ("Slow", TSlow);
    ("SubsOnly", TSubsOnly); ("MsgParamCumulativeMonths", TMsgParamCumulativeMonths);
    ("MsgParamLogin", TMsgParamLogin); ("MsgParamMonths", TMsgParamMonths);
    ("MsgParamPromoGiftTotal", TMsgParamPromoGiftTotal);
    ("MsgParamPromoName", TMsgParamPromoName);
    ("MsgParamRecipientDisplayName", TMsgParamRecipientDisplayName);
    ("MsgParamRecipientId", TMsgParamRecipientId);
    ("MsgParamRecipientUserName", TMsgParamRecipientUserName);
    ("MsgParamSenderLogin", TMsgParamSenderLogin); ("MsgParamSenderName", TMsgParamSenderName);
    ("MsgParamShouldShareStreak", TMsgParamShouldShareStreak);
    ("MsgParamStreakMonths", TMsgParamStreakMonths); ("MsgParamSubPlan", TMsgParamSubPlan);
    ("MsgParamSubPlanName", TMsgParamSubPlanName); ("MsgParamRitualName", TMsgParamRitualName);
    ("MsgParamThreshold", TMsgParamThreshold); ("MsgParamGiftMonths", TMsgParamGiftMonths);
    ("MsgParamColor", TMsgParamColor); ("Login", TLogin); ("Bits", TBits);
    ("SystemMsg", TSystemMsg); ("EmoteSets", TEmoteSets); ("ThreadId", TThreadId);
    ("MessageId", TMessageId); ("ReturningChatter", TReturningChatter); ("Color", TColor);
    ("Vip", TVip); ("TargetUserId", TTargetUserId); ("TargetMsgId", TTargetMsgId);
    ("BanDuration", TBanDuration);
    ("MsgParamMultimonthDuration", TMsgParamMultimonthDuration);
    ("MsgParamWasGifted", TMsgParamWasGifted);
    ("MsgParamMultimonthTenure", TMsgParamMultimonthTenure); ("SentTs", TSentTs);
    ("MsgParamOriginId", TMsgParamOriginId); ("MsgParamFunString", TMsgParamFunString);
    ("MsgParamSenderCount", TMsgParamSenderCount);
    ("MsgParamMassGiftCount", TMsgParamMassGiftCount);
    ("MsgParamGiftMonthBeingRedeemed", TMsgParamGiftMonthBeingRedeemed);
    ("MsgParamAnonGift", TMsgParamAnonGift); ("CustomRewardId", TCustomRewardId);
    ("PinnedChatPaidAmount", TPinnedChatPaidAmount);
    ("PinnedChatPaidCurrency", TPinnedChatPaidCurrency);
    ("PinnedChatPaidExponent", TPinnedChatPaidExponent);
    ("PinnedChatPaidLevel", TPinnedChatPaidLevel);
    ("PinnedChatPaidIsSystemMessage", TPinnedChatPaidIsSystemMessage) ]%string.

(** The variants with another spelling on the wire. *)
Definition special_variants : list (string * tag_name) :=
  [ ("r9k", TR9K); ("msg-param-displayName", TMsgParamDisplayName);
    ("msg-param-viewerCount", TMsgParamViewerCount);
    ("msg-param-profileImageURL", TMsgParamProfileImageUrl) ]%string.

(** [s] is the word [w], then a space and [rest], or [s] is just the word. *)
Definition word_rest (s w rest : str) : Prop :=
  ~ In " "%byte w /\ (s = w ++ b " " ++ rest \/ s = w /\ rest = []).

(** All tags of the line are within the storage limits. *)
Definition all_short (s : str) : Prop :=
  forall sec rest l, has_section s sec rest -> tag_section sec l -> Forall short_tag l.

(** The line carries at most 128 tags. *)
Definition at_most_128 (s : str) : Prop :=
  forall sec rest l, has_section s sec rest -> tag_section sec l -> length l <= 128.

(** [first_tag k l o]: [o] is the value of the first pair of [l] with key [k]. *)
Definition first_tag (k : str) (l : list (str * str)) (o : option str) : Prop :=
  match o with
  | Some v => exists l1 l2, l = l1 ++ (k, v) :: l2 /\ ~ In k (map fst l1)
  | None => ~ In k (map fst l)
  end.

(** The tags of a line, with or without a section. *)
Definition line_tags (s : str) (l : list (str * str)) : Prop :=
  (exists sec rest, has_section s sec rest /\ tag_section sec l) \/
  ((forall sec rest, ~ has_section s sec rest) /\ l = []).

(** A value as it is stored: its length is kept modulo 65536. *)
Definition truncated (v : str) : str :=
  firstn (N.to_nat (N.of_nat (length v) mod 65536)) v.

(** The text from the command on: without tag section and prefix. *)
Definition body (s s2 : str) : Prop :=
  exists s1, removed "@" s s1 /\ removed ":" s1 s2.

(** [command_and_rest s w rest]: the command word of a line and what follows. *)
Definition command_and_rest (s w rest : str) : Prop :=
  exists s2, body s s2 /\ word_rest s2 w rest.

(** The part of [p] after its first [c], or all of [p] without one. *)
Definition after_first (c : byte) (p t : str) : Prop :=
  (exists l, p = l ++ [c] ++ t /\ ~ In c l) \/ (~ In c p /\ t = p).

(** The part of [p] after its last [c], or all of [p] without one. *)
Definition after_last (c : byte) (p t : str) : Prop :=
  (exists l, p = l ++ [c] ++ t /\ ~ In c t) \/ (~ In c p /\ t = p).
