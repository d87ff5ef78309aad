(** * MsgBase: helpers, badges and users of src/msg.rs (model, no proofs).

    Every message struct is parametrised by the type [S] of its strings: the
    crate's structs are [X cow] ([Cow<'src, str>] fields). *)

From Verif Require Import Base Tags Irc Unescape.

(** [maybe_clone]: src/msg.rs:386-391. *)
Definition maybe_clone (v : cow) : cow :=
  match v with
  | Borrowed s => Owned s
  | Owned s => Owned s
  end.

(** ** Badges: src/msg.rs:117-288 *)

(** [BadgeData]: src/msg.rs:253-257. *)
Record badge_data (S : Type) := mk_badge_data
  { bd_name : S; bd_version : S; bd_extra : option S }.
Arguments mk_badge_data {S}. Arguments bd_name {S}. Arguments bd_version {S}. Arguments bd_extra {S}.

(** [Subscriber]: src/msg.rs:216-223. *)
Record subscriber (S : Type) := mk_subscriber
  { sb_version : S; sb_months : S; sb_months_n : N }.
Arguments mk_subscriber {S}. Arguments sb_version {S}. Arguments sb_months {S}. Arguments sb_months_n {S}.

(** [enum Badge]: src/msg.rs:117-137. *)
Inductive badge (S : Type) :=
| Staff | Turbo | Broadcaster | Moderator
| BSubscriber (s : subscriber S)
| BOther (d : badge_data S).
Arguments Staff {S}. Arguments Turbo {S}. Arguments Broadcaster {S}. Arguments Moderator {S}.
Arguments BSubscriber {S}. Arguments BOther {S}.

(** [From<Badge> for BadgeData]: src/msg.rs:157-190. *)
Definition badge_data_from (x : badge cow) : badge_data cow :=
  match x with
  | Staff => mk_badge_data (Borrowed (b "staff")) (Borrowed (b "1")) None
  | Turbo => mk_badge_data (Borrowed (b "turbo")) (Borrowed (b "1")) None
  | Broadcaster => mk_badge_data (Borrowed (b "broadcaster")) (Borrowed (b "1")) None
  | Moderator => mk_badge_data (Borrowed (b "moderator")) (Borrowed (b "1")) None
  | BSubscriber s => mk_badge_data (Borrowed (b "subscriber")) (sb_version s) (Some (sb_months s))
  | BOther d => d
  end.

Definition opt_default {A : Type} (d : A) (o : option A) : A :=
  match o with Some a => a | None => d end.

(** [From<BadgeData> for Badge]: src/msg.rs:192-211. *)
Definition badge_from (d : badge_data cow) : badge cow :=
  let name := deref (bd_name d) in
  if str_eqb name (b "staff") then Staff
  else if str_eqb name (b "turbo") then Turbo
  else if str_eqb name (b "broadcaster") then Broadcaster
  else if str_eqb name (b "moderator") then Moderator
  else if str_eqb name (b "subscriber") then
    BSubscriber (mk_subscriber (bd_version d)
      (opt_default (Borrowed (b "1")) (bd_extra d))
      (opt_default 1%N (opt_bind (bd_extra d) (fun v => parse_u64 (deref v)))))
  else BOther d.

(** [Badge::as_badge_data]: src/msg.rs:141-143 (clones, then converts). *)
Definition as_badge_data (x : badge cow) : badge_data cow := badge_data_from x.

(** [Subscriber::into_owned]: src/msg.rs:240-247. *)
Definition subscriber_into_owned (s : subscriber cow) : subscriber cow :=
  mk_subscriber (maybe_clone (sb_version s)) (maybe_clone (sb_months s)) (sb_months_n s).

(** [BadgeData::into_owned]: src/msg.rs:281-287. *)
Definition badge_data_into_owned (d : badge_data cow) : badge_data cow :=
  mk_badge_data (maybe_clone (bd_name d)) (maybe_clone (bd_version d))
    (option_map maybe_clone (bd_extra d)).

(** [Badge::into_owned]: src/msg.rs:145-154. *)
Definition badge_into_owned (x : badge cow) : badge cow :=
  match x with
  | Staff => Staff
  | Turbo => Turbo
  | Broadcaster => Broadcaster
  | Moderator => Moderator
  | BSubscriber s => BSubscriber (subscriber_into_owned s)
  | BOther d => BOther (badge_data_into_owned d)
  end.

(** ** Users: src/msg.rs:293-326 *)

Record user_info (S : Type) := mk_user { u_id : S; u_login : S; u_name : S }.
Arguments mk_user {S}. Arguments u_id {S}. Arguments u_login {S}. Arguments u_name {S}.

(** The getter [User::name]: src/msg.rs:312. *)
Definition user_name (u : user_info cow) : res cow := maybe_unescape (u_name u).

(** [User::into_owned]: src/msg.rs:319-325. *)
Definition user_into_owned (u : user_info cow) : user_info cow :=
  mk_user (maybe_clone (u_id u)) (maybe_clone (u_login u)) (maybe_clone (u_name u)).

(** ** Field parsers *)

(** [is_not_empty]: src/msg.rs:328-330. *)
Definition is_not_empty (s : str) : bool := negb (length s =? 0).

(** [Option::filter]. *)
Definition opt_filter {A : Type} (p : A -> bool) (o : option A) : option A :=
  match o with
  | Some a => if p a then Some a else None
  | None => None
  end.

(** [Option::zip]. *)
Definition opt_zip {A B : Type} (x : option A) (y : option B) : option (A * B) :=
  match x, y with
  | Some a, Some c => Some (a, c)
  | _, _ => None
  end.

(** Days from 0001-01-01 to January 1st of year [y] in the proleptic Gregorian
    calendar. *)
Definition days_before_year (y : Z) : Z :=
  let p := (y - 1)%Z in (365 * p + p / 4 - p / 100 + p / 400)%Z.

(** [chrono::Utc.timestamp_millis_opt(ms).single()] of chrono 0.4.40: the seconds
    and the day are obtained by Euclidean division, and the date must lie in the
    years -262143..=262142.  A [DateTime<Utc>] made this way is represented by
    its number of milliseconds. *)
Definition timestamp_millis_opt (ms : Z) : option Z :=
  let secs := (ms / 1000)%Z in
  let days := (secs / 86400 + days_before_year 1970)%Z in
  if ((days_before_year (-262143) <=? days) && (days <? days_before_year 262143))%Z
  then Some ms else None.

(** [parse_timestamp]: src/msg.rs:332-335. *)
Definition parse_timestamp (s : str) : option Z := opt_bind (parse_i64 s) timestamp_millis_opt.

(** A [std::time::Duration] built by [Duration::from_secs]: whole seconds. *)
Definition duration := N.

(** [parse_duration]: src/msg.rs:337-339. *)
Definition parse_duration (s : str) : option duration := parse_u64 s.

(** [parse_message_text]: src/msg.rs:341-349. *)
Definition parse_message_text (input : str) : str * bool :=
  match strip_prefix (x01 :: b "ACTION ") input with
  | None => (input, false)
  | Some s =>
    match strip_suffix [x01] s with
    | None => (input, false)
    | Some s => (s, true)
    end
  end.

(** [split_comma]: src/msg.rs:351-353. *)
Definition split_comma (s : str) : list str := split "," s.

(** [.flat_map(|x| x.split_once('/'))]. *)
Fixpoint split_slash (l : list str) : list (str * str) :=
  match l with
  | [] => []
  | x :: l' =>
    match split_once (b "/") x with
    | Some p => p :: split_slash l'
    | None => split_slash l'
    end
  end.

(** [parse_badges]: src/msg.rs:355-380. *)
Definition parse_badges (badges badge_info : str) : list (badge cow) :=
  match badges with
  | [] => []
  | _ =>
    let info := split_slash (split "," badge_info) in
    map (fun nv : str * str =>
           badge_from (mk_badge_data (Borrowed (fst nv)) (Borrowed (snd nv))
             (option_map Borrowed
                (option_map snd (find (fun kv : str * str => str_eqb (fst kv) (fst nv)) info)))))
      (split_slash (split "," badges))
  end.

(** [parse_bool]: src/msg.rs:382-384. *)
Definition parse_bool (v : str) : bool :=
  match parse_u8 v with
  | Some n => (0 <? n)%N
  | None => false
  end.

(** [.tag(Badges).zip(.tag(BadgeInfo)).map(parse_badges).unwrap_or_default()],
    used by five message types. *)
Definition tag_badges (m : msg_ref) : res (list (badge cow)) :=
  let! badges := ref_tag m TBadges in
  let! info := ref_tag m TBadgeInfo in
  Ret (match opt_zip badges info with
       | Some (x, y) => parse_badges x y
       | None => []
       end).

(** [.tag(t).filter(is_not_empty).map(Cow::Borrowed)]. *)
Definition tag_non_empty (m : msg_ref) (t : tag_name) : res (option cow) :=
  let! x := ref_tag m t in
  Ret (option_map Borrowed (opt_filter is_not_empty x)).

(** [.tag(t).map(Cow::Borrowed)]. *)
Definition tag_borrowed (m : msg_ref) (t : tag_name) : res (option cow) :=
  let! x := ref_tag m t in Ret (option_map Borrowed x).

(** [.tag(t)?.into()]. *)
Definition tag_into (m : msg_ref) (t : tag_name) : res (option cow) := tag_borrowed m t.

(** [.tag(EmoteSets).map(split_comma)...collect().unwrap_or_default()]. *)
Definition tag_emote_sets (m : msg_ref) : res (list cow) :=
  let! x := ref_tag m TEmoteSets in
  Ret (match x with
       | Some s => map Borrowed (split_comma s)
       | None => []
       end).

(** [.tag(Emotes).unwrap_or_default().into()]. *)
Definition tag_emotes (m : msg_ref) : res cow :=
  let! x := ref_tag m TEmotes in Ret (Borrowed (opt_default [] x)).

(** [.tag(t).and_then(|v| v.parse().ok())] at type [u64]. *)
Definition tag_u64 (m : msg_ref) (t : tag_name) : res (option N) :=
  let! x := ref_tag m t in Ret (opt_bind x parse_u64).

(** [parse_timestamp(.tag(TmiSentTs)?)?] and
    [.tag(TmiSentTs).and_then(parse_timestamp)?]. *)
Definition tag_timestamp (m : msg_ref) : res (option Z) :=
  let! x := ref_tag m TTmiSentTs in Ret (opt_bind x parse_timestamp).

(** [.channel()?.into()]. *)
Definition channel_into (m : msg_ref) : res (option cow) :=
  let! x := ref_channel m in Ret (option_map Borrowed x).

(** [.prefix().and_then(|prefix| prefix.nick).map(Cow::Borrowed)]. *)
Definition prefix_nick (m : msg_ref) : res (option cow) :=
  let! p := ref_prefix m in Ret (option_map Borrowed (opt_bind p nick)).
