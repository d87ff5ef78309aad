(** * Snapshots: the crate's recorded outputs (src/msg/snapshots/*.snap) as tests of the model.

    The model parses the line of each of the crate's snapshot tests and prints the
    message with [{:#?}]; the text is the recorded one.  These are tests of the model
    against recorded runs of the program, not properties.  Generated by
    tools/gen_snapshots.py. *)

From Verif Require Import Base Wide Tags Irc MsgBase MsgTypes MsgNotice Message Dbg.

(** The printed form of a line, with each of the two tag parsers. *)
Definition printed_by (bd : build) {A : Type} (d : A -> dbg) (parse : msg_ref -> res (option A)) (line : str)
  : res (option str) :=
  let? m := ref_parse bd line in
  let? x := parse m in
  Ret (Some (show (fun _ => true) true (d x))).

Definition prints {A : Type} (d : A -> dbg) (parse : msg_ref -> res (option A)) (line text : str) : Prop :=
  printed_by Scalar d parse line = Ret (Some text) /\ printed_by (Simd Sse2 0) d parse line = Ret (Some text).

Example snapshot_clear_chat_parse_clearchat_ban :
  prints dbg_clear_chat clear_chat_parse
    (b "@room-id=11148817;target-user-id=70948394;tmi-sent-ts=1594561360331 :tmi.twitch.tv CLEARCHAT #pajlada :weeb123")
    (b "ClearChat {
    channel: ""#pajlada"",
    channel_id: ""11148817"",
    action: Ban(
        Ban {
            user: ""weeb123"",
            id: ""70948394"",
        },
    ),
    timestamp: 2020-07-12T13:42:40.331Z,
}").
Proof. split; vm_compute; reflexivity. Qed.

Example snapshot_clear_chat_parse_clearchat_clear :
  prints dbg_clear_chat clear_chat_parse
    (b "@room-id=40286300;tmi-sent-ts=1594561392337 :tmi.twitch.tv CLEARCHAT #randers")
    (b "ClearChat {
    channel: ""#randers"",
    channel_id: ""40286300"",
    action: Clear,
    timestamp: 2020-07-12T13:43:12.337Z,
}").
Proof. split; vm_compute; reflexivity. Qed.

Example snapshot_clear_chat_parse_clearchat_timeout :
  prints dbg_clear_chat clear_chat_parse
    (b "@ban-duration=1;room-id=11148817;target-user-id=148973258;tmi-sent-ts=1594553828245 :tmi.twitch.tv CLEARCHAT #pajlada :fabzeef")
    (b "ClearChat {
    channel: ""#pajlada"",
    channel_id: ""11148817"",
    action: TimeOut(
        TimeOut {
            user: ""fabzeef"",
            id: ""148973258"",
            duration: 1s,
        },
    ),
    timestamp: 2020-07-12T11:37:08.245Z,
}").
Proof. split; vm_compute; reflexivity. Qed.

Example snapshot_clear_msg_parse_clearmsg_action :
  prints dbg_clear_msg clear_msg_parse
    (b "@login=alazymeme;room-id=;target-msg-id=3c92014f-340a-4dc3-a9c9-e5cf182f4a84;tmi-sent-ts=1594561955611 :tmi.twitch.tv CLEARMSG #pajlada :" ++ [x01] ++ b "ACTION lole" ++ [x01])
    (b "ClearMsg {
    channel: ""#pajlada"",
    channel_id: """",
    sender: ""alazymeme"",
    target_message_id: ""3c92014f-340a-4dc3-a9c9-e5cf182f4a84"",
    text: ""lole"",
    is_action: true,
    timestamp: 2020-07-12T13:52:35.611Z,
}").
Proof. split; vm_compute; reflexivity. Qed.

Example snapshot_clear_msg_parse_clearmsg_basic :
  prints dbg_clear_msg clear_msg_parse
    (b "@login=alazymeme;room-id=;target-msg-id=3c92014f-340a-4dc3-a9c9-e5cf182f4a84;tmi-sent-ts=1594561955611 :tmi.twitch.tv CLEARMSG #pajlada :lole")
    (b "ClearMsg {
    channel: ""#pajlada"",
    channel_id: """",
    sender: ""alazymeme"",
    target_message_id: ""3c92014f-340a-4dc3-a9c9-e5cf182f4a84"",
    text: ""lole"",
    is_action: false,
    timestamp: 2020-07-12T13:52:35.611Z,
}").
Proof. split; vm_compute; reflexivity. Qed.

Example snapshot_global_user_state_parse_globaluserstate :
  prints dbg_global_user_state global_user_state_parse
    (b "@badge-info=;badges=;color=;display-name=randers811;emote-sets=0;user-id=553170741;user-type= :tmi.twitch.tv GLOBALUSERSTATE")
    (b "GlobalUserState {
    id: ""553170741"",
    name: ""randers811"",
    badges: [],
    emote_sets: [
        ""0"",
    ],
    color: None,
}").
Proof. split; vm_compute; reflexivity. Qed.

Example snapshot_join_parse_join :
  prints dbg_join join_parse
    (b ":randers811!randers811@randers811.tmi.twitch.tv JOIN #pajlada")
    (b "Join {
    channel: ""#pajlada"",
    user: ""randers811"",
}").
Proof. split; vm_compute; reflexivity. Qed.

Example snapshot_notice_parse_notice_basic :
  prints dbg_notice notice_parse
    (b "@msg-id=msg_banned :tmi.twitch.tv NOTICE #forsen :You are permanently banned from talking in forsen.")
    (b "Notice {
    channel: Some(
        ""#forsen"",
    ),
    text: ""You are permanently banned from talking in forsen."",
    id: Some(
        ""msg_banned"",
    ),
}").
Proof. split; vm_compute; reflexivity. Qed.

Example snapshot_notice_parse_notice_before_login :
  prints dbg_notice notice_parse
    (b ":tmi.twitch.tv NOTICE * :Improperly formatted auth")
    (b "Notice {
    channel: None,
    text: ""Improperly formatted auth"",
    id: None,
}").
Proof. split; vm_compute; reflexivity. Qed.

Example snapshot_part_parse_join :
  prints dbg_part part_parse
    (b ":randers811!randers811@randers811.tmi.twitch.tv PART #pajlada")
    (b "Part {
    channel: ""#pajlada"",
    user: ""randers811"",
}").
Proof. split; vm_compute; reflexivity. Qed.

Example snapshot_ping_parse_ping :
  prints dbg_ping ping_parse
    (b ":tmi.twitch.tv PING")
    (b "Ping {
    nonce: None,
}").
Proof. split; vm_compute; reflexivity. Qed.

Example snapshot_ping_parse_ping_nonce :
  prints dbg_ping ping_parse
    (b ":tmi.twitch.tv PING :nonce")
    (b "Ping {
    nonce: Some(
        ""nonce"",
    ),
}").
Proof. split; vm_compute; reflexivity. Qed.

Example snapshot_pong_parse_ping :
  prints dbg_pong pong_parse
    (b ":tmi.twitch.tv PONG")
    (b "Pong {
    nonce: None,
}").
Proof. split; vm_compute; reflexivity. Qed.

Example snapshot_pong_parse_ping_nonce :
  prints dbg_pong pong_parse
    (b ":tmi.twitch.tv PONG :nonce")
    (b "Pong {
    nonce: Some(
        ""nonce"",
    ),
}").
Proof. split; vm_compute; reflexivity. Qed.

Example snapshot_privmsg_parse_privmsg_action_and_badges :
  prints dbg_privmsg privmsg_parse
    (b "@badge-info=subscriber/22;badges=moderator/1,subscriber/12;color=#19E6E6;display-name=randers;emotes=;flags=;id=d831d848-b7c7-4559-ae3a-2cb88f4dbfed;mod=1;room-id=11148817;subscriber=1;tmi-sent-ts=1594555275886;turbo=0;user-id=40286300;user-type=mod :randers!randers@randers.tmi.twitch.tv PRIVMSG #pajlada :" ++ [x01] ++ b "ACTION -tags" ++ [x01])
    (b "Privmsg {
    channel: ""#pajlada"",
    channel_id: ""11148817"",
    msg_id: None,
    id: ""d831d848-b7c7-4559-ae3a-2cb88f4dbfed"",
    sender: User {
        id: ""40286300"",
        login: ""randers"",
        name: ""randers"",
    },
    reply_to: None,
    pinned_chat: None,
    text: ""-tags"",
    is_action: true,
    badges: [
        Moderator,
        Subscriber(
            Subscriber {
                version: ""12"",
                months: ""22"",
                months_n: 22,
            },
        ),
    ],
    color: Some(
        ""#19E6E6"",
    ),
    custom_reward_id: None,
    bits: None,
    emotes: """",
    timestamp: 2020-07-12T12:01:15.886Z,
}").
Proof. split; vm_compute; reflexivity. Qed.

Example snapshot_privmsg_parse_privmsg_basic_example :
  prints dbg_privmsg privmsg_parse
    (b "@badge-info=;badges=;color=#0000FF;display-name=JuN1oRRRR;emotes=;flags=;id=e9d998c3-36f1-430f-89ec-6b887c28af36;mod=0;room-id=11148817;subscriber=0;tmi-sent-ts=1594545155039;turbo=0;user-id=29803735;user-type= :jun1orrrr!jun1orrrr@jun1orrrr.tmi.twitch.tv PRIVMSG #pajlada :dank cam")
    (b "Privmsg {
    channel: ""#pajlada"",
    channel_id: ""11148817"",
    msg_id: None,
    id: ""e9d998c3-36f1-430f-89ec-6b887c28af36"",
    sender: User {
        id: ""29803735"",
        login: ""jun1orrrr"",
        name: ""JuN1oRRRR"",
    },
    reply_to: None,
    pinned_chat: None,
    text: ""dank cam"",
    is_action: false,
    badges: [],
    color: Some(
        ""#0000FF"",
    ),
    custom_reward_id: None,
    bits: None,
    emotes: """",
    timestamp: 2020-07-12T09:12:35.039Z,
}").
Proof. split; vm_compute; reflexivity. Qed.

Example snapshot_privmsg_parse_privmsg_custom_reward_id :
  prints dbg_privmsg privmsg_parse
    (b "@badge-info=subscriber/1;badges=broadcaster/1,subscriber/0;color=#8A2BE2;custom-reward-id=be22f712-8fd9-426a-90df-c13eae6cc6dc;display-name=vesdeg;emotes=;first-msg=0;flags=;id=79828352-d979-4e49-bd5e-15c487d275e2;mod=0;returning-chatter=0;room-id=164774298;subscriber=1;tmi-sent-ts=1709298826724;turbo=0;user-id=164774298;user-type= :vesdeg!vesdeg@vesdeg.tmi.twitch.tv PRIVMSG #vesdeg :#00FF00")
    (b "Privmsg {
    channel: ""#vesdeg"",
    channel_id: ""164774298"",
    msg_id: None,
    id: ""79828352-d979-4e49-bd5e-15c487d275e2"",
    sender: User {
        id: ""164774298"",
        login: ""vesdeg"",
        name: ""vesdeg"",
    },
    reply_to: None,
    pinned_chat: None,
    text: ""#00FF00"",
    is_action: false,
    badges: [
        Broadcaster,
        Subscriber(
            Subscriber {
                version: ""0"",
                months: ""1"",
                months_n: 1,
            },
        ),
    ],
    color: Some(
        ""#8A2BE2"",
    ),
    custom_reward_id: Some(
        ""be22f712-8fd9-426a-90df-c13eae6cc6dc"",
    ),
    bits: None,
    emotes: """",
    timestamp: 2024-03-01T13:13:46.724Z,
}").
Proof. split; vm_compute; reflexivity. Qed.

Example snapshot_privmsg_parse_privmsg_display_name_with_middle_space :
  prints dbg_privmsg privmsg_parse
    (b "@badge-info=;badges=;color=;display-name=Riot\sGames;emotes=;flags=;id=bdfa278e-11c4-484f-9491-0a61b16fab60;mod=1;room-id=36029255;subscriber=0;tmi-sent-ts=1593953876927;turbo=0;user-id=36029255;user-type= :riotgames!riotgames@riotgames.tmi.twitch.tv PRIVMSG #riotgames :test fake message")
    (b "Privmsg {
    channel: ""#riotgames"",
    channel_id: ""36029255"",
    msg_id: None,
    id: ""bdfa278e-11c4-484f-9491-0a61b16fab60"",
    sender: User {
        id: ""36029255"",
        login: ""riotgames"",
        name: ""Riot\\sGames"",
    },
    reply_to: None,
    pinned_chat: None,
    text: ""test fake message"",
    is_action: false,
    badges: [],
    color: None,
    custom_reward_id: None,
    bits: None,
    emotes: """",
    timestamp: 2020-07-05T12:57:56.927Z,
}").
Proof. split; vm_compute; reflexivity. Qed.

Example snapshot_privmsg_parse_privmsg_display_name_with_trailing_space :
  prints dbg_privmsg privmsg_parse
    (b "@rm-received-ts=1594554085918;historical=1;badge-info=;badges=;client-nonce=815810609edecdf4537bd9586994182b;color=;display-name=CarvedTaleare\s;emotes=;flags=;id=c9b941d9-a0ab-4534-9903-971768fcdf10;mod=0;room-id=22484632;subscriber=0;tmi-sent-ts=1594554085753;turbo=0;user-id=467684514;user-type= :carvedtaleare!carvedtaleare@carvedtaleare.tmi.twitch.tv PRIVMSG #forsen :NaM")
    (b "Privmsg {
    channel: ""#forsen"",
    channel_id: ""22484632"",
    msg_id: None,
    id: ""c9b941d9-a0ab-4534-9903-971768fcdf10"",
    sender: User {
        id: ""467684514"",
        login: ""carvedtaleare"",
        name: ""CarvedTaleare\\s"",
    },
    reply_to: None,
    pinned_chat: None,
    text: ""NaM"",
    is_action: false,
    badges: [],
    color: None,
    custom_reward_id: None,
    bits: None,
    emotes: """",
    timestamp: 2020-07-12T11:41:25.753Z,
}").
Proof. split; vm_compute; reflexivity. Qed.

Example snapshot_privmsg_parse_privmsg_emote_non_numeric_id :
  prints dbg_privmsg privmsg_parse
    (b "@badge-info=;badges=;client-nonce=245b864d508a69a685e25104204bd31b;color=#FF144A;display-name=AvianArtworks;emote-only=1;emotes=300196486_TK:0-7;flags=;id=21194e0d-f0fa-4a8f-a14f-3cbe89366ad9;mod=0;room-id=11148817;subscriber=0;tmi-sent-ts=1594552113129;turbo=0;user-id=39565465;user-type= :avianartworks!avianartworks@avianartworks.tmi.twitch.tv PRIVMSG #pajlada :pajaM_TK")
    (b "Privmsg {
    channel: ""#pajlada"",
    channel_id: ""11148817"",
    msg_id: None,
    id: ""21194e0d-f0fa-4a8f-a14f-3cbe89366ad9"",
    sender: User {
        id: ""39565465"",
        login: ""avianartworks"",
        name: ""AvianArtworks"",
    },
    reply_to: None,
    pinned_chat: None,
    text: ""pajaM_TK"",
    is_action: false,
    badges: [],
    color: Some(
        ""#FF144A"",
    ),
    custom_reward_id: None,
    bits: None,
    emotes: ""300196486_TK:0-7"",
    timestamp: 2020-07-12T11:08:33.129Z,
}").
Proof. split; vm_compute; reflexivity. Qed.

Example snapshot_privmsg_parse_privmsg_emotes_1 :
  prints dbg_privmsg privmsg_parse
    (b "@badge-info=;badges=moderator/1;client-nonce=fc4ebe0889105c8404a9be81cf9a9ad4;color=#FF0000;display-name=boring_nick;emotes=555555591:51-52/25:0-4,12-16,18-22/1902:6-10,29-33,35-39/1:45-46,48-49;first-msg=0;flags=;id=3d9540a0-04b6-4bea-baf9-9165b14160be;mod=1;returning-chatter=0;room-id=55203741;subscriber=0;tmi-sent-ts=1696093084212;turbo=0;user-id=111024753;user-type=mod :boring_nick!boring_nick@boring_nick.tmi.twitch.tv PRIVMSG #moscowwbish :Kappa Keepo Kappa Kappa test Keepo Keepo 123 :) :) :P")
    (b "Privmsg {
    channel: ""#moscowwbish"",
    channel_id: ""55203741"",
    msg_id: None,
    id: ""3d9540a0-04b6-4bea-baf9-9165b14160be"",
    sender: User {
        id: ""111024753"",
        login: ""boring_nick"",
        name: ""boring_nick"",
    },
    reply_to: None,
    pinned_chat: None,
    text: ""Kappa Keepo Kappa Kappa test Keepo Keepo 123 :) :) :P"",
    is_action: false,
    badges: [
        Moderator,
    ],
    color: Some(
        ""#FF0000"",
    ),
    custom_reward_id: None,
    bits: None,
    emotes: ""555555591:51-52/25:0-4,12-16,18-22/1902:6-10,29-33,35-39/1:45-46,48-49"",
    timestamp: 2023-09-30T16:58:04.212Z,
}").
Proof. split; vm_compute; reflexivity. Qed.

Example snapshot_privmsg_parse_privmsg_korean_display_name :
  prints dbg_privmsg privmsg_parse
    (b "@badge-info=subscriber/35;badges=moderator/1,subscriber/3024;color=#FF0000;display-name=테스트계정420;emotes=;flags=;id=bdfa278e-11c4-484f-9491-0a61b16fab60;mod=1;room-id=11148817;subscriber=1;tmi-sent-ts=1593953876927;turbo=0;user-id=117166826;user-type=mod :testaccount_420!testaccount_420@testaccount_420.tmi.twitch.tv PRIVMSG #pajlada :@asd")
    (b "Privmsg {
    channel: ""#pajlada"",
    channel_id: ""11148817"",
    msg_id: None,
    id: ""bdfa278e-11c4-484f-9491-0a61b16fab60"",
    sender: User {
        id: ""117166826"",
        login: ""testaccount_420"",
        name: ""테스트계정420"",
    },
    reply_to: None,
    pinned_chat: None,
    text: ""@asd"",
    is_action: false,
    badges: [
        Moderator,
        Subscriber(
            Subscriber {
                version: ""3024"",
                months: ""35"",
                months_n: 35,
            },
        ),
    ],
    color: Some(
        ""#FF0000"",
    ),
    custom_reward_id: None,
    bits: None,
    emotes: """",
    timestamp: 2020-07-05T12:57:56.927Z,
}").
Proof. split; vm_compute; reflexivity. Qed.

Example snapshot_privmsg_parse_privmsg_message_with_bits :
  prints dbg_privmsg privmsg_parse
    (b "@badge-info=;badges=bits/100;bits=1;color=#004B49;display-name=TETYYS;emotes=;flags=;id=d7f03a35-f339-41ca-b4d4-7c0721438570;mod=0;room-id=11148817;subscriber=0;tmi-sent-ts=1594571566672;turbo=0;user-id=36175310;user-type= :tetyys!tetyys@tetyys.tmi.twitch.tv PRIVMSG #pajlada :trihard1")
    (b "Privmsg {
    channel: ""#pajlada"",
    channel_id: ""11148817"",
    msg_id: None,
    id: ""d7f03a35-f339-41ca-b4d4-7c0721438570"",
    sender: User {
        id: ""36175310"",
        login: ""tetyys"",
        name: ""TETYYS"",
    },
    reply_to: None,
    pinned_chat: None,
    text: ""trihard1"",
    is_action: false,
    badges: [
        Other(
            BadgeData {
                name: ""bits"",
                version: ""100"",
                extra: None,
            },
        ),
    ],
    color: Some(
        ""#004B49"",
    ),
    custom_reward_id: None,
    bits: Some(
        1,
    ),
    emotes: """",
    timestamp: 2020-07-12T16:32:46.672Z,
}").
Proof. split; vm_compute; reflexivity. Qed.

Example snapshot_privmsg_parse_privmsg_pinned_chat :
  prints dbg_privmsg privmsg_parse
    (b "@badge-info=;badges=glhf-pledge/1;color=;display-name=pajlada;emotes=;first-msg=0;flags=;id=f6fb34f8-562f-4b4d-b628-32113d0ef4b0;mod=0;pinned-chat-paid-amount=200;pinned-chat-paid-canonical-amount=200;pinned-chat-paid-currency=USD;pinned-chat-paid-exponent=2;pinned-chat-paid-is-system-message=0;pinned-chat-paid-level=ONE;returning-chatter=0;room-id=12345678;subscriber=0;tmi-sent-ts=1687471984306;turbo=0;user-id=12345678;user-type= :pajlada!pajlada@pajlada.tmi.twitch.tv PRIVMSG #channel :This is a pinned message")
    (b "Privmsg {
    channel: ""#channel"",
    channel_id: ""12345678"",
    msg_id: None,
    id: ""f6fb34f8-562f-4b4d-b628-32113d0ef4b0"",
    sender: User {
        id: ""12345678"",
        login: ""pajlada"",
        name: ""pajlada"",
    },
    reply_to: None,
    pinned_chat: Some(
        PinnedChat {
            paid_amount: 200,
            paid_currency: ""USD"",
            paid_exponent: 2,
            paid_level: ONE,
            is_system_message: false,
        },
    ),
    text: ""This is a pinned message"",
    is_action: false,
    badges: [
        Other(
            BadgeData {
                name: ""glhf-pledge"",
                version: ""1"",
                extra: None,
            },
        ),
    ],
    color: None,
    custom_reward_id: None,
    bits: None,
    emotes: """",
    timestamp: 2023-06-22T22:13:04.306Z,
}").
Proof. split; vm_compute; reflexivity. Qed.

Example snapshot_privmsg_parse_privmsg_reply_parent_included :
  prints dbg_privmsg privmsg_parse
    (b "@badge-info=;badges=;client-nonce=cd56193132f934ac71b4d5ac488d4bd6;color=;display-name=LeftSwing;emotes=;first-msg=0;flags=;id=5b4f63a9-776f-4fce-bf3c-d9707f52e32d;mod=0;reply-parent-display-name=Retoon;reply-parent-msg-body=hello;reply-parent-msg-id=6b13e51b-7ecb-43b5-ba5b-2bb5288df696;reply-parent-user-id=37940952;reply-parent-user-login=retoon;reply-thread-parent-msg-id=6b13e51b-7ecb-43b5-ba5b-2bb5288df696;reply-thread-parent-user-login=retoon;returning-chatter=0;room-id=37940952;subscriber=0;tmi-sent-ts=1673925983585;turbo=0;user-id=133651738;user-type= :leftswing!leftswing@leftswing.tmi.twitch.tv PRIVMSG #retoon :@Retoon yes")
    (b "Privmsg {
    channel: ""#retoon"",
    channel_id: ""37940952"",
    msg_id: None,
    id: ""5b4f63a9-776f-4fce-bf3c-d9707f52e32d"",
    sender: User {
        id: ""133651738"",
        login: ""leftswing"",
        name: ""LeftSwing"",
    },
    reply_to: Some(
        Reply {
            thread_parent_message_id: ""6b13e51b-7ecb-43b5-ba5b-2bb5288df696"",
            thread_parent_user_login: ""retoon"",
            message_id: ""6b13e51b-7ecb-43b5-ba5b-2bb5288df696"",
            sender: User {
                id: ""37940952"",
                login: ""retoon"",
                name: ""Retoon"",
            },
            text: ""hello"",
        },
    ),
    pinned_chat: None,
    text: ""@Retoon yes"",
    is_action: false,
    badges: [],
    color: None,
    custom_reward_id: None,
    bits: None,
    emotes: """",
    timestamp: 2023-01-17T03:26:23.585Z,
}").
Proof. split; vm_compute; reflexivity. Qed.

Example snapshot_room_state_parse_room_state_basic_full :
  prints dbg_room_state (room_state_parse Debug)
    (b "@emote-only=0;followers-only=-1;r9k=0;rituals=0;room-id=40286300;slow=0;subs-only=0 :tmi.twitch.tv ROOMSTATE #randers")
    (b "RoomState {
    channel: ""#randers"",
    channel_id: ""40286300"",
    emote_only: Some(
        false,
    ),
    followers_only: Some(
        Disabled,
    ),
    r9k: Some(
        false,
    ),
    slow: Some(
        0ns,
    ),
    subs_only: Some(
        false,
    ),
}").
Proof. split; vm_compute; reflexivity. Qed.

Example snapshot_room_state_parse_room_state_basic_full2 :
  prints dbg_room_state (room_state_parse Debug)
    (b "@emote-only=1;followers-only=0;r9k=1;rituals=0;room-id=40286300;slow=5;subs-only=1 :tmi.twitch.tv ROOMSTATE #randers")
    (b "RoomState {
    channel: ""#randers"",
    channel_id: ""40286300"",
    emote_only: Some(
        true,
    ),
    followers_only: Some(
        Enabled(
            None,
        ),
    ),
    r9k: Some(
        true,
    ),
    slow: Some(
        5s,
    ),
    subs_only: Some(
        true,
    ),
}").
Proof. split; vm_compute; reflexivity. Qed.

Example snapshot_room_state_parse_room_state_followers_non_zero :
  prints dbg_room_state (room_state_parse Debug)
    (b "@emote-only=1;followers-only=10;r9k=1;rituals=0;room-id=40286300;slow=5;subs-only=1 :tmi.twitch.tv ROOMSTATE #randers")
    (b "RoomState {
    channel: ""#randers"",
    channel_id: ""40286300"",
    emote_only: Some(
        true,
    ),
    followers_only: Some(
        Enabled(
            Some(
                600s,
            ),
        ),
    ),
    r9k: Some(
        true,
    ),
    slow: Some(
        5s,
    ),
    subs_only: Some(
        true,
    ),
}").
Proof. split; vm_compute; reflexivity. Qed.

Example snapshot_room_state_parse_room_state_partial_1 :
  prints dbg_room_state (room_state_parse Debug)
    (b "@room-id=40286300;slow=5 :tmi.twitch.tv ROOMSTATE #randers")
    (b "RoomState {
    channel: ""#randers"",
    channel_id: ""40286300"",
    emote_only: None,
    followers_only: None,
    r9k: None,
    slow: Some(
        5s,
    ),
    subs_only: None,
}").
Proof. split; vm_compute; reflexivity. Qed.

Example snapshot_room_state_parse_room_state_partial_2 :
  prints dbg_room_state (room_state_parse Debug)
    (b "@emote-only=1;room-id=40286300 :tmi.twitch.tv ROOMSTATE #randers")
    (b "RoomState {
    channel: ""#randers"",
    channel_id: ""40286300"",
    emote_only: Some(
        true,
    ),
    followers_only: None,
    r9k: None,
    slow: None,
    subs_only: None,
}").
Proof. split; vm_compute; reflexivity. Qed.

Example snapshot_user_notice_parse_anongiftpaidupgrade_with_promo :
  prints dbg_user_notice user_notice_parse
    (b "@badge-info=subscriber/1;badges=subscriber/0,premium/1;color=#8A2BE2;display-name=samura1jack_ttv;emotes=;flags=;id=144ee636-0c1d-404e-8b29-35449a045a7e;msg-param-promo-name=TestSubtember2020;msg-param-promo-gift-total=4003;login=samura1jack_ttv;mod=0;msg-id=anongiftpaidupgrade;room-id=71092938;subscriber=1;system-msg=samura1jack_ttv\sis\scontinuing\sthe\sGift\sSub\sthey\sgot\sfrom\san\sanonymous\suser!\sbla\sbla\sbla\sstuff\sabout\spromo\shere;tmi-sent-ts=1594327421732;user-id=102707709;user-type= :tmi.twitch.tv USERNOTICE #xqcow")
    (b "UserNotice {
    channel: ""#xqcow"",
    channel_id: ""71092938"",
    sender: None,
    text: None,
    system_message: Some(
        ""samura1jack_ttv\\sis\\scontinuing\\sthe\\sGift\\sSub\\sthey\\sgot\\sfrom\\san\\sanonymous\\suser!\\sbla\\sbla\\sbla\\sstuff\\sabout\\spromo\\shere"",
    ),
    event: AnonGiftPaidUpgrade(
        AnonGiftPaidUpgrade {
            promotion: Some(
                SubGiftPromo {
                    total_gifts: 4003,
                    promo_name: ""TestSubtember2020"",
                },
            ),
        },
    ),
    event_id: ""anongiftpaidupgrade"",
    badges: [
        Subscriber(
            Subscriber {
                version: ""0"",
                months: ""1"",
                months_n: 1,
            },
        ),
        Other(
            BadgeData {
                name: ""premium"",
                version: ""1"",
                extra: None,
            },
        ),
    ],
    emotes: """",
    color: Some(
        ""#8A2BE2"",
    ),
    message_id: ""144ee636-0c1d-404e-8b29-35449a045a7e"",
    timestamp: 2020-07-09T20:43:41.732Z,
}").
Proof. split; vm_compute; reflexivity. Qed.

Example snapshot_user_notice_parse_anonsubgift :
  prints dbg_user_notice user_notice_parse
    (b "@badge-info=;badges=;color=;display-name=xQcOW;emotes=;flags=;id=e21409b1-d25d-4a1a-b5cf-ef27d8b7030e;login=xqcow;mod=0;msg-id=anonsubgift;msg-param-gift-months=1;msg-param-months=2;msg-param-origin-id=da\s39\sa3\see\s5e\s6b\s4b\s0d\s32\s55\sbf\sef\s95\s60\s18\s90\saf\sd8\s07\s09;msg-param-recipient-display-name=qatarking24xd;msg-param-recipient-id=236653628;msg-param-recipient-user-name=qatarking24xd;msg-param-sender-count=0;msg-param-sub-plan-name=Channel\sSubscription\s(xqcow);msg-param-sub-plan=1000;room-id=71092938;subscriber=0;system-msg=An\sanonymous\sgifter\sgifted\sa\sTier\s1\ssub\sto\sqatarking24xd!;tmi-sent-ts=1594583782376;user-id=71092938;user-type= :tmi.twitch.tv USERNOTICE #xqcow")
    (b "UserNotice {
    channel: ""#xqcow"",
    channel_id: ""71092938"",
    sender: None,
    text: None,
    system_message: Some(
        ""An\\sanonymous\\sgifter\\sgifted\\sa\\sTier\\s1\\ssub\\sto\\sqatarking24xd!"",
    ),
    event: SubGift(
        SubGift {
            cumulative_months: 2,
            recipient: User {
                id: ""236653628"",
                login: ""qatarking24xd"",
                name: ""qatarking24xd"",
            },
            sub_plan: ""1000"",
            sub_plan_name: ""Channel\\sSubscription\\s(xqcow)"",
            num_gifted_months: 1,
        },
    ),
    event_id: ""anonsubgift"",
    badges: [],
    emotes: """",
    color: None,
    message_id: ""e21409b1-d25d-4a1a-b5cf-ef27d8b7030e"",
    timestamp: 2020-07-12T19:56:22.376Z,
}").
Proof. split; vm_compute; reflexivity. Qed.

Example snapshot_user_notice_parse_anonsubmysterygift :
  prints dbg_user_notice user_notice_parse
    (b "@badge-info=subscriber/2;badges=subscriber/2;color=#00FFF5;display-name=CrazyCrackAnimal;emotes=;flags=;id=7006f242-a45c-4e07-83b3-11f9c6d1ee28;login=crazycrackanimal;mod=0;msg-id=giftpaidupgrade;msg-param-sender-login=stridezgum;msg-param-sender-name=Stridezgum;room-id=71092938;subscriber=1;system-msg=CrazyCrackAnimal\sis\scontinuing\sthe\sGift\sSub\sthey\sgot\sfrom\sStridezgum!;tmi-sent-ts=1594518849459;user-id=86082877;user-type= :tmi.twitch.tv USERNOTICE #xqcow")
    (b "UserNotice {
    channel: ""#xqcow"",
    channel_id: ""71092938"",
    sender: Some(
        User {
            id: ""86082877"",
            login: ""crazycrackanimal"",
            name: ""CrazyCrackAnimal"",
        },
    ),
    text: None,
    system_message: Some(
        ""CrazyCrackAnimal\\sis\\scontinuing\\sthe\\sGift\\sSub\\sthey\\sgot\\sfrom\\sStridezgum!"",
    ),
    event: GiftPaidUpgrade(
        GiftPaidUpgrade {
            gifter_login: ""stridezgum"",
            gifter_name: ""Stridezgum"",
            promotion: None,
        },
    ),
    event_id: ""giftpaidupgrade"",
    badges: [
        Subscriber(
            Subscriber {
                version: ""2"",
                months: ""2"",
                months_n: 2,
            },
        ),
    ],
    emotes: """",
    color: Some(
        ""#00FFF5"",
    ),
    message_id: ""7006f242-a45c-4e07-83b3-11f9c6d1ee28"",
    timestamp: 2020-07-12T01:54:09.459Z,
}").
Proof. split; vm_compute; reflexivity. Qed.

Example snapshot_user_notice_parse_bitsbadgetier :
  prints dbg_user_notice user_notice_parse
    (b "@badge-info=;badges=sub-gifter/50;color=;display-name=AdamAtReflectStudios;emotes=;flags=;id=7f1336e4-f84a-4510-809d-e57bf50af0cc;login=adamatreflectstudios;mod=0;msg-id=rewardgift;msg-param-domain=pride_megacommerce_2020;msg-param-selected-count=100;msg-param-total-reward-count=100;msg-param-trigger-amount=20;msg-param-trigger-type=SUBGIFT;room-id=71092938;subscriber=0;system-msg=AdamAtReflectStudios's\sGift\sshared\srewards\sto\s100\sothers\sin\sChat!;tmi-sent-ts=1594583778756;user-id=211711554;user-type= :tmi.twitch.tv USERNOTICE #xqcow")
    (b "UserNotice {
    channel: ""#xqcow"",
    channel_id: ""71092938"",
    sender: None,
    text: None,
    system_message: Some(
        ""AdamAtReflectStudios's\\sGift\\sshared\\srewards\\sto\\s100\\sothers\\sin\\sChat!"",
    ),
    event: Unknown,
    event_id: ""rewardgift"",
    badges: [
        Other(
            BadgeData {
                name: ""sub-gifter"",
                version: ""50"",
                extra: None,
            },
        ),
    ],
    emotes: """",
    color: None,
    message_id: ""7f1336e4-f84a-4510-809d-e57bf50af0cc"",
    timestamp: 2020-07-12T19:56:18.756Z,
}").
Proof. split; vm_compute; reflexivity. Qed.

Example snapshot_user_notice_parse_giftpaidupgrade_with_promo :
  prints dbg_user_notice user_notice_parse
    (b "@badge-info=subscriber/1;badges=subscriber/0,premium/1;color=#8A2BE2;display-name=samura1jack_ttv;emotes=;flags=;id=144ee636-0c1d-404e-8b29-35449a045a7e;login=samura1jack_ttv;mod=0;msg-id=anongiftpaidupgrade;room-id=71092938;subscriber=1;system-msg=samura1jack_ttv\sis\scontinuing\sthe\sGift\sSub\sthey\sgot\sfrom\san\sanonymous\suser!;tmi-sent-ts=1594327421732;user-id=102707709;user-type= :tmi.twitch.tv USERNOTICE #xqcow")
    (b "UserNotice {
    channel: ""#xqcow"",
    channel_id: ""71092938"",
    sender: None,
    text: None,
    system_message: Some(
        ""samura1jack_ttv\\sis\\scontinuing\\sthe\\sGift\\sSub\\sthey\\sgot\\sfrom\\san\\sanonymous\\suser!"",
    ),
    event: AnonGiftPaidUpgrade(
        AnonGiftPaidUpgrade {
            promotion: None,
        },
    ),
    event_id: ""anongiftpaidupgrade"",
    badges: [
        Subscriber(
            Subscriber {
                version: ""0"",
                months: ""1"",
                months_n: 1,
            },
        ),
        Other(
            BadgeData {
                name: ""premium"",
                version: ""1"",
                extra: None,
            },
        ),
    ],
    emotes: """",
    color: Some(
        ""#8A2BE2"",
    ),
    message_id: ""144ee636-0c1d-404e-8b29-35449a045a7e"",
    timestamp: 2020-07-09T20:43:41.732Z,
}").
Proof. split; vm_compute; reflexivity. Qed.

Example snapshot_user_notice_parse_raid :
  prints dbg_user_notice user_notice_parse
    (b "@badge-info=;badges=sub-gifter/50;color=;display-name=AdamAtReflectStudios;emotes=;flags=;id=e21409b1-d25d-4a1a-b5cf-ef27d8b7030e;login=adamatreflectstudios;mod=0;msg-id=subgift;msg-param-gift-months=1;msg-param-months=2;msg-param-origin-id=da\s39\sa3\see\s5e\s6b\s4b\s0d\s32\s55\sbf\sef\s95\s60\s18\s90\saf\sd8\s07\s09;msg-param-recipient-display-name=qatarking24xd;msg-param-recipient-id=236653628;msg-param-recipient-user-name=qatarking24xd;msg-param-sender-count=0;msg-param-sub-plan-name=Channel\sSubscription\s(xqcow);msg-param-sub-plan=1000;room-id=71092938;subscriber=0;system-msg=AdamAtReflectStudios\sgifted\sa\sTier\s1\ssub\sto\sqatarking24xd!;tmi-sent-ts=1594583782376;user-id=211711554;user-type= :tmi.twitch.tv USERNOTICE #xqcow")
    (b "UserNotice {
    channel: ""#xqcow"",
    channel_id: ""71092938"",
    sender: Some(
        User {
            id: ""211711554"",
            login: ""adamatreflectstudios"",
            name: ""AdamAtReflectStudios"",
        },
    ),
    text: None,
    system_message: Some(
        ""AdamAtReflectStudios\\sgifted\\sa\\sTier\\s1\\ssub\\sto\\sqatarking24xd!"",
    ),
    event: SubGift(
        SubGift {
            cumulative_months: 2,
            recipient: User {
                id: ""236653628"",
                login: ""qatarking24xd"",
                name: ""qatarking24xd"",
            },
            sub_plan: ""1000"",
            sub_plan_name: ""Channel\\sSubscription\\s(xqcow)"",
            num_gifted_months: 1,
        },
    ),
    event_id: ""subgift"",
    badges: [
        Other(
            BadgeData {
                name: ""sub-gifter"",
                version: ""50"",
                extra: None,
            },
        ),
    ],
    emotes: """",
    color: None,
    message_id: ""e21409b1-d25d-4a1a-b5cf-ef27d8b7030e"",
    timestamp: 2020-07-12T19:56:22.376Z,
}").
Proof. split; vm_compute; reflexivity. Qed.

Example snapshot_user_notice_parse_resub :
  prints dbg_user_notice user_notice_parse
    (b "@badge-info=subscriber/2;badges=subscriber/0,battlerite_1/1;color=#0000FF;display-name=Gutrin;emotes=1035663:0-3;flags=;id=e0975c76-054c-4954-8cb0-91b8867ec1ca;login=gutrin;mod=0;msg-id=resub;msg-param-cumulative-months=2;msg-param-months=0;msg-param-should-share-streak=1;msg-param-streak-months=2;msg-param-sub-plan-name=Channel\sSubscription\s(xqcow);msg-param-sub-plan=1000;room-id=71092938;subscriber=1;system-msg=Gutrin\ssubscribed\sat\sTier\s1.\sThey've\ssubscribed\sfor\s2\smonths,\scurrently\son\sa\s2\smonth\sstreak!;tmi-sent-ts=1581713640019;user-id=21156217;user-type= :tmi.twitch.tv USERNOTICE #xqcow :xqcL")
    (b "UserNotice {
    channel: ""#xqcow"",
    channel_id: ""71092938"",
    sender: Some(
        User {
            id: ""21156217"",
            login: ""gutrin"",
            name: ""Gutrin"",
        },
    ),
    text: Some(
        ""xqcL"",
    ),
    system_message: Some(
        ""Gutrin\\ssubscribed\\sat\\sTier\\s1.\\sThey've\\ssubscribed\\sfor\\s2\\smonths,\\scurrently\\son\\sa\\s2\\smonth\\sstreak!"",
    ),
    event: SubOrResub(
        SubOrResub {
            is_resub: true,
            cumulative_months: 2,
            streak_months: Some(
                2,
            ),
            sub_plan: ""1000"",
            sub_plan_name: ""Channel\\sSubscription\\s(xqcow)"",
        },
    ),
    event_id: ""resub"",
    badges: [
        Subscriber(
            Subscriber {
                version: ""0"",
                months: ""2"",
                months_n: 2,
            },
        ),
        Other(
            BadgeData {
                name: ""battlerite_1"",
                version: ""1"",
                extra: None,
            },
        ),
    ],
    emotes: ""1035663:0-3"",
    color: Some(
        ""#0000FF"",
    ),
    message_id: ""e0975c76-054c-4954-8cb0-91b8867ec1ca"",
    timestamp: 2020-02-14T20:54:00.019Z,
}").
Proof. split; vm_compute; reflexivity. Qed.

Example snapshot_user_notice_parse_resub_no_share_streak :
  prints dbg_user_notice user_notice_parse
    (b "@badge-info=;badges=premium/1;color=#8A2BE2;display-name=rene_rs;emotes=;flags=;id=ca1f02fb-77ec-487d-a9b3-bc4bfef2fe8b;login=rene_rs;mod=0;msg-id=resub;msg-param-cumulative-months=11;msg-param-months=0;msg-param-should-share-streak=0;msg-param-sub-plan-name=Channel\sSubscription\s(xqcow);msg-param-sub-plan=Prime;room-id=71092938;subscriber=0;system-msg=rene_rs\ssubscribed\swith\sTwitch\sPrime.\sThey've\ssubscribed\sfor\s11\smonths!;tmi-sent-ts=1590628650446;user-id=171356987;user-type= :tmi.twitch.tv USERNOTICE #xqcow")
    (b "UserNotice {
    channel: ""#xqcow"",
    channel_id: ""71092938"",
    sender: Some(
        User {
            id: ""171356987"",
            login: ""rene_rs"",
            name: ""rene_rs"",
        },
    ),
    text: None,
    system_message: Some(
        ""rene_rs\\ssubscribed\\swith\\sTwitch\\sPrime.\\sThey've\\ssubscribed\\sfor\\s11\\smonths!"",
    ),
    event: SubOrResub(
        SubOrResub {
            is_resub: true,
            cumulative_months: 11,
            streak_months: None,
            sub_plan: ""Prime"",
            sub_plan_name: ""Channel\\sSubscription\\s(xqcow)"",
        },
    ),
    event_id: ""resub"",
    badges: [
        Other(
            BadgeData {
                name: ""premium"",
                version: ""1"",
                extra: None,
            },
        ),
    ],
    emotes: """",
    color: Some(
        ""#8A2BE2"",
    ),
    message_id: ""ca1f02fb-77ec-487d-a9b3-bc4bfef2fe8b"",
    timestamp: 2020-05-28T01:17:30.446Z,
}").
Proof. split; vm_compute; reflexivity. Qed.

Example snapshot_user_notice_parse_ritual :
  prints dbg_user_notice user_notice_parse
    (b "@badge-info=;badges=;color=;display-name=SevenTest1;emotes=30259:0-6;id=37feed0f-b9c7-4c3a-b475-21c6c6d21c3d;login=seventest1;mod=0;msg-id=ritual;msg-param-ritual-name=new_chatter;room-id=6316121;subscriber=0;system-msg=Seventoes\sis\snew\shere!;tmi-sent-ts=1508363903826;turbo=0;user-id=131260580;user-type= :tmi.twitch.tv USERNOTICE #seventoes :HeyGuys")
    (b "UserNotice {
    channel: ""#seventoes"",
    channel_id: ""6316121"",
    sender: Some(
        User {
            id: ""131260580"",
            login: ""seventest1"",
            name: ""SevenTest1"",
        },
    ),
    text: Some(
        ""HeyGuys"",
    ),
    system_message: Some(
        ""Seventoes\\sis\\snew\\shere!"",
    ),
    event: Ritual(
        Ritual {
            name: ""new_chatter"",
        },
    ),
    event_id: ""ritual"",
    badges: [],
    emotes: ""30259:0-6"",
    color: None,
    message_id: ""37feed0f-b9c7-4c3a-b475-21c6c6d21c3d"",
    timestamp: 2017-10-18T21:58:23.826Z,
}").
Proof. split; vm_compute; reflexivity. Qed.

Example snapshot_user_notice_parse_sub :
  prints dbg_user_notice user_notice_parse
    (b "@badge-info=subscriber/0;badges=subscriber/0,premium/1;color=;display-name=fallenseraphhh;emotes=;flags=;id=2a9bea11-a80a-49a0-a498-1642d457f775;login=fallenseraphhh;mod=0;msg-id=sub;msg-param-cumulative-months=1;msg-param-months=0;msg-param-should-share-streak=0;msg-param-sub-plan-name=Channel\sSubscription\s(xqcow);msg-param-sub-plan=Prime;room-id=71092938;subscriber=1;system-msg=fallenseraphhh\ssubscribed\swith\sTwitch\sPrime.;tmi-sent-ts=1582685713242;user-id=224005980;user-type= :tmi.twitch.tv USERNOTICE #xqcow")
    (b "UserNotice {
    channel: ""#xqcow"",
    channel_id: ""71092938"",
    sender: Some(
        User {
            id: ""224005980"",
            login: ""fallenseraphhh"",
            name: ""fallenseraphhh"",
        },
    ),
    text: None,
    system_message: Some(
        ""fallenseraphhh\\ssubscribed\\swith\\sTwitch\\sPrime."",
    ),
    event: SubOrResub(
        SubOrResub {
            is_resub: false,
            cumulative_months: 1,
            streak_months: None,
            sub_plan: ""Prime"",
            sub_plan_name: ""Channel\\sSubscription\\s(xqcow)"",
        },
    ),
    event_id: ""sub"",
    badges: [
        Subscriber(
            Subscriber {
                version: ""0"",
                months: ""0"",
                months_n: 0,
            },
        ),
        Other(
            BadgeData {
                name: ""premium"",
                version: ""1"",
                extra: None,
            },
        ),
    ],
    emotes: """",
    color: None,
    message_id: ""2a9bea11-a80a-49a0-a498-1642d457f775"",
    timestamp: 2020-02-26T02:55:13.242Z,
}").
Proof. split; vm_compute; reflexivity. Qed.

Example snapshot_user_notice_parse_subgift_ananonymousgifter :
  prints dbg_user_notice user_notice_parse
    (b "@badge-info=;badges=;color=;display-name=AnAnonymousGifter;emotes=;flags=;id=62c3fd39-84cc-452a-9096-628a5306633a;login=ananonymousgifter;mod=0;msg-id=subgift;msg-param-fun-string=FunStringThree;msg-param-gift-months=1;msg-param-months=13;msg-param-origin-id=da\s39\sa3\see\s5e\s6b\s4b\s0d\s32\s55\sbf\sef\s95\s60\s18\s90\saf\sd8\s07\s09;msg-param-recipient-display-name=Dot0422;msg-param-recipient-id=151784015;msg-param-recipient-user-name=dot0422;msg-param-sub-plan-name=Channel\sSubscription\s(xqcow);msg-param-sub-plan=1000;room-id=71092938;subscriber=0;system-msg=An\sanonymous\suser\sgifted\sa\sTier\s1\ssub\sto\sDot0422!\s;tmi-sent-ts=1594495108936;user-id=274598607;user-type= :tmi.twitch.tv USERNOTICE #xqcow")
    (b "UserNotice {
    channel: ""#xqcow"",
    channel_id: ""71092938"",
    sender: None,
    text: None,
    system_message: Some(
        ""An\\sanonymous\\suser\\sgifted\\sa\\sTier\\s1\\ssub\\sto\\sDot0422!\\s"",
    ),
    event: SubGift(
        SubGift {
            cumulative_months: 13,
            recipient: User {
                id: ""151784015"",
                login: ""dot0422"",
                name: ""Dot0422"",
            },
            sub_plan: ""1000"",
            sub_plan_name: ""Channel\\sSubscription\\s(xqcow)"",
            num_gifted_months: 1,
        },
    ),
    event_id: ""subgift"",
    badges: [],
    emotes: """",
    color: None,
    message_id: ""62c3fd39-84cc-452a-9096-628a5306633a"",
    timestamp: 2020-07-11T19:18:28.936Z,
}").
Proof. split; vm_compute; reflexivity. Qed.

Example snapshot_user_notice_parse_submysterygift :
  prints dbg_user_notice user_notice_parse
    (b "@badge-info=;badges=sub-gifter/50;color=;display-name=AdamAtReflectStudios;emotes=;flags=;id=049e6371-7023-4fca-8605-7dec60e72e12;login=adamatreflectstudios;mod=0;msg-id=submysterygift;msg-param-mass-gift-count=20;msg-param-origin-id=1f\sbe\sbb\s4a\s81\s9a\s65\sd1\s4b\s77\sf5\s23\s16\s4a\sd3\s13\s09\se7\sbe\s55;msg-param-sender-count=100;msg-param-sub-plan=1000;room-id=71092938;subscriber=0;system-msg=AdamAtReflectStudios\sis\sgifting\s20\sTier\s1\sSubs\sto\sxQcOW's\scommunity!\sThey've\sgifted\sa\stotal\sof\s100\sin\sthe\schannel!;tmi-sent-ts=1594583777669;user-id=211711554;user-type= :tmi.twitch.tv USERNOTICE #xqcow")
    (b "UserNotice {
    channel: ""#xqcow"",
    channel_id: ""71092938"",
    sender: Some(
        User {
            id: ""211711554"",
            login: ""adamatreflectstudios"",
            name: ""AdamAtReflectStudios"",
        },
    ),
    text: None,
    system_message: Some(
        ""AdamAtReflectStudios\\sis\\sgifting\\s20\\sTier\\s1\\sSubs\\sto\\sxQcOW's\\scommunity!\\sThey've\\sgifted\\sa\\stotal\\sof\\s100\\sin\\sthe\\schannel!"",
    ),
    event: SubMysteryGift(
        SubMysteryGift {
            count: 20,
            sender_total_gifts: 100,
            sub_plan: ""1000"",
        },
    ),
    event_id: ""submysterygift"",
    badges: [
        Other(
            BadgeData {
                name: ""sub-gifter"",
                version: ""50"",
                extra: None,
            },
        ),
    ],
    emotes: """",
    color: None,
    message_id: ""049e6371-7023-4fca-8605-7dec60e72e12"",
    timestamp: 2020-07-12T19:56:17.669Z,
}").
Proof. split; vm_compute; reflexivity. Qed.

Example snapshot_user_notice_parse_submysterygift_ananonymousgifter :
  prints dbg_user_notice user_notice_parse
    (b "@badge-info=;badges=;color=;display-name=AnAnonymousGifter;emotes=;flags=;id=8db97752-3dee-460b-9001-e925d0e2ba5b;login=ananonymousgifter;mod=0;msg-id=submysterygift;msg-param-mass-gift-count=10;msg-param-origin-id=13\s33\sed\sc0\sef\sa0\s7b\s9b\s48\s59\scb\scc\se4\s39\s7b\s90\sf9\s54\s75\s66;msg-param-sub-plan=1000;room-id=71092938;subscriber=0;system-msg=An\sanonymous\suser\sis\sgifting\s10\sTier\s1\sSubs\sto\sxQcOW's\scommunity!;tmi-sent-ts=1585447099603;user-id=274598607;user-type= :tmi.twitch.tv USERNOTICE #xqcow")
    (b "UserNotice {
    channel: ""#xqcow"",
    channel_id: ""71092938"",
    sender: None,
    text: None,
    system_message: Some(
        ""An\\sanonymous\\suser\\sis\\sgifting\\s10\\sTier\\s1\\sSubs\\sto\\sxQcOW's\\scommunity!"",
    ),
    event: AnonSubMysteryGift(
        AnonSubMysteryGift {
            count: 10,
            sub_plan: ""1000"",
        },
    ),
    event_id: ""submysterygift"",
    badges: [],
    emotes: """",
    color: None,
    message_id: ""8db97752-3dee-460b-9001-e925d0e2ba5b"",
    timestamp: 2020-03-29T01:58:19.603Z,
}").
Proof. split; vm_compute; reflexivity. Qed.

Example snapshot_user_notice_parse_user_notice_announcement :
  prints dbg_user_notice user_notice_parse
    (b "@emotes=;login=pajbot;vip=0;tmi-sent-ts=1695554663565;flags=;mod=1;subscriber=1;id=bb1bec25-8f26-4ba3-a084-a6a2ca332f00;badge-info=subscriber/93;system-msg=;user-id=82008718;user-type=mod;room-id=11148817;badges=moderator/1,subscriber/3072;msg-param-color=PRIMARY;msg-id=announcement;color=#2E8B57;display-name=pajbot :tmi.twitch.tv USERNOTICE #pajlada :$ping xd")
    (b "UserNotice {
    channel: ""#pajlada"",
    channel_id: ""11148817"",
    sender: Some(
        User {
            id: ""82008718"",
            login: ""pajbot"",
            name: ""pajbot"",
        },
    ),
    text: Some(
        ""$ping xd"",
    ),
    system_message: None,
    event: Announcement(
        Announcement {
            highlight_color: ""PRIMARY"",
        },
    ),
    event_id: ""announcement"",
    badges: [
        Moderator,
        Subscriber(
            Subscriber {
                version: ""3072"",
                months: ""93"",
                months_n: 93,
            },
        ),
    ],
    emotes: """",
    color: Some(
        ""#2E8B57"",
    ),
    message_id: ""bb1bec25-8f26-4ba3-a084-a6a2ca332f00"",
    timestamp: 2023-09-24T11:24:23.565Z,
}").
Proof. split; vm_compute; reflexivity. Qed.

Example snapshot_user_notice_parse_user_notice_announcement_no_color :
  prints dbg_user_notice user_notice_parse
    (b "@badge-info=;badges=moderator/1;color=#1E90FF;display-name=vetricbot;emotes=;flags=;id=8c0fea53-7827-4165-8848-8e512b59beed;login=vetricbot;mod=1;msg-id=announcement;room-id=404660262;subscriber=0;system-msg=;tmi-sent-ts=1738762344755;user-id=955666532;user-type=mod;vip=0 :tmi.twitch.tv USERNOTICE #creepycode :sample")
    (b "UserNotice {
    channel: ""#creepycode"",
    channel_id: ""404660262"",
    sender: Some(
        User {
            id: ""955666532"",
            login: ""vetricbot"",
            name: ""vetricbot"",
        },
    ),
    text: Some(
        ""sample"",
    ),
    system_message: None,
    event: Announcement(
        Announcement {
            highlight_color: ""PRIMARY"",
        },
    ),
    event_id: ""announcement"",
    badges: [
        Moderator,
    ],
    emotes: """",
    color: Some(
        ""#1E90FF"",
    ),
    message_id: ""8c0fea53-7827-4165-8848-8e512b59beed"",
    timestamp: 2025-02-05T13:32:24.755Z,
}").
Proof. split; vm_compute; reflexivity. Qed.

Example snapshot_user_state_parse_userstate :
  prints dbg_user_state user_state_parse
    (b "@badge-info=;badges=;color=#FF0000;display-name=TESTUSER;emote-sets=0;mod=0;subscriber=0;user-type= :tmi.twitch.tv USERSTATE #randers")
    (b "UserState {
    channel: ""#randers"",
    user_name: ""TESTUSER"",
    badges: [],
    emote_sets: [
        ""0"",
    ],
    color: Some(
        ""#FF0000"",
    ),
}").
Proof. split; vm_compute; reflexivity. Qed.

Example snapshot_user_state_parse_userstate_uuid_emote_set_id :
  prints dbg_user_state user_state_parse
    (b "@badge-info=;badges=moderator/1;color=#8A2BE2;display-name=TESTUSER;emote-sets=0,75c09c7b-332a-43ec-8be8-1d4571706155;mod=1;subscriber=0;user-type=mod :tmi.twitch.tv USERSTATE #randers")
    (b "UserState {
    channel: ""#randers"",
    user_name: ""TESTUSER"",
    badges: [
        Moderator,
    ],
    emote_sets: [
        ""0"",
        ""75c09c7b-332a-43ec-8be8-1d4571706155"",
    ],
    color: Some(
        ""#8A2BE2"",
    ),
}").
Proof. split; vm_compute; reflexivity. Qed.

Example snapshot_whisper_parse_whisper :
  prints dbg_whisper whisper_parse
    (b "@badges=;color=#19E6E6;display-name=randers;emotes=25:22-26;message-id=1;thread-id=40286300_553170741;turbo=0;user-id=40286300;user-type= :randers!randers@randers.tmi.twitch.tv WHISPER randers811 :hello, this is a test Kappa")
    (b "Whisper {
    recipient: ""randers811"",
    sender: User {
        id: ""40286300"",
        login: ""randers"",
        name: ""randers"",
    },
    text: ""hello, this is a test Kappa"",
    badges: [],
    emotes: ""25:22-26"",
    color: Some(
        ""#19E6E6"",
    ),
}").
Proof. split; vm_compute; reflexivity. Qed.
