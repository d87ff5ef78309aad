(** * RepoTests: the crate's other unit tests, as tests of the model.

    Each example is a [#[test]] of the crate with the expected value written there;
    the tests with recorded outputs are in Snapshots.v.  These are tests of the model,
    not properties. *)

From Verif Require Import Base Wide Tags Irc MsgBase MsgTypes Common Getters.

(** A value read from a line, with each of the tag parsers. *)
Definition reads {A : Type} (get : msg_ref -> res A) (line : str) (x : A) : Prop :=
  (let? m := ref_parse Scalar line in rmap Some (get m)) = Ret (Some x) /\
  (let? m := ref_parse (Simd Sse2 0) line in rmap Some (get m)) = Ret (Some x) /\
  (let? m := ref_parse (Simd Avx2 5) line in rmap Some (get m)) = Ret (Some x) /\
  (let? m := ref_parse (Simd Neon 9) line in rmap Some (get m)) = Ret (Some x).

(** ** src/irc.rs *)

(** src/irc.rs:380. *)
Example test_notice_without_channel :
  let line := b ":tmi.twitch.tv NOTICE * :Improperly formatted auth" in
  reads ref_command line Notice /\
  reads ref_text line (Some (b "Improperly formatted auth")) /\
  reads ref_params line (Some (b "* :Improperly formatted auth")).
Proof. repeat split; vm_compute; reflexivity. Qed.

(** src/irc.rs:390. *)
Example test_regression_parse_prefix :
  reads ref_prefix (b ":justinfan57624!justinfan57624@justinfan57624.tmi.twitch.tv JOIN #riotgames")
    (Some (mk_prefix (Some (b "justinfan57624")) (Some (b "justinfan57624"))
                     (b "justinfan57624.tmi.twitch.tv"))).
Proof. repeat split; vm_compute; reflexivity. Qed.

(** src/irc.rs:406. *)
Example test_regression_equals_in_tag_value :
  reads (fun m => ref_tag m TReplyParentMsgBody)
    (b "@display-name=Dixtor334;emotes=;first-msg=0;flags=;id=0b4c70e4-9a47-4ce1-9c3e-8f78111cdc19;mod=0;reply-parent-display-name=minosura;reply-parent-msg-body=https://youtu.be/-ek4MFjz_eM?list=PL91C6439FD45DE2F3\sannytfDinkDonk\sstrimmer\skorean\sone;reply-parent-msg-id=7f811788-b897-4b4c-9f91-99fafe70eb7f;reply-parent-user-id=141993641;reply-parent-user-login=minosura;returning-chatter=0;room-id=56418014;subscriber=1;tmi-sent-ts=1686049636367;turbo=0;user-id=73714767;user-type= :dixtor334!dixtor334@dixtor334.tmi.twitch.tv PRIVMSG #anny :@minosura @anny")
    (Some (b "https://youtu.be/-ek4MFjz_eM?list=PL91C6439FD45DE2F3\sannytfDinkDonk\sstrimmer\skorean\sone")).
Proof. repeat split; vm_compute; reflexivity. Qed.

(** src/irc.rs:412. *)
Example test_regression_equals_in_tag_value_2 :
  reads (fun _ => Ret tt)
    (b "@room-id=11148817;tmi-sent-ts=1723702053033;color=#B7B6F9;reply-parent-msg-body=@RomeoGiggleToess\shttps://www.youtube.com/watch?v=khMb3k-Wwvg;emotes=;flags=;reply-parent-user-id=53888434;id=96a5fb70-f54e-4640-979e-529a76ddf74b;reply-thread-parent-display-name=RomeoGiggleToess;reply-thread-parent-msg-id=fd2a5663-00cb-4e78-9c0d-aff6b66285bf;subscriber=0;historical=1;reply-parent-display-name=OGprodigy;mod=0;badges=twitch-dj/1;first-msg=0;user-id=86336791;reply-parent-user-login=ogprodigy;turbo=0;user-type=;reply-parent-msg-id=a504ba7e-d991-45d0-ab2f-c3045c6ae7b6;reply-thread-parent-user-login=romeogiggletoess;returning-chatter=0;display-name=RomeoGiggleToess;badge-info=;reply-thread-parent-user-id=86336791;rm-received-ts=1723702053240 :romeogiggletoess!romeogiggletoess@romeogiggletoess.tmi.twitch.tv PRIVMSG #pajlada :@OGprodigy klassiker")
    tt.
Proof. repeat split; vm_compute; reflexivity. Qed.

(** src/irc.rs:419. *)
Example test_parse_simple_params :
  reads ref_params (b ":tmi.twitch.tv 002 justinfan26682 :Your host is tmi.twitch.tv")
    (Some (b "justinfan26682 :Your host is tmi.twitch.tv")).
Proof. repeat split; vm_compute; reflexivity. Qed.

(** src/irc.rs:430. *)
Example test_parse_names :
  reads ref_channel (b ":tmi.twitch.tv 002 justinfan26682 :Your host is tmi.twitch.tv") None /\
  reads ref_channel (b ":tmi.twitch.tv 003 justinfan26682 :This server is rather new") None /\
  reads ref_channel (b ":tmi.twitch.tv 004 justinfan26682 :-") None /\
  reads ref_channel (b ":tmi.twitch.tv 375 justinfan26682 :-") None /\
  reads ref_channel (b ":tmi.twitch.tv 372 justinfan26682 :You are in a maze of twisty passages, all alike.") None /\
  reads ref_channel (b ":tmi.twitch.tv 376 justinfan26682 :>") None /\
  reads ref_channel (b ":justinfan26682.tmi.twitch.tv 353 justinfan26682 = #pajlada :localaniki pajlada sadmadladsalman spambotsen streamelements supibot tobaton_ compileraddict digital_red_panda forsenstares howtoeat6 boring_nick") (Some (b "#pajlada")) /\
  reads ref_channel (b ":justinfan26682.tmi.twitch.tv 353 justinfan26682 = #pajlada :justinfan26682") (Some (b "#pajlada")) /\
  reads ref_channel (b ":justinfan26682.tmi.twitch.tv 366 justinfan26682 #pajlada :End of /NAMES list") (Some (b "#pajlada")).
Proof. repeat split; vm_compute; reflexivity. Qed.

(** ** src/irc/{channel,command,params,tags}.rs *)

(** src/irc/channel.rs:31. *)
Example test_channel :
  let data := b "#channel <rest>" in
  exists sp pos, channel_parse data 0 = Ret (Some sp, pos) /\
  span_get data sp = Ret (b "#channel") /\ slice_from data pos = Ret (b "<rest>").
Proof. do 2 eexists; split; [vm_compute; reflexivity|]; split; vm_compute; reflexivity. Qed.

(** src/irc/command.rs:216. *)
Example test_command :
  let data := b "PING <rest>" in
  exists c pos, command_parse data 0 = Ret (Some c, pos) /\
  raw_command_get data c = Ret Ping /\ slice_from data pos = Ret (b "<rest>").
Proof. do 2 eexists; split; [vm_compute; reflexivity|]; split; vm_compute; reflexivity. Qed.

(** src/irc/params.rs:17. *)
Example test_params :
  let data := b ":param_a :param_b" in
  exists sp, params_parse data 0 = Ret (Some sp) /\ span_get data sp = Ret data.
Proof. eexists; split; [vm_compute; reflexivity|]; vm_compute; reflexivity. Qed.

(** The tags written back. *)
Fixpoint write_tags (l : list (str * str)) : str :=
  match l with
  | [] => []
  | [(k, v)] => k ++ b "=" ++ v
  | (k, v) :: l => k ++ b "=" ++ v ++ b ";" ++ write_tags l
  end.

(** src/irc/tags.rs:310. *)
Example test_roundtrip :
  let src := b "@some-key-a=some-value-a;some-key-b=some-value-b;some-key-c=some-value-c " in
  forall bd, In bd [Scalar; Simd Sse2 0; Simd Avx2 5; Simd Neon 9] ->
  exists ts pos l, tags_parse bd src 0 = Ret (Some ts, pos) /\ slice_from src pos = Ret [] /\
  mapM (pair_get src) ts = Ret l /\ b "@" ++ write_tags l ++ b " " = src.
Proof. intros src bd [<-|[<-|[<-|[<-|[]]]]]; do 3 eexists; (split; [vm_compute; reflexivity|]);
  (split; [vm_compute; reflexivity|]); (split; [vm_compute; reflexivity|]); vm_compute; reflexivity. Qed.

(** ** src/irc/tags/simd.rs, src/irc/wide/aarch64/neon.rs *)

(** [size] dots, with an [x] at [needle_at]. *)
Definition dots_with (size needle_at : nat) : list byte :=
  repeat "."%byte needle_at ++ b "x" ++ repeat "."%byte (size - needle_at - 1).

(** src/irc/tags/simd.rs:210. *)
Example test_find_first :
  Forall (fun case : list byte * option nat =>
    Forall (fun v => Forall (fun addr => find_first v addr (fst case) "x" = Ret (snd case)) [0; 1; 8; 15; 31])
      [Sse2; Avx2; Neon])
    [(b "", None);
     (b "x", Some 0);
     (b ".", None);
     (b "xx", Some 0);
     (b "x.", Some 0);
     (b ".x", Some 1);
     (b "x...............", Some 0);
     (b ".x..............", Some 1);
     (b "..............x.", Some 14);
     (b "...............x", Some 15);
     (b "x................", Some 0);
     (b ".x...............", Some 1);
     (b "...............x.", Some 15);
     (b "................x", Some 16);
     (b "x...............................", Some 0);
     (b ".x..............................", Some 1);
     (b "..............................x.", Some 30);
     (b "...............................x", Some 31);
     (dots_with 1024 0, Some 0);
     (dots_with 1024 1, Some 1);
     (dots_with 1024 1022, Some 1022);
     (dots_with 1024 1023, Some 1023)].
Proof. repeat match goal with |- Forall _ _ => constructor end; vm_compute; reflexivity. Qed.

(** src/irc/wide/aarch64/neon.rs:149. *)
Example test_clear_to :
  let mask := 15793920%N in
  clear_to Neon mask (first_match Neon mask) = Ret 15790080%N.
Proof. vm_compute; reflexivity. Qed.

(** ** src/common/channel.rs *)

(** src/common/channel.rs:165. *)
Example test_parse_channel :
  channel_ref_parse (b "#test") = Some (ref_from_unchecked (b "#test")) /\ channel_ref_parse (b "test") = None /\
  channel_parse_owned (b "#test") = Some (chan_from_unchecked (b "#test")) /\ channel_parse_owned (b "test") = None.
Proof. repeat split; vm_compute; reflexivity. Qed.

(** ** src/msg/privmsg.rs *)

(** src/msg/privmsg.rs:612. *)
Example test_regression_invalid_prefix_span_overread :
  reads (fun m => rmap (fun o => match o with Some _ => true | None => false end) (privmsg_parse m))
    (b "@badge-info=;badges=moments/1;color=;display-name=kovacicdusko2001;emotes=;first-msg=0;flags=;id=97798b78-b5c7-4a0a-bcd4-e9ec12de926a;mod=0;returning-chatter=0;room-id=71092938;subscriber=0;tmi-sent-ts=1663858872621;turbo=0;user-id=251524724;user-type= :kovacicdusko2001!kovacicdusko2001@kovacicdusko2001.tmi.twitch.tv PRIVMSG #xqc :!play")
    true.
Proof. repeat split; vm_compute; reflexivity. Qed.

(** src/msg/privmsg.rs:617. *)
Example test_support_text_without_trailing_marker :
  let line := b "@emotes=;rm-received-ts=1742677467748;id=2de725a2-f6af-4a1a-a2d3-be8773860943;user-type=;historical=1;room-id=23936415;tmi-sent-ts=1742677467563;mod=0;display-name=justinfan123456;turbo=0;user-id=141981764;color=#FF00A5;flags=;returning-chatter=0;first-msg=0 :justinfan123456!justinfan123456@justinfan123456.tmi.twitch.tv PRIVMSG #jerma985 ballfondler" in
  reads (fun m => let? x := privmsg_parse m in let! n := user_name (get_privmsg_sender x) in
    Ret (Some (get_privmsg_text x, get_user_login (get_privmsg_sender x), deref n, get_privmsg_channel x,
               get_privmsg_timestamp x)))
    line
    (Some (b "ballfondler", b "justinfan123456", b "justinfan123456", b "#jerma985", 1742677467563%Z)).
Proof. repeat split; vm_compute; reflexivity. Qed.
