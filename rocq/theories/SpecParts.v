(** * SpecParts: what of a line the typed form of each command is made from.

    Tag names are as on the wire. *)

From Coq Require Export Permutation.
From Verif Require Import Base Wide Tags Irc SpecIrc MsgTypes Message SpecMsg.

Record need := mk_need
  { nd_tags : list string;
    nd_channel : bool;
    nd_nick : bool;
    nd_params : bool }.

Definition reply_tags : list string :=
  ["reply-thread-parent-msg-id"; "reply-thread-parent-user-login"; "reply-parent-msg-id";
   "reply-parent-user-id"; "reply-parent-user-login"; "reply-parent-display-name";
   "reply-parent-msg-body"]%string.

Definition pinned_tags : list string :=
  ["pinned-chat-paid-amount"; "pinned-chat-paid-currency"; "pinned-chat-paid-exponent";
   "pinned-chat-paid-level"; "pinned-chat-paid-is-system-message"]%string.

(** The tags of the events of a USERNOTICE. *)
Definition event_tags : list string :=
  ["msg-param-cumulative-months"; "msg-param-streak-months"; "msg-param-sub-plan";
   "msg-param-sub-plan-name"; "msg-param-viewerCount"; "msg-param-profileImageURL"; "msg-param-months";
   "msg-param-recipient-id"; "msg-param-recipient-user-name"; "msg-param-recipient-display-name";
   "msg-param-gift-months"; "msg-param-mass-gift-count"; "msg-param-sender-count";
   "msg-param-sender-login"; "msg-param-sender-name"; "msg-param-promo-gift-total";
   "msg-param-promo-name"; "msg-param-ritual-name"; "msg-param-threshold"; "msg-param-color"]%string.

(** Tags, channel, nick, parameters. *)
Definition needs : list (str * need) :=
  [ (b "CLEARCHAT",
      mk_need ["room-id"; "target-user-id"; "ban-duration"; "tmi-sent-ts"]%string true false true);
    (b "CLEARMSG", mk_need ["room-id"; "login"; "target-msg-id"; "tmi-sent-ts"]%string true false true);
    (b "GLOBALUSERSTATE",
      mk_need ["user-id"; "display-name"; "badges"; "badge-info"; "emote-sets"; "color"]%string
        false false false);
    (b "JOIN", mk_need [] true true false);
    (b "NOTICE", mk_need ["msg-id"%string] true false true);
    (b "PART", mk_need [] true true false);
    (b "PING", mk_need [] false false true);
    (b "PONG", mk_need [] false false true);
    (b "PRIVMSG",
      mk_need (["room-id"; "msg-id"; "id"; "user-id"; "display-name"; "badges"; "badge-info"; "color";
                "custom-reward-id"; "bits"; "emotes"; "tmi-sent-ts"]%string ++ reply_tags ++ pinned_tags)
        true true true);
    (b "RECONNECT", mk_need [] false false false);
    (b "ROOMSTATE",
      mk_need ["room-id"; "emote-only"; "followers-only"; "r9k"; "slow"; "subs-only"]%string
        true false false);
    (b "USERNOTICE",
      mk_need (["room-id"; "user-id"; "login"; "display-name"; "system-msg"; "msg-id"; "badges";
                "badge-info"; "emotes"; "color"; "id"; "tmi-sent-ts"]%string ++ event_tags)
        true false true);
    (b "USERSTATE",
      mk_need ["display-name"; "badges"; "badge-info"; "emote-sets"; "color"]%string true false false);
    (b "WHISPER",
      mk_need ["user-id"; "display-name"; "badges"; "badge-info"; "emotes"; "color"]%string
        false true true) ].

(** The two lines agree in all of these parts. *)
Definition agree (nd : need) (v v' : view) : Prop :=
  (forall k, In k (nd_tags nd) -> forall x, has v k x <-> has v' k x) /\
  (nd_channel nd = true -> v_channel v = v_channel v') /\
  (nd_nick nd = true -> forall x, has_nick v x <-> has_nick v' x) /\
  (nd_params nd = true -> v_params v = v_params v').

(** The two lines have the same parts but for the tags. *)
Definition same_but_tags (v v' : view) : Prop :=
  v_command v = v_command v' /\ v_prefix v = v_prefix v' /\ v_channel v = v_channel v' /\
  v_params v = v_params v'.

(** The two lines differ in exactly one part. *)
Definition differ_in_tag (k : string) (v v' : view) : Prop :=
  same_but_tags v v' /\
  exists x y l, v_tags v = (b k, x) :: l /\ v_tags v' = (b k, y) :: l /\ ~ In (b k) (map fst l).

Definition differ_in_channel (v v' : view) : Prop :=
  v_command v = v_command v' /\ v_prefix v = v_prefix v' /\ v_tags v = v_tags v' /\
  v_params v = v_params v'.

Definition differ_in_nick (v v' : view) : Prop :=
  v_command v = v_command v' /\ v_tags v = v_tags v' /\ v_channel v = v_channel v' /\
  v_params v = v_params v' /\
  exists n n' u h, v_prefix v = Some (mk_prefix (Some n) u h) /\ v_prefix v' = Some (mk_prefix (Some n') u h).

Definition differ_in_params (v v' : view) : Prop :=
  v_command v = v_command v' /\ v_prefix v = v_prefix v' /\ v_tags v = v_tags v' /\
  v_channel v = v_channel v'.

(** There are two lines with this command that differ in this way, and their
    typed forms are not the same. *)
Definition matters (bd : build) (pf : profile) (R : view -> view -> Prop) (w : str) : Prop :=
  exists s s' v v' m m', parsed bd s v m /\ parsed bd s' v' m' /\ v_command v = w /\ R v v' /\
    from_irc pf m <> from_irc pf m'.
