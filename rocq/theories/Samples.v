(** * Samples: concrete lines used by the non-vacuity examples. *)

From Verif Require Import Base.

Definition sample : str :=
  b "@badge-info=;badges=premium/1;color=#8A2BE2;id=885196de-cb67-427a-baa8-82f9b0fcd05f :nick!user@host.tmi.twitch.tv PRIVMSG #channel :hello there".

Definition chat_line : str :=
  b "@badge-info=subscriber/25;badges=subscriber/24,vip/1;bits=100;color=#0000FF;custom-reward-id=;display-name=A\sB;emotes=25:0-4;id=e9d998c3;pinned-chat-paid-amount=1400;pinned-chat-paid-currency=USD;pinned-chat-paid-exponent=2;pinned-chat-paid-is-system-message=0;pinned-chat-paid-level=TWO;reply-parent-display-name=OP;reply-parent-msg-body=hi\s:);reply-parent-msg-id=p1;reply-parent-user-id=7;reply-parent-user-login=op;reply-thread-parent-msg-id=t1;reply-thread-parent-user-login=top;room-id=11148817;tmi-sent-ts=1594545155039;user-id=29803735 :ab!ab@ab.tmi.twitch.tv PRIVMSG #pajlada :Kappa one".

(** A USERNOTICE with the given msg-id and user-id. *)
Definition sub_line (id user : str) : str :=
  b "@display-name=Bob;emotes=;id=77;login=bob;msg-id=" ++ id ++
  b ";msg-param-cumulative-months=5;msg-param-gift-months=1;msg-param-mass-gift-count=3;msg-param-months=12;msg-param-recipient-display-name=Rec;msg-param-recipient-id=9;msg-param-recipient-user-name=rec;msg-param-sender-count=8;msg-param-streak-months=0;msg-param-sub-plan-name=Plan;msg-param-sub-plan=1000;room-id=4;system-msg=x\s5;tmi-sent-ts=1594583782376;user-id=" ++ user ++
  b " :tmi.twitch.tv USERNOTICE #c".
