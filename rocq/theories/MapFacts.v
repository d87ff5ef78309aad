(** * MapFacts: changing the strings of a message value. *)

From Verif Require Import Base Tags Irc MsgBase MsgTypes MsgNotice Message SpecMsg.


Lemma opt_map_map {A B C : Type} (f : B -> C) (g : A -> B) (o : option A) :
  option_map f (option_map g o) = option_map (fun x => f (g x)) o.
Proof. now destruct o. Qed.

Lemma opt_map_ext {A B : Type} (f g : A -> B) : (forall x, f x = g x) -> forall o, option_map f o = option_map g o.
Proof. intros E [x|]; [|reflexivity]. cbn. now rewrite E. Qed.

Lemma opt_map_id {A : Type} (f : A -> A) : (forall x, f x = x) -> forall o, option_map f o = o.
Proof. intros E [x|]; [|reflexivity]. cbn. now rewrite E. Qed.

Lemma list_map_id {A : Type} (f : A -> A) : (forall x, f x = x) -> forall l, map f l = l.
Proof. intros E l. induction l as [|x l IH]; cbn; [reflexivity|]. now rewrite E, IH. Qed.

(** Compares two applications of a constructor argument by argument. *)
Ltac args tac :=
  first [ reflexivity
        | lazymatch goal with |- ?f ?x = ?g ?y =>
            apply (f_equal2 (fun h a => h a) (x1 := f) (y1 := g) (x2 := x) (y2 := y)); [args tac | tac]
          end ].

Create HintDb maps.

Ltac mapped :=
  repeat first [ progress autorewrite with maps | rewrite opt_map_map | rewrite map_map
               | match goal with
                 | |- option_map _ ?o = option_map _ ?o => apply opt_map_ext; intros
                 | |- map _ ?l = map _ ?l => apply map_ext; intros
                 | |- option_map _ ?o = ?o => apply opt_map_id; intros
                 | |- map _ ?l = ?l => apply list_map_id; intros
                 end ]; auto with maps.

Ltac owned :=
  repeat match goal with
         | |- option_map _ ?o = option_map _ ?o => apply opt_map_ext; intros
         | |- map _ ?l = map _ ?l => apply map_ext; intros
         end; auto with maps.

Lemma badge_data_map_ext {A B : Type} (f g : A -> B) : (forall s, f s = g s) ->
  forall x, badge_data_map f x = badge_data_map g x.
Proof. intros E x. destruct x; unfold badge_data_map; cbn -[option_map map]; args mapped. Qed.

Lemma badge_data_map_map {A B C : Type} (f : B -> C) (g : A -> B) (x : badge_data A) :
  badge_data_map f (badge_data_map g x) = badge_data_map (fun s => f (g s)) x.
Proof. destruct x; unfold badge_data_map; cbn -[option_map map]; args mapped. Qed.

Lemma badge_data_map_id {A : Type} (f : A -> A) : (forall s, f s = s) -> forall x, badge_data_map f x = x.
Proof. intros E x. destruct x; unfold badge_data_map; cbn -[option_map map]; args mapped. Qed.

#[export] Hint Resolve badge_data_map_ext badge_data_map_id : maps.
#[export] Hint Rewrite @badge_data_map_map : maps.

Lemma badge_data_map_deref (x : badge_data str) : badge_data_map deref (badge_data_map Borrowed x) = x.
Proof. rewrite badge_data_map_map. apply badge_data_map_id. reflexivity. Qed.

Lemma badge_data_owned (x : badge_data cow) : badge_data_into_owned x = badge_data_map maybe_clone x.
Proof. destruct x; unfold badge_data_into_owned, badge_data_map; cbn -[option_map map]; args owned. Qed.
#[export] Hint Resolve badge_data_owned : maps.

Lemma subscriber_map_ext {A B : Type} (f g : A -> B) : (forall s, f s = g s) ->
  forall x, subscriber_map f x = subscriber_map g x.
Proof. intros E x. destruct x; unfold subscriber_map; cbn -[option_map map]; args mapped. Qed.

Lemma subscriber_map_map {A B C : Type} (f : B -> C) (g : A -> B) (x : subscriber A) :
  subscriber_map f (subscriber_map g x) = subscriber_map (fun s => f (g s)) x.
Proof. destruct x; unfold subscriber_map; cbn -[option_map map]; args mapped. Qed.

Lemma subscriber_map_id {A : Type} (f : A -> A) : (forall s, f s = s) -> forall x, subscriber_map f x = x.
Proof. intros E x. destruct x; unfold subscriber_map; cbn -[option_map map]; args mapped. Qed.

#[export] Hint Resolve subscriber_map_ext subscriber_map_id : maps.
#[export] Hint Rewrite @subscriber_map_map : maps.

Lemma subscriber_map_deref (x : subscriber str) : subscriber_map deref (subscriber_map Borrowed x) = x.
Proof. rewrite subscriber_map_map. apply subscriber_map_id. reflexivity. Qed.

Lemma subscriber_owned (x : subscriber cow) : subscriber_into_owned x = subscriber_map maybe_clone x.
Proof. destruct x; unfold subscriber_into_owned, subscriber_map; cbn -[option_map map]; args owned. Qed.
#[export] Hint Resolve subscriber_owned : maps.

Lemma badge_map_ext {A B : Type} (f g : A -> B) : (forall s, f s = g s) ->
  forall x, badge_map f x = badge_map g x.
Proof. intros E x. destruct x; unfold badge_map; cbn -[option_map map]; args mapped. Qed.

Lemma badge_map_map {A B C : Type} (f : B -> C) (g : A -> B) (x : badge A) :
  badge_map f (badge_map g x) = badge_map (fun s => f (g s)) x.
Proof. destruct x; unfold badge_map; cbn -[option_map map]; args mapped. Qed.

Lemma badge_map_id {A : Type} (f : A -> A) : (forall s, f s = s) -> forall x, badge_map f x = x.
Proof. intros E x. destruct x; unfold badge_map; cbn -[option_map map]; args mapped. Qed.

#[export] Hint Resolve badge_map_ext badge_map_id : maps.
#[export] Hint Rewrite @badge_map_map : maps.

Lemma badge_map_deref (x : badge str) : badge_map deref (badge_map Borrowed x) = x.
Proof. rewrite badge_map_map. apply badge_map_id. reflexivity. Qed.

Lemma badge_owned (x : badge cow) : badge_into_owned x = badge_map maybe_clone x.
Proof. destruct x; unfold badge_into_owned, badge_map; cbn -[option_map map]; args owned. Qed.
#[export] Hint Resolve badge_owned : maps.

Lemma user_map_ext {A B : Type} (f g : A -> B) : (forall s, f s = g s) ->
  forall x, user_map f x = user_map g x.
Proof. intros E x. destruct x; unfold user_map; cbn -[option_map map]; args mapped. Qed.

Lemma user_map_map {A B C : Type} (f : B -> C) (g : A -> B) (x : user_info A) :
  user_map f (user_map g x) = user_map (fun s => f (g s)) x.
Proof. destruct x; unfold user_map; cbn -[option_map map]; args mapped. Qed.

Lemma user_map_id {A : Type} (f : A -> A) : (forall s, f s = s) -> forall x, user_map f x = x.
Proof. intros E x. destruct x; unfold user_map; cbn -[option_map map]; args mapped. Qed.

#[export] Hint Resolve user_map_ext user_map_id : maps.
#[export] Hint Rewrite @user_map_map : maps.

Lemma user_map_deref (x : user_info str) : user_map deref (user_map Borrowed x) = x.
Proof. rewrite user_map_map. apply user_map_id. reflexivity. Qed.

Lemma user_owned (x : user_info cow) : user_into_owned x = user_map maybe_clone x.
Proof. destruct x; unfold user_into_owned, user_map; cbn -[option_map map]; args owned. Qed.
#[export] Hint Resolve user_owned : maps.

Lemma join_map_ext {A B : Type} (f g : A -> B) : (forall s, f s = g s) ->
  forall x, join_map f x = join_map g x.
Proof. intros E x. destruct x; unfold join_map; cbn -[option_map map]; args mapped. Qed.

Lemma join_map_map {A B C : Type} (f : B -> C) (g : A -> B) (x : join_msg A) :
  join_map f (join_map g x) = join_map (fun s => f (g s)) x.
Proof. destruct x; unfold join_map; cbn -[option_map map]; args mapped. Qed.

Lemma join_map_id {A : Type} (f : A -> A) : (forall s, f s = s) -> forall x, join_map f x = x.
Proof. intros E x. destruct x; unfold join_map; cbn -[option_map map]; args mapped. Qed.

#[export] Hint Resolve join_map_ext join_map_id : maps.
#[export] Hint Rewrite @join_map_map : maps.

Lemma join_map_deref (x : join_msg str) : join_map deref (join_map Borrowed x) = x.
Proof. rewrite join_map_map. apply join_map_id. reflexivity. Qed.

Lemma join_owned (x : join_msg cow) : join_into_owned x = join_map maybe_clone x.
Proof. destruct x; unfold join_into_owned, join_map; cbn -[option_map map]; args owned. Qed.
#[export] Hint Resolve join_owned : maps.

Lemma part_map_ext {A B : Type} (f g : A -> B) : (forall s, f s = g s) ->
  forall x, part_map f x = part_map g x.
Proof. intros E x. destruct x; unfold part_map; cbn -[option_map map]; args mapped. Qed.

Lemma part_map_map {A B C : Type} (f : B -> C) (g : A -> B) (x : part_msg A) :
  part_map f (part_map g x) = part_map (fun s => f (g s)) x.
Proof. destruct x; unfold part_map; cbn -[option_map map]; args mapped. Qed.

Lemma part_map_id {A : Type} (f : A -> A) : (forall s, f s = s) -> forall x, part_map f x = x.
Proof. intros E x. destruct x; unfold part_map; cbn -[option_map map]; args mapped. Qed.

#[export] Hint Resolve part_map_ext part_map_id : maps.
#[export] Hint Rewrite @part_map_map : maps.

Lemma part_map_deref (x : part_msg str) : part_map deref (part_map Borrowed x) = x.
Proof. rewrite part_map_map. apply part_map_id. reflexivity. Qed.

Lemma part_owned (x : part_msg cow) : part_into_owned x = part_map maybe_clone x.
Proof. destruct x; unfold part_into_owned, part_map; cbn -[option_map map]; args owned. Qed.
#[export] Hint Resolve part_owned : maps.

Lemma ping_map_ext {A B : Type} (f g : A -> B) : (forall s, f s = g s) ->
  forall x, ping_map f x = ping_map g x.
Proof. intros E x. destruct x; unfold ping_map; cbn -[option_map map]; args mapped. Qed.

Lemma ping_map_map {A B C : Type} (f : B -> C) (g : A -> B) (x : ping_msg A) :
  ping_map f (ping_map g x) = ping_map (fun s => f (g s)) x.
Proof. destruct x; unfold ping_map; cbn -[option_map map]; args mapped. Qed.

Lemma ping_map_id {A : Type} (f : A -> A) : (forall s, f s = s) -> forall x, ping_map f x = x.
Proof. intros E x. destruct x; unfold ping_map; cbn -[option_map map]; args mapped. Qed.

#[export] Hint Resolve ping_map_ext ping_map_id : maps.
#[export] Hint Rewrite @ping_map_map : maps.

Lemma ping_map_deref (x : ping_msg str) : ping_map deref (ping_map Borrowed x) = x.
Proof. rewrite ping_map_map. apply ping_map_id. reflexivity. Qed.

Lemma ping_owned (x : ping_msg cow) : ping_into_owned x = ping_map maybe_clone x.
Proof. destruct x; unfold ping_into_owned, ping_map; cbn -[option_map map]; args owned. Qed.
#[export] Hint Resolve ping_owned : maps.

Lemma pong_map_ext {A B : Type} (f g : A -> B) : (forall s, f s = g s) ->
  forall x, pong_map f x = pong_map g x.
Proof. intros E x. destruct x; unfold pong_map; cbn -[option_map map]; args mapped. Qed.

Lemma pong_map_map {A B C : Type} (f : B -> C) (g : A -> B) (x : pong_msg A) :
  pong_map f (pong_map g x) = pong_map (fun s => f (g s)) x.
Proof. destruct x; unfold pong_map; cbn -[option_map map]; args mapped. Qed.

Lemma pong_map_id {A : Type} (f : A -> A) : (forall s, f s = s) -> forall x, pong_map f x = x.
Proof. intros E x. destruct x; unfold pong_map; cbn -[option_map map]; args mapped. Qed.

#[export] Hint Resolve pong_map_ext pong_map_id : maps.
#[export] Hint Rewrite @pong_map_map : maps.

Lemma pong_map_deref (x : pong_msg str) : pong_map deref (pong_map Borrowed x) = x.
Proof. rewrite pong_map_map. apply pong_map_id. reflexivity. Qed.

Lemma pong_owned (x : pong_msg cow) : pong_into_owned x = pong_map maybe_clone x.
Proof. destruct x; unfold pong_into_owned, pong_map; cbn -[option_map map]; args owned. Qed.
#[export] Hint Resolve pong_owned : maps.

Lemma notice_map_ext {A B : Type} (f g : A -> B) : (forall s, f s = g s) ->
  forall x, notice_map f x = notice_map g x.
Proof. intros E x. destruct x; unfold notice_map; cbn -[option_map map]; args mapped. Qed.

Lemma notice_map_map {A B C : Type} (f : B -> C) (g : A -> B) (x : notice_msg A) :
  notice_map f (notice_map g x) = notice_map (fun s => f (g s)) x.
Proof. destruct x; unfold notice_map; cbn -[option_map map]; args mapped. Qed.

Lemma notice_map_id {A : Type} (f : A -> A) : (forall s, f s = s) -> forall x, notice_map f x = x.
Proof. intros E x. destruct x; unfold notice_map; cbn -[option_map map]; args mapped. Qed.

#[export] Hint Resolve notice_map_ext notice_map_id : maps.
#[export] Hint Rewrite @notice_map_map : maps.

Lemma notice_map_deref (x : notice_msg str) : notice_map deref (notice_map Borrowed x) = x.
Proof. rewrite notice_map_map. apply notice_map_id. reflexivity. Qed.

Lemma notice_owned (x : notice_msg cow) : notice_into_owned x = notice_map maybe_clone x.
Proof. destruct x; unfold notice_into_owned, notice_map; cbn -[option_map map]; args owned. Qed.
#[export] Hint Resolve notice_owned : maps.

Lemma clear_msg_map_ext {A B : Type} (f g : A -> B) : (forall s, f s = g s) ->
  forall x, clear_msg_map f x = clear_msg_map g x.
Proof. intros E x. destruct x; unfold clear_msg_map; cbn -[option_map map]; args mapped. Qed.

Lemma clear_msg_map_map {A B C : Type} (f : B -> C) (g : A -> B) (x : clear_msg A) :
  clear_msg_map f (clear_msg_map g x) = clear_msg_map (fun s => f (g s)) x.
Proof. destruct x; unfold clear_msg_map; cbn -[option_map map]; args mapped. Qed.

Lemma clear_msg_map_id {A : Type} (f : A -> A) : (forall s, f s = s) -> forall x, clear_msg_map f x = x.
Proof. intros E x. destruct x; unfold clear_msg_map; cbn -[option_map map]; args mapped. Qed.

#[export] Hint Resolve clear_msg_map_ext clear_msg_map_id : maps.
#[export] Hint Rewrite @clear_msg_map_map : maps.

Lemma clear_msg_map_deref (x : clear_msg str) : clear_msg_map deref (clear_msg_map Borrowed x) = x.
Proof. rewrite clear_msg_map_map. apply clear_msg_map_id. reflexivity. Qed.

Lemma clear_msg_owned (x : clear_msg cow) : clear_msg_into_owned x = clear_msg_map maybe_clone x.
Proof. destruct x; unfold clear_msg_into_owned, clear_msg_map; cbn -[option_map map]; args owned. Qed.
#[export] Hint Resolve clear_msg_owned : maps.

Lemma action_map_ext {A B : Type} (f g : A -> B) : (forall s, f s = g s) ->
  forall x, action_map f x = action_map g x.
Proof. intros E x. destruct x; unfold action_map; cbn -[option_map map]; args mapped. Qed.

Lemma action_map_map {A B C : Type} (f : B -> C) (g : A -> B) (x : action A) :
  action_map f (action_map g x) = action_map (fun s => f (g s)) x.
Proof. destruct x; unfold action_map; cbn -[option_map map]; args mapped. Qed.

Lemma action_map_id {A : Type} (f : A -> A) : (forall s, f s = s) -> forall x, action_map f x = x.
Proof. intros E x. destruct x; unfold action_map; cbn -[option_map map]; args mapped. Qed.

#[export] Hint Resolve action_map_ext action_map_id : maps.
#[export] Hint Rewrite @action_map_map : maps.

Lemma action_map_deref (x : action str) : action_map deref (action_map Borrowed x) = x.
Proof. rewrite action_map_map. apply action_map_id. reflexivity. Qed.

Lemma action_owned (x : action cow) : action_into_owned x = action_map maybe_clone x.
Proof. destruct x; unfold action_into_owned, action_map; cbn -[option_map map]; args owned. Qed.
#[export] Hint Resolve action_owned : maps.

Lemma clear_chat_map_ext {A B : Type} (f g : A -> B) : (forall s, f s = g s) ->
  forall x, clear_chat_map f x = clear_chat_map g x.
Proof. intros E x. destruct x; unfold clear_chat_map; cbn -[option_map map]; args mapped. Qed.

Lemma clear_chat_map_map {A B C : Type} (f : B -> C) (g : A -> B) (x : clear_chat A) :
  clear_chat_map f (clear_chat_map g x) = clear_chat_map (fun s => f (g s)) x.
Proof. destruct x; unfold clear_chat_map; cbn -[option_map map]; args mapped. Qed.

Lemma clear_chat_map_id {A : Type} (f : A -> A) : (forall s, f s = s) -> forall x, clear_chat_map f x = x.
Proof. intros E x. destruct x; unfold clear_chat_map; cbn -[option_map map]; args mapped. Qed.

#[export] Hint Resolve clear_chat_map_ext clear_chat_map_id : maps.
#[export] Hint Rewrite @clear_chat_map_map : maps.

Lemma clear_chat_map_deref (x : clear_chat str) : clear_chat_map deref (clear_chat_map Borrowed x) = x.
Proof. rewrite clear_chat_map_map. apply clear_chat_map_id. reflexivity. Qed.

Lemma clear_chat_owned (x : clear_chat cow) : clear_chat_into_owned x = clear_chat_map maybe_clone x.
Proof. destruct x; unfold clear_chat_into_owned, clear_chat_map; cbn -[option_map map]; args owned. Qed.
#[export] Hint Resolve clear_chat_owned : maps.

Lemma global_user_state_map_ext {A B : Type} (f g : A -> B) : (forall s, f s = g s) ->
  forall x, global_user_state_map f x = global_user_state_map g x.
Proof. intros E x. destruct x; unfold global_user_state_map; cbn -[option_map map]; args mapped. Qed.

Lemma global_user_state_map_map {A B C : Type} (f : B -> C) (g : A -> B) (x : global_user_state A) :
  global_user_state_map f (global_user_state_map g x) = global_user_state_map (fun s => f (g s)) x.
Proof. destruct x; unfold global_user_state_map; cbn -[option_map map]; args mapped. Qed.

Lemma global_user_state_map_id {A : Type} (f : A -> A) : (forall s, f s = s) -> forall x, global_user_state_map f x = x.
Proof. intros E x. destruct x; unfold global_user_state_map; cbn -[option_map map]; args mapped. Qed.

#[export] Hint Resolve global_user_state_map_ext global_user_state_map_id : maps.
#[export] Hint Rewrite @global_user_state_map_map : maps.

Lemma global_user_state_map_deref (x : global_user_state str) : global_user_state_map deref (global_user_state_map Borrowed x) = x.
Proof. rewrite global_user_state_map_map. apply global_user_state_map_id. reflexivity. Qed.

Lemma global_user_state_owned (x : global_user_state cow) : global_user_state_into_owned x = global_user_state_map maybe_clone x.
Proof. destruct x; unfold global_user_state_into_owned, global_user_state_map; cbn -[option_map map]; args owned. Qed.
#[export] Hint Resolve global_user_state_owned : maps.

Lemma user_state_map_ext {A B : Type} (f g : A -> B) : (forall s, f s = g s) ->
  forall x, user_state_map f x = user_state_map g x.
Proof. intros E x. destruct x; unfold user_state_map; cbn -[option_map map]; args mapped. Qed.

Lemma user_state_map_map {A B C : Type} (f : B -> C) (g : A -> B) (x : user_state A) :
  user_state_map f (user_state_map g x) = user_state_map (fun s => f (g s)) x.
Proof. destruct x; unfold user_state_map; cbn -[option_map map]; args mapped. Qed.

Lemma user_state_map_id {A : Type} (f : A -> A) : (forall s, f s = s) -> forall x, user_state_map f x = x.
Proof. intros E x. destruct x; unfold user_state_map; cbn -[option_map map]; args mapped. Qed.

#[export] Hint Resolve user_state_map_ext user_state_map_id : maps.
#[export] Hint Rewrite @user_state_map_map : maps.

Lemma user_state_map_deref (x : user_state str) : user_state_map deref (user_state_map Borrowed x) = x.
Proof. rewrite user_state_map_map. apply user_state_map_id. reflexivity. Qed.

Lemma user_state_owned (x : user_state cow) : user_state_into_owned x = user_state_map maybe_clone x.
Proof. destruct x; unfold user_state_into_owned, user_state_map; cbn -[option_map map]; args owned. Qed.
#[export] Hint Resolve user_state_owned : maps.

Lemma whisper_map_ext {A B : Type} (f g : A -> B) : (forall s, f s = g s) ->
  forall x, whisper_map f x = whisper_map g x.
Proof. intros E x. destruct x; unfold whisper_map; cbn -[option_map map]; args mapped. Qed.

Lemma whisper_map_map {A B C : Type} (f : B -> C) (g : A -> B) (x : whisper_msg A) :
  whisper_map f (whisper_map g x) = whisper_map (fun s => f (g s)) x.
Proof. destruct x; unfold whisper_map; cbn -[option_map map]; args mapped. Qed.

Lemma whisper_map_id {A : Type} (f : A -> A) : (forall s, f s = s) -> forall x, whisper_map f x = x.
Proof. intros E x. destruct x; unfold whisper_map; cbn -[option_map map]; args mapped. Qed.

#[export] Hint Resolve whisper_map_ext whisper_map_id : maps.
#[export] Hint Rewrite @whisper_map_map : maps.

Lemma whisper_map_deref (x : whisper_msg str) : whisper_map deref (whisper_map Borrowed x) = x.
Proof. rewrite whisper_map_map. apply whisper_map_id. reflexivity. Qed.

Lemma whisper_owned (x : whisper_msg cow) : whisper_into_owned x = whisper_map maybe_clone x.
Proof. destruct x; unfold whisper_into_owned, whisper_map; cbn -[option_map map]; args owned. Qed.
#[export] Hint Resolve whisper_owned : maps.

Lemma room_state_map_ext {A B : Type} (f g : A -> B) : (forall s, f s = g s) ->
  forall x, room_state_map f x = room_state_map g x.
Proof. intros E x. destruct x; unfold room_state_map; cbn -[option_map map]; args mapped. Qed.

Lemma room_state_map_map {A B C : Type} (f : B -> C) (g : A -> B) (x : room_state A) :
  room_state_map f (room_state_map g x) = room_state_map (fun s => f (g s)) x.
Proof. destruct x; unfold room_state_map; cbn -[option_map map]; args mapped. Qed.

Lemma room_state_map_id {A : Type} (f : A -> A) : (forall s, f s = s) -> forall x, room_state_map f x = x.
Proof. intros E x. destruct x; unfold room_state_map; cbn -[option_map map]; args mapped. Qed.

#[export] Hint Resolve room_state_map_ext room_state_map_id : maps.
#[export] Hint Rewrite @room_state_map_map : maps.

Lemma room_state_map_deref (x : room_state str) : room_state_map deref (room_state_map Borrowed x) = x.
Proof. rewrite room_state_map_map. apply room_state_map_id. reflexivity. Qed.

Lemma room_state_owned (x : room_state cow) : room_state_into_owned x = room_state_map maybe_clone x.
Proof. destruct x; unfold room_state_into_owned, room_state_map; cbn -[option_map map]; args owned. Qed.
#[export] Hint Resolve room_state_owned : maps.

Lemma reply_map_ext {A B : Type} (f g : A -> B) : (forall s, f s = g s) ->
  forall x, reply_map f x = reply_map g x.
Proof. intros E x. destruct x; unfold reply_map; cbn -[option_map map]; args mapped. Qed.

Lemma reply_map_map {A B C : Type} (f : B -> C) (g : A -> B) (x : reply A) :
  reply_map f (reply_map g x) = reply_map (fun s => f (g s)) x.
Proof. destruct x; unfold reply_map; cbn -[option_map map]; args mapped. Qed.

Lemma reply_map_id {A : Type} (f : A -> A) : (forall s, f s = s) -> forall x, reply_map f x = x.
Proof. intros E x. destruct x; unfold reply_map; cbn -[option_map map]; args mapped. Qed.

#[export] Hint Resolve reply_map_ext reply_map_id : maps.
#[export] Hint Rewrite @reply_map_map : maps.

Lemma reply_map_deref (x : reply str) : reply_map deref (reply_map Borrowed x) = x.
Proof. rewrite reply_map_map. apply reply_map_id. reflexivity. Qed.

Lemma reply_owned (x : reply cow) : reply_into_owned x = reply_map maybe_clone x.
Proof. destruct x; unfold reply_into_owned, reply_map; cbn -[option_map map]; args owned. Qed.
#[export] Hint Resolve reply_owned : maps.

Lemma pinned_map_ext {A B : Type} (f g : A -> B) : (forall s, f s = g s) ->
  forall x, pinned_map f x = pinned_map g x.
Proof. intros E x. destruct x; unfold pinned_map; cbn -[option_map map]; args mapped. Qed.

Lemma pinned_map_map {A B C : Type} (f : B -> C) (g : A -> B) (x : pinned_chat A) :
  pinned_map f (pinned_map g x) = pinned_map (fun s => f (g s)) x.
Proof. destruct x; unfold pinned_map; cbn -[option_map map]; args mapped. Qed.

Lemma pinned_map_id {A : Type} (f : A -> A) : (forall s, f s = s) -> forall x, pinned_map f x = x.
Proof. intros E x. destruct x; unfold pinned_map; cbn -[option_map map]; args mapped. Qed.

#[export] Hint Resolve pinned_map_ext pinned_map_id : maps.
#[export] Hint Rewrite @pinned_map_map : maps.

Lemma pinned_map_deref (x : pinned_chat str) : pinned_map deref (pinned_map Borrowed x) = x.
Proof. rewrite pinned_map_map. apply pinned_map_id. reflexivity. Qed.

Lemma pinned_owned (x : pinned_chat cow) : pinned_into_owned x = pinned_map maybe_clone x.
Proof. destruct x; unfold pinned_into_owned, pinned_map; cbn -[option_map map]; args owned. Qed.
#[export] Hint Resolve pinned_owned : maps.

Lemma privmsg_map_ext {A B : Type} (f g : A -> B) : (forall s, f s = g s) ->
  forall x, privmsg_map f x = privmsg_map g x.
Proof. intros E x. destruct x; unfold privmsg_map; cbn -[option_map map]; args mapped. Qed.

Lemma privmsg_map_map {A B C : Type} (f : B -> C) (g : A -> B) (x : privmsg A) :
  privmsg_map f (privmsg_map g x) = privmsg_map (fun s => f (g s)) x.
Proof. destruct x; unfold privmsg_map; cbn -[option_map map]; args mapped. Qed.

Lemma privmsg_map_id {A : Type} (f : A -> A) : (forall s, f s = s) -> forall x, privmsg_map f x = x.
Proof. intros E x. destruct x; unfold privmsg_map; cbn -[option_map map]; args mapped. Qed.

#[export] Hint Resolve privmsg_map_ext privmsg_map_id : maps.
#[export] Hint Rewrite @privmsg_map_map : maps.

Lemma privmsg_map_deref (x : privmsg str) : privmsg_map deref (privmsg_map Borrowed x) = x.
Proof. rewrite privmsg_map_map. apply privmsg_map_id. reflexivity. Qed.

Lemma privmsg_owned (x : privmsg cow) : privmsg_into_owned x = privmsg_map maybe_clone x.
Proof. destruct x; unfold privmsg_into_owned, privmsg_map; cbn -[option_map map]; args owned. Qed.
#[export] Hint Resolve privmsg_owned : maps.

Lemma promo_map_ext {A B : Type} (f g : A -> B) : (forall s, f s = g s) ->
  forall x, promo_map f x = promo_map g x.
Proof. intros E x. destruct x; unfold promo_map; cbn -[option_map map]; args mapped. Qed.

Lemma promo_map_map {A B C : Type} (f : B -> C) (g : A -> B) (x : promo A) :
  promo_map f (promo_map g x) = promo_map (fun s => f (g s)) x.
Proof. destruct x; unfold promo_map; cbn -[option_map map]; args mapped. Qed.

Lemma promo_map_id {A : Type} (f : A -> A) : (forall s, f s = s) -> forall x, promo_map f x = x.
Proof. intros E x. destruct x; unfold promo_map; cbn -[option_map map]; args mapped. Qed.

#[export] Hint Resolve promo_map_ext promo_map_id : maps.
#[export] Hint Rewrite @promo_map_map : maps.

Lemma promo_map_deref (x : promo str) : promo_map deref (promo_map Borrowed x) = x.
Proof. rewrite promo_map_map. apply promo_map_id. reflexivity. Qed.

Lemma promo_owned (x : promo cow) : promo_into_owned x = promo_map maybe_clone x.
Proof. destruct x; unfold promo_into_owned, promo_map; cbn -[option_map map]; args owned. Qed.
#[export] Hint Resolve promo_owned : maps.

Lemma event_map_ext {A B : Type} (f g : A -> B) : (forall s, f s = g s) ->
  forall x, event_map f x = event_map g x.
Proof. intros E x. destruct x; unfold event_map; cbn -[option_map map]; args mapped. Qed.

Lemma event_map_map {A B C : Type} (f : B -> C) (g : A -> B) (x : event A) :
  event_map f (event_map g x) = event_map (fun s => f (g s)) x.
Proof. destruct x; unfold event_map; cbn -[option_map map]; args mapped. Qed.

Lemma event_map_id {A : Type} (f : A -> A) : (forall s, f s = s) -> forall x, event_map f x = x.
Proof. intros E x. destruct x; unfold event_map; cbn -[option_map map]; args mapped. Qed.

#[export] Hint Resolve event_map_ext event_map_id : maps.
#[export] Hint Rewrite @event_map_map : maps.

Lemma event_map_deref (x : event str) : event_map deref (event_map Borrowed x) = x.
Proof. rewrite event_map_map. apply event_map_id. reflexivity. Qed.

Lemma event_owned (x : event cow) : event_into_owned x = event_map maybe_clone x.
Proof. destruct x; unfold event_into_owned, event_map; cbn -[option_map map]; args owned. Qed.
#[export] Hint Resolve event_owned : maps.

Lemma user_notice_map_ext {A B : Type} (f g : A -> B) : (forall s, f s = g s) ->
  forall x, user_notice_map f x = user_notice_map g x.
Proof. intros E x. destruct x; unfold user_notice_map; cbn -[option_map map]; args mapped. Qed.

Lemma user_notice_map_map {A B C : Type} (f : B -> C) (g : A -> B) (x : user_notice A) :
  user_notice_map f (user_notice_map g x) = user_notice_map (fun s => f (g s)) x.
Proof. destruct x; unfold user_notice_map; cbn -[option_map map]; args mapped. Qed.

Lemma user_notice_map_id {A : Type} (f : A -> A) : (forall s, f s = s) -> forall x, user_notice_map f x = x.
Proof. intros E x. destruct x; unfold user_notice_map; cbn -[option_map map]; args mapped. Qed.

#[export] Hint Resolve user_notice_map_ext user_notice_map_id : maps.
#[export] Hint Rewrite @user_notice_map_map : maps.

Lemma user_notice_map_deref (x : user_notice str) : user_notice_map deref (user_notice_map Borrowed x) = x.
Proof. rewrite user_notice_map_map. apply user_notice_map_id. reflexivity. Qed.

Lemma user_notice_owned (x : user_notice cow) : user_notice_into_owned x = user_notice_map maybe_clone x.
Proof. destruct x; unfold user_notice_into_owned, user_notice_map; cbn -[option_map map]; args owned. Qed.
#[export] Hint Resolve user_notice_owned : maps.
