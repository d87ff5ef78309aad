(** * DbgTyped: the trees of typed messages (proofs). *)

From Verif Require Import Base Common Client Tags Irc MsgBase MsgTypes MsgNotice Message SpecIrc SpecMsg SpecDbg Dbg.
From Coq Require Import Lia ZifyBool ZifyNat ZifyN.
From Verif Require Import BaseFacts Utf8Facts MapFacts DbgFacts DbgValues.

Open Scope nat_scope.

(** ** Equal trees *)

Definition same {X Y : Type} (d : X -> dbg) (m : X -> Y) : Prop := forall x y, d x = d y <-> m x = m y.

Lemma same_id {X : Type} (d : X -> dbg) : (forall x y, d x = d y -> x = y) -> forall x y, d x = d y <-> x = y.
Proof. intros H x y. split; [apply H|congruence]. Qed.

Lemma option_same {X Y : Type} (d : X -> dbg) (m : X -> Y) : same d m -> same (dbg_option d) (option_map m).
Proof.
  intros S [x|] [y|]; cbn; split; intros E; try discriminate E; try reflexivity.
  - f_equal. apply S. now injection E.
  - do 2 f_equal. apply S. now injection E.
Qed.

Lemma list_same {X Y : Type} (d : X -> dbg) (m : X -> Y) : same d m -> same (dbg_list d) (map m).
Proof.
  intros S l l'. unfold dbg_list. split; intros E.
  - assert (E' : map d l = map d l') by congruence. clear E. revert l' E'.
    induction l as [|x l IH]; intros [|y l'] E; try discriminate E; [reflexivity|]. cbn in *.
    pose proof (f_equal (hd (d x)) E) as E1. pose proof (f_equal (@tl dbg) E) as E2. cbn in E1, E2.
    f_equal; [now apply S|now apply IH].
  - f_equal. revert l' E. induction l as [|x l IH]; intros [|y l'] E; try discriminate E; [reflexivity|]. cbn in *.
    injection E as E1 E2. f_equal; [now apply S|now apply IH].
Qed.

Lemma option_id {X : Type} (d : X -> dbg) : (forall x y, d x = d y <-> x = y) ->
  forall x y, dbg_option d x = dbg_option d y <-> x = y.
Proof. intros S x y. rewrite (option_same d (fun x => x) S x y). destruct x, y; cbn; split; congruence. Qed.

Lemma bool_inj (x y : bool) : dbg_bool x = dbg_bool y -> x = y.
Proof. destruct x, y; intros E; try reflexivity; discriminate E. Qed.

Lemma level_inj (x y : level) : dbg_level x = dbg_level y -> x = y.
Proof. destruct x, y; intros E; try reflexivity; discriminate E. Qed.

Lemma text_same (x y : str) : DText x = DText y <-> x = y.
Proof. split; congruence. Qed.
Lemma cow_same (x y : cow) : dbg_cow x = dbg_cow y <-> deref x = deref y.
Proof. unfold dbg_cow. split; congruence. Qed.
Definition bool_same := same_id dbg_bool bool_inj.
Definition u64_same := same_id dbg_u64 dbg_u64_inj.
Definition i64_same := same_id dbg_i64 dbg_i64_inj.
Definition secs_same := same_id dbg_secs dbg_secs_inj.
Definition nanos_same := same_id dbg_nanos dbg_nanos_inj.
Definition time_same := same_id dbg_time dbg_time_inj.
Definition level_same := same_id dbg_level level_inj.

Lemma followers_inj (x y : followers_only) : dbg_followers x = dbg_followers y -> x = y.
Proof.
  destruct x as [|o], y as [|o']; intros E; try reflexivity; try discriminate E. f_equal.
  apply (option_id _ secs_same). unfold dbg_followers in E. congruence.
Qed.
Definition followers_same := same_id dbg_followers followers_inj.

Definition ocow_same := option_same _ _ cow_same.
Definition lcow_same := list_same _ _ cow_same.
Definition obool_same := option_id _ bool_same.
Definition ou64_same := option_id _ u64_same.
Definition osecs_same := option_id _ secs_same.
Definition ofollowers_same := option_id _ followers_same.
Definition otext_same := option_id _ text_same.

Lemma struct_fields (n n' : string) (l l' : list (str * dbg)) : dbg_struct n l = dbg_struct n' l' -> l = l'.
Proof. unfold dbg_struct. congruence. Qed.

Lemma field_eq (n : string) (d d' : dbg) (l l' : list (str * dbg)) : fld n d :: l = fld n d' :: l' -> d = d' /\ l = l'.
Proof.
  intros E. split; [|exact (f_equal (@tl _) E)].
  exact (f_equal (fun q => match q with x :: _ => snd x | [] => d end) E).
Qed.

Lemma tuple_eq (n n' : str) (d d' : dbg) : DTuple n [d] = DTuple n' [d'] -> n = n' /\ d = d'.
Proof. intros E. split; congruence. Qed.

(** Equal fields from equal trees, and the other way round. *)
Ltac peel :=
  unfold dbg_variant in *;
  repeat match goal with
         | E : dbg_struct _ _ = dbg_struct _ _ |- _ => apply struct_fields in E
         | E : fld _ _ :: _ = fld _ _ :: _ |- _ => apply field_eq in E as [? E]
         | E : DTuple _ [_] = DTuple _ [_] |- _ => apply tuple_eq in E as [_ E]
         end.

Ltac leaf lem := first [apply (proj1 (lem _ _)); assumption | apply (proj2 (lem _ _)); assumption].

(** Keeps [injection] out of the records inside. *)
Ltac hide E := repeat match type of E with
  | context [user_map ?f ?u] => let k := fresh "k" in remember (user_map f u) as k
  | context [subscriber_map ?f ?u] => let k := fresh "k" in remember (subscriber_map f u) as k
  | context [badge_data_map ?f ?u] => let k := fresh "k" in remember (badge_data_map f u) as k
  end.

Ltac leaves0 := first [ assumption | reflexivity | leaf cow_same | leaf ocow_same | leaf lcow_same | leaf bool_same | leaf obool_same
  | leaf u64_same | leaf ou64_same | leaf i64_same | leaf secs_same | leaf osecs_same | leaf time_same | leaf level_same
  | leaf ofollowers_same | leaf nanos_same ].
Ltac leaves := leaves0.

(** Compares two applications argument by argument. *)
Ltac rows tac :=
  first [ reflexivity
        | lazymatch goal with
          | |- ?f ?x = ?g ?y =>
            apply (f_equal2 (fun h a => h a) (x1 := f) (y1 := g) (x2 := x) (y2 := y)); [rows tac | tac]
          end ].

Ltac fields tac :=
  repeat lazymatch goal with
  | |- dbg_struct ?n ?l = dbg_struct ?n ?l' => apply (f_equal (dbg_struct n))
  | |- fld ?n ?d :: ?l = fld ?n ?d' :: ?l' => apply (f_equal2 (fun x q => fld n x :: q)); [tac|]
  | |- DTuple ?n [_] = DTuple ?n [_] => apply (f_equal (fun x => DTuple n [x]))
  | |- [] = [] => reflexivity
  end.


Lemma badge_data_same : same dbg_badge_data (badge_data_map deref).
Proof.
  intros x y. destruct x, y. unfold dbg_badge_data, badge_data_map. cbn -[dbg_struct fld dbg_option dbg_list option_map map dbg_time dbg_secs dbg_u64 dbg_i64 dbg_bool dbg_cow dbg_level dbg_followers b]. split; intros E.
  - peel. rows leaves.
  - hide E; injection E; intros; subst; fields leaves.
Qed.

Lemma subscriber_same : same dbg_subscriber (subscriber_map deref).
Proof.
  intros x y. destruct x, y. unfold dbg_subscriber, subscriber_map. cbn -[dbg_struct fld dbg_option dbg_list option_map map dbg_time dbg_secs dbg_u64 dbg_i64 dbg_bool dbg_cow dbg_level dbg_followers b]. split; intros E.
  - peel. rows leaves.
  - hide E; injection E; intros; subst; fields leaves.
Qed.

Lemma badge_same : same dbg_badge (badge_map deref).
Proof.
  intros x y. destruct x as [| | | |s|d], y as [| | | |s'|d']; cbn -[dbg_subscriber dbg_badge_data b subscriber_map badge_data_map];
    split; intros E; try discriminate E; try reflexivity.
  - apply tuple_eq in E as [_ E]. f_equal. now apply subscriber_same.
  - apply (f_equal (fun x => DTuple (b "Subscriber") [x])). apply subscriber_same. congruence.
  - apply tuple_eq in E as [_ E]. f_equal. now apply badge_data_same.
  - apply (f_equal (fun x => DTuple (b "Other") [x])). apply badge_data_same. congruence.
Qed.
Definition badges_same := list_same _ _ badge_same.

Lemma user_same : same dbg_user (user_map deref).
Proof.
  intros x y. destruct x, y. unfold dbg_user, user_map. cbn -[dbg_struct fld dbg_option dbg_list option_map map dbg_time dbg_secs dbg_u64 dbg_i64 dbg_bool dbg_cow dbg_level dbg_followers b]. split; intros E.
  - peel. rows leaves.
  - hide E; injection E; intros; subst; fields leaves.
Qed.

Definition ouser_same := option_same _ _ user_same.

Ltac leaves ::= first [ leaves0 | leaf badges_same | leaf user_same | leaf ouser_same ].

Lemma join_same : same dbg_join (join_map deref).
Proof.
  intros x y. destruct x, y. unfold dbg_join, join_map. cbn -[dbg_struct fld dbg_option dbg_list option_map map dbg_time dbg_secs dbg_u64 dbg_i64 dbg_bool dbg_cow dbg_level dbg_followers b]. split; intros E.
  - peel. rows leaves.
  - hide E; injection E; intros; subst; fields leaves.
Qed.

Lemma part_same : same dbg_part (part_map deref).
Proof.
  intros x y. destruct x, y. unfold dbg_part, part_map. cbn -[dbg_struct fld dbg_option dbg_list option_map map dbg_time dbg_secs dbg_u64 dbg_i64 dbg_bool dbg_cow dbg_level dbg_followers b]. split; intros E.
  - peel. rows leaves.
  - hide E; injection E; intros; subst; fields leaves.
Qed.

Lemma ping_same : same dbg_ping (ping_map deref).
Proof.
  intros x y. destruct x, y. unfold dbg_ping, ping_map. cbn -[dbg_struct fld dbg_option dbg_list option_map map dbg_time dbg_secs dbg_u64 dbg_i64 dbg_bool dbg_cow dbg_level dbg_followers b]. split; intros E.
  - peel. rows leaves.
  - hide E; injection E; intros; subst; fields leaves.
Qed.

Lemma pong_same : same dbg_pong (pong_map deref).
Proof.
  intros x y. destruct x, y. unfold dbg_pong, pong_map. cbn -[dbg_struct fld dbg_option dbg_list option_map map dbg_time dbg_secs dbg_u64 dbg_i64 dbg_bool dbg_cow dbg_level dbg_followers b]. split; intros E.
  - peel. rows leaves.
  - hide E; injection E; intros; subst; fields leaves.
Qed.

Lemma notice_same : same dbg_notice (notice_map deref).
Proof.
  intros x y. destruct x, y. unfold dbg_notice, notice_map. cbn -[dbg_struct fld dbg_option dbg_list option_map map dbg_time dbg_secs dbg_u64 dbg_i64 dbg_bool dbg_cow dbg_level dbg_followers b]. split; intros E.
  - peel. rows leaves.
  - hide E; injection E; intros; subst; fields leaves.
Qed.

Lemma clear_msg_same : same dbg_clear_msg (clear_msg_map deref).
Proof.
  intros x y. destruct x, y. unfold dbg_clear_msg, clear_msg_map. cbn -[dbg_struct fld dbg_option dbg_list option_map map dbg_time dbg_secs dbg_u64 dbg_i64 dbg_bool dbg_cow dbg_level dbg_followers b]. split; intros E.
  - peel. rows leaves.
  - hide E; injection E; intros; subst; fields leaves.
Qed.

Lemma action_same : same dbg_action (action_map deref).
Proof.
  intros x y. destruct x, y; cbn -[dbg_struct fld dbg_option dbg_list option_map map dbg_time dbg_secs dbg_u64 dbg_i64 dbg_bool dbg_cow dbg_level dbg_followers b user_map]; split; intros E;
    try discriminate E; try reflexivity; first [ peel; rows leaves | hide E; injection E; intros; subst; unfold dbg_variant; fields leaves ].
Qed.

Ltac leaves ::= first [ leaves0 | leaf badges_same | leaf user_same | leaf ouser_same | leaf action_same ].

Lemma clear_chat_same : same dbg_clear_chat (clear_chat_map deref).
Proof.
  intros x y. destruct x, y. unfold dbg_clear_chat, clear_chat_map. cbn -[dbg_struct fld dbg_option dbg_list option_map map dbg_time dbg_secs dbg_u64 dbg_i64 dbg_bool dbg_cow dbg_level dbg_followers b]. split; intros E.
  - peel. rows leaves.
  - hide E; injection E; intros; subst; fields leaves.
Qed.

Lemma global_user_state_same : same dbg_global_user_state (global_user_state_map deref).
Proof.
  intros x y. destruct x, y. unfold dbg_global_user_state, global_user_state_map. cbn -[dbg_struct fld dbg_option dbg_list option_map map dbg_time dbg_secs dbg_u64 dbg_i64 dbg_bool dbg_cow dbg_level dbg_followers b]. split; intros E.
  - peel. rows leaves.
  - hide E; injection E; intros; subst; fields leaves.
Qed.

Lemma user_state_same : same dbg_user_state (user_state_map deref).
Proof.
  intros x y. destruct x, y. unfold dbg_user_state, user_state_map. cbn -[dbg_struct fld dbg_option dbg_list option_map map dbg_time dbg_secs dbg_u64 dbg_i64 dbg_bool dbg_cow dbg_level dbg_followers b]. split; intros E.
  - peel. rows leaves.
  - hide E; injection E; intros; subst; fields leaves.
Qed.

Lemma whisper_same : same dbg_whisper (whisper_map deref).
Proof.
  intros x y. destruct x, y. unfold dbg_whisper, whisper_map. cbn -[dbg_struct fld dbg_option dbg_list option_map map dbg_time dbg_secs dbg_u64 dbg_i64 dbg_bool dbg_cow dbg_level dbg_followers b]. split; intros E.
  - peel. rows leaves.
  - hide E; injection E; intros; subst; fields leaves.
Qed.

Lemma room_state_same : same dbg_room_state (room_state_map deref).
Proof.
  intros x y. destruct x, y. unfold dbg_room_state, room_state_map. cbn -[dbg_struct fld dbg_option dbg_list option_map map dbg_time dbg_secs dbg_u64 dbg_i64 dbg_bool dbg_cow dbg_level dbg_followers b]. split; intros E.
  - peel. rows leaves.
  - hide E; injection E; intros; subst; fields leaves.
Qed.

Lemma reply_same : same dbg_reply (reply_map deref).
Proof.
  intros x y. destruct x, y. unfold dbg_reply, reply_map. cbn -[dbg_struct fld dbg_option dbg_list option_map map dbg_time dbg_secs dbg_u64 dbg_i64 dbg_bool dbg_cow dbg_level dbg_followers b]. split; intros E.
  - peel. rows leaves.
  - hide E; injection E; intros; subst; fields leaves.
Qed.

Lemma pinned_same : same dbg_pinned (pinned_map deref).
Proof.
  intros x y. destruct x, y. unfold dbg_pinned, pinned_map. cbn -[dbg_struct fld dbg_option dbg_list option_map map dbg_time dbg_secs dbg_u64 dbg_i64 dbg_bool dbg_cow dbg_level dbg_followers b]. split; intros E.
  - peel. rows leaves.
  - hide E; injection E; intros; subst; fields leaves.
Qed.

Lemma promo_same : same dbg_promo (promo_map deref).
Proof.
  intros x y. destruct x, y. unfold dbg_promo, promo_map. cbn -[dbg_struct fld dbg_option dbg_list option_map map dbg_time dbg_secs dbg_u64 dbg_i64 dbg_bool dbg_cow dbg_level dbg_followers b]. split; intros E.
  - peel. rows leaves.
  - hide E; injection E; intros; subst; fields leaves.
Qed.

Definition oreply_same := option_same _ _ reply_same.
Definition opinned_same := option_same _ _ pinned_same.
Definition opromo_same := option_same _ _ promo_same.

Ltac leaves ::= first [ leaves0 | leaf badges_same | leaf user_same | leaf ouser_same | leaf action_same | leaf oreply_same | leaf opinned_same | leaf opromo_same ].

Lemma privmsg_same : same dbg_privmsg (privmsg_map deref).
Proof.
  intros x y. destruct x, y. unfold dbg_privmsg, privmsg_map. cbn -[dbg_struct fld dbg_option dbg_list option_map map dbg_time dbg_secs dbg_u64 dbg_i64 dbg_bool dbg_cow dbg_level dbg_followers b]. split; intros E.
  - peel. rows leaves.
  - hide E; injection E; intros; subst; fields leaves.
Qed.

Lemma event_same : same dbg_event (event_map deref).
Proof.
  intros x y. destruct x, y; cbn -[dbg_struct fld dbg_option dbg_list option_map map dbg_time dbg_secs dbg_u64 dbg_i64 dbg_bool dbg_cow dbg_level dbg_followers b user_map]; split; intros E;
    try discriminate E; try reflexivity; first [ peel; rows leaves | hide E; injection E; intros; subst; unfold dbg_variant; fields leaves ].
Qed.

Ltac leaves ::= first [ leaves0 | leaf badges_same | leaf user_same | leaf ouser_same | leaf action_same | leaf oreply_same | leaf opinned_same | leaf opromo_same | leaf event_same ].

Lemma user_notice_same : same dbg_user_notice (user_notice_map deref).
Proof.
  intros x y. destruct x, y. unfold dbg_user_notice, user_notice_map. cbn -[dbg_struct fld dbg_option dbg_list option_map map dbg_time dbg_secs dbg_u64 dbg_i64 dbg_bool dbg_cow dbg_level dbg_followers b]. split; intros E.
  - peel. rows leaves.
  - hide E; injection E; intros; subst; fields leaves.
Qed.

(** ** Well-formed trees *)

Lemma wf_cow (c : cow) (t : text) : deref c = raw t -> wf (dbg_cow c).
Proof. intros E. constructor. rewrite E. apply (proj2_sig t). Qed.

Lemma wf_option {X Y Z : Type} (d : X -> dbg) (m : X -> Y) (m' : Z -> Y) (o : option X) (o' : option Z) :
  (forall x z, m x = m' z -> wf (d x)) -> option_map m o = option_map m' o' -> wf (dbg_option d o).
Proof.
  intros H E. destruct o as [x|], o' as [z|]; try discriminate E; [|now constructor]. injection E as E.
  constructor; [reflexivity|discriminate|]. constructor; [|constructor]. now apply (H x z).
Qed.

Lemma wf_some {X : Type} (d : X -> dbg) (o : option X) : (forall x, wf (d x)) -> wf (dbg_option d o).
Proof. intros H. destruct o; [|now constructor]. constructor; [reflexivity|discriminate|auto]. Qed.

Lemma wf_items {X Y Z : Type} (d : X -> dbg) (m : X -> Y) (m' : Z -> Y) (l : list X) (l' : list Z) :
  (forall x z, m x = m' z -> wf (d x)) -> map m l = map m' l' -> wf (dbg_list d l).
Proof.
  intros H E. constructor. revert l' E. induction l as [|x l IH]; intros [|z l'] E; try discriminate E; [constructor|].
  injection E as E1 E2. constructor; [now apply (H x z)|now apply (IH l')].
Qed.

Lemma wf_bool (x : bool) : wf (dbg_bool x).
Proof. destruct x; now constructor. Qed.
Lemma wf_level (x : level) : wf (dbg_level x).
Proof. destruct x; now constructor. Qed.
Lemma wf_followers (x : followers_only) : wf (dbg_followers x).
Proof. destruct x; [now constructor|]. constructor; [reflexivity|discriminate|]. repeat constructor. apply wf_some, wf_secs. Qed.

Ltac grow0 := first
  [ apply wf_bool | apply wf_u64 | apply wf_i64 | apply wf_secs | apply wf_time | apply wf_level | apply wf_nanos
  | apply wf_followers
  | eapply wf_cow; eassumption
  | eapply (wf_option dbg_cow); [exact wf_cow | eassumption]
  | eapply (wf_items dbg_cow); [exact wf_cow | eassumption]
  | apply wf_some; intros; first [apply wf_bool | apply wf_u64 | apply wf_secs | apply wf_followers] ].
Ltac grow := grow0.

Ltac tree :=
  repeat lazymatch goal with
  | |- wf (dbg_struct _ _) => apply wf_struct; [reflexivity|discriminate|]
  | |- wf (DTuple _ _) => apply wf_tuple; [reflexivity|discriminate|]
  | |- wf (dbg_unit _) => apply wf_plain; reflexivity
  | |- Forall _ (_ :: _) => constructor
  | |- Forall _ [] => constructor
  | |- name _ = true /\ _ => split; [reflexivity|]; cbn [snd fld]
  | |- wf _ => grow
  end.


Lemma wf_badge_data x z : badge_data_map deref x = badge_data_map raw z -> wf (dbg_badge_data x).
Proof.
  intros E. destruct x, z. unfold badge_data_map in E. cbn -[option_map map user_map] in E.
  hide E; injection E; intros; subst; unfold dbg_badge_data; cbn -[dbg_struct fld dbg_option dbg_list dbg_time dbg_secs dbg_u64 dbg_i64 dbg_bool dbg_cow dbg_level dbg_followers b]; tree.
Qed.

Lemma wf_subscriber x z : subscriber_map deref x = subscriber_map raw z -> wf (dbg_subscriber x).
Proof.
  intros E. destruct x, z. unfold subscriber_map in E. cbn -[option_map map user_map] in E.
  hide E; injection E; intros; subst; unfold dbg_subscriber; cbn -[dbg_struct fld dbg_option dbg_list dbg_time dbg_secs dbg_u64 dbg_i64 dbg_bool dbg_cow dbg_level dbg_followers b]; tree.
Qed.

Ltac grow ::= first [ grow0 | eapply wf_badge_data; eassumption | eapply wf_subscriber; eassumption ].

Lemma wf_badge x z : badge_map deref x = badge_map raw z -> wf (dbg_badge x).
Proof.
  intros E. destruct x, z; cbn -[option_map map user_map subscriber_map badge_data_map] in E; try discriminate E;
  try (hide E; injection E; intros; subst); cbn -[dbg_struct fld dbg_option dbg_list dbg_time dbg_secs dbg_u64 dbg_i64 dbg_bool dbg_cow dbg_level dbg_followers dbg_unit dbg_subscriber dbg_badge_data b]; unfold dbg_variant; tree.
Qed.

Lemma wf_user x z : user_map deref x = user_map raw z -> wf (dbg_user x).
Proof.
  intros E. destruct x, z. unfold user_map in E. cbn -[option_map map user_map] in E.
  hide E; injection E; intros; subst; unfold dbg_user; cbn -[dbg_struct fld dbg_option dbg_list dbg_time dbg_secs dbg_u64 dbg_i64 dbg_bool dbg_cow dbg_level dbg_followers b]; tree.
Qed.

Ltac grow ::= first [ grow0 | eapply wf_badge_data; eassumption | eapply wf_subscriber; eassumption | eapply (wf_items dbg_badge); [exact wf_badge | eassumption] | eapply wf_user; eassumption | eapply (wf_option dbg_user); [exact wf_user | eassumption] ].

Lemma wf_join x z : join_map deref x = join_map raw z -> wf (dbg_join x).
Proof.
  intros E. destruct x, z. unfold join_map in E. cbn -[option_map map user_map] in E.
  hide E; injection E; intros; subst; unfold dbg_join; cbn -[dbg_struct fld dbg_option dbg_list dbg_time dbg_secs dbg_u64 dbg_i64 dbg_bool dbg_cow dbg_level dbg_followers b]; tree.
Qed.

Lemma wf_part x z : part_map deref x = part_map raw z -> wf (dbg_part x).
Proof.
  intros E. destruct x, z. unfold part_map in E. cbn -[option_map map user_map] in E.
  hide E; injection E; intros; subst; unfold dbg_part; cbn -[dbg_struct fld dbg_option dbg_list dbg_time dbg_secs dbg_u64 dbg_i64 dbg_bool dbg_cow dbg_level dbg_followers b]; tree.
Qed.

Lemma wf_ping x z : ping_map deref x = ping_map raw z -> wf (dbg_ping x).
Proof.
  intros E. destruct x, z. unfold ping_map in E. cbn -[option_map map user_map] in E.
  hide E; injection E; intros; subst; unfold dbg_ping; cbn -[dbg_struct fld dbg_option dbg_list dbg_time dbg_secs dbg_u64 dbg_i64 dbg_bool dbg_cow dbg_level dbg_followers b]; tree.
Qed.

Lemma wf_pong x z : pong_map deref x = pong_map raw z -> wf (dbg_pong x).
Proof.
  intros E. destruct x, z. unfold pong_map in E. cbn -[option_map map user_map] in E.
  hide E; injection E; intros; subst; unfold dbg_pong; cbn -[dbg_struct fld dbg_option dbg_list dbg_time dbg_secs dbg_u64 dbg_i64 dbg_bool dbg_cow dbg_level dbg_followers b]; tree.
Qed.

Lemma wf_notice x z : notice_map deref x = notice_map raw z -> wf (dbg_notice x).
Proof.
  intros E. destruct x, z. unfold notice_map in E. cbn -[option_map map user_map] in E.
  hide E; injection E; intros; subst; unfold dbg_notice; cbn -[dbg_struct fld dbg_option dbg_list dbg_time dbg_secs dbg_u64 dbg_i64 dbg_bool dbg_cow dbg_level dbg_followers b]; tree.
Qed.

Lemma wf_clear_msg x z : clear_msg_map deref x = clear_msg_map raw z -> wf (dbg_clear_msg x).
Proof.
  intros E. destruct x, z. unfold clear_msg_map in E. cbn -[option_map map user_map] in E.
  hide E; injection E; intros; subst; unfold dbg_clear_msg; cbn -[dbg_struct fld dbg_option dbg_list dbg_time dbg_secs dbg_u64 dbg_i64 dbg_bool dbg_cow dbg_level dbg_followers b]; tree.
Qed.

Lemma wf_action x z : action_map deref x = action_map raw z -> wf (dbg_action x).
Proof.
  intros E. destruct x, z; cbn -[option_map map user_map subscriber_map badge_data_map] in E; try discriminate E;
  try (hide E; injection E; intros; subst); cbn -[dbg_struct fld dbg_option dbg_list dbg_time dbg_secs dbg_u64 dbg_i64 dbg_bool dbg_cow dbg_level dbg_followers dbg_unit dbg_subscriber dbg_badge_data b]; unfold dbg_variant; tree.
Qed.

Ltac grow ::= first [ grow0 | eapply wf_badge_data; eassumption | eapply wf_subscriber; eassumption | eapply (wf_items dbg_badge); [exact wf_badge | eassumption] | eapply wf_user; eassumption | eapply (wf_option dbg_user); [exact wf_user | eassumption] | eapply wf_action; eassumption ].

Lemma wf_clear_chat x z : clear_chat_map deref x = clear_chat_map raw z -> wf (dbg_clear_chat x).
Proof.
  intros E. destruct x, z. unfold clear_chat_map in E. cbn -[option_map map user_map] in E.
  hide E; injection E; intros; subst; unfold dbg_clear_chat; cbn -[dbg_struct fld dbg_option dbg_list dbg_time dbg_secs dbg_u64 dbg_i64 dbg_bool dbg_cow dbg_level dbg_followers b]; tree.
Qed.

Lemma wf_global_user_state x z : global_user_state_map deref x = global_user_state_map raw z -> wf (dbg_global_user_state x).
Proof.
  intros E. destruct x, z. unfold global_user_state_map in E. cbn -[option_map map user_map] in E.
  hide E; injection E; intros; subst; unfold dbg_global_user_state; cbn -[dbg_struct fld dbg_option dbg_list dbg_time dbg_secs dbg_u64 dbg_i64 dbg_bool dbg_cow dbg_level dbg_followers b]; tree.
Qed.

Lemma wf_user_state x z : user_state_map deref x = user_state_map raw z -> wf (dbg_user_state x).
Proof.
  intros E. destruct x, z. unfold user_state_map in E. cbn -[option_map map user_map] in E.
  hide E; injection E; intros; subst; unfold dbg_user_state; cbn -[dbg_struct fld dbg_option dbg_list dbg_time dbg_secs dbg_u64 dbg_i64 dbg_bool dbg_cow dbg_level dbg_followers b]; tree.
Qed.

Lemma wf_whisper x z : whisper_map deref x = whisper_map raw z -> wf (dbg_whisper x).
Proof.
  intros E. destruct x, z. unfold whisper_map in E. cbn -[option_map map user_map] in E.
  hide E; injection E; intros; subst; unfold dbg_whisper; cbn -[dbg_struct fld dbg_option dbg_list dbg_time dbg_secs dbg_u64 dbg_i64 dbg_bool dbg_cow dbg_level dbg_followers b]; tree.
Qed.

Lemma wf_room_state x z : room_state_map deref x = room_state_map raw z -> wf (dbg_room_state x).
Proof.
  intros E. destruct x, z. unfold room_state_map in E. cbn -[option_map map user_map] in E.
  hide E; injection E; intros; subst; unfold dbg_room_state; cbn -[dbg_struct fld dbg_option dbg_list dbg_time dbg_secs dbg_u64 dbg_i64 dbg_bool dbg_cow dbg_level dbg_followers b]; tree.
Qed.

Lemma wf_reply x z : reply_map deref x = reply_map raw z -> wf (dbg_reply x).
Proof.
  intros E. destruct x, z. unfold reply_map in E. cbn -[option_map map user_map] in E.
  hide E; injection E; intros; subst; unfold dbg_reply; cbn -[dbg_struct fld dbg_option dbg_list dbg_time dbg_secs dbg_u64 dbg_i64 dbg_bool dbg_cow dbg_level dbg_followers b]; tree.
Qed.

Lemma wf_pinned x z : pinned_map deref x = pinned_map raw z -> wf (dbg_pinned x).
Proof.
  intros E. destruct x, z. unfold pinned_map in E. cbn -[option_map map user_map] in E.
  hide E; injection E; intros; subst; unfold dbg_pinned; cbn -[dbg_struct fld dbg_option dbg_list dbg_time dbg_secs dbg_u64 dbg_i64 dbg_bool dbg_cow dbg_level dbg_followers b]; tree.
Qed.

Lemma wf_promo x z : promo_map deref x = promo_map raw z -> wf (dbg_promo x).
Proof.
  intros E. destruct x, z. unfold promo_map in E. cbn -[option_map map user_map] in E.
  hide E; injection E; intros; subst; unfold dbg_promo; cbn -[dbg_struct fld dbg_option dbg_list dbg_time dbg_secs dbg_u64 dbg_i64 dbg_bool dbg_cow dbg_level dbg_followers b]; tree.
Qed.

Ltac grow ::= first [ grow0 | eapply wf_badge_data; eassumption | eapply wf_subscriber; eassumption | eapply (wf_items dbg_badge); [exact wf_badge | eassumption] | eapply wf_user; eassumption | eapply (wf_option dbg_user); [exact wf_user | eassumption] | eapply wf_action; eassumption | eapply (wf_option dbg_reply); [exact wf_reply | eassumption] | eapply (wf_option dbg_pinned); [exact wf_pinned | eassumption] | eapply (wf_option dbg_promo); [exact wf_promo | eassumption] ].

Lemma wf_privmsg x z : privmsg_map deref x = privmsg_map raw z -> wf (dbg_privmsg x).
Proof.
  intros E. destruct x, z. unfold privmsg_map in E. cbn -[option_map map user_map] in E.
  hide E; injection E; intros; subst; unfold dbg_privmsg; cbn -[dbg_struct fld dbg_option dbg_list dbg_time dbg_secs dbg_u64 dbg_i64 dbg_bool dbg_cow dbg_level dbg_followers b]; tree.
Qed.

Lemma wf_event x z : event_map deref x = event_map raw z -> wf (dbg_event x).
Proof.
  intros E. destruct x, z; cbn -[option_map map user_map subscriber_map badge_data_map] in E; try discriminate E;
  try (hide E; injection E; intros; subst); cbn -[dbg_struct fld dbg_option dbg_list dbg_time dbg_secs dbg_u64 dbg_i64 dbg_bool dbg_cow dbg_level dbg_followers dbg_unit dbg_subscriber dbg_badge_data b]; unfold dbg_variant; tree.
Qed.

Ltac grow ::= first [ grow0 | eapply wf_badge_data; eassumption | eapply wf_subscriber; eassumption | eapply (wf_items dbg_badge); [exact wf_badge | eassumption] | eapply wf_user; eassumption | eapply (wf_option dbg_user); [exact wf_user | eassumption] | eapply wf_action; eassumption | eapply (wf_option dbg_reply); [exact wf_reply | eassumption] | eapply (wf_option dbg_pinned); [exact wf_pinned | eassumption] | eapply (wf_option dbg_promo); [exact wf_promo | eassumption] | eapply wf_event; eassumption ].

Lemma wf_user_notice x z : user_notice_map deref x = user_notice_map raw z -> wf (dbg_user_notice x).
Proof.
  intros E. destruct x, z. unfold user_notice_map in E. cbn -[option_map map user_map] in E.
  hide E; injection E; intros; subst; unfold dbg_user_notice; cbn -[dbg_struct fld dbg_option dbg_list dbg_time dbg_secs dbg_u64 dbg_i64 dbg_bool dbg_cow dbg_level dbg_followers b]; tree.
Qed.
