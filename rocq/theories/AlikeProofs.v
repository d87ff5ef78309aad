(** * AlikeProofs: the property lemmas about the printed and the serialised form of messages, C95. *)

From Verif Require Import Base Wide Common Client Tags Irc MsgBase MsgTypes MsgNotice Message SpecIrc SpecMsg SpecDbg Serde Dbg SpecAlike Samples.
From Coq Require Import Lia ZifyBool ZifyNat ZifyN DecimalFacts DecimalN.
From Verif Require Import BaseFacts FieldFacts TypedFacts NoticeFacts TypedProofs DbgFacts DbgValues DbgProofs CutProofs.

Lemma show_N_zero (n : N) (r : str) : show_N n = "0"%byte :: r -> r = [].
Proof.
  intros E. unfold show_N in E.
  assert (U : Decimal.unorm (N.to_uint n) = N.to_uint n).
  { rewrite <- DecimalN.Unsigned.to_of. now rewrite DecimalN.Unsigned.of_to. }
  destruct (N.to_uint n) as [|u|u|u|u|u|u|u|u|u|u] eqn:D; try discriminate.
  unfold Decimal.unorm in U. destruct (Decimal.nzhead (Decimal.D0 u)) eqn:Z; try discriminate.
  - injection U as <-. cbn in E. now injection E as <-.
  - exfalso. exact (nzhead_nonzero _ _ Z).
Qed.

Lemma whole_N (n : N) : whole (Z.of_N n) (show_N n).
Proof.
  exists (show_N n). split; [|split].
  - replace (Z.abs_N (Z.of_N n)) with n by lia. apply show_N_numeral.
  - intros r E. exact (show_N_zero n r E).
  - destruct (Z.ltb_spec (Z.of_N n) 0); [lia|reflexivity].
Qed.

Section Alike.
Variable cd : codec.

Lemma al_u64 (n : N) : alike cd (dbg_u64 n) (ser_u64 n).
Proof. apply al_number, whole_N. Qed.

Lemma al_i64 (z : Z) : alike cd (dbg_i64 z) (ser_i64 z).
Proof.
  apply al_number. unfold dbg_i64. destruct (Z.ltb_spec z 0) as [L|L].
  - exists (show_N (Z.to_N (- z))). split; [|split].
    + replace (Z.abs_N z) with (Z.to_N (- z)) by lia. apply show_N_numeral.
    + intros r E. exact (show_N_zero _ r E).
    + destruct (Z.ltb_spec z 0); [reflexivity|lia].
  - pose proof (whole_N (Z.to_N z)) as W. now rewrite Z2N.id in W.
Qed.

Lemma al_cow (c : cow) : alike cd (dbg_cow c) (ser_str c).
Proof. apply al_text. Qed.

Lemma al_bool (x : bool) : alike cd (dbg_bool x) (ser_bool x).
Proof. destruct x; constructor. Qed.

Lemma al_option {A : Type} (f : A -> dbg) (g : A -> data) (o : option A) :
  (forall x, alike cd (f x) (g x)) -> (forall x, g x <> DNull) -> alike cd (dbg_option f o) (ser_opt g o).
Proof. intros F N. destruct o as [x|]; cbn; [now apply al_some|constructor]. Qed.

Lemma al_map {A : Type} (f : A -> dbg) (g : A -> data) (l : list A) :
  (forall x, alike cd (f x) (g x)) -> alike cd (dbg_list f l) (ser_list g l).
Proof. intros F. apply al_list. induction l; cbn; constructor; auto. Qed.

Lemma al_secs (n : N) : alike cd (dbg_secs n) (ser_duration n).
Proof.
  apply al_seconds. unfold seconds_text, duration_debug. destruct (N.ltb_spec 0 n) as [L|L].
  - right. split; [lia|]. exists (show_N n). split; [apply whole_N|]. unfold decimal. now rewrite N.eqb_refl.
  - left. split; [lia|reflexivity].
Qed.

Lemma al_date (ms : Z) : alike cd (dbg_time ms) (time_ser cd ms).
Proof. apply al_time, p_c71_time. Qed.

Ltac named := right; split; [vm_compute; intuition discriminate|reflexivity].
Ltac fields :=
  apply al_struct; unfold fld, entry;
  repeat first [apply fi_none | apply fi_more; [first [apply al_cow|apply al_u64|apply al_i64|apply al_bool|apply al_secs|apply al_date|idtac]|]].
Ltac opt := apply al_option; [first [exact al_cow|exact al_u64|exact al_bool|exact al_secs|idtac]|discriminate].

Lemma al_badge (x : badge cow) : alike cd (dbg_badge x) (ser_badge x).
Proof.
  destruct x as [| | | |s|d]; cbn [dbg_badge ser_badge].
  1-4: apply al_unit; named.
  - apply al_variant; [named|]. apply al_struct. unfold fld, entry.
    apply fi_more; [apply al_cow|]. apply fi_more; [apply al_cow|]. apply fi_months. apply fi_none.
  - apply al_variant; [named|]. fields. opt.
Qed.

Lemma al_user (u : user_info cow) : alike cd (dbg_user u) (ser_user u).
Proof. fields. Qed.

Lemma al_badges (l : list (badge cow)) : alike cd (dbg_list dbg_badge l) (ser_list ser_badge l).
Proof. apply al_map, al_badge. Qed.

Lemma al_followers (f : followers_only) : alike cd (dbg_followers f) (ser_followers f).
Proof.
  destruct f as [|o]; [apply al_unit; named|]. apply al_variant; [named|]. opt.
Qed.

Lemma al_level (l : level) : alike cd (dbg_level l) (ser_level l).
Proof. destruct l; apply al_unit; left; (split; [vm_compute; tauto|reflexivity]). Qed.

Lemma al_promo (p : promo cow) : alike cd (dbg_promo p) (ser_promo p).
Proof. fields. Qed.

Lemma al_action (a : action cow) : alike cd (dbg_action a) (ser_action a).
Proof.
  destruct a; [apply al_unit; named|apply al_variant; [named|fields]..].
Qed.

Lemma al_event (e : event cow) : alike cd (dbg_event e) (ser_event e).
Proof.
  destruct e; [apply al_variant; [named|fields]..|apply al_unit; named].
  - opt.
  - apply al_user.
  - opt. exact al_promo.
  - opt. exact al_promo.
Qed.

Lemma al_pinned (x : pinned_chat cow) : alike cd (dbg_pinned x) (ser_pinned x).
Proof. fields. apply al_level. Qed.

Lemma al_reply (x : reply cow) : alike cd (dbg_reply x) (ser_reply x).
Proof. fields. apply al_user. Qed.
End Alike.

(** C95. For every type of message the printed and the serialised form have the same
    fields with the same contents under the same names. *)
Lemma p_c95_same_shown :
  forall cd : codec,
    (forall x, alike cd (dbg_join x) (ser_join x)) /\
    (forall x, alike cd (dbg_part x) (ser_part x)) /\
    (forall x, alike cd (dbg_ping x) (ser_ping x)) /\
    (forall x, alike cd (dbg_pong x) (ser_pong x)) /\
    (forall x, alike cd (dbg_notice x) (ser_notice x)) /\
    (forall x, alike cd (dbg_clear_msg x) (ser_clear_msg cd x)) /\
    (forall x, alike cd (dbg_clear_chat x) (ser_clear_chat cd x)) /\
    (forall x, alike cd (dbg_global_user_state x) (ser_global_user_state x)) /\
    (forall x, alike cd (dbg_user_state x) (ser_user_state x)) /\
    (forall x, alike cd (dbg_whisper x) (ser_whisper x)) /\
    (forall x, alike cd (dbg_room_state x) (ser_room_state x)) /\
    (forall x, alike cd (dbg_privmsg x) (ser_privmsg cd x)) /\
    (forall x, alike cd (dbg_user_notice x) (ser_user_notice cd x)).
Proof.
  intros cd. repeat split; intros x; apply al_struct; unfold fld, entry;
    repeat first [apply fi_none | apply fi_more;
      [first [apply al_cow|apply al_u64|apply al_i64|apply al_bool|apply al_secs|apply al_date|apply al_user|apply al_badges
             |apply al_event|apply al_action|apply al_map, al_cow
             |apply al_option; [first [apply al_cow|apply al_u64|apply al_bool|apply al_secs|apply al_user|apply al_followers
                |apply al_reply|apply al_pinned]|try discriminate; let y := fresh in intros y; destruct y; discriminate]]|]].
Qed.

Lemma shown_struct (shown : uchar -> bool) (c : byte) (n : str) (f : str * dbg) (fs : list (str * dbg)) :
  exists rest, show shown false (DTuple (c :: n) [DStruct (c :: n) (f :: fs) true]) =
    (c :: n) ++ b "(" ++ (c :: n) ++ b " { " ++ rest ++ b " })".
Proof.
  exists ((fst f ++ b ": " ++ show shown false (snd f)) ++
    one_line (b ", ") (b ", ") (map (fun f => fst f ++ b ": " ++ show shown false (snd f)) fs)).
  cbn [show map one_line nonempty]. rewrite List.app_nil_r, <- !List.app_assoc. reflexivity.
Qed.

(** C95. The printed form of a message begins with the name of its type, twice, and that
    name in capitals is the command of the line. *)
Lemma p_c95_type_is_command :
  forall (shown : uchar -> bool) (bd : build) (pf : profile) (s : str) (v : view) (m : msg_ref) (t : typed),
    utf8_valid s = true -> below_4gib s -> spec_view s = Some v -> ref_parse bd s = Ret (Some m) ->
    from_irc pf m = Ret (Some t) -> In (v_command v) typed_words ->
    exists d name, dbg_typed t = Ret d /\ map capital name = v_command v /\
      (v_command v = b "RECONNECT" -> show shown false d = name) /\
      (v_command v <> b "RECONNECT" -> exists rest, show shown false d = name ++ b "(" ++ name ++ b " { " ++ rest ++ b " })").
Proof.
  intros shown bd pf s v m t U S V E F W.
  pose proof (p_c22_variant_is_command bd pf s v m t U S V E F) as C.
  destruct t; cbn [variant_word] in C; try (now destruct C); rewrite C; eexists; cbn [dbg_typed];
    match goal with
    | |- context [DTuple ?n _] => exists n
    | |- context [dbg_unit ?n] => exists (b n)
    end; (split; [reflexivity|]); (split; [vm_compute; reflexivity|]); (split; [intros X; try discriminate X; reflexivity|]);
    intros X; try (now destruct X); apply shown_struct.
Qed.

(** A subscriber badge: the number of months is printed, but not serialised. *)
Example ex_c95 :
  let cd := mk_codec (fun ms => DInt ms) (fun _ => None) in
  let badge := BSubscriber (mk_subscriber (Borrowed (b "3024")) (Borrowed (b "28")) 28) in
  alike cd (dbg_badge badge) (ser_badge badge) /\
  show (fun _ => true) false (dbg_badge badge) =
    b "Subscriber(Subscriber { version: ""3024"", months: ""28"", months_n: 28 })" /\
  ser_badge badge = DMap [(b "subscriber", DMap [(b "version", DStr (b "3024")); (b "months", DStr (b "28"))])] /\
  ~ alike cd (dbg_badge badge) (ser_badge Moderator).
Proof.
  cbn zeta. split; [apply al_badge|]. split; [vm_compute; reflexivity|]. split; [reflexivity|].
  intros K. inversion K.
Qed.

Example ex_c95_command :
  exists (s : str) (v : view) (m : msg_ref) (t : typed),
    parsed (Simd Sse2 0) s v m /\ from_irc Debug m = Ret (Some t) /\ In (v_command v) typed_words /\
    exists d, dbg_typed t = Ret d /\
      show (fun _ => true) false d = b "Join(Join { channel: ""#c"", user: ""u"" })".
Proof.
  exists (b ":u!u@u.t JOIN #c"). eexists _, _, _. split; [parsed_line|]. split; [vm_compute; reflexivity|].
  split; [vm_compute; tauto|]. eexists. split; [reflexivity|]. vm_compute. reflexivity.
Qed.
