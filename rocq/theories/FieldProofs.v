(** * FieldProofs: the property lemmas about fields, C30 and C36-C41. *)

From Verif Require Import Base Wide Tags Irc Unescape SpecIrc SpecText MsgBase MsgTypes MsgNotice Message SpecMsg Samples.
From Coq Require Import Lia ZifyBool ZifyNat ZifyN.
From Verif Require Import BaseFacts IrcFacts IrcProofs LineProofs AccessProofs UnescapeProofs FieldFacts TypedFacts NoticeFacts MapFacts TypedProofs.

(** ** C30 *)

(** C30. A text is an action exactly when it is wrapped in the /me marker, and every
    other text is returned unchanged. *)
Lemma p_c30_action_text :
  forall t body : str,
    (parse_message_text t = (body, true) <-> t = [x01] ++ b "ACTION " ++ body ++ [x01]) /\
    (parse_message_text t = (body, false) <->
       t = body /\ forall x, t <> [x01] ++ b "ACTION " ++ x ++ [x01]).
Proof.
  intros t body. exact (conj (parse_message_text_spec t body true) (parse_message_text_spec t body false)).
Qed.

Example ex_c30 :
  parse_message_text ([x01] ++ b "ACTION waves" ++ [x01]) = (b "waves", true) /\
  parse_message_text ([x01] ++ b "ACTION waves") = ([x01] ++ b "ACTION waves", false) /\
  parse_message_text ([x01] ++ b "ACTION ") = ([x01] ++ b "ACTION ", false).
Proof. repeat split. Qed.

(** ** C36 *)

(** C36. The badges of a [badges] and a [badge-info] text. *)
Lemma p_c36_badges :
  forall (badges info : str) (q : list (badge cow)),
    parse_badges badges info = q <-> exists l, q = map (badge_map Borrowed) l /\ badges_in badges info l.
Proof.
  intros x y q. rewrite parse_badges_fun. split.
  - intros <-. eexists. split; [reflexivity|]. now apply badges_in_fun.
  - intros (l & -> & K). apply badges_in_fun in K. now rewrite K.
Qed.

(** C36. Every badge read has the name and version of an item, in the same place, and
    a subscriber's months are 1 unless badge-info has a readable number for it. *)
Lemma p_c36_subscriber_months :
  forall (badges info : str) (s : subscriber cow),
    In (BSubscriber s) (parse_badges badges info) ->
    exists extras, comma_items info extras /\
      ((exists e, first_tag (b "subscriber") extras (Some e) /\ is_u64 e (sb_months_n s)) \/
       (sb_months_n s = 1%N /\ forall e k, first_tag (b "subscriber") extras (Some e) -> ~ is_u64 e k)).
Proof.
  intros x y s I. destruct (proj1 (p_c36_badges x y _) eq_refl) as (l & E & items & extras & _ & B & F).
  rewrite E in I. apply in_map_iff in I as (c & C & I). exists extras. split; [exact B|].
  destruct c as [| | | |s'|]; try discriminate. injection C as <-. cbn [subscriber_map sb_months_n].
  clear E x. induction F as [|nv c items l (e & F1 & F2) F IH]; [destruct I|].
  destruct I as [-> |I]; [|now apply IH]. cbn [is_badge] in F2. destruct F2 as (N & _ & K). rewrite N in F1.
  apply lookup_first in F1.
  destruct e as [e|].
  - destruct K as (_ & [K|[K K']]).
    + left. exists e. split; [now apply lookup_first|exact K].
    + right. split; [exact K'|]. intros e' k A. apply lookup_first in A.
      replace e' with e by congruence. apply K.
  - destruct K as (_ & K). right. split; [exact K|]. intros e' k A. apply lookup_first in A. congruence.
Qed.

Lemma same_tag (v : view) (name : string) (x y : str) : has v name x -> has v name y -> x = y.
Proof. intros A B. apply has_iff in A, B. congruence. Qed.

(** C36. In a line, the two texts are the values of the tags [badges] and [badge-info];
    without both there are no badges. *)
Lemma p_c36_from_tags :
  forall (bd : build) (s : str) (v : view) (m : msg_ref),
    parsed bd s v m ->
    let of_tags (q : list (badge cow)) :=
      (forall x y, has v "badges" x -> has v "badge-info" y ->
         exists l, q = map (badge_map Borrowed) l /\ badges_in x y l) /\
      (((forall x, ~ has v "badges" x) \/ (forall y, ~ has v "badge-info" y)) -> q = []) in
    (forall q, v_command v = b "PRIVMSG" -> privmsg_parse m = Ret (Some q) -> of_tags (pm_badges q)) /\
    (forall q, v_command v = b "WHISPER" -> whisper_parse m = Ret (Some q) -> of_tags (w_badges q)) /\
    (forall q, v_command v = b "GLOBALUSERSTATE" -> global_user_state_parse m = Ret (Some q) -> of_tags (gus_badges q)) /\
    (forall q, v_command v = b "USERSTATE" -> user_state_parse m = Ret (Some q) -> of_tags (us_badges q)) /\
    (forall q, v_command v = b "USERNOTICE" -> user_notice_parse m = Ret (Some q) -> of_tags (un_badges q)).
Proof.
  intros bd s v m P of_tags. pose proof (parsed_seen _ _ _ _ P) as H.
  assert (K : forall l, has_badges v l -> of_tags (map (badge_map Borrowed) l)).
  { intros l B. split.
    - intros x y X Y. exists l. split; [reflexivity|].
      destruct B as [(x' & y' & X' & Y' & B)|[[N|N] _]]; [|now destruct (N x)|now destruct (N y)].
      now rewrite (same_tag _ _ _ _ X X'), (same_tag _ _ _ _ Y Y').
    - intros N. destruct B as [(x' & y' & X' & Y' & B)|[_ ->]]; [|reflexivity].
      destruct N as [N|N]; [now destruct (N x')|now destruct (N y')]. }
  split; [|split; [|split; [|split]]]; intros q C Q.
  - apply (privmsg_iff _ _ q H C) in Q as (x & -> & X). apply K. apply X.
  - apply (whisper_iff _ _ q H C) in Q as (x & -> & X). apply K. apply X.
  - apply (global_user_state_iff _ _ q H C) in Q as (x & -> & X). apply K. apply X.
  - apply (user_state_iff _ _ q H C) in Q as (x & -> & X). apply K. apply X.
  - apply (user_notice_iff _ _ q H C) in Q as (x & -> & X). apply K. apply X.
Qed.

Example ex_c36 :
  map (badge_map deref) (parse_badges (b "subscriber/24,moderator/1,junk,vip/1/2,x/") (b "x/y,subscriber/25,x/z")) =
    [BSubscriber (mk_subscriber (b "24") (b "25") 25); Moderator;
     BOther (mk_badge_data (b "vip") (b "1/2") None); BOther (mk_badge_data (b "x") [] (Some (b "y")))] /\
  map (badge_map deref) (parse_badges (b "subscriber/2") (b "subscriber/many")) =
    [BSubscriber (mk_subscriber (b "2") (b "many") 1)] /\
  exists v m q,
    parsed Scalar (b "@badge-info=subscriber/25;badges=subscriber/24;display-name=A;user-id=1 GLOBALUSERSTATE") v m /\
    v_command v = b "GLOBALUSERSTATE" /\ has v "badges" (b "subscriber/24") /\ has v "badge-info" (b "subscriber/25") /\
    global_user_state_parse m = Ret (Some q) /\
    map (badge_map deref) (gus_badges q) = [BSubscriber (mk_subscriber (b "24") (b "25") 25)].
Proof.
  split; [vm_compute; reflexivity|]. split; [vm_compute; reflexivity|].
  eexists _, _, _. split; [parsed_line|]. split; [reflexivity|].
  split; [apply has_iff; vm_compute; reflexivity|]. split; [apply has_iff; vm_compute; reflexivity|].
  split; vm_compute; reflexivity.
Qed.

(** ** C37 *)

(** C37. Converting a badge read from a message to data and back changes nothing. *)
Lemma p_c37_badge_round_trip :
  forall (badges info : str) (x : badge cow),
    In x (parse_badges badges info) -> badge_from (as_badge_data x) = x.
Proof.
  intros bs info x I. rewrite parse_badges_fun in I. apply in_map_iff in I as (y & <- & I).
  unfold badges_fun in I. apply in_map_iff in I as ([n ver] & <- & _). cbn [fst snd].
  generalize (lookup n (split_slash (split "," info))) as e. intros e.
  unfold badge_fun, as_badge_data.
  destruct (str_eqb n (b "staff")) eqn:E1; [reflexivity|].
  destruct (str_eqb n (b "turbo")) eqn:E2; [reflexivity|].
  destruct (str_eqb n (b "broadcaster")) eqn:E3; [reflexivity|].
  destruct (str_eqb n (b "moderator")) eqn:E4; [reflexivity|].
  destruct (str_eqb n (b "subscriber")) eqn:E5.
  - cbn [badge_map badge_data_from subscriber_map sb_version sb_months sb_months_n].
    unfold badge_from. cbn [bd_name bd_version bd_extra deref opt_default opt_bind].
    change (str_eqb (b "subscriber") (b "staff")) with false.
    change (str_eqb (b "subscriber") (b "turbo")) with false.
    change (str_eqb (b "subscriber") (b "broadcaster")) with false.
    change (str_eqb (b "subscriber") (b "moderator")) with false.
    change (str_eqb (b "subscriber") (b "subscriber")) with true. cbv iota.
    destruct e as [e|]; cbn [opt_default opt_bind]; reflexivity.
  - cbn [badge_map badge_data_from]. unfold badge_from. cbn [badge_data_map bd_name deref].
    now rewrite E1, E2, E3, E4, E5.
Qed.

(** C37. Not for every value of type [Badge]: [Other] may carry a special name. *)
Lemma p_c37_any_badge_refuted :
  exists x : badge cow, badge_from (as_badge_data x) <> x.
Proof.
  exists (BOther (mk_badge_data (Borrowed (b "staff")) (Borrowed (b "1")) None)). vm_compute. discriminate.
Qed.

(** C37. From data to a badge and back: the name always stays; everything stays for
    the names without a variant of their own and for a subscriber with extra text; the
    rest is replaced as stated. *)
Lemma p_c37_data_round_trip :
  forall d : badge_data cow,
    let d' := badge_data_from (badge_from d) in
    deref (bd_name d') = deref (bd_name d) /\
    (~ In (deref (bd_name d)) special_badges -> d' = d) /\
    (deref (bd_name d) = b "subscriber" ->
       bd_version d' = bd_version d /\
       bd_extra d' = match bd_extra d with Some e => Some e | None => Some (Borrowed (b "1")) end) /\
    (In (deref (bd_name d)) [b "staff"; b "turbo"; b "broadcaster"; b "moderator"] ->
       deref (bd_version d') = b "1" /\ bd_extra d' = None).
Proof.
  intros d d'. unfold d', badge_from.
  assert (D : forall k, str_eqb (deref (bd_name d)) k = true -> deref (bd_name d) = k)
    by (intros k K; destruct (str_eqb_spec (deref (bd_name d)) k); congruence).
  Ltac special D E := apply D in E; cbn [badge_data_from bd_name bd_version bd_extra deref];
    split; [now rewrite E|]; split; [intros N; exfalso; apply N; rewrite E; cbn; tauto|];
    split; [intros K; rewrite E in K; discriminate K|auto].
  destruct (str_eqb (deref (bd_name d)) (b "staff")) eqn:E1; [special D E1|].
  destruct (str_eqb (deref (bd_name d)) (b "turbo")) eqn:E2; [special D E2|].
  destruct (str_eqb (deref (bd_name d)) (b "broadcaster")) eqn:E3; [special D E3|].
  destruct (str_eqb (deref (bd_name d)) (b "moderator")) eqn:E4; [special D E4|].
  destruct (str_eqb (deref (bd_name d)) (b "subscriber")) eqn:E5.
  - apply D in E5. cbn [badge_data_from bd_name bd_version bd_extra deref sb_version sb_months].
    split; [now rewrite E5|]. split; [intros N; exfalso; apply N; rewrite E5; cbn; tauto|]. split.
    + intros _. split; [reflexivity|]. now destruct (bd_extra d).
    + rewrite E5. cbn [In]. intros K. repeat (destruct K as [K|K]; [discriminate K|]). destruct K.
  - cbn [badge_data_from]. split; [reflexivity|]. split; [reflexivity|]. split.
    + intros K. rewrite K in E5. discriminate E5.
    + cbn [In]. intros K.
      repeat (destruct K as [K|K]; [rewrite <- K in E1, E2, E3, E4; discriminate|]). destruct K.
Qed.

(** C37. So a version of a special badge is lost. *)
Lemma p_c37_data_round_trip_refuted :
  exists d : badge_data cow, badge_data_map deref (badge_data_from (badge_from d)) <> badge_data_map deref d.
Proof.
  exists (mk_badge_data (Borrowed (b "staff")) (Borrowed (b "2")) None). vm_compute. discriminate.
Qed.

Example ex_c37 :
  In (BSubscriber (mk_subscriber (Borrowed (b "24")) (Borrowed (b "many")) 1))
     (parse_badges (b "vip/1,subscriber/24") (b "subscriber/many")) /\
  badge_data_from (badge_from (mk_badge_data (Owned (b "vip")) (Owned (b "3")) (Some (Owned (b "x"))))) =
    mk_badge_data (Owned (b "vip")) (Owned (b "3")) (Some (Owned (b "x"))).
Proof. split; [cbn; tauto|reflexivity]. Qed.

(** ** C38 *)

(** C38. The integer parsers accept exactly the decimal numerals in range, with their
    exact value, and refuse everything else. *)
Lemma p_c38_numbers :
  (forall s n, parse_u8 s = Some n <-> is_u8 s n) /\
  (forall s n, parse_u64 s = Some n <-> is_u64 s n) /\
  (forall s z, parse_i64 s = Some z <-> is_i64 s z) /\
  (forall s, parse_u64 s = None <-> forall n, ~ is_u64 s n) /\
  (forall s, parse_i64 s = None <-> forall z, ~ is_i64 s z).
Proof.
  split; [exact parse_u8_spec|]. split; [exact parse_u64_spec|]. split; [exact parse_i64_spec|]. split; intros s; split.
  - intros E n K. apply parse_u64_spec in K. congruence.
  - intros K. destruct (parse_u64 s) as [n|] eqn:E; [|reflexivity]. apply parse_u64_spec in E. now apply K in E.
  - intros E n K. apply parse_i64_spec in K. congruence.
  - intros K. destruct (parse_i64 s) as [n|] eqn:E; [|reflexivity]. apply parse_i64_spec in E. now apply K in E.
Qed.

(** C38. Numeric tag fields of a parsed line: present exactly if the tag is there and
    is such a numeral. *)
Lemma p_c38_numeric_tag :
  forall (bd : build) (s : str) (v : view) (m : msg_ref) (t : tag_name) (o : option N),
    parsed bd s v m ->
    (tag_u64 m t = Ret o <->
     opt (fun n => exists x, first_tag (tag_as_str t) (v_tags v) (Some x) /\ is_u64 x n) o).
Proof.
  intros bd s v m t o P. pose proof (parsed_seen _ _ _ _ P) as H.
  rewrite (seen_u64 H).
  rewrite (opt_iff _ (opt_bind (lookup (tag_as_str t) (v_tags v)) parse_u64)).
  - split; congruence.
  - intros n. rewrite opt_bind_iff. split; intros (x & A & B); exists x.
    + split; [now apply lookup_first|now apply parse_u64_spec].
    + split; [now apply lookup_first|now apply parse_u64_spec].
Qed.

Example ex_c38 :
  parse_u64 (b "+0018446744073709551615") = Some 18446744073709551615%N /\
  parse_u64 (b "18446744073709551616") = None /\ parse_u64 (b "-0") = None /\ parse_u64 (b "+") = None /\
  parse_i64 (b "-9223372036854775808") = Some (-9223372036854775808)%Z /\ parse_i64 (b "9223372036854775808") = None /\
  parse_u8 (b "256") = None /\ parse_u64 (b "1_000") = None.
Proof. repeat split. Qed.

(** ** C39 *)

(** C39. Timestamps are milliseconds within the range of the calendar. *)
Lemma p_c39_timestamp :
  forall (s : str) (ms : Z),
    parse_timestamp s = Some ms <->
    is_i64 s ms /\ (-8334601228800000 <= ms <= 8210266876799999)%Z.
Proof. exact parse_timestamp_spec. Qed.

(** C39. The bounds are the first and last millisecond of the years -262143..262142:
    days of the proleptic Gregorian calendar before them, counted from 1970. *)
Lemma p_c39_range_is_calendar :
  forall y : Z,
    (days_before_year (y + 1) - days_before_year y)%Z =
      (if ((y mod 4 =? 0) && negb (y mod 100 =? 0) || (y mod 400 =? 0))%Z then 366 else 365)%Z /\
    ((days_before_year (-262143) - days_before_year 1970) * 86400000)%Z = (-8334601228800000)%Z /\
    ((days_before_year 262143 - days_before_year 1970) * 86400000 - 1)%Z = 8210266876799999%Z.
Proof.
  intros y. split; [|split; reflexivity]. unfold days_before_year.
  replace (y + 1 - 1)%Z with y by lia.
  destruct ((y mod 4 =? 0) && negb (y mod 100 =? 0) || (y mod 400 =? 0))%Z eqn:E; Z.to_euclidean_division_equations; lia.
Qed.

Example ex_c39 :
  parse_timestamp (b "1594583782376") = Some 1594583782376%Z /\
  parse_timestamp (b "8210266876799999") = Some 8210266876799999%Z /\
  parse_timestamp (b "8210266876800000") = None /\ parse_timestamp (b "-8334601228800001") = None /\
  parse_timestamp (b "-8334601228800000") = Some (-8334601228800000)%Z.
Proof. repeat split; vm_compute; reflexivity. Qed.

(** ** C40 *)

(** C40. [into_owned] of every type keeps all fields and owns all strings. *)
Lemma p_c40_into_owned :
    (forall x, kept (badge_data_map deref) (badge_data_map Owned) (badge_data_into_owned x) x) /\
    (forall x, kept (subscriber_map deref) (subscriber_map Owned) (subscriber_into_owned x) x) /\
    (forall x, kept (badge_map deref) (badge_map Owned) (badge_into_owned x) x) /\
    (forall x, kept (user_map deref) (user_map Owned) (user_into_owned x) x) /\
    (forall x, kept (join_map deref) (join_map Owned) (join_into_owned x) x) /\
    (forall x, kept (part_map deref) (part_map Owned) (part_into_owned x) x) /\
    (forall x, kept (ping_map deref) (ping_map Owned) (ping_into_owned x) x) /\
    (forall x, kept (pong_map deref) (pong_map Owned) (pong_into_owned x) x) /\
    (forall x, kept (notice_map deref) (notice_map Owned) (notice_into_owned x) x) /\
    (forall x, kept (clear_msg_map deref) (clear_msg_map Owned) (clear_msg_into_owned x) x) /\
    (forall x, kept (clear_chat_map deref) (clear_chat_map Owned) (clear_chat_into_owned x) x) /\
    (forall x, kept (global_user_state_map deref) (global_user_state_map Owned) (global_user_state_into_owned x) x) /\
    (forall x, kept (user_state_map deref) (user_state_map Owned) (user_state_into_owned x) x) /\
    (forall x, kept (whisper_map deref) (whisper_map Owned) (whisper_into_owned x) x) /\
    (forall x, kept (room_state_map deref) (room_state_map Owned) (room_state_into_owned x) x) /\
    (forall x, kept (reply_map deref) (reply_map Owned) (reply_into_owned x) x) /\
    (forall x, kept (pinned_map deref) (pinned_map Owned) (pinned_into_owned x) x) /\
    (forall x, kept (privmsg_map deref) (privmsg_map Owned) (privmsg_into_owned x) x) /\
    (forall x, kept (promo_map deref) (promo_map Owned) (promo_into_owned x) x) /\
    (forall x, kept (event_map deref) (event_map Owned) (event_into_owned x) x) /\
    (forall x, kept (user_notice_map deref) (user_notice_map Owned) (user_notice_into_owned x) x).
Proof.
  Ltac one_owned own map ext :=
    intros x; rewrite own; split; [rewrite map; apply ext; now intros []|];
    eexists; rewrite <- (ext _ _ (fun c => Owned (deref c)) maybe_clone) by (now intros []);
    symmetry; apply map.
  split; [one_owned @badge_data_owned @badge_data_map_map @badge_data_map_ext|].
  split; [one_owned @subscriber_owned @subscriber_map_map @subscriber_map_ext|].
  split; [one_owned @badge_owned @badge_map_map @badge_map_ext|].
  split; [one_owned @user_owned @user_map_map @user_map_ext|].
  split; [one_owned @join_owned @join_map_map @join_map_ext|].
  split; [one_owned @part_owned @part_map_map @part_map_ext|].
  split; [one_owned @ping_owned @ping_map_map @ping_map_ext|].
  split; [one_owned @pong_owned @pong_map_map @pong_map_ext|].
  split; [one_owned @notice_owned @notice_map_map @notice_map_ext|].
  split; [one_owned @clear_msg_owned @clear_msg_map_map @clear_msg_map_ext|].
  split; [one_owned @clear_chat_owned @clear_chat_map_map @clear_chat_map_ext|].
  split; [one_owned @global_user_state_owned @global_user_state_map_map @global_user_state_map_ext|].
  split; [one_owned @user_state_owned @user_state_map_map @user_state_map_ext|].
  split; [one_owned @whisper_owned @whisper_map_map @whisper_map_ext|].
  split; [one_owned @room_state_owned @room_state_map_map @room_state_map_ext|].
  split; [one_owned @reply_owned @reply_map_map @reply_map_ext|].
  split; [one_owned @pinned_owned @pinned_map_map @pinned_map_ext|].
  split; [one_owned @privmsg_owned @privmsg_map_map @privmsg_map_ext|].
  split; [one_owned @promo_owned @promo_map_map @promo_map_ext|].
  split; [one_owned @event_owned @event_map_map @event_map_ext|].
  one_owned @user_notice_owned @user_notice_map_map @user_notice_map_ext.
Qed.

Example ex_c40 :
  exists v m q, parsed Scalar chat_line v m /\ privmsg_parse m = Ret (Some q) /\
    q <> privmsg_into_owned q /\ privmsg_map deref (privmsg_into_owned q) = privmsg_map deref q.
Proof.
  eexists _, _, _. split; [parsed_line|]. split; [vm_compute; reflexivity|]. split; [discriminate|reflexivity].
Qed.

(** ** C41 *)

(** C41. The names and numbers of the ten levels. *)
Lemma p_c41_levels :
  (forall l, level_from_str (level_as_str l) = Some l) /\
  (forall s l, level_from_str s = Some l -> s = level_as_str l) /\
  (forall l, level_try_from (level_to_u8 l) = Ret (Some l)) /\
  (forall n l, level_try_from n = Ret (Some l) -> level_to_u8 l = n) /\
  (forall n, (n < 256)%N -> level_try_from n = Ret None <-> (9 < n)%N) /\
  (forall n, exists o, level_try_from n = Ret o) /\
  (forall n l, In (n, l) level_names <-> b n = level_as_str l) /\
  (forall i l, nth_error (map snd level_names) i = Some l -> level_to_u8 l = N.of_nat i).
Proof.
  assert (T : forall n, (n < 10)%N -> exists l, level_to_u8 l = n /\ level_transmute n = Ret l).
  { intros n L. destruct n as [|p]; [exists ONE; auto|].
    do 4 (try destruct p as [p|p|]); try (exfalso; lia);
      first [ exists ONE; split; reflexivity | exists TWO; split; reflexivity | exists THREE; split; reflexivity | exists FOUR; split; reflexivity | exists FIVE; split; reflexivity | exists SIX; split; reflexivity | exists SEVEN; split; reflexivity | exists EIGHT; split; reflexivity | exists NINE; split; reflexivity | exists TEN; split; reflexivity ]. }
  assert (R : forall n, level_try_from n = if (9 <? n)%N then Ret None else rmap Some (level_transmute n)).
  { intros n. unfold level_try_from. cbn [level_to_u8]. now replace (n <? 0)%N with false by lia. }
  split; [now intros []|]. split; [|split; [now intros []|split; [|split; [|split; [|split]]]]].
  - intros s l E. apply level_from_str_iff in E. cbn [level_names In] in E.
    destruct E as (n & E & ->). repeat (destruct E as [E|E]; [injection E as <- <-; reflexivity|]). destruct E.
  - intros n l. rewrite R. destruct (9 <? n)%N eqn:E; [discriminate|].
    destruct (T n) as (l' & A & B); [lia|]. rewrite B. cbn. now intros [= <-].
  - intros n L. rewrite R. destruct (9 <? n)%N eqn:E; [split; [lia|reflexivity]|].
    destruct (T n) as (l' & A & B); [lia|]. rewrite B. cbn. split; [discriminate|lia].
  - intros n. rewrite R. destruct (9 <? n)%N eqn:E; [eauto|].
    destruct (T n) as (l' & A & B); [lia|]. rewrite B. cbn. eauto.
  - intros n l. split.
    + intros E. cbn [level_names In] in E.
      repeat (destruct E as [E|E]; [injection E as <- <-; reflexivity|]). destruct E.
    + intros E. assert (K : forall x y, b x = b y -> x = y) by (intros x y A; rewrite <- (string_of_list_byte_of_string x), <- (string_of_list_byte_of_string y); f_equal; exact A).
      destruct l; (apply (K _ "ONE"%string) in E || apply (K _ "TWO"%string) in E || apply (K _ "THREE"%string) in E
        || apply (K _ "FOUR"%string) in E || apply (K _ "FIVE"%string) in E || apply (K _ "SIX"%string) in E
        || apply (K _ "SEVEN"%string) in E || apply (K _ "EIGHT"%string) in E || apply (K _ "NINE"%string) in E
        || apply (K _ "TEN"%string) in E); subst n; cbn; tauto.
  - intros i l. do 10 (destruct i as [|i]; [now intros [= <-]|]). destruct i; discriminate.
Qed.

Example ex_c41 :
  level_try_from 4 = Ret (Some FIVE) /\ level_try_from 10 = Ret None /\ level_transmute 10 = Ub /\
  level_from_str (b "TEN") = Some TEN /\ level_from_str (b "ten") = None.
Proof. repeat split. Qed.

(** ** C62 *)

Lemma name_reads (x t : str) : utf8_valid t = true -> ~ infix comma_mark t -> x = escape t ->
  exists c, maybe_unescape (Borrowed x) = Ret c /\ deref c = t.
Proof. intros U N E. now apply (proj2 (p_c19_unescape_escape t U N)). Qed.

(** C62. The getters documented to unescape return the text whose escaped form is the
    tag value: user names, reply texts, system messages and plan names. *)
Lemma p_c62_unescaping_getters :
  forall (bd : build) (s : str) (v : view) (m : msg_ref) (t : str),
    parsed bd s v m -> utf8_valid t = true -> ~ infix comma_mark t ->
    let shows (g : res cow) := exists c, g = Ret c /\ deref c = t in
    (forall q, v_command v = b "GLOBALUSERSTATE" -> global_user_state_parse m = Ret (Some q) ->
       has v "display-name" (escape t) -> shows (global_user_state_name q)) /\
    (forall q, v_command v = b "WHISPER" -> whisper_parse m = Ret (Some q) ->
       has v "display-name" (escape t) -> shows (user_name (w_sender q))) /\
    (forall q, v_command v = b "PRIVMSG" -> privmsg_parse m = Ret (Some q) ->
       has v "display-name" (escape t) -> shows (user_name (pm_sender q))) /\
    (forall q r, v_command v = b "PRIVMSG" -> privmsg_parse m = Ret (Some q) -> pm_reply_to q = Some r ->
       (has v "reply-parent-msg-body" (escape t) -> shows (reply_text r)) /\
       (has v "reply-parent-display-name" (escape t) -> shows (user_name (rp_sender r)))) /\
    (forall q, v_command v = b "USERNOTICE" -> user_notice_parse m = Ret (Some q) ->
       (has v "system-msg" (escape t) -> t <> [] ->
          exists c, user_notice_system_message q = Ret (Some c) /\ deref c = t) /\
       (forall u, un_sender q = Some u -> has v "display-name" (escape t) -> shows (user_name u)) /\
       (forall g, event_sub_plan_name (un_event q) = Some g ->
          has v "msg-param-sub-plan-name" (escape t) -> shows g)).
Proof.
  intros bd s v m t P U N shows. pose proof (parsed_seen _ _ _ _ P) as H. unfold shows.
  split; [|split; [|split; [|split]]].
  - intros q C Q D. apply (global_user_state_iff _ _ q H C) in Q as (x & -> & X).
    destruct X as (_ & X & _). apply (name_reads _ t U N). exact (same_tag _ _ _ _ X D).
  - intros q C Q D. apply (whisper_iff _ _ q H C) in Q as (x & -> & X).
    destruct X as (_ & _ & _ & X & _). apply (name_reads _ t U N). exact (same_tag _ _ _ _ X D).
  - intros q C Q D. apply (privmsg_iff _ _ q H C) in Q as (x & -> & X).
    destruct X as (_ & _ & _ & _ & _ & _ & X & _). apply (name_reads _ t U N). exact (same_tag _ _ _ _ X D).
  - intros q r C Q R. apply (privmsg_iff _ _ q H C) in Q as (x & -> & X).
    destruct X as (_ & _ & _ & _ & _ & _ & _ & X & _). cbn [privmsg_map pm_reply_to] in R.
    destruct (pm_reply_to x) as [y|]; [|discriminate]. injection R as <-. cbn [opt] in X.
    destruct X as (_ & _ & _ & (_ & _ & X1) & X2). split; intros D; apply (name_reads _ t U N).
    + exact (same_tag _ _ _ _ X2 D).
    + exact (same_tag _ _ _ _ X1 D).
  - intros q C Q. apply (user_notice_iff _ _ q H C) in Q as (x & -> & X).
    destruct X as (_ & _ & X1 & _ & X2 & X3 & _). split; [|split].
    + intros D T. unfold user_notice_system_message. cbn [user_notice_map un_system_message].
      destruct (un_system_message x) as [y|]; cbn [opt option_map] in *.
      * destruct (name_reads y t U N (same_tag _ _ _ _ (proj1 X2) D)) as (c & -> & E). cbn. eauto.
      * exfalso. apply (X2 (escape t)). split; [exact D|]. intros E. apply T.
        destruct (proj1 (p_c19_unescape_escape t U N)). now rewrite E.
    + intros u S D. cbn [user_notice_map un_sender] in S. destruct (un_sender x) as [y|]; [|discriminate].
      injection S as <-. destruct X1 as (_ & _ & _ & X1). apply (name_reads _ t U N).
      exact (same_tag _ _ _ _ X1 D).
    + intros g G D. cbn [user_notice_map un_event] in G.
      destruct (un_event x); try discriminate; injection G as <-; cbn [event_of] in X3;
        apply (name_reads _ t U N); refine (same_tag _ _ _ _ _ D); apply X3.
Qed.

Lemma value_shown (bd : build) (s : str) (v : view) (m : msg_ref) (name : string) (x y : str) :
  parsed bd s v m -> has v name x -> has v name y ->
  exists c, maybe_unescape (Borrowed x) = Ret c /\ shown y (deref c).
Proof.
  intros P X Y. rewrite (same_tag _ _ _ _ Y X). clear Y y. destruct P as [U S A V E].
  destruct (p_c10_accessors_view bd s m v U S E V) as [T _]. destruct (T A) as [T' _].
  destruct X as (l1 & l2 & EL & _).
  assert (UX : utf8_valid x = true).
  { assert (R : ref_raw m = s) by (now destruct (p_c10_recomposition bd s m U S E)).
    destruct (p_c10_parts_of_the_line m) as [Q _]; [now rewrite R|].
    apply (Q (v_tags v) (b name) x T'). rewrite EL. apply in_or_app. right. now left. }
  destruct (p_c20_shown (Borrowed x) UX) as (c & M & D). exists c. split; [exact M|].
  apply (D (deref c)). reflexivity.
Qed.

(** C62. For a tag value of any form, also one that no escaping produces: the same getters
    return what is to be shown for it ([shown], C20: the value up to its first backslash,
    the rest with its escapes read). *)
Lemma p_c62_any_value_shown :
  forall (bd : build) (s : str) (v : view) (m : msg_ref) (x : str),
    parsed bd s v m ->
    let shows (g : res cow) := exists c, g = Ret c /\ shown x (deref c) in
    (forall q, v_command v = b "GLOBALUSERSTATE" -> global_user_state_parse m = Ret (Some q) ->
       has v "display-name" x -> shows (global_user_state_name q)) /\
    (forall q, v_command v = b "WHISPER" -> whisper_parse m = Ret (Some q) ->
       has v "display-name" x -> shows (user_name (w_sender q))) /\
    (forall q, v_command v = b "PRIVMSG" -> privmsg_parse m = Ret (Some q) ->
       has v "display-name" x -> shows (user_name (pm_sender q))) /\
    (forall q r, v_command v = b "PRIVMSG" -> privmsg_parse m = Ret (Some q) -> pm_reply_to q = Some r ->
       (has v "reply-parent-msg-body" x -> shows (reply_text r)) /\
       (has v "reply-parent-display-name" x -> shows (user_name (rp_sender r)))) /\
    (forall q, v_command v = b "USERNOTICE" -> user_notice_parse m = Ret (Some q) ->
       (has v "system-msg" x -> x <> [] ->
          exists c, user_notice_system_message q = Ret (Some c) /\ shown x (deref c)) /\
       (has v "system-msg" [] -> user_notice_system_message q = Ret None) /\
       (forall u, un_sender q = Some u -> has v "display-name" x -> shows (user_name u)) /\
       (forall g, event_sub_plan_name (un_event q) = Some g ->
          has v "msg-param-sub-plan-name" x -> shows g)).
Proof.
  intros bd s v m t P shows. pose proof (parsed_seen _ _ _ _ P) as H. unfold shows.
  split; [|split; [|split; [|split]]].
  - intros q C Q D. apply (global_user_state_iff _ _ q H C) in Q as (x & -> & X).
    destruct X as (_ & X & _). exact (value_shown _ _ _ _ _ _ _ P X D).
  - intros q C Q D. apply (whisper_iff _ _ q H C) in Q as (x & -> & X).
    destruct X as (_ & _ & _ & X & _). exact (value_shown _ _ _ _ _ _ _ P X D).
  - intros q C Q D. apply (privmsg_iff _ _ q H C) in Q as (x & -> & X).
    destruct X as (_ & _ & _ & _ & _ & _ & X & _). exact (value_shown _ _ _ _ _ _ _ P X D).
  - intros q r C Q R. apply (privmsg_iff _ _ q H C) in Q as (x & -> & X).
    destruct X as (_ & _ & _ & _ & _ & _ & _ & X & _). cbn [privmsg_map pm_reply_to] in R.
    destruct (pm_reply_to x) as [y|]; [|discriminate]. injection R as <-. cbn [opt] in X.
    destruct X as (_ & _ & _ & (_ & _ & X1) & X2). split; intros D.
    + exact (value_shown _ _ _ _ _ _ _ P X2 D).
    + exact (value_shown _ _ _ _ _ _ _ P X1 D).
  - intros q C Q. apply (user_notice_iff _ _ q H C) in Q as (x & -> & X).
    destruct X as (_ & _ & X1 & _ & X2 & X3 & _). split; [|split; [|split]].
    + intros D T. unfold user_notice_system_message. cbn [user_notice_map un_system_message].
      destruct (un_system_message x) as [y|]; cbn [opt option_map] in *.
      * destruct (value_shown _ _ _ _ _ _ _ P (proj1 X2) D) as (c & -> & E). cbn. eauto.
      * exfalso. now apply (X2 t).
    + intros D. unfold user_notice_system_message. cbn [user_notice_map un_system_message].
      destruct (un_system_message x) as [y|]; cbn [opt option_map] in *; [|reflexivity].
      exfalso. destruct X2 as [X2 N]. apply N. exact (same_tag _ _ _ _ X2 D).
    + intros u S D. cbn [user_notice_map un_sender] in S. destruct (un_sender x) as [y|]; [|discriminate].
      injection S as <-. destruct X1 as (_ & _ & _ & X1). exact (value_shown _ _ _ _ _ _ _ P X1 D).
    + intros g G D. cbn [user_notice_map un_event] in G.
      destruct (un_event x); try discriminate; injection G as <-; cbn [event_of] in X3;
        (refine (value_shown _ _ _ _ _ _ _ P _ D); apply X3).
Qed.

(** A value that is no escaped text: a lone backslash at the end, an unknown escape. *)
Example ex_c62_shown :
  exists v m q, parsed Scalar (b "@display-name=x\s\q\;user-id=1 GLOBALUSERSTATE") v m /\
    v_command v = b "GLOBALUSERSTATE" /\ global_user_state_parse m = Ret (Some q) /\
    has v "display-name" (b "x\s\q\") /\ global_user_state_name q = Ret (Owned (b "x q\")).
Proof.
  eexists _, _, _. split; [parsed_line|]. split; [reflexivity|]. split; [vm_compute; reflexivity|].
  split; [apply has_iff; vm_compute; reflexivity|]. vm_compute. reflexivity.
Qed.

(** C62. Two getters that return a display name do not unescape it: [UserState::user_name]
    and [GiftPaidUpgrade::gifter_name]. *)
Lemma p_c62_all_names_unescaped_refuted :
  (exists s v m q, parsed Scalar s v m /\ has v "display-name" (escape (b "A B")) /\
     user_state_parse m = Ret (Some q) /\ deref (us_user_name q) <> b "A B") /\
  (exists s v m q l n p, parsed Scalar s v m /\ has v "msg-param-sender-name" (escape (b "A B")) /\
     user_notice_parse m = Ret (Some q) /\ un_event q = GiftPaidUpgrade l n p /\ deref n <> b "A B").
Proof.
  split.
  - exists (b "@display-name=A\sB USERSTATE #c"). eexists _, _, _. split; [parsed_line|].
    split; [apply has_iff; vm_compute; reflexivity|]. split; [vm_compute; reflexivity|]. discriminate.
  - exists (b "@display-name=A;id=1;login=a;msg-id=giftpaidupgrade;msg-param-sender-login=ab;msg-param-sender-name=A\sB;room-id=1;tmi-sent-ts=1;user-id=2 USERNOTICE #c").
    eexists _, _, _, _, _, _. split; [parsed_line|].
    split; [apply has_iff; vm_compute; reflexivity|]. split; [vm_compute; reflexivity|].
    split; [reflexivity|]. discriminate.
Qed.

Example ex_c62 :
  exists v m q, parsed Scalar (sub_line (b "resub") (b "5")) v m /\ v_command v = b "USERNOTICE" /\
    user_notice_parse m = Ret (Some q) /\ has v "system-msg" (escape (b "x 5")) /\
    user_notice_system_message q = Ret (Some (Owned (b "x 5"))).
Proof.
  eexists _, _, _. split; [parsed_line|]. split; [reflexivity|]. split; [vm_compute; reflexivity|].
  split; [apply has_iff; vm_compute; reflexivity|]. vm_compute. reflexivity.
Qed.
