(** * ShapeProofs: which data the deserialisers accept (C76). *)

From Verif Require Import Base MsgBase MsgTypes MsgNotice Serde SpecSerde.
From Verif Require Import BaseFacts.
From Coq Require Import Lia ZifyBool ZifyNat ZifyN.

Open Scope string_scope.
Open Scope list_scope.

Lemma str_eqb_eq (x y : str) : str_eqb x y = true -> x = y.
Proof. now destruct (str_eqb_spec x y). Qed.

(** ** The values of a field *)

Lemma values_app (n : string) (l l' : list (str * data)) : values n (l ++ l') = values n l ++ values n l'.
Proof. unfold values. now rewrite filter_app, map_app. Qed.

Lemma values_cons (n : string) (k : str) (d : data) (l : list (str * data)) :
  values n ((k, d) :: l) = (if str_eqb k (b n) then [d] else []) ++ values n l.
Proof. unfold values. cbn [filter fst]. now destruct (str_eqb k (b n)). Qed.

Lemma values_none (n : string) (l : list (str * data)) : ~ In (b n) (map fst l) -> values n l = [].
Proof.
  induction l as [|[k d] l IH]; intros N; [reflexivity|]. rewrite values_cons.
  cbn [map fst In] in N. destruct (str_eqb k (b n)) eqn:E.
  - apply str_eqb_eq in E. now contradiction N; left.
  - apply IH. intros I. apply N. now right.
Qed.

(** The values of an optional field, null if there is none. *)
Definition nulled (vs : list data) : list data := match vs with [] => [DNull] | _ => vs end.

Lemma opt_field_nulled {A : Type} (f : data -> option A) (n : string) (l : list (str * data)) :
  opt_field f n l = match nulled (values n l) with [d] => de_opt f d | _ => None end.
Proof. unfold opt_field. now destruct (values n l) as [|d [|]]. Qed.

Section rearranging.
  Variables (names optional : list string).

  Lemma values_rearranged (l l' : list (str * data)) (n : string) :
    rearranged names optional l l' -> named names (b n) -> ~ named optional (b n) -> values n l = values n l'.
  Proof.
    intros R I O. induction R.
    - reflexivity.
    - now symmetry.
    - congruence.
    - rewrite !values_app, !values_cons. f_equal. rewrite !app_assoc. f_equal.
      destruct (str_eqb k (b n)) eqn:E1, (str_eqb k' (b n)) eqn:E2; try reflexivity.
      apply str_eqb_eq in E1, E2. congruence.
    - rewrite !values_app, !values_cons. destruct (str_eqb k (b n)) eqn:E; [|reflexivity].
      apply str_eqb_eq in E. subst k. contradiction.
    - rewrite !values_app, !values_cons. destruct (str_eqb k (b n)) eqn:E; [|reflexivity].
      apply str_eqb_eq in E. subst k. contradiction.
  Qed.

  Lemma nulled_rearranged (l l' : list (str * data)) (n : string) :
    rearranged names optional l l' -> named names (b n) -> nulled (values n l) = nulled (values n l').
  Proof.
    intros R I. induction R.
    - reflexivity.
    - now symmetry.
    - congruence.
    - f_equal. rewrite !values_app, !values_cons. f_equal. rewrite !app_assoc. f_equal.
      destruct (str_eqb k (b n)) eqn:E1, (str_eqb k' (b n)) eqn:E2; try reflexivity.
      apply str_eqb_eq in E1, E2. congruence.
    - rewrite !values_app, !values_cons. destruct (str_eqb k (b n)) eqn:E; [|reflexivity].
      apply str_eqb_eq in E. subst k. contradiction.
    - rewrite !values_app, !values_cons. destruct (str_eqb k (b n)) eqn:E; [|reflexivity].
      apply str_eqb_eq in E. subst k. rewrite map_app, in_app_iff in H0.
      rewrite (values_none n before), (values_none n after) by tauto. reflexivity.
  Qed.

  Lemma field_rearranged {A : Type} (f : data -> option A) (l l' : list (str * data)) (n : string) :
    rearranged names optional l l' -> named names (b n) -> ~ named optional (b n) -> field f n l = field f n l'.
  Proof. intros R I O. unfold field. now rewrite (values_rearranged l l' n R I O). Qed.

  Lemma opt_field_rearranged {A : Type} (f : data -> option A) (l l' : list (str * data)) (n : string) :
    rearranged names optional l l' -> named names (b n) -> opt_field f n l = opt_field f n l'.
  Proof. intros R I. now rewrite !opt_field_nulled, (nulled_rearranged l l' n R I). Qed.
End rearranging.

Lemma values_twice (n : string) (before between after : list (str * data)) (k : str) (d d' : data) :
  k = b n -> exists v v' vs, values n (before ++ (k, d) :: between ++ (k, d') :: after) = v :: v' :: vs.
Proof.
  intros ->. rewrite values_app, values_cons, values_app, values_cons, str_eqb_refl.
  destruct (values n before) as [|v [|v' vs]]; cbn [app]; [|eauto|eauto].
  all: destruct (values n between) as [|v' vs]; cbn [app]; eauto.
Qed.

Lemma field_twice {A : Type} (f : data -> option A) (n : string) (before between after : list (str * data)) (k : str)
    (d d' : data) :
  b n = k -> field f n (before ++ (k, d) :: between ++ (k, d') :: after) = None.
Proof.
  intros E. destruct (values_twice n before between after k d d' (eq_sym E)) as (v & v' & vs & H).
  unfold field. now rewrite H.
Qed.

Lemma opt_field_twice {A : Type} (f : data -> option A) (n : string) (before between after : list (str * data)) (k : str)
    (d d' : data) :
  b n = k -> opt_field f n (before ++ (k, d) :: between ++ (k, d') :: after) = None.
Proof.
  intros E. destruct (values_twice n before between after k d d' (eq_sym E)) as (v & v' & vs & H).
  unfold opt_field. now rewrite H.
Qed.

Lemma field_missing {A : Type} (f : data -> option A) (n : string) (l : list (str * data)) (k : str) :
  b n = k -> ~ In k (map fst l) -> field f n l = None.
Proof. intros <- N. unfold field. now rewrite values_none. Qed.

Lemma field_without {A : Type} (f : data -> option A) (n : string) (before after : list (str * data)) (k : str) (d : data) :
  str_eqb k (b n) = false -> field f n (before ++ (k, d) :: after) = field f n (before ++ after).
Proof. intros E. unfold field. now rewrite !values_app, values_cons, E. Qed.

Lemma opt_field_other {A : Type} (f : data -> option A) (n : string) (before after : list (str * data)) (k : str) (d : data) :
  str_eqb k (b n) = false -> opt_field f n (before ++ (k, d) :: after) = opt_field f n (before ++ after).
Proof. intros E. unfold opt_field. now rewrite !values_app, values_cons, E. Qed.

Lemma opt_field_without {A : Type} (f : data -> option A) (n : string) (before after : list (str * data)) (k : str) (d : data)
    (o : option A) :
  b n = k -> opt_field f n (before ++ (k, d) :: after) = Some o -> opt_field f n (before ++ after) = Some None.
Proof.
  intros <-. unfold opt_field. rewrite !values_app, values_cons, str_eqb_refl.
  destruct (values n before) as [|v [|]], (values n after); cbn [app]; intros E; try discriminate; reflexivity.
Qed.

(** ** Structs *)

(** Whether a name is in a list is computed. *)
Definition namedb (names : list string) (k : str) : bool := existsb (str_eqb k) (map b names).

Lemma namedb_spec (names : list string) (k : str) : namedb names k = true <-> named names k.
Proof.
  unfold namedb, named. rewrite existsb_exists. split.
  - intros (x & I & E). apply str_eqb_eq in E. now subst.
  - intros I. exists k. split; [exact I|apply str_eqb_refl].
Qed.

Lemma is_named (names : list string) (k : str) : namedb names k = true -> named names k.
Proof. apply namedb_spec. Qed.

Lemma not_named (names : list string) (k : str) : namedb names k = false -> ~ named names k.
Proof. intros E H. apply namedb_spec in H. congruence. Qed.

Lemma fields_seq (names : list string) (l : list data) :
  length l = length names -> fields names (DSeq l) = Some (combine (map b names) l).
Proof. intros E. unfold fields. now rewrite E, Nat.eqb_refl. Qed.

Lemma fields_short (names : list string) (l : list data) : length l <> length names -> fields names (DSeq l) = None.
Proof. intros E. unfold fields. now apply Nat.eqb_neq in E as ->. Qed.

Ltac walk :=
  repeat match goal with
  | |- opt_bind None _ = None => reflexivity
  | |- opt_bind ?m _ = None => destruct m; cbn [opt_bind]; [|reflexivity]
  end.

Ltac same_fields R :=
  repeat first
    [ rewrite (field_rearranged _ _ _ _ _ _ R) by (first [apply is_named|apply not_named]; vm_compute; reflexivity)
    | rewrite (opt_field_rearranged _ _ _ _ _ _ R) by (apply is_named; vm_compute; reflexivity) ].

Ltac each_name I tac :=
  lazymatch type of I with
  | In _ [] => destruct I
  | In _ (_ :: _) => let E := fresh "E" in destruct I as [E|I]; [tac E|each_name I tac]
  end.

Ltac struct de :=
  unfold reads_struct, de;
  split; [intros l l' R; cbn [fields opt_bind]; same_fields R; reflexivity|];
  split;
  [ intros before k d between d' after I; cbn [fields opt_bind]; unfold named in I; cbn [map] in I;
    each_name I ltac:(fun E =>
      first [rewrite (field_twice _ _ before between after _ d d' E)|rewrite (opt_field_twice _ _ before between after _ d d' E)];
      walk)
  |];
  split;
  [ intros l k I O N; cbn [fields opt_bind]; unfold named in I; cbn [map] in I;
    each_name I ltac:(fun E =>
      first [rewrite (field_missing _ _ l _ E N); walk
            |exfalso; apply O; rewrite <- E; apply is_named; vm_compute; reflexivity])
  |];
  split;
  [ intros before k d after I; cbn [fields opt_bind]; unfold named in I; cbn [map] in I;
    each_name I ltac:(fun E => subst k;
      repeat match goal with
      | |- context [field ?f ?n (before ++ (?k, d) :: after)] =>
        rewrite (field_without f n before after k d) by (vm_compute; reflexivity)
      | |- context [opt_field ?f ?n (before ++ (?k, d) :: after)] =>
        rewrite (opt_field_other f n before after k d) by (vm_compute; reflexivity)
      end;
      let H := fresh "H" in intros H;
      repeat match type of H with
      | opt_bind ?m _ <> None =>
        let Q := fresh "Q" in destruct m eqn:Q in H |- *; cbn [opt_bind] in H |- *; [|now contradiction H];
        first [apply (opt_field_without _ _ _ _ _ _ _ eq_refl) in Q; rewrite Q; cbn [opt_bind]|idtac]
      end; first [exact H|discriminate])
  |];
  split; [intros l L; rewrite (fields_seq _ l L); reflexivity|];
  split; [intros l L; rewrite (fields_short _ l L); reflexivity|];
  intros d M Q; destruct d as [|x|x|x|x|x]; [reflexivity..|now contradiction (Q x)|now contradiction (M x)].

(** C76. The messages: a map whose keys may come in any order and among others, with each
    field once, the optional ones at most once; or the fields in a sequence. *)
Lemma p_c76_messages :
  forall (cd : codec),
    reads_struct ["channel"; "user"] [] de_join /\
    reads_struct ["channel"; "user"] [] de_part /\
    reads_struct ["nonce"] ["nonce"] de_ping /\
    reads_struct ["nonce"] ["nonce"] de_pong /\
    reads_struct ["channel"; "text"; "id"] ["channel"; "id"] de_notice /\
    reads_struct
      ["channel"; "channel_id"; "sender"; "target_message_id"; "text"; "is_action"; "timestamp"]
      [] (de_clear_msg cd) /\
    reads_struct ["channel"; "channel_id"; "action"; "timestamp"] [] (de_clear_chat cd) /\
    reads_struct ["id"; "name"; "badges"; "emote_sets"; "color"] ["color"] de_global_user_state /\
    reads_struct ["channel"; "user_name"; "badges"; "emote_sets"; "color"] ["color"] de_user_state /\
    reads_struct ["recipient"; "sender"; "text"; "badges"; "emotes"; "color"] ["color"] de_whisper /\
    reads_struct
      ["channel"; "channel_id"; "emote_only"; "followers_only"; "r9k"; "slow"; "subs_only"]
      ["emote_only"; "followers_only"; "r9k"; "slow"; "subs_only"] de_room_state /\
    reads_struct
      ["channel"; "channel_id"; "msg_id"; "id"; "sender"; "reply_to"; "pinned_chat"; "text";
       "is_action"; "badges"; "color"; "custom_reward_id"; "bits"; "emotes"; "timestamp"]
      ["msg_id"; "reply_to"; "pinned_chat"; "color"; "custom_reward_id"; "bits"] (de_privmsg cd) /\
    reads_struct
      ["channel"; "channel_id"; "sender"; "text"; "system_message"; "event"; "event_id"; "badges";
       "emotes"; "color"; "message_id"; "timestamp"]
      ["sender"; "text"; "system_message"; "color"] (de_user_notice cd).
Proof.
  intros cd.
  split; [struct de_join|].
  split; [struct de_part|].
  split; [struct de_ping|].
  split; [struct de_pong|].
  split; [struct de_notice|].
  split; [struct de_clear_msg|].
  split; [struct de_clear_chat|].
  split; [struct de_global_user_state|].
  split; [struct de_user_state|].
  split; [struct de_whisper|].
  split; [struct de_room_state|].
  split; [struct de_privmsg|].
  struct de_user_notice.
Qed.

(** C76. So are their parts read. *)
Lemma p_c76_parts :
    reads_struct ["secs"; "nanos"] [] de_duration /\
    reads_struct ["version"; "months"] [] de_subscriber /\
    reads_struct ["name"; "version"; "extra"] ["extra"] de_badge_data /\
    reads_struct ["id"; "login"; "name"] [] de_user /\
    reads_struct ["user"; "id"] [] de_ban /\
    reads_struct ["user"; "id"; "duration"] [] de_time_out /\
    reads_struct ["paid_amount"; "paid_currency"; "paid_exponent"; "paid_level"; "is_system_message"] [] de_pinned /\
    reads_struct
      ["thread_parent_message_id"; "thread_parent_user_login"; "message_id"; "sender"; "text"]
      [] de_reply /\
    reads_struct ["total_gifts"; "promo_name"] [] de_promo /\
    reads_struct
      ["is_resub"; "cumulative_months"; "streak_months"; "sub_plan"; "sub_plan_name"]
      ["streak_months"] de_sub /\
    reads_struct ["viewer_count"; "profile_image_url"] [] de_raid /\
    reads_struct
      ["cumulative_months"; "recipient"; "sub_plan"; "sub_plan_name"; "num_gifted_months"]
      [] de_sub_gift /\
    reads_struct ["count"; "sender_total_gifts"; "sub_plan"] [] de_sub_mystery_gift /\
    reads_struct ["count"; "sub_plan"] [] de_anon_sub_mystery_gift /\
    reads_struct ["gifter_login"; "gifter_name"; "promotion"] ["promotion"] de_gift_paid_upgrade /\
    reads_struct ["promotion"] ["promotion"] de_anon_gift_paid_upgrade /\
    reads_struct ["name"] [] de_ritual /\
    reads_struct ["tier"] [] de_bits_badge_tier /\
    reads_struct ["highlight_color"] [] de_announcement.
Proof.
  split; [struct de_duration|].
  split; [struct de_subscriber|].
  split; [struct de_badge_data|].
  split; [struct de_user|].
  split; [struct de_ban|].
  split; [struct de_time_out|].
  split; [struct de_pinned|].
  split; [struct de_reply|].
  split; [struct de_promo|].
  split; [struct de_sub|].
  split; [struct de_raid|].
  split; [struct de_sub_gift|].
  split; [struct de_sub_mystery_gift|].
  split; [struct de_anon_sub_mystery_gift|].
  split; [struct de_gift_paid_upgrade|].
  split; [struct de_anon_gift_paid_upgrade|].
  split; [struct de_ritual|].
  split; [struct de_bits_badge_tier|].
  struct de_announcement.
Qed.

Lemma named_here (k : str) (names : list string) (n : string) : str_eqb k (b n) = true -> In n names -> named names k.
Proof. intros E I. apply str_eqb_eq in E. subst k. unfold named. now apply in_map. Qed.

Ltac in_list := cbn [map fst app In]; repeat first [left; reflexivity|right].

Ltac variants k H :=
  repeat match type of H with
  | (if str_eqb k (b ?n) then _ else _) <> None =>
    let E := fresh "E" in
    destruct (str_eqb k (b n)) eqn:E;
    [exists k; split; [apply (named_here k _ n E); in_list|]; first [now left|right; eauto]|]
  end; now contradiction H.

Lemma enabled_carries (d : data) :
  de_followers (DMap [(b "enabled", d)]) =
  match d with DNull => Some (Enabled None) | _ => option_map (fun x => Enabled (Some x)) (de_duration d) end.
Proof.
  change (option_map Enabled (de_opt de_duration d) =
    match d with DNull => Some (Enabled None) | _ => option_map (fun x => Enabled (Some x)) (de_duration d) end).
  destruct d as [|x|x|x|x|x]; cbn [de_opt]; try reflexivity; now destruct (de_duration _).
Qed.

Ltac enum de :=
  unfold reads_enum;
  split;
  [ intros name x I; cbn [In] in I;
    repeat (destruct I as [I|I];
      [apply pair_equal_spec in I as [<- <-]; split; [reflexivity|intros d; destruct d; reflexivity]|]);
    destruct I
  |];
  split;
  [ intros name f I; cbn [In] in I;
    repeat (destruct I as [I|I];
      [apply pair_equal_spec in I as [<- <-]; split; [reflexivity|intros d; first [reflexivity|apply enabled_carries]]|]);
    destruct I
  |];
  intros d H; unfold de in H;
  destruct d as [|x|x|k|x|x]; cbn [variant opt_bind] in H; try (now contradiction H);
  [ variants k H
  | destruct x as [|[k d'] [|]]; cbn [variant opt_bind] in H; try (now contradiction H); variants k H ].

(** C76. The enums. *)
Lemma p_c76_enums :
    reads_enum [("staff", Staff); ("turbo", Turbo); ("broadcaster", Broadcaster); ("moderator", Moderator)]
      [("subscriber", fun d => option_map BSubscriber (de_subscriber d)); ("other", fun d => option_map BOther (de_badge_data d))]
      de_badge /\
    reads_enum [("clear", Clear)] [("ban", de_ban); ("timeout", de_time_out)] de_action /\
    reads_enum [("disabled", Disabled)]
      [("enabled", fun d => match d with DNull => Some (Enabled None) | _ => option_map (fun x => Enabled (Some x)) (de_duration d) end)]
      de_followers /\
    reads_enum [("ONE", ONE); ("TWO", TWO); ("THREE", THREE); ("FOUR", FOUR); ("FIVE", FIVE); ("SIX", SIX);
                ("SEVEN", SEVEN); ("EIGHT", EIGHT); ("NINE", NINE); ("TEN", TEN)] [] de_level /\
    reads_enum [("unknown", UnknownEvent)]
      [("suborresub", de_sub); ("raid", de_raid); ("subgift", de_sub_gift); ("submysterygift", de_sub_mystery_gift);
       ("anonsubmysterygift", de_anon_sub_mystery_gift); ("giftpaidupgrade", de_gift_paid_upgrade);
       ("anongiftpaidupgrade", de_anon_gift_paid_upgrade); ("ritual", de_ritual);
       ("bitsbadgetier", de_bits_badge_tier); ("announcement", de_announcement)] de_event.
Proof.
  split; [enum de_badge|].
  split; [enum de_action|].
  split; [enum de_followers|].
  split; [enum de_level|].
  enum de_event.
Qed.

(** C76. Numbers are read when they fit their type, and durations when their seconds do. *)
Lemma p_c76_numbers :
  (forall d n, de_u64 d = Some n <-> d = DInt (Z.of_N n) /\ (n < 2 ^ 64)%N) /\
  (forall d z, de_i64 d = Some z <-> d = DInt z /\ (- 2 ^ 63 <= z < 2 ^ 63)%Z) /\
  (forall secs nanos s,
     de_duration (DMap [entry "secs" (DInt secs); entry "nanos" (DInt nanos)]) = Some s <->
     (0 <= secs < 2 ^ 64 /\ 0 <= nanos < 2 ^ 32 /\ Z.of_N s < 2 ^ 64 /\
      1000000000 * secs + nanos = 1000000000 * Z.of_N s)%Z).
Proof.
  assert (U : forall m d n, de_uint m d = Some n <-> d = DInt (Z.of_N n) /\ (n <= m)%N).
  { intros m d n. unfold de_uint. destruct d as [|x|x|x|x|x]; try (split; [discriminate|intros [E _]; discriminate]).
    destruct ((0 <=? x) && (x <=? Z.of_N m))%Z eqn:E; split.
    - intros H. apply (f_equal (fun o => match o with Some y => y | None => 0%N end)) in H. cbn in H. subst n.
      split; [f_equal|]; lia.
    - intros [H L]. apply (f_equal (fun y => match y with DInt z => z | _ => 0%Z end)) in H. cbn in H. subst x.
      f_equal. lia.
    - discriminate.
    - intros [H L]. apply (f_equal (fun y => match y with DInt z => z | _ => 0%Z end)) in H. cbn in H. lia. }
  assert (M : u64_max = (2 ^ 64 - 1)%N) by now vm_compute.
  split; [|split].
  - intros d n. unfold de_u64. rewrite U, M. assert ((n <= 2 ^ 64 - 1)%N <-> (n < 2 ^ 64)%N) as -> by lia. tauto.
  - assert (i64_min = (- 2 ^ 63)%Z /\ i64_max = (2 ^ 63 - 1)%Z) as [L R] by now vm_compute.
    intros d z. unfold de_i64. destruct d as [|x|x|x|x|x]; try (split; [discriminate|intros [E _]; discriminate]).
    rewrite L, R. destruct ((- 2 ^ 63 <=? x) && (x <=? 2 ^ 63 - 1))%Z eqn:E; split.
    + intros H. assert (x = z) as -> by congruence. split; [reflexivity|lia].
    + intros [H _]. congruence.
    + discriminate.
    + intros [H B]. assert (x = z) as -> by congruence. lia.
  - intros secs nanos s. unfold de_duration, de_u64, de_u32. cbn [fields opt_bind].
    change (field (de_uint u64_max) "secs" [entry "secs" (DInt secs); entry "nanos" (DInt nanos)])
      with (de_uint u64_max (DInt secs)).
    change (field (de_uint 4294967295) "nanos" [entry "secs" (DInt secs); entry "nanos" (DInt nanos)])
      with (de_uint 4294967295 (DInt nanos)).
    destruct (de_uint u64_max (DInt secs)) as [a|] eqn:A; cbn [opt_bind].
    2: { split; [discriminate|]. intros (B & _). exfalso.
         assert (X : de_uint u64_max (DInt secs) = Some (Z.to_N secs)); [|congruence].
         apply U. rewrite M. split; [f_equal|]; lia. }
    destruct (de_uint 4294967295 (DInt nanos)) as [c|] eqn:C; cbn [opt_bind].
    2: { split; [discriminate|]. intros (_ & B & _). exfalso.
         assert (X : de_uint 4294967295 (DInt nanos) = Some (Z.to_N nanos)); [|congruence].
         apply U. split; [f_equal|]; lia. }
    apply U in A as [A LA]. apply U in C as [C LC].
    assert (secs = Z.of_N a) as -> by congruence. assert (nanos = Z.of_N c) as -> by congruence.
    rewrite M in *. pose proof (N.div_mod c 1000000000 ltac:(discriminate)) as D.
    set (q := (c / 1000000000)%N) in *. set (r := (c mod 1000000000)%N) in *.
    assert (r < 1000000000)%N by now apply N.mod_lt.
    destruct ((r =? 0) && (a + q <=? 2 ^ 64 - 1))%N eqn:E; split.
    + intros H1. assert (s = a + q)%N as -> by congruence. lia.
    + intros H1. f_equal. lia.
    + discriminate.
    + intros H1. lia.
Qed.

(** A message with its nulls left out, its keys in another order and one of no meaning. *)
Example ex_c76 :
  let l := [entry "text" (DStr (b "hi")); entry "x" (DInt 3)] in
  let full := [entry "channel" DNull; entry "text" (DStr (b "hi")); entry "id" DNull] in
  rearranged ["channel"; "text"; "id"] ["channel"; "id"] full l /\
  de_notice (DMap full) = Some (mk_notice None (b "hi") None) /\
  de_notice (DMap l) = Some (mk_notice None (b "hi") None) /\
  de_notice (DMap [entry "id" DNull]) = None /\
  de_notice (DMap (entry "text" (DStr []) :: l)) = None /\
  de_badge (DMap [entry "staff" DNull]) = Some Staff /\ de_badge (DMap [entry "staff" (DBool true)]) = None.
Proof.
  cbv zeta. split; [|repeat split].
  refine (ra_then _ _ _ _ _ (ra_null _ _ [] (b "channel") _ _ _) _);
    [now left|vm_compute; intuition discriminate|].
  refine (ra_then _ _ _ _ _ (ra_null _ _ [_] (b "id") [] _ _) _);
    [now right; left|vm_compute; intuition discriminate|].
  apply ra_back. apply (ra_unknown _ _ [_] (b "x") (DInt 3) []). apply not_named. now vm_compute.
Qed.
