(** * PartsProofs: the property lemmas about the parts that typed messages are made from, C84. *)

From Coq Require Import Lia ZifyBool ZifyNat ZifyN Permutation.
From Verif Require Import Base Wide Tags Irc SpecIrc MsgBase MsgTypes MsgNotice Message SpecMsg SpecParts Dbg.
From Verif Require Import BaseFacts IrcFacts IrcProofs LineProofs AccessProofs FieldFacts TypedFacts NoticeFacts TypedProofs.

(** ** Only these parts *)

Definition listed (ks : list string) (t : tag_name) : bool :=
  existsb (fun k => str_eqb (b k) (tag_as_str t)) ks.

Section Two.
Context {v v' : view} {m m' : msg_ref} (H : seen v m) (H' : seen v' m') (C : v_command v = v_command v').

Lemma two_command : ref_command m = ref_command m'.
Proof. now rewrite (sn_command _ _ H), (sn_command _ _ H'), C. Qed.

Lemma two_tag (ks : list string) :
  (forall k, In k ks -> forall x, has v k x <-> has v' k x) ->
  forall t, listed ks t = true -> ref_tag m t = ref_tag m' t.
Proof.
  intros A t L. rewrite (sn_tag _ _ H), (sn_tag _ _ H'). f_equal.
  apply existsb_exists in L as (k & I & E).
  destruct (str_eqb_spec (b k) (tag_as_str t)) as [<-|N]; [clear E|discriminate].
  specialize (A k I). setoid_rewrite has_iff in A.
  destruct (lookup (b k) (v_tags v)) as [x|] eqn:L1.
  - symmetry. now apply A.
  - destruct (lookup (b k) (v_tags v')) as [x|] eqn:L2; [|reflexivity].
    discriminate (proj2 (A x) eq_refl).
Qed.

Lemma two_params : v_params v = v_params v' -> ref_params m = ref_params m' /\ ref_text m = ref_text m'.
Proof.
  intros E. rewrite (sn_params _ _ H), (sn_params _ _ H'), (sn_text _ _ H), (sn_text _ _ H').
  unfold spec_text. now rewrite E.
Qed.

Lemma two_channel : v_command v <> b "353" -> v_command v <> b "366" ->
  v_channel v = v_channel v' -> ref_channel m = ref_channel m'.
Proof.
  intros N1 N2 E. rewrite (sn_channel _ _ H), (sn_channel _ _ H'). unfold spec_channel.
  rewrite <- C, !str_eqb_neq by assumption. now rewrite E.
Qed.

Lemma two_nick : (forall x, has_nick v x <-> has_nick v' x) -> prefix_nick m = prefix_nick m'.
Proof.
  intros A. rewrite (seen_nick H), (seen_nick H'). do 2 f_equal. setoid_rewrite has_nick_iff in A.
  destruct (opt_bind (v_prefix v) nick) as [x|] eqn:L1.
  - symmetry. now apply A.
  - destruct (opt_bind (v_prefix v') nick) as [x|] eqn:L2; [|reflexivity].
    discriminate (proj2 (A x) eq_refl).
Qed.
End Two.

Ltac use_tags T m :=
  repeat match goal with
         | |- context [ref_tag m ?t] => rewrite (T t) by (vm_compute; reflexivity)
         end.

Lemma from_irc_reads (pf : profile) (v v' : view) (m m' : msg_ref) (nd : need) :
  seen v m -> seen v' m' -> v_command v = v_command v' -> In (v_command v, nd) needs -> agree nd v v' ->
  from_irc pf m = from_irc pf m'.
Proof.
  intros H H' C I (A1 & A2 & A3 & A4).
  pose proof (two_command H H' C) as R. pose proof (two_tag H H' _ A1) as T.
  pose proof (fun X => two_params H H' (A4 X)) as P.
  assert (Q : nd_channel nd = true -> ref_channel m = ref_channel m').
  { intros X. apply (two_channel H H' C); [| |exact (A2 X)];
      intros K; rewrite K in I; cbn [needs In] in I;
      repeat (destruct I as [I|I]; [discriminate I|]); exact I. }
  pose proof (fun X => two_nick H H' (A3 X)) as N. clear A1 A2 A3 A4.
  unfold from_irc. rewrite <- R, (sn_command _ _ H).
  cbn [needs In] in I.
  repeat (destruct I as [I|I];
    [injection I as W <-; rewrite <- W;
     match goal with |- context [spec_command ?w] =>
       let c := eval vm_compute in (spec_command w) in change (spec_command w) with c end;
     cbn [bind nd_channel nd_nick nd_params] in *|]); [..|destruct I].
  all: try specialize (Q eq_refl); try specialize (N eq_refl);
    try (specialize (P eq_refl); destruct P as [P1 P2]).
  all: unfold clear_chat_parse, clear_msg_parse, global_user_state_parse, join_parse, notice_parse, part_parse,
    ping_parse, pong_parse, privmsg_parse, room_state_parse, user_notice_parse, user_state_parse, whisper_parse,
    privmsg_reply_to, privmsg_pinned_chat, parse_event, parse_sender, event_sub, event_raid, event_sub_gift,
    event_sub_mystery_gift, event_anon_sub_mystery_gift, event_gift_paid_upgrade, event_anon_gift_paid_upgrade,
    event_ritual, event_bits_badge_tier, event_announcement, parse_promotion, channel_into, tag_badges, tag_non_empty, tag_into,
    tag_borrowed, tag_emote_sets, tag_emotes, tag_u64, tag_timestamp.
  all: rewrite ?R; try rewrite P1; try rewrite P2; try rewrite Q; try rewrite N; use_tags T m; reflexivity.
Qed.

Lemma needs_listed (w : str) : In w typed_words -> exists nd, In (w, nd) needs.
Proof.
  intros I. cbn [typed_words In] in I.
  repeat (destruct I as [<-|I]; [eexists; cbn [needs In]; tauto|]). destruct I.
Qed.

(** C84. For each command with a typed form [needs] tells which tags it is made
    from, and whether from the channel, the nick and the parameters: lines that
    agree in these have the same typed form, or none both. *)
Lemma p_c84_only_these_parts :
  forall w, In w typed_words -> exists nd, In (w, nd) needs /\
    forall (bd bd' : build) (pf : profile) (s s' : str) (v v' : view) (m m' : msg_ref),
      parsed bd s v m -> parsed bd' s' v' m' -> v_command v = w -> v_command v' = w -> agree nd v v' ->
      from_irc pf m = from_irc pf m'.
Proof.
  intros w I. destruct (needs_listed w I) as [nd N]. exists nd. split; [exact N|].
  intros bd bd' pf s s' v v' m m' P P' C C' A. apply (from_irc_reads pf v v' m m' nd); auto.
  - exact (parsed_seen _ _ _ _ P).
  - exact (parsed_seen _ _ _ _ P').
  - congruence.
  - now rewrite C.
Qed.

(** Lines with the same first tags. *)
Lemma same_first_tags (bd bd' : build) (pf : profile) (s s' : str) (v v' : view) (m m' : msg_ref) (nd : need) :
  parsed bd s v m -> parsed bd' s' v' m' -> same_but_tags v v' -> In (v_command v, nd) needs ->
  (forall k, In k (nd_tags nd) -> lookup (b k) (v_tags v) = lookup (b k) (v_tags v')) ->
  from_irc pf m = from_irc pf m'.
Proof.
  intros P P' (E1 & E2 & E3 & E4) N L. apply (from_irc_reads pf v v' m m' nd); auto.
  - exact (parsed_seen _ _ _ _ P).
  - exact (parsed_seen _ _ _ _ P').
  - unfold agree. repeat split; auto.
    + intros K. apply has_iff. rewrite <- L by assumption. now apply has_iff.
    + intros K. apply has_iff. rewrite L by assumption. now apply has_iff.
    + intros (p & K1 & K2). exists p. now rewrite <- E2.
    + intros (p & K1 & K2). exists p. now rewrite E2.
Qed.

Lemma lookup_in (k x : str) (l : list (str * str)) :
  NoDup (map fst l) -> (lookup k l = Some x <-> In (k, x) l).
Proof.
  induction l as [|[k' y] l IH]; cbn [lookup map fst In]; intros D; [split; [discriminate|tauto]|].
  inversion D as [|? ? N D']; subst. destruct (str_eqb_spec k' k) as [->|E].
  - split; [intros [= ->]; now left|]. intros [K|K]; [congruence|].
    destruct N. now apply (in_map fst) in K.
  - rewrite IH by exact D'. split; [tauto|]. intros [K|K]; [congruence|exact K].
Qed.

(** C84. The order of the tags does not matter, if each key is there once. *)
Lemma p_c84_order_of_tags :
  forall (bd bd' : build) (pf : profile) (s s' : str) (v v' : view) (m m' : msg_ref),
    parsed bd s v m -> parsed bd' s' v' m' -> same_but_tags v v' -> In (v_command v) typed_words ->
    Permutation (v_tags v) (v_tags v') -> NoDup (map fst (v_tags v)) ->
    from_irc pf m = from_irc pf m'.
Proof.
  intros bd bd' pf s s' v v' m m' P P' E W PM D. destruct (needs_listed _ W) as [nd N].
  apply (same_first_tags bd bd' pf s s' v v' m m' nd P P' E N). intros k _.
  assert (D' : NoDup (map fst (v_tags v'))).
  { apply (Permutation_NoDup (Permutation_map fst PM)). exact D. }
  destruct (lookup (b k) (v_tags v)) as [x|] eqn:L.
  - symmetry. apply lookup_in; [exact D'|]. apply (Permutation_in _ PM). now apply lookup_in.
  - destruct (lookup (b k) (v_tags v')) as [x|] eqn:L'; [|reflexivity].
    apply lookup_in in L'; [|exact D']. apply (Permutation_in _ (Permutation_sym PM)) in L'.
    apply lookup_in in L'; [|exact D]. congruence.
Qed.

Lemma lookup_insert (k : str) (l1 l2 : list (str * str)) (k' x : str) :
  k <> k' \/ In k (map fst l1) -> lookup k (l1 ++ l2) = lookup k (l1 ++ (k', x) :: l2).
Proof.
  induction l1 as [|[k1 y] l1 IH]; cbn [app lookup map fst In]; intros A.
  - destruct A as [A|[]]. now rewrite str_eqb_neq by congruence.
  - destruct (str_eqb_spec k1 k) as [->|N]; [reflexivity|]. apply IH. intuition congruence.
Qed.

(** C84. A tag more or less does not matter if its key is none of those, or
    comes again. *)
Lemma p_c84_other_tags :
  forall (bd bd' : build) (pf : profile) (s s' : str) (v v' : view) (m m' : msg_ref) (nd : need)
         (l1 l2 : list (str * str)) (k x : str),
    parsed bd s v m -> parsed bd' s' v' m' -> same_but_tags v v' -> In (v_command v, nd) needs ->
    v_tags v = l1 ++ l2 -> v_tags v' = l1 ++ (k, x) :: l2 ->
    ~ In k (map b (nd_tags nd)) \/ In k (map fst l1) ->
    from_irc pf m = from_irc pf m'.
Proof.
  intros bd bd' pf s s' v v' m m' nd l1 l2 k x P P' E N T T' A.
  apply (same_first_tags bd bd' pf s s' v v' m m' nd P P' E N). intros k' I.
  rewrite T, T'. apply lookup_insert.
  destruct (list_eq_dec Byte.byte_eq_dec (b k') k) as [<-|D]; [|now left].
  right. destruct A as [A|A]; [|exact A]. destruct A. now apply in_map.
Qed.

(** ** Each of these parts *)

Lemma any_build (bd : build) (s : str) (v : view) (m : msg_ref) : parsed Scalar s v m -> parsed bd s v m.
Proof.
  intros [U S F V E]. split; auto. destruct bd as [x addr|]; [|exact E].
  destruct (p_c04_simd_equals_scalar x addr s) as [K _]; [|now rewrite K].
  intros K. rewrite scalar_unterminated in E by assumption. discriminate.
Qed.

(** Every tag that is read, for the given event. *)
Definition all_tags (event : string) : list (string * string) :=
  [("msg-id", event); ("room-id", "1"); ("user-id", "1"); ("id", "1"); ("login", "1"); ("display-name", "1");
    ("tmi-sent-ts", "1"); ("badges", "a/1"); ("badge-info", "a/1"); ("target-msg-id", "1");
    ("target-user-id", "1"); ("pinned-chat-paid-amount", "1"); ("pinned-chat-paid-currency", "1");
    ("pinned-chat-paid-exponent", "1"); ("pinned-chat-paid-level", "ONE");
    ("pinned-chat-paid-is-system-message", "1")]%string ++
  map (fun k => (k, "1"%string)) (reply_tags ++ event_tags).

Definition whole (w : str) (nick channel params : string) : str :=
  b ":" ++ b nick ++ b "!u@h " ++ w ++ b " " ++ b channel ++ b params.

(** Which event shows the tag, and two values for it. *)
Definition shown_by : list (string * string) :=
  [("msg-param-viewerCount", "raid"); ("msg-param-profileImageURL", "raid"); ("msg-param-months", "subgift");
   ("msg-param-recipient-id", "subgift"); ("msg-param-recipient-user-name", "subgift");
   ("msg-param-recipient-display-name", "subgift"); ("msg-param-gift-months", "subgift");
   ("msg-param-mass-gift-count", "submysterygift"); ("msg-param-sender-count", "submysterygift");
   ("msg-param-sender-login", "giftpaidupgrade"); ("msg-param-sender-name", "giftpaidupgrade");
   ("msg-param-promo-gift-total", "giftpaidupgrade"); ("msg-param-promo-name", "giftpaidupgrade");
   ("msg-param-ritual-name", "ritual"); ("msg-param-threshold", "bitsbadgetier");
   ("msg-param-color", "announcement")]%string.

Definition two_values : list (string * (string * string)) :=
  [("badges", ("a/1", "a/2")); ("badge-info", ("a/1", "a/2")); ("msg-id", ("sub", "resub"));
   ("pinned-chat-paid-level", ("ONE", "TWO")); ("pinned-chat-paid-is-system-message", ("0", "1"));
   ("emote-only", ("0", "1")); ("r9k", ("0", "1")); ("subs-only", ("0", "1"))]%string.

Fixpoint find_or {A : Type} (d : A) (k : string) (l : list (string * A)) : A :=
  match l with
  | [] => d
  | (k', x) :: l' => if String.eqb k' k then x else find_or d k l'
  end.

(** The tags for the command and the event. *)
Definition of_use (w : str) (event k : string) : bool :=
  match assoc w needs with
  | Some nd =>
    existsb (String.eqb k) (nd_tags nd) &&
    (negb (existsb (String.eqb k) event_tags) || String.eqb (find_or "sub" k shown_by) event ||
     existsb (String.eqb k) ["msg-param-sub-plan"; "msg-param-sub-plan-name"])%string
  | None => false
  end.

Definition tag_line (w : str) (k x event : string) (rest : str) : str :=
  b "@" ++ b k ++ b "=" ++ b x ++
  concat (map (fun kv => b ";" ++ b (fst kv) ++ b "=" ++ b (snd kv))
            (filter (fun kv => of_use w event (fst kv) && negb (String.eqb (fst kv) k)) (all_tags event))) ++
  b " " ++ rest.

Definition tag_lines (w : str) (k : string) : str * str :=
  let ev := find_or "sub"%string k shown_by in
  let '(x, y) := find_or ("1", "2")%string k two_values in
  let rest := if str_eqb w (b "WHISPER") then whole w "n" "" "r :t" else whole w "n" "#c " ":t" in
  (tag_line w k x ev rest, tag_line w k y ev rest).

Definition printed (r : res (option typed)) : str :=
  match r with
  | Ret (Some t) => match dbg_typed t with Ret d => show (fun _ => true) false d | _ => [] end
  | _ => []
  end.

Definition in_limits (s : str) : bool :=
  utf8_valid s && (N.of_nat (length s) <? 4294967296)%N &&
  forallb (fun kv : str * str => (N.of_nat (length (fst kv)) <? 65536)%N && (N.of_nat (length (snd kv)) <? 65536)%N)
    (fst (spec_tags s)).

Definition check (R : view -> view -> bool) (w s t : str) : bool :=
  in_limits s && in_limits t &&
  match spec_view s, spec_view t, ref_parse Scalar s, ref_parse Scalar t with
  | Some v, Some v', Ret (Some m), Ret (Some m') =>
    str_eqb (v_command v) w && R v v' &&
    forallb (fun pf => negb (str_eqb (printed (from_irc pf m)) (printed (from_irc pf m')))) [Debug; Release]
  | _, _, _, _ => false
  end.

Lemma check_matters (bd : build) (pf : profile) (R : view -> view -> bool) (Q : view -> view -> Prop) (w s t : str) :
  check R w s t = true -> (forall v v', R v v' = true -> Q v v') -> matters bd pf Q w.
Proof.
  unfold check, in_limits. intros K RQ. apply andb_prop in K as [L K].
  apply andb_prop in L as [L1 L2]. apply andb_prop in L1 as [L1 A1]. apply andb_prop in L1 as [U1 S1].
  apply andb_prop in L2 as [L2 A2]. apply andb_prop in L2 as [U2 S2].
  destruct (spec_view s) as [v|] eqn:V1; [|discriminate]. destruct (spec_view t) as [v'|] eqn:V2; [|discriminate].
  destruct (ref_parse Scalar s) as [[m|]| | |] eqn:E1; try discriminate.
  destruct (ref_parse Scalar t) as [[m'|]| | |] eqn:E2; try discriminate.
  apply andb_prop in K as [K D]. apply andb_prop in K as [W RR].
  exists s, t, v, v', m, m'.
  split; [apply any_build; split; auto; [unfold below_4gib; lia|now apply all_short_check]|].
  split; [apply any_build; split; auto; [unfold below_4gib; lia|now apply all_short_check]|].
  split; [destruct (str_eqb_spec (v_command v) w); [assumption|discriminate]|].
  split; [now apply RQ|]. intros X. rewrite forallb_forall in D.
  specialize (D pf ltac:(destruct pf; cbn [In]; auto)). rewrite X in D.
  destruct (str_eqb_spec (printed (from_irc pf m')) (printed (from_irc pf m'))) as [_|N]; [discriminate D|now apply N].
Qed.

Definition view_dec (v v' : view) : {v = v'} + {v <> v'}.
Proof.
  assert (S : forall x y : str, {x = y} + {x <> y}) by exact (list_eq_dec Byte.byte_eq_dec).
  assert (O : forall x y : option str, {x = y} + {x <> y}) by (decide equality).
  assert (P : forall x y : option prefix, {x = y} + {x <> y}) by (decide equality; decide equality).
  assert (T : forall x y : list (str * str), {x = y} + {x <> y}) by (decide equality; decide equality).
  decide equality.
Defined.

Definition same_view (v v' : view) : bool := if view_dec v v' then true else false.

Lemma same_view_eq (v v' : view) : same_view v v' = true -> v = v'.
Proof. unfold same_view. destruct (view_dec v v'); [auto|discriminate]. Qed.

Definition tag_rel (k : string) (v v' : view) : bool :=
  match v_tags v, v_tags v' with
  | (k1, x) :: l, (k2, y) :: _ =>
    str_eqb k1 (b k) && negb (existsb (fun kv => str_eqb (fst kv) (b k)) l) &&
    same_view v' (mk_view ((b k, y) :: l) (v_prefix v) (v_command v) (v_channel v) (v_params v))
  | _, _ => false
  end.

Lemma tag_rel_differ (k : string) (v v' : view) : tag_rel k v v' = true -> differ_in_tag k v v'.
Proof.
  unfold tag_rel. destruct (v_tags v) as [|[k1 x] l] eqn:T; [discriminate|].
  destruct (v_tags v') as [|[k2 y] l']; [discriminate|]. intros K.
  apply andb_prop in K as [K E]. apply andb_prop in K as [K N]. apply same_view_eq in E. subst v'.
  destruct (str_eqb_spec k1 (b k)) as [->|]; [|discriminate].
  split; [repeat split|]. exists x, y, l. split; [exact T|]. split; [reflexivity|].
  intros I. apply in_map_iff in I as ([k' z] & E & I). cbn [fst] in E. subst k'.
  assert (X : existsb (fun kv : str * str => str_eqb (fst kv) (b k)) l = true).
  { apply existsb_exists. exists (b k, z). split; [exact I|]. cbn [fst]. now destruct (str_eqb_spec (b k) (b k)). }
  rewrite X in N. discriminate.
Qed.

Lemma tag_matters (bd : build) (pf : profile) (w : str) (nd : need) (k : string) :
  In (w, nd) needs -> In k (nd_tags nd) -> matters bd pf (differ_in_tag k) w.
Proof.
  assert (X : forallb (fun wn => forallb (fun k => let '(s, t) := tag_lines (fst wn) k in
      check (tag_rel k) (fst wn) s t) (nd_tags (snd wn))) needs = true)
    by (vm_compute; reflexivity).
  intros I J. rewrite forallb_forall in X. specialize (X _ I). cbn [fst snd] in X.
  rewrite forallb_forall in X. specialize (X _ J). destruct (tag_lines w k) as [s t].
  apply (check_matters bd pf (tag_rel k) _ w s t); [exact X|apply tag_rel_differ].
Qed.

Definition part_lines (w : str) (nick channel params : string) : str :=
  tag_line w "x" "1" "sub"
    (if str_eqb w (b "WHISPER") then whole w nick "" (String.append "r :" params)
     else whole w nick (String.append channel " ") (String.append ":" params)).

Definition channel_rel (v v' : view) : bool :=
  same_view v' (mk_view (v_tags v) (v_prefix v) (v_command v) (v_channel v') (v_params v)).

Lemma channel_rel_differ (v v' : view) : channel_rel v v' = true -> differ_in_channel v v'.
Proof. intros K. apply same_view_eq in K. rewrite K. repeat split. Qed.

Definition params_rel (v v' : view) : bool :=
  same_view v' (mk_view (v_tags v) (v_prefix v) (v_command v) (v_channel v) (v_params v')).

Lemma params_rel_differ (v v' : view) : params_rel v v' = true -> differ_in_params v v'.
Proof. intros K. apply same_view_eq in K. rewrite K. repeat split. Qed.

Definition nick_rel (v v' : view) : bool :=
  match v_prefix v, v_prefix v' with
  | Some (mk_prefix (Some n) u h), Some (mk_prefix (Some n') _ _) =>
    same_view v' (mk_view (v_tags v) (Some (mk_prefix (Some n') u h)) (v_command v) (v_channel v) (v_params v))
  | _, _ => false
  end.

Lemma nick_rel_differ (v v' : view) : nick_rel v v' = true -> differ_in_nick v v'.
Proof.
  unfold nick_rel. destruct (v_prefix v) as [[[n|] u h]|] eqn:P; try discriminate.
  destruct (v_prefix v') as [[[n'|] u' h']|]; try discriminate.
  intros K. apply same_view_eq in K. subst v'. repeat split. now exists n, n', u, h.
Qed.

Lemma parts_matter (bd : build) (pf : profile) (w : str) (nd : need) :
  In (w, nd) needs ->
  (nd_channel nd = true -> matters bd pf differ_in_channel w) /\
  (nd_nick nd = true -> matters bd pf differ_in_nick w) /\
  (nd_params nd = true -> matters bd pf differ_in_params w).
Proof.
  assert (X : forallb (fun wn => let w := fst wn in
      (negb (nd_channel (snd wn)) || check channel_rel w (part_lines w "n" "#c" "t") (part_lines w "n" "#d" "t")) &&
      (negb (nd_nick (snd wn)) || check nick_rel w (part_lines w "n" "#c" "t") (part_lines w "m" "#c" "t")) &&
      (negb (nd_params (snd wn)) || check params_rel w (part_lines w "n" "#c" "t") (part_lines w "n" "#c" "u"))) needs = true)
    by (vm_compute; reflexivity).
  intros I. rewrite forallb_forall in X. specialize (X _ I). cbv zeta in X. cbn [fst snd] in X.
  apply andb_prop in X as [X X3]. apply andb_prop in X as [X1 X2].
  repeat split; intros N.
  - apply orb_prop in X1 as [X1|X1]; [rewrite N in X1; discriminate|]. exact (check_matters bd pf _ _ w _ _ X1 channel_rel_differ).
  - apply orb_prop in X2 as [X2|X2]; [rewrite N in X2; discriminate|]. exact (check_matters bd pf _ _ w _ _ X2 nick_rel_differ).
  - apply orb_prop in X3 as [X3|X3]; [rewrite N in X3; discriminate|]. exact (check_matters bd pf _ _ w _ _ X3 params_rel_differ).
Qed.

(** C84. And there is no part too many in [needs]: each tag, the channel, the
    nick and the parameters, where they are named, make a difference. *)
Lemma p_c84_each_part_matters :
  forall (bd : build) (pf : profile) (w : str) (nd : need), In (w, nd) needs ->
    (forall k, In k (nd_tags nd) -> matters bd pf (differ_in_tag k) w) /\
    (nd_channel nd = true -> matters bd pf differ_in_channel w) /\
    (nd_nick nd = true -> matters bd pf differ_in_nick w) /\
    (nd_params nd = true -> matters bd pf differ_in_params w).
Proof.
  intros bd pf w nd I. split; [|now apply parts_matter]. intros k. now apply (tag_matters bd pf w nd).
Qed.

(** ** Two lines with the same typed form *)

Definition line_1 : str := b "@id=5;room-id=3;tmi-sent-ts=9;login=x;target-msg-id=7;vip=1 :h CLEARMSG #c :t".
Definition line_2 : str := b "@target-msg-id=7;login=x;tmi-sent-ts=9;login=y;room-id=3 :n!u@h CLEARMSG #c :t".

Definition clearmsg_need : need := snd (nth 1 needs (b "", mk_need [] false false false)).

Example ex_c84 (pf : profile) :
  exists v v' m m' t nd,
    parsed Scalar line_1 v m /\ parsed Scalar line_2 v' m' /\ v_command v = b "CLEARMSG" /\
    In (b "CLEARMSG", nd) needs /\ agree nd v v' /\ v_tags v <> v_tags v' /\ v_prefix v <> v_prefix v' /\
    from_irc pf m = Ret (Some t) /\ from_irc pf m' = Ret (Some t).
Proof.
  assert (W : In (b "CLEARMSG") typed_words) by (cbn; auto 20).
  destruct (spec_view line_1) as [v|] eqn:V1; [|vm_compute in V1; discriminate].
  destruct (spec_view line_2) as [v'|] eqn:V2; [|vm_compute in V2; discriminate].
  destruct (ref_parse Scalar line_1) as [[m|]| | |] eqn:E1; try (vm_compute in E1; discriminate).
  destruct (ref_parse Scalar line_2) as [[m'|]| | |] eqn:E2; try (vm_compute in E2; discriminate).
  assert (P : parsed Scalar line_1 v m).
  { split; auto; [reflexivity|now apply all_short_check]. }
  assert (P' : parsed Scalar line_2 v' m').
  { split; auto; [reflexivity|now apply all_short_check]. }
  assert (N : In (b "CLEARMSG", clearmsg_need) needs)
    by (unfold clearmsg_need; cbn [nth needs snd In]; auto).
  assert (A : agree clearmsg_need v v').
  { vm_compute in V1, V2. injection V1 as <-. injection V2 as <-. split; [|now repeat split].
    intros k K x. rewrite !has_iff. unfold clearmsg_need in K; cbn [nth needs snd nd_tags In] in K.
    decompose [or] K; subst; try contradiction; reflexivity. }
  assert (T : from_irc pf m = from_irc pf m').
  { apply (from_irc_reads pf v v' m m' clearmsg_need (parsed_seen _ _ _ _ P) (parsed_seen _ _ _ _ P')); [| |exact A].
    - vm_compute in V1, V2. injection V1 as <-. injection V2 as <-. reflexivity.
    - vm_compute in V1. injection V1 as <-. exact N. }
  destruct (from_irc pf m) as [[t|]| | |] eqn:F;
    try (vm_compute in E1; injection E1 as <-; destruct pf; vm_compute in F; discriminate).
  exists v, v', m, m', t, clearmsg_need.
  split; [exact P|]. split; [exact P'|]. split; [vm_compute in V1; now injection V1 as <-|].
  split; [exact N|]. split; [exact A|]. vm_compute in V1, V2. injection V1 as <-. injection V2 as <-.
  split; [discriminate|]. split; [discriminate|]. now split.
Qed.
