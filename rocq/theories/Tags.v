(** * Tags: src/irc/tags.rs and its two parsers (model, no proofs). *)

From Verif Require Import Base Wide.

(** ** Spans: src/common.rs:9-50 *)

(** [Span { start: u32, end: u32 }]. *)
Record span := mk_span { sp_start : nat; sp_end : nat }.

(** [Span::from(a..b)]: src/common.rs:27-35 (truncating casts). *)
Definition span_from (i j : nat) : span := mk_span (as_u32 i) (as_u32 j).

(** [&src[span]]: src/common.rs:37-50. *)
Definition span_get (src : str) (sp : span) : res str := slice src (sp_start sp) (sp_end sp).

(** ** [TagPair]: src/irc/tags.rs:223-260 *)

(** [key_start: u32, key_end: u16, value_end: u16]; the last two are lengths. *)
Record tag_pair := mk_pair { key_start : nat; key_end : nat; value_end : nat }.

(** The literal [TagPair { .. }] built at simd.rs:31-37, simd.rs:86-92,
    scalar.rs:23-27 and scalar.rs:35-39. *)
Definition make_pair (ks ke pos : nat) : res tag_pair :=
  let! start := u32_add (as_u32 ks) 1 in
  let! klen := usize_sub ke ks in
  let! vlen := usize_sub pos (ke + 1) in
  Ret (mk_pair start (as_u16 klen) (as_u16 vlen)).

(** [TagPair::key]: src/irc/tags.rs:239-244. *)
Definition pair_key (p : tag_pair) : res span :=
  let! e := u32_add (key_start p) (key_end p) in
  Ret (mk_span (key_start p) e).

(** [TagPair::value]: src/irc/tags.rs:248-253. *)
Definition pair_value (p : tag_pair) : res span :=
  let! ke := u32_add (key_start p) (key_end p) in
  let! s := u32_add ke 1 in
  let! e := u32_add s (value_end p) in
  Ret (mk_span s e).

(** [TagPair::get]: src/irc/tags.rs:255-259. *)
Definition pair_get (src : str) (p : tag_pair) : res (str * str) :=
  let! ks := pair_key p in
  let! k := span_get src ks in
  let! vs := pair_value p in
  let! v := span_get src vs in
  Ret (k, v).

(** ** [Array<CAPACITY, TagPair>]: src/irc/tags.rs:262-293 *)

Definition capacity : nat := 128.

(** [None] is an uninitialised slot. *)
Record array := mk_array { a_data : list (option tag_pair); a_len : nat }.

(** [Array::new]: src/irc/tags.rs:268-281. *)
Definition array_new : array := mk_array (repeat None capacity) 0.

Fixpoint set_nth {A : Type} (l : list A) (i : nat) (x : A) : list A :=
  match l, i with
  | [], _ => []
  | _ :: l', 0 => x :: l'
  | a :: l', S i' => a :: set_nth l' i' x
  end.

(** [Array::push]: src/irc/tags.rs:283-286; [self.data[self.len]] is a checked
    index. *)
Definition array_push (a : array) (p : tag_pair) : res array :=
  if a_len a <? length (a_data a)
  then Ret (mk_array (set_nth (a_data a) (a_len a) (Some p)) (S (a_len a)))
  else Panic.

(** Reading slots as initialised values; an uninitialised one is [Ub]. *)
Fixpoint assume_init (l : list (option tag_pair)) : res (list tag_pair) :=
  match l with
  | [] => Ret []
  | None :: _ => Ub
  | Some p :: l' => let! r := assume_init l' in Ret (p :: r)
  end.

(** [Array::to_vec]: src/irc/tags.rs:288-292. *)
Definition array_to_vec (a : array) : res (list tag_pair) :=
  if a_len a <=? length (a_data a)
  then assume_init (firstn (a_len a) (a_data a))
  else Panic.

(** [enum State]: simd.rs:44-48, scalar.rs:54-58. *)
Inductive tstate :=
| Key (key_start : nat)
| Value (key_start key_end : nat).

(** ** Vector parser: src/irc/tags/simd.rs *)

(** Result of the search loops of [find_first]: found, or the final [offset]. *)
Inductive scan := Found (i : nat) | More (offset : nat).

(** One [load; eq; movemask; has_match] step on an aligned chunk. *)
Definition scan_aligned (v : backend) (addr : nat) (data : list byte) (c : byte) (offset : nat)
  : res (option nat) :=
  let! chunk := load_aligned v addr data offset in
  let mask := movemask v (veq v chunk c) in
  if has_match mask
  then Ret (Some (as_index v (first_match v mask)))
  else Ret None.

(** simd.rs:133-168: the loop over four vectors at a time.  All four loads
    happen before the first test. *)
Fixpoint find_unrolled (fuel : nat) (v : backend) (addr : nat) (data : list byte) (c : byte)
         (offset : nat) : res scan :=
  match fuel with
  | 0 => NoFuel
  | S fuel' =>
    if offset + 4 * vsize v <? length data then
      let! m0 := scan_aligned v addr data c (offset + vsize v * 0) in
      let! m1 := scan_aligned v addr data c (offset + vsize v * 1) in
      let! m2 := scan_aligned v addr data c (offset + vsize v * 2) in
      let! m3 := scan_aligned v addr data c (offset + vsize v * 3) in
      match m0 with
      | Some pos => Ret (Found (offset + pos + 0 * vsize v))
      | None =>
        match m1 with
        | Some pos => Ret (Found (offset + pos + 1 * vsize v))
        | None =>
          match m2 with
          | Some pos => Ret (Found (offset + pos + 2 * vsize v))
          | None =>
            match m3 with
            | Some pos => Ret (Found (offset + pos + 3 * vsize v))
            | None => find_unrolled fuel' v addr data c (offset + vsize v * 4)
            end
          end
        end
      end
    else Ret (More offset)
  end.

(** simd.rs:172-182: the loop over single vectors. *)
Fixpoint find_single (fuel : nat) (v : backend) (addr : nat) (data : list byte) (c : byte)
         (offset : nat) : res scan :=
  match fuel with
  | 0 => NoFuel
  | S fuel' =>
    if offset + vsize v <=? length data then
      let! m := scan_aligned v addr data c offset in
      match m with
      | Some pos => Ret (Found (offset + pos))
      | None => find_single fuel' v addr data c (offset + vsize v)
      end
    else Ret (More offset)
  end.

(** [find_first(data, byte)]: simd.rs:106-203; [addr] is [data.as_ptr()]. *)
Definition find_first (v : backend) (addr : nat) (data : list byte) (c : byte) : res (option nat) :=
  if length data <? vsize v then Ret (find_byte c data)
  else
    let! chunk := load_unaligned v data 0 in
    let mask := movemask v (veq v chunk c) in
    if has_match mask then Ret (Some (as_index v (first_match v mask)))
    else
      let! aligned_start_addr := usize_sub (addr + vsize v) (addr mod vsize v) in
      let! aligned_start_offset := usize_sub aligned_start_addr addr in
      let! r1 := find_unrolled (S (length data)) v addr data c aligned_start_offset in
      match r1 with
      | Found i => Ret (Some i)
      | More offset =>
        let! r2 := find_single (S (length data)) v addr data c offset in
        match r2 with
        | Found i => Ret (Some i)
        | More offset =>
          if offset <? length data then
            let! offset := usize_sub (length data) (vsize v) in
            let! chunk := load_unaligned v data offset in
            let mask := movemask v (veq v chunk c) in
            if has_match mask then Ret (Some (offset + as_index v (first_match v mask)))
            else Ret None
          else Ret None
        end
      end.

(** The [loop] of [parse_chunk]: simd.rs:55-95. *)
Fixpoint parse_chunk_loop (fuel : nat) (v : backend) (offset : nat) (eqm semim : N)
         (st : tstate) (tags : array) : res (tstate * array) :=
  match fuel with
  | 0 => NoFuel
  | S fuel' =>
    match st with
    | Key ks =>
      if negb (has_match eqm) then Ret (st, tags)
      else
        let m := first_match v eqm in
        let! eqm' := clear_to v eqm m in
        let! semim' := clear_to v semim m in
        let pos := offset + as_index v m in
        parse_chunk_loop fuel' v offset eqm' semim' (Value ks pos) tags
    | Value ks ke =>
      if negb (has_match semim) then Ret (st, tags)
      else
        let m := first_match v semim in
        let! eqm' := clear_to v eqm m in
        let! semim' := clear_to v semim m in
        let pos := offset + as_index v m in
        let! p := make_pair ks ke pos in
        let! tags' := array_push tags p in
        parse_chunk_loop fuel' v offset eqm' semim' (Key (pos + 1)) tags'
    end
  end.

(** [parse_chunk]: simd.rs:50-96. *)
Definition parse_chunk (v : backend) (offset : nat) (chunk : vector) (st : tstate) (tags : array)
  : res (tstate * array) :=
  parse_chunk_loop (S (vsize v)) v offset
    (movemask v (veq v chunk "=")) (movemask v (veq v chunk ";")) st tags.

(** simd.rs:16-20: the loop over full chunks; returns the final offset too. *)
Fixpoint simd_chunks (fuel : nat) (v : backend) (rem : list byte) (offset : nat)
         (st : tstate) (tags : array) : res (nat * tstate * array) :=
  match fuel with
  | 0 => NoFuel
  | S fuel' =>
    if offset + vsize v <? length rem then
      let! chunk := load_unaligned v rem offset in
      let! (st', tags') := parse_chunk v offset chunk st tags in
      simd_chunks fuel' v rem (offset + vsize v) st' tags'
    else Ret (offset, st, tags)
  end.

(** [simd::parse(src, pos)]: simd.rs:4-42.  [addr] is the address of [src[0]].
    Returns the result and the new [*pos]. *)
Definition simd_parse (v : backend) (addr : nat) (src0 : str) (pos : nat)
  : res (option (list tag_pair) * nat) :=
  let! s0 := slice_from src0 pos in
  match strip_prefix (b "@") s0 with
  | None => Ret (None, pos)
  | Some src =>
    let! e := find_first v (addr + pos + 1) src " " in
    match e with
    | None => Ret (None, pos)
    | Some e =>
      let! rem := bytes_to src e in
      let! (offset, st, tags) := simd_chunks (S (length rem)) v rem 0 (Key 0) array_new in
      let! remaining := usize_sub (length rem) offset in
      let! tags :=
        if 0 <? remaining then
          let! chunk := load_unaligned_remainder v rem offset in
          let! (st', tags') := parse_chunk v offset chunk st tags in
          match st' with
          | Value ks ke =>
            let! p := make_pair ks ke (length rem) in
            array_push tags' p
          | Key _ => Ret tags'
          end
        else Ret tags in
      let! ts := array_to_vec tags in
      Ret (Some ts, pos + (e + 2))
    end
  end.

(** ** Scalar parser: src/irc/tags/scalar.rs *)

(** scalar.rs:10-47: the [while] loop, over the bytes from [offset] on.
    Returns the final [offset] and the tags. *)
Fixpoint scalar_loop (bytes : list byte) (offset : nat) (st : tstate) (tags : array)
  : res (nat * array) :=
  match bytes with
  | [] => Ret (offset, tags)
  | c :: bytes' =>
    if Byte.eqb c "=" then
      match st with
      | Key ks => scalar_loop bytes' (offset + 1) (Value ks offset) tags
      | Value _ _ => scalar_loop bytes' (offset + 1) st tags
      end
    else if Byte.eqb c ";" then
      match st with
      | Value ks ke =>
        let! p := make_pair ks ke offset in
        let! tags' := array_push tags p in
        scalar_loop bytes' (offset + 1) (Key (offset + 1)) tags'
      | Key _ => scalar_loop bytes' (offset + 1) st tags
      end
    else if Byte.eqb c " " then
      match st with
      | Value ks ke =>
        let! p := make_pair ks ke offset in
        let! tags' := array_push tags p in
        Ret (offset, tags')
      | Key _ => Ret (offset, tags)
      end
    else scalar_loop bytes' (offset + 1) st tags
  end.

(** [scalar::parse(src, pos)]: scalar.rs:3-52. *)
Definition scalar_parse (src0 : str) (pos : nat) : res (option (list tag_pair) * nat) :=
  let! s0 := slice_from src0 pos in
  match strip_prefix (b "@") s0 with
  | None => Ret (None, pos)
  | Some src =>
    let! (offset, tags) := scalar_loop src 0 (Key 0) array_new in
    let! ts := array_to_vec tags in
    Ret (Some ts, pos + (offset + 2))
  end.

(** ** Build configuration

    [feature = "simd"] with the target's vector type, or the scalar parser
    (src/irc/tags.rs:295-303, src/irc/wide.rs, src/irc/wide/x86_64.rs,
    src/irc/wide/aarch64.rs).  [addr] is where the text is in memory. *)
Inductive build :=
| Simd (v : backend) (addr : nat)
| Scalar.

Definition tags_parse (bd : build) (src : str) (pos : nat)
  : res (option (list tag_pair) * nat) :=
  match bd with
  | Simd v addr => simd_parse v addr src pos
  | Scalar => scalar_parse src pos
  end.

(** ** The [Tag] enum: src/irc/tags.rs:6-194 *)

Inductive tag_name :=
| TMsgId
| TBadges
| TBadgeInfo
| TDisplayName
| TEmoteOnly
| TEmotes
| TFlags
| TId
| TMod
| TRoomId
| TSubscriber
| TTmiSentTs
| TTurbo
| TUserId
| TUserType
| TClientNonce
| TFirstMsg
| TReplyParentDisplayName
| TReplyParentMsgBody
| TReplyParentMsgId
| TReplyParentUserId
| TReplyParentUserLogin
| TReplyThreadParentMsgId
| TReplyThreadParentUserLogin
| TFollowersOnly
| TR9K
| TRituals
| TSlow
| TSubsOnly
| TMsgParamCumulativeMonths
| TMsgParamDisplayName
| TMsgParamLogin
| TMsgParamMonths
| TMsgParamPromoGiftTotal
| TMsgParamPromoName
| TMsgParamRecipientDisplayName
| TMsgParamRecipientId
| TMsgParamRecipientUserName
| TMsgParamSenderLogin
| TMsgParamSenderName
| TMsgParamShouldShareStreak
| TMsgParamStreakMonths
| TMsgParamSubPlan
| TMsgParamSubPlanName
| TMsgParamViewerCount
| TMsgParamRitualName
| TMsgParamThreshold
| TMsgParamGiftMonths
| TMsgParamColor
| TLogin
| TBits
| TSystemMsg
| TEmoteSets
| TThreadId
| TMessageId
| TReturningChatter
| TColor
| TVip
| TTargetUserId
| TTargetMsgId
| TBanDuration
| TMsgParamMultimonthDuration
| TMsgParamWasGifted
| TMsgParamMultimonthTenure
| TSentTs
| TMsgParamOriginId
| TMsgParamFunString
| TMsgParamSenderCount
| TMsgParamProfileImageUrl
| TMsgParamMassGiftCount
| TMsgParamGiftMonthBeingRedeemed
| TMsgParamAnonGift
| TCustomRewardId
| TPinnedChatPaidAmount
| TPinnedChatPaidCanonicalAmount
| TPinnedChatPaidCurrency
| TPinnedChatPaidExponent
| TPinnedChatPaidLevel
| TPinnedChatPaidIsSystemMessage
| TUnknown (key : str).

(** [Tag::as_str]: src/irc/tags.rs:24-30 with the table at 80-194. *)
Definition tag_as_str (t : tag_name) : str :=
  match t with
  | TMsgId => b "msg-id"
  | TBadges => b "badges"
  | TBadgeInfo => b "badge-info"
  | TDisplayName => b "display-name"
  | TEmoteOnly => b "emote-only"
  | TEmotes => b "emotes"
  | TFlags => b "flags"
  | TId => b "id"
  | TMod => b "mod"
  | TRoomId => b "room-id"
  | TSubscriber => b "subscriber"
  | TTmiSentTs => b "tmi-sent-ts"
  | TTurbo => b "turbo"
  | TUserId => b "user-id"
  | TUserType => b "user-type"
  | TClientNonce => b "client-nonce"
  | TFirstMsg => b "first-msg"
  | TReplyParentDisplayName => b "reply-parent-display-name"
  | TReplyParentMsgBody => b "reply-parent-msg-body"
  | TReplyParentMsgId => b "reply-parent-msg-id"
  | TReplyParentUserId => b "reply-parent-user-id"
  | TReplyParentUserLogin => b "reply-parent-user-login"
  | TReplyThreadParentMsgId => b "reply-thread-parent-msg-id"
  | TReplyThreadParentUserLogin => b "reply-thread-parent-user-login"
  | TFollowersOnly => b "followers-only"
  | TR9K => b "r9k"
  | TRituals => b "rituals"
  | TSlow => b "slow"
  | TSubsOnly => b "subs-only"
  | TMsgParamCumulativeMonths => b "msg-param-cumulative-months"
  | TMsgParamDisplayName => b "msg-param-displayName"
  | TMsgParamLogin => b "msg-param-login"
  | TMsgParamMonths => b "msg-param-months"
  | TMsgParamPromoGiftTotal => b "msg-param-promo-gift-total"
  | TMsgParamPromoName => b "msg-param-promo-name"
  | TMsgParamRecipientDisplayName => b "msg-param-recipient-display-name"
  | TMsgParamRecipientId => b "msg-param-recipient-id"
  | TMsgParamRecipientUserName => b "msg-param-recipient-user-name"
  | TMsgParamSenderLogin => b "msg-param-sender-login"
  | TMsgParamSenderName => b "msg-param-sender-name"
  | TMsgParamShouldShareStreak => b "msg-param-should-share-streak"
  | TMsgParamStreakMonths => b "msg-param-streak-months"
  | TMsgParamSubPlan => b "msg-param-sub-plan"
  | TMsgParamSubPlanName => b "msg-param-sub-plan-name"
  | TMsgParamViewerCount => b "msg-param-viewerCount"
  | TMsgParamRitualName => b "msg-param-ritual-name"
  | TMsgParamThreshold => b "msg-param-threshold"
  | TMsgParamGiftMonths => b "msg-param-gift-months"
  | TMsgParamColor => b "msg-param-color"
  | TLogin => b "login"
  | TBits => b "bits"
  | TSystemMsg => b "system-msg"
  | TEmoteSets => b "emote-sets"
  | TThreadId => b "thread-id"
  | TMessageId => b "message-id"
  | TReturningChatter => b "returning-chatter"
  | TColor => b "color"
  | TVip => b "vip"
  | TTargetUserId => b "target-user-id"
  | TTargetMsgId => b "target-msg-id"
  | TBanDuration => b "ban-duration"
  | TMsgParamMultimonthDuration => b "msg-param-multimonth-duration"
  | TMsgParamWasGifted => b "msg-param-was-gifted"
  | TMsgParamMultimonthTenure => b "msg-param-multimonth-tenure"
  | TSentTs => b "sent-ts"
  | TMsgParamOriginId => b "msg-param-origin-id"
  | TMsgParamFunString => b "msg-param-fun-string"
  | TMsgParamSenderCount => b "msg-param-sender-count"
  | TMsgParamProfileImageUrl => b "msg-param-profileImageURL"
  | TMsgParamMassGiftCount => b "msg-param-mass-gift-count"
  | TMsgParamGiftMonthBeingRedeemed => b "msg-param-gift-month-being-redeemed"
  | TMsgParamAnonGift => b "msg-param-anon-gift"
  | TCustomRewardId => b "custom-reward-id"
  | TPinnedChatPaidAmount => b "pinned-chat-paid-amount"
  | TPinnedChatPaidCanonicalAmount => b "pinned-chat-paid-amount"
  | TPinnedChatPaidCurrency => b "pinned-chat-paid-currency"
  | TPinnedChatPaidExponent => b "pinned-chat-paid-exponent"
  | TPinnedChatPaidLevel => b "pinned-chat-paid-level"
  | TPinnedChatPaidIsSystemMessage => b "pinned-chat-paid-is-system-message"
  | TUnknown key => key
  end.

(** The byte patterns of [Tag::parse]: src/irc/tags.rs:80-194, in order. *)
Definition tag_table : list (str * tag_name) :=
  [
    (b "msg-id", TMsgId);
    (b "badges", TBadges);
    (b "badge-info", TBadgeInfo);
    (b "display-name", TDisplayName);
    (b "emote-only", TEmoteOnly);
    (b "emotes", TEmotes);
    (b "flags", TFlags);
    (b "id", TId);
    (b "mod", TMod);
    (b "room-id", TRoomId);
    (b "subscriber", TSubscriber);
    (b "tmi-sent-ts", TTmiSentTs);
    (b "turbo", TTurbo);
    (b "user-id", TUserId);
    (b "user-type", TUserType);
    (b "client-nonce", TClientNonce);
    (b "first-msg", TFirstMsg);
    (b "reply-parent-display-name", TReplyParentDisplayName);
    (b "reply-parent-msg-body", TReplyParentMsgBody);
    (b "reply-parent-msg-id", TReplyParentMsgId);
    (b "reply-parent-user-id", TReplyParentUserId);
    (b "reply-parent-user-login", TReplyParentUserLogin);
    (b "reply-thread-parent-msg-id", TReplyThreadParentMsgId);
    (b "reply-thread-parent-user-login", TReplyThreadParentUserLogin);
    (b "followers-only", TFollowersOnly);
    (b "r9k", TR9K);
    (b "rituals", TRituals);
    (b "slow", TSlow);
    (b "subs-only", TSubsOnly);
    (b "msg-param-cumulative-months", TMsgParamCumulativeMonths);
    (b "msg-param-displayName", TMsgParamDisplayName);
    (b "msg-param-login", TMsgParamLogin);
    (b "msg-param-months", TMsgParamMonths);
    (b "msg-param-promo-gift-total", TMsgParamPromoGiftTotal);
    (b "msg-param-promo-name", TMsgParamPromoName);
    (b "msg-param-recipient-display-name", TMsgParamRecipientDisplayName);
    (b "msg-param-recipient-id", TMsgParamRecipientId);
    (b "msg-param-recipient-user-name", TMsgParamRecipientUserName);
    (b "msg-param-sender-login", TMsgParamSenderLogin);
    (b "msg-param-sender-name", TMsgParamSenderName);
    (b "msg-param-should-share-streak", TMsgParamShouldShareStreak);
    (b "msg-param-streak-months", TMsgParamStreakMonths);
    (b "msg-param-sub-plan", TMsgParamSubPlan);
    (b "msg-param-sub-plan-name", TMsgParamSubPlanName);
    (b "msg-param-viewerCount", TMsgParamViewerCount);
    (b "msg-param-ritual-name", TMsgParamRitualName);
    (b "msg-param-threshold", TMsgParamThreshold);
    (b "msg-param-gift-months", TMsgParamGiftMonths);
    (b "msg-param-color", TMsgParamColor);
    (b "login", TLogin);
    (b "bits", TBits);
    (b "system-msg", TSystemMsg);
    (b "emote-sets", TEmoteSets);
    (b "thread-id", TThreadId);
    (b "message-id", TMessageId);
    (b "returning-chatter", TReturningChatter);
    (b "color", TColor);
    (b "vip", TVip);
    (b "target-user-id", TTargetUserId);
    (b "target-msg-id", TTargetMsgId);
    (b "ban-duration", TBanDuration);
    (b "msg-param-multimonth-duration", TMsgParamMultimonthDuration);
    (b "msg-param-was-gifted", TMsgParamWasGifted);
    (b "msg-param-multimonth-tenure", TMsgParamMultimonthTenure);
    (b "sent-ts", TSentTs);
    (b "msg-param-origin-id", TMsgParamOriginId);
    (b "msg-param-fun-string", TMsgParamFunString);
    (b "msg-param-sender-count", TMsgParamSenderCount);
    (b "msg-param-profileImageURL", TMsgParamProfileImageUrl);
    (b "msg-param-mass-gift-count", TMsgParamMassGiftCount);
    (b "msg-param-gift-month-being-redeemed", TMsgParamGiftMonthBeingRedeemed);
    (b "msg-param-anon-gift", TMsgParamAnonGift);
    (b "custom-reward-id", TCustomRewardId);
    (b "pinned-chat-paid-amount", TPinnedChatPaidAmount);
    (b "pinned-chat-paid-canonical-amount", TPinnedChatPaidCanonicalAmount);
    (b "pinned-chat-paid-currency", TPinnedChatPaidCurrency);
    (b "pinned-chat-paid-exponent", TPinnedChatPaidExponent);
    (b "pinned-chat-paid-level", TPinnedChatPaidLevel);
    (b "pinned-chat-paid-is-system-message", TPinnedChatPaidIsSystemMessage)
  ].

(** [Tag::parse], also [From<&str> for Tag]: src/irc/tags.rs:33-39 and 74-78. *)
Definition tag_parse (s : str) : tag_name :=
  match assoc s tag_table with
  | Some t => t
  | None => TUnknown s
  end.
