(** * SpecCmp: what [==], the order and the hashes should do. *)

From Verif Require Import Base Tags.

(** [e] decides whether [x] and [y] have the same plain value. *)
Definition same_as {X Y : Type} (plain : X -> Y) (e : X -> X -> bool) : Prop :=
  forall x y, e x y = true <-> plain x = plain y.

(** [x] comes before [y] as in a dictionary: at the first place where they
    differ [x] has the smaller number, or [x] ends there. *)
Definition before (x y : list N) : Prop :=
  exists common, (exists a x' c y', x = common ++ a :: x' /\ y = common ++ c :: y' /\ (a < c)%N) \/
                 (exists c y', x = common /\ y = common ++ c :: y').

Definition codes (s : str) : list N := map Byte.to_N s.

(** [c] is a total order of the values that [e] tells apart. *)
Record total_order {X : Type} (e : X -> X -> bool) (c : X -> X -> comparison) : Prop :=
  { order_equal : forall x y, c x y = Eq <-> e x y = true;
    order_flip : forall x y, c y x = CompOpp (c x y);
    order_less : forall x y z, c x y = Lt -> c y z = Lt -> c x z = Lt }.

(** Values that are equal are hashed alike, others never, even when more is
    hashed behind them. *)
Definition hashes {X : Type} (good : X -> Prop) (e : X -> X -> bool) (h : X -> list byte) : Prop :=
  forall x y r r', good x -> good y -> (e x y = true /\ r = r' <-> h x ++ r = h y ++ r').

(** The variants of [Tag] but [Unknown], in the order of their declaration. *)
Definition declared_tags : list tag_name :=
  [ TMsgId; TBadges; TBadgeInfo; TDisplayName; TEmoteOnly; TEmotes; TFlags; TId; TMod; TRoomId;
    TSubscriber; TTmiSentTs; TTurbo; TUserId; TUserType; TClientNonce; TFirstMsg;
    TReplyParentDisplayName; TReplyParentMsgBody; TReplyParentMsgId; TReplyParentUserId;
    TReplyParentUserLogin; TReplyThreadParentMsgId; TReplyThreadParentUserLogin; TFollowersOnly;
    TR9K; TRituals; TSlow; TSubsOnly; TMsgParamCumulativeMonths; TMsgParamDisplayName;
    TMsgParamLogin; TMsgParamMonths; TMsgParamPromoGiftTotal; TMsgParamPromoName;
    TMsgParamRecipientDisplayName; TMsgParamRecipientId; TMsgParamRecipientUserName;
    TMsgParamSenderLogin; TMsgParamSenderName; TMsgParamShouldShareStreak; TMsgParamStreakMonths;
    TMsgParamSubPlan; TMsgParamSubPlanName; TMsgParamViewerCount; TMsgParamRitualName;
    TMsgParamThreshold; TMsgParamGiftMonths; TMsgParamColor; TLogin; TBits; TSystemMsg;
    TEmoteSets; TThreadId; TMessageId; TReturningChatter; TColor; TVip; TTargetUserId;
    TTargetMsgId; TBanDuration; TMsgParamMultimonthDuration; TMsgParamWasGifted;
    TMsgParamMultimonthTenure; TSentTs; TMsgParamOriginId; TMsgParamFunString;
    TMsgParamSenderCount; TMsgParamProfileImageUrl; TMsgParamMassGiftCount;
    TMsgParamGiftMonthBeingRedeemed; TMsgParamAnonGift; TCustomRewardId; TPinnedChatPaidAmount;
    TPinnedChatPaidCanonicalAmount; TPinnedChatPaidCurrency; TPinnedChatPaidExponent;
    TPinnedChatPaidLevel; TPinnedChatPaidIsSystemMessage ].

(** The variants of [ts] are ordered as they are listed, one with a text comes
    after them, and two with texts are ordered by these. *)
Definition listed_order {X : Type} (ts : list X) (other : str -> X) (c : X -> X -> comparison) : Prop :=
  (forall x, In x ts \/ exists s, x = other s) /\
  (forall i j x y, nth_error ts i = Some x -> nth_error ts j = Some y -> (c x y = Lt <-> i < j)) /\
  (forall x s, In x ts -> c x (other s) = Lt) /\
  (forall s t, c (other s) (other t) = Lt <-> before (codes s) (codes t)).

(** ** Maps whose keys are looked up by text *)

(** The value that a text is bound to after some insertions, [v], is the last one. *)
Definition last_bound {V : Type} (ops : list (str * V)) (s : str) (o : option V) : Prop :=
  (o = None /\ forall v, ~ In (s, v) ops) \/
  (exists v earlier later, o = Some v /\ ops = earlier ++ (s, v) :: later /\ forall w, ~ In (s, w) later).

(** A hash table: a key is replaced if there is one with the same hash that is
    equal to it; a text is looked up by comparing its hash, then itself with the
    keys. *)
Definition hash_insert {K V : Type} (h : K -> N) (e : K -> K -> bool) (l : list (K * V)) (kv : K * V) : list (K * V) :=
  kv :: filter (fun x => negb (N.eqb (h (fst x)) (h (fst kv)) && e (fst x) (fst kv))) l.

Definition hash_lookup {K V : Type} (h : K -> N) (ht : str -> N) (text : K -> str) (l : list (K * V)) (s : str) : option V :=
  option_map snd (find (fun x => N.eqb (h (fst x)) (ht s) && str_eqb (text (fst x)) s) l).

(** A sorted map, in which a text is looked for where the order says. *)
Fixpoint sorted_insert {K V : Type} (c : K -> K -> comparison) (l : list (K * V)) (kv : K * V) : list (K * V) :=
  match l with
  | [] => [kv]
  | x :: l' =>
    match c (fst kv) (fst x) with
    | Lt => kv :: l
    | Eq => kv :: l'
    | Gt => x :: sorted_insert c l' kv
    end
  end.

Fixpoint sorted_lookup {K V : Type} (c : str -> str -> comparison) (text : K -> str) (l : list (K * V)) (s : str) : option V :=
  match l with
  | [] => None
  | x :: l' =>
    match c s (text (fst x)) with
    | Lt => None
    | Eq => Some (snd x)
    | Gt => sorted_lookup c text l' s
    end
  end.

(** The insertions with their keys as texts. *)
Definition by_text {K V : Type} (text : K -> str) (ops : list (K * V)) : list (str * V) :=
  map (fun kv => (text (fst kv), snd kv)) ops.
