(** * CmpProofs: the property lemmas about equality, order and hashes, C73. *)

From Verif Require Import Base Wide Common Client Tags Irc Unescape MsgBase MsgTypes MsgNotice Message SpecIrc SpecMsg SpecUnicode SpecDbg Dbg Cmp SpecCmp Samples.
From Coq Require Import Lia ZifyBool ZifyNat ZifyN Sorted.
From Verif Require Import BaseFacts Utf8Facts MapFacts IrcFacts IrcProofs LineProofs AccessProofs UnicodeProofs DbgProofs.

Open Scope nat_scope.

(** ** Equality *)

Lemma cow_same : same_as deref cow_eq.
Proof. intros x y. unfold cow_eq. destruct (str_eqb_spec (deref x) (deref y)); split; congruence. Qed.

Lemma str_same (x y : str) : str_eqb x y = true <-> x = y.
Proof. destruct (str_eqb_spec x y); split; congruence. Qed.

Lemma opt_same {X Y} (f : X -> Y) e : same_as f e -> same_as (option_map f) (opt_eq e).
Proof.
  intros E [x|] [y|]; cbn; try (split; congruence).
  rewrite (E x y). split; [congruence|]. intros H. injection H. auto.
Qed.

Lemma list_same {X Y} (f : X -> Y) e : same_as f e -> same_as (map f) (list_eq e).
Proof.
  intros E x. induction x as [|a x IH]; intros [|c y]; cbn; try (split; congruence).
  rewrite andb_true_iff, (E a c), (IH y). split; [intros [-> ->]; reflexivity|].
  intros H. injection H. auto.
Qed.

Lemma opt_same_id {X} (e : X -> X -> bool) :
  (forall x y, e x y = true <-> x = y) -> forall x y, opt_eq e x y = true <-> x = y.
Proof.
  intros E [x|] [y|]; cbn; try (split; congruence).
  rewrite (E x y). split; congruence.
Qed.

Lemma level_same (x y : level) : level_eq x y = true <-> x = y.
Proof. destruct x, y; vm_compute; split; congruence. Qed.

Ltac fields :=
  rewrite ?andb_true_iff;
  repeat match goal with
  | |- context [cow_eq ?x ?y = true] => rewrite (cow_same x y)
  | |- context [opt_eq cow_eq ?x ?y = true] => rewrite (opt_same deref cow_eq cow_same x y)
  | |- context [list_eq cow_eq ?x ?y = true] => rewrite (list_same deref cow_eq cow_same x y)
  | |- context [Bool.eqb ?x ?y = true] => rewrite (Bool.eqb_true_iff x y)
  | |- context [N.eqb ?x ?y = true] => rewrite (N.eqb_eq x y)
  | |- context [Z.eqb ?x ?y = true] => rewrite (Z.eqb_eq x y)
  | |- context [opt_eq N.eqb ?x ?y = true] => rewrite (opt_same_id N.eqb N.eqb_eq x y)
  | |- context [opt_eq Bool.eqb ?x ?y = true] => rewrite (opt_same_id Bool.eqb Bool.eqb_true_iff x y)
  | |- context [level_eq ?x ?y = true] => rewrite (level_same x y)
  end.

Ltac finish :=
  split;
  [ intros; repeat match goal with H : _ /\ _ |- _ => destruct H end; congruence
  | intros H; repeat split; congruence ].

#[local] Arguments cow_eq : simpl never.
#[local] Arguments opt_eq : simpl never.
#[local] Arguments list_eq : simpl never.
#[local] Arguments level_eq : simpl never.
#[local] Arguments option_map : simpl never.
#[local] Arguments map : simpl never.
#[local] Arguments deref : simpl never.
#[local] Arguments Bool.eqb : simpl never.
#[local] Arguments N.eqb : simpl never.
#[local] Arguments Z.eqb : simpl never.

Lemma badge_data_same : same_as (badge_data_map deref) badge_data_eq.
Proof. intros [] []; unfold badge_data_eq, badge_data_map; cbn. fields. finish. Qed.

Lemma subscriber_same : same_as (subscriber_map deref) subscriber_eq.
Proof. intros [] []; unfold subscriber_eq, subscriber_map; cbn. fields. finish. Qed.

(** From the payload to the variant. *)
Lemma wrap {X Y : Type} (c : X -> Y) (p : Y -> option X) (x y : X) :
  (forall x, p (c x) = Some x) -> (x = y <-> c x = c y).
Proof. intros P. split; [congruence|]. intros H. apply (f_equal p) in H. rewrite !P in H. congruence. Qed.

Lemma badge_same : same_as (badge_map deref) badge_eq.
Proof.
  intros [] []; cbn [badge_map badge_eq]; try (split; congruence).
  - rewrite (subscriber_same s s0).
    apply (wrap _ (fun x => match x with BSubscriber s => Some s | _ => None end)). reflexivity.
  - rewrite (badge_data_same d d0).
    apply (wrap _ (fun x => match x with BOther s => Some s | _ => None end)). reflexivity.
Qed.

Lemma badges_same x y : list_eq badge_eq x y = true <-> map (badge_map deref) x = map (badge_map deref) y.
Proof. apply list_same, badge_same. Qed.

Lemma user_same : same_as (user_map deref) user_eq.
Proof. intros [] []; unfold user_eq, user_map; cbn. fields. finish. Qed.
#[local] Arguments user_eq : simpl never.
#[local] Arguments user_map : simpl never.

Lemma join_same : same_as (join_map deref) join_eq.
Proof. intros [] []; unfold join_eq, join_map; cbn. fields. finish. Qed.

Lemma part_same : same_as (part_map deref) part_eq.
Proof. intros [] []; unfold part_eq, part_map; cbn. fields. finish. Qed.

Lemma ping_same : same_as (ping_map deref) ping_eq.
Proof. intros [] []; unfold ping_eq, ping_map; cbn. fields. finish. Qed.

Lemma pong_same : same_as (pong_map deref) pong_eq.
Proof. intros [] []; unfold pong_eq, pong_map; cbn. fields. finish. Qed.

Lemma notice_same : same_as (notice_map deref) notice_eq.
Proof. intros [] []; unfold notice_eq, notice_map; cbn. fields. finish. Qed.

Lemma clear_msg_same : same_as (clear_msg_map deref) clear_msg_eq.
Proof. intros [] []; unfold clear_msg_eq, clear_msg_map; cbn. fields. finish. Qed.

Lemma action_same : same_as (action_map deref) action_eq.
Proof. intros [] []; cbn [action_map action_eq]; try (split; congruence); fields; finish. Qed.
#[local] Arguments action_eq : simpl never.
#[local] Arguments action_map : simpl never.

Lemma clear_chat_same : same_as (clear_chat_map deref) clear_chat_eq.
Proof. intros [] []; unfold clear_chat_eq, clear_chat_map; cbn. rewrite ?andb_true_iff, (action_same _ _). fields. finish. Qed.

Lemma global_user_state_same : same_as (global_user_state_map deref) global_user_state_eq.
Proof. intros [] []; unfold global_user_state_eq, global_user_state_map; cbn. rewrite ?andb_true_iff, badges_same. fields. finish. Qed.

Lemma user_state_same : same_as (user_state_map deref) user_state_eq.
Proof. intros [] []; unfold user_state_eq, user_state_map; cbn. rewrite ?andb_true_iff, badges_same. fields. finish. Qed.

Lemma whisper_same : same_as (whisper_map deref) whisper_eq.
Proof. intros [] []; unfold whisper_eq, whisper_map; cbn. rewrite ?andb_true_iff, badges_same, (user_same _ _). fields. finish. Qed.

Lemma followers_only_same x y : followers_only_eq x y = true <-> x = y.
Proof. destruct x, y; cbn [followers_only_eq]; try (split; congruence). fields. split; congruence. Qed.

Lemma room_state_same : same_as (room_state_map deref) room_state_eq.
Proof.
  intros [] []; unfold room_state_eq, room_state_map; cbn.
  rewrite ?andb_true_iff, (opt_same_id _ followers_only_same). fields. finish.
Qed.

Lemma reply_same : same_as (reply_map deref) reply_eq.
Proof. intros [] []; unfold reply_eq, reply_map; cbn. rewrite ?andb_true_iff, (user_same _ _). fields. finish. Qed.
#[local] Arguments reply_eq : simpl never.
#[local] Arguments reply_map : simpl never.

Lemma pinned_same : same_as (pinned_map deref) pinned_eq.
Proof. intros [] []; unfold pinned_eq, pinned_map; cbn. fields. finish. Qed.
#[local] Arguments pinned_eq : simpl never.
#[local] Arguments pinned_map : simpl never.

Lemma privmsg_same : same_as (privmsg_map deref) privmsg_eq.
Proof.
  intros x y. unfold privmsg_eq, privmsg_map.
  rewrite ?andb_true_iff, badges_same, (user_same _ _), (opt_same _ _ reply_same _ _), (opt_same _ _ pinned_same _ _).
  fields.
  split; [intros; repeat match goal with H : _ /\ _ |- _ => destruct H end;
    repeat match goal with H : _ = _ |- _ => rewrite H; clear H end; reflexivity|].
  intros H. repeat apply conj;
    first [exact (f_equal pm_channel H) | exact (f_equal pm_channel_id H) | exact (f_equal pm_msg_id H) | exact (f_equal pm_id H) | exact (f_equal pm_sender H) | exact (f_equal pm_reply_to H) | exact (f_equal pm_pinned_chat H) | exact (f_equal pm_text H) | exact (f_equal pm_is_action H) | exact (f_equal pm_badges H) | exact (f_equal pm_color H) | exact (f_equal pm_custom_reward_id H) | exact (f_equal pm_bits H) | exact (f_equal pm_emotes H) | exact (f_equal pm_timestamp H)].
Qed.

Lemma promo_same : same_as (promo_map deref) promo_eq.
Proof. intros [] []; unfold promo_eq, promo_map; cbn. fields. finish. Qed.

Lemma event_same : same_as (event_map deref) event_eq.
Proof.
  intros [] []; cbn [event_map event_eq]; try (split; congruence);
  rewrite ?andb_true_iff, ?(user_same _ _), ?(opt_same _ _ promo_same _ _); fields; finish.
Qed.
#[local] Arguments event_eq : simpl never.
#[local] Arguments event_map : simpl never.

Lemma user_notice_same : same_as (user_notice_map deref) user_notice_eq.
Proof.
  intros x y. unfold user_notice_eq, user_notice_map.
  rewrite ?andb_true_iff, badges_same, (event_same _ _), (opt_same _ _ user_same _ _). fields.
  split; [intros; repeat match goal with H : _ /\ _ |- _ => destruct H end;
    repeat match goal with H : _ = _ |- _ => rewrite H; clear H end; reflexivity|].
  intros H. repeat apply conj;
    first [exact (f_equal un_channel H) | exact (f_equal un_channel_id H) | exact (f_equal un_sender H) | exact (f_equal un_text H) | exact (f_equal un_system_message H) | exact (f_equal un_event H) | exact (f_equal un_event_id H) | exact (f_equal un_badges H) | exact (f_equal un_emotes H) | exact (f_equal un_color H) | exact (f_equal un_message_id H) | exact (f_equal un_timestamp H)].
Qed.

Lemma prefix_same x y : prefix_eq x y = true <-> x = y.
Proof.
  destruct x, y; unfold prefix_eq; cbn. rewrite !andb_true_iff, !(opt_same_id _ str_same), str_same.
  split; [intros [[-> ->] ->]; reflexivity|]. intros H. injection H. auto.
Qed.

Lemma span_same x y : span_eq x y = true <-> x = y.
Proof.
  destruct x, y; unfold span_eq; cbn. rewrite andb_true_iff, !Nat.eqb_eq.
  split; [intros [-> ->]; reflexivity|]. intros H. injection H. auto.
Qed.

Lemma command_same x y : command_eq x y = true <-> x = y.
Proof.
  unfold command_eq. rewrite andb_true_iff, Nat.eqb_eq.
  destruct x, y; cbn [command_discriminant]; try (split; [intros [H _]; discriminate H|discriminate]);
    try (split; reflexivity || (split; reflexivity)).
  rewrite str_same. split; [intros [_ ->]; reflexivity|]. intros H. injection H. auto.
Qed.

Lemma declared_discriminant :
  forallb (fun i => match nth_error declared_tags i with Some t => tag_discriminant t =? i | None => false end) (seq 0 79) = true.
Proof. reflexivity. Qed.

Lemma tag_listed t : nth_error declared_tags (tag_discriminant t) = Some t \/ exists s, t = TUnknown s.
Proof. destruct t; eauto; left; reflexivity. Qed.

Lemma tag_same x y : tag_eq x y = true <-> x = y.
Proof.
  unfold tag_eq. rewrite andb_true_iff, Nat.eqb_eq. split.
  - intros [H K]. destruct (tag_listed x) as [X|[s ->]], (tag_listed y) as [Y|[t ->]].
    + congruence.
    + rewrite H in X. discriminate X.
    + rewrite <- H in Y. discriminate Y.
    + apply str_same in K. congruence.
  - intros ->. split; [reflexivity|]. destruct y; try reflexivity. now apply str_same.
Qed.

#[local] Arguments map {A B} f l : simpl nomatch.
#[local] Arguments option_map {A B} f o : simpl nomatch.

(** ** The order of texts *)

Fixpoint lex (x y : list N) : comparison :=
  match x, y with
  | [], [] => Eq
  | [], _ => Lt
  | _, [] => Gt
  | a :: x', c :: y' =>
    match N.compare a c with
    | Eq => lex x' y'
    | o => o
    end
  end.

Lemma str_lex (x y : str) : str_cmp x y = lex (codes x) (codes y).
Proof.
  unfold str_cmp. revert y. induction x as [|a x IH]; intros [|c y]; cbn; try reflexivity.
  destruct (N.compare (Byte.to_N a) (Byte.to_N c)); try reflexivity. exact (IH y).
Qed.

Lemma lex_eq (x y : list N) : lex x y = Eq <-> x = y.
Proof.
  revert y. induction x as [|a x IH]; intros [|c y]; cbn; try (split; congruence).
  destruct (N.compare_spec a c).
  - subst c. rewrite IH. split; congruence.
  - split; [discriminate|]. intros K. injection K. lia.
  - split; [discriminate|]. intros K. injection K. lia.
Qed.

Lemma lex_flip (x y : list N) : lex y x = CompOpp (lex x y).
Proof.
  revert y. induction x as [|a x IH]; intros [|c y]; cbn; try reflexivity.
  rewrite (N.compare_antisym a c). destruct (N.compare a c); cbn; auto.
Qed.

Lemma lex_less (x y z : list N) : lex x y = Lt -> lex y z = Lt -> lex x z = Lt.
Proof.
  revert y z. induction x as [|a x IH]; intros [|c y] [|d z]; cbn; try congruence.
  destruct (N.compare_spec a c), (N.compare_spec c d), (N.compare_spec a d); try congruence; try lia.
  intros. now apply IH with y.
Qed.

Lemma lex_before (x y : list N) : lex x y = Lt <-> before x y.
Proof.
  revert y. induction x as [|a x IH]; intros [|c y]; cbn.
  - split; [discriminate|]. intros (p & [(a & x' & c & y' & H & _)|(c & y' & H & K)]); destruct p; discriminate.
  - split; [|reflexivity]. intros _. exists []. right. exists c, y. auto.
  - split; [discriminate|]. intros (p & [(a' & x' & c & y' & _ & H & _)|(c & y' & H & K)]); destruct p; discriminate.
  - destruct (N.compare_spec a c) as [->|L|L].
    + rewrite IH. split.
      * intros (p & [(a' & x' & c' & y' & -> & -> & L)|(c' & y' & -> & ->)]); exists (c :: p).
        -- left. exists a', x', c', y'. auto.
        -- right. exists c', y'. auto.
      * intros ([|p0 p] & [(a' & x' & c' & y' & H & K & L)|(c' & y' & H & K)]); cbn in H, K; try discriminate.
        -- injection H as <- <-. injection K as <- <-. lia.
        -- injection H as <- ->. injection K as ->. exists p. left. exists a', x', c', y'. auto.
        -- injection H as <- ->. injection K as ->. exists p. right. exists c', y'. auto.
    + split; [|reflexivity]. intros _. exists []. left. exists a, x, c, y. auto.
    + split; [discriminate|].
      intros ([|p0 p] & [(a' & x' & c' & y' & H & K & L')|(c' & y' & H & K)]); cbn in H, K; try discriminate.
      * injection H as <- <-. injection K as <- <-. lia.
      * injection H as <- ->. injection K as <- ->. lia.
      * injection H as <- ->. injection K as <- ->. lia.
Qed.

Lemma codes_inj (x y : str) : codes x = codes y -> x = y.
Proof. apply to_N_inj. Qed.

Lemma str_order : total_order str_eqb str_cmp.
Proof.
  split.
  - intros x y. rewrite str_lex, lex_eq, str_same. split; [apply codes_inj|congruence].
  - intros x y. rewrite !str_lex. apply lex_flip.
  - intros x y z. rewrite !str_lex. apply lex_less.
Qed.

Lemma str_before (x y : str) : str_cmp x y = Lt <-> before (codes x) (codes y).
Proof. rewrite str_lex. apply lex_before. Qed.

Lemma compare_step (a c : N) (x y : list N) (o : comparison) :
  (a < c -> o = Lt)%N -> (c < a -> o = Gt)%N -> (a = c -> lex x y = o) -> lex (a :: x) (c :: y) = o.
Proof. intros L G E. cbn [lex]. destruct (N.compare_spec a c); [apply E|symmetry; apply L|symmetry; apply G]; assumption. Qed.

Lemma digits (n : N) : exists a e c d,
  (e < 64 /\ c < 64 /\ d < 64 /\ n = 262144 * a + 4096 * e + 64 * c + d /\
   n / 262144 = a /\ n / 4096 = 64 * a + e /\ n / 64 = 4096 * a + 64 * e + c /\
   n / 4096 mod 64 = e /\ n / 64 mod 64 = c /\ n mod 64 = d)%N.
Proof.
  assert (D : forall k, (k / 64 = k / 64 /\ k mod 64 < 64 /\ k = 64 * (k / 64) + k mod 64)%N).
  { intros k. pose proof (N.mod_lt k 64) as M. pose proof (N.div_mod k 64) as E. lia. }
  assert (E1 : (n / 4096 = n / 64 / 64)%N) by (rewrite N.div_div by lia; reflexivity).
  assert (E2 : (n / 262144 = n / 4096 / 64)%N) by (rewrite N.div_div by lia; reflexivity).
  exists (n / 262144)%N, (n / 4096 mod 64)%N, (n / 64 mod 64)%N, (n mod 64)%N.
  pose proof (D n) as (_ & B1 & F1). pose proof (D (n / 64)%N) as (_ & B2 & F2). pose proof (D (n / 4096)%N) as (_ & B3 & F3).
  rewrite <- E1 in F2. rewrite <- E2 in F3. lia.
Qed.

Lemma encoding_less (n m : N) (r s : list N) :
  scalar_value n -> scalar_value m -> (n < m)%N -> lex (encoding n ++ r) (encoding m ++ s) = Lt.
Proof.
  intros Sn Sm L. unfold scalar_value, encoding in *.
  destruct (digits n) as (a & e & c & d & Be & Bc & Bd & En & -> & E1 & E2 & -> & -> & ->).
  destruct (digits m) as (a' & e' & c' & d' & Be' & Bc' & Bd' & Em & -> & E1' & E2' & -> & -> & ->).
  rewrite E1, E2, E1', E2'. clear E1 E2 E1' E2'. subst n m.
  repeat match goal with |- context [N.ltb ?x ?y] => destruct (N.ltb_spec x y); try lia end;
    cbn [app]; repeat (apply compare_step; [reflexivity|intros; lia|intros]; try lia).
Qed.

Lemma encoding_lex (n m : N) (r s : list N) :
  scalar_value n -> scalar_value m ->
  lex (encoding n ++ r) (encoding m ++ s) = match N.compare n m with Eq => lex r s | o => o end.
Proof.
  intros Sn Sm. destruct (N.compare_spec n m) as [->|L|L].
  - generalize (encoding m). intros p. induction p as [|a p IH]; [reflexivity|].
    cbn [app lex]. rewrite N.compare_refl. exact IH.
  - now apply encoding_less.
  - rewrite lex_flip, encoding_less; auto.
Qed.

Lemma texts_lex (ns : list N) : forall (ms : list N),
  Forall scalar_value ns -> Forall scalar_value ms ->
  lex (concat (map encoding ns)) (concat (map encoding ms)) = lex ns ms.
Proof.
  assert (P : forall n, exists a r, encoding n = a :: r).
  { intros n. unfold encoding. destruct (n <? 128)%N, (n <? 2048)%N, (n <? 65536)%N; eauto. }
  induction ns as [|n ns IH]; intros [|m ms] F G; cbn [map concat].
  - reflexivity.
  - destruct (P m) as (a & r & ->). reflexivity.
  - destruct (P n) as (a & r & ->). reflexivity.
  - inversion F; inversion G; subst. rewrite encoding_lex by assumption. cbn [lex]. now rewrite IH.
Qed.

(** ** Variants *)

Lemma variants_order {X : Type} (ts : list X) (other : str -> X) (d : X -> nat) (e : X -> X -> bool)
    (c : X -> X -> comparison) :
  (forall x, In x ts \/ exists s, x = other s) ->
  (forall i x, nth_error ts i = Some x -> d x = i) ->
  (forall s, d (other s) = length ts) ->
  (forall x y, e x y = true <-> x = y) ->
  (forall x y, d x <> d y -> c x y = Nat.compare (d x) (d y)) ->
  (forall x, In x ts -> c x x = Eq) ->
  (forall s t, c (other s) (other t) = str_cmp s t) ->
  total_order e c /\ listed_order ts other c.
Proof.
  intros A D O E L R T.
  assert (Dts : forall x, In x ts -> d x < length ts /\ nth_error ts (d x) = Some x).
  { intros x I. apply In_nth_error in I as [i I]. rewrite (D i x I). split; [|exact I].
    apply nth_error_Some. congruence. }
  assert (In_other : forall s, ~ In (other s) ts).
  { intros s I. apply Dts in I as [I _]. rewrite O in I. lia. }
  assert (Same : forall x y, In x ts -> In y ts -> d x = d y -> x = y).
  { intros x y I J H. apply Dts in I as [_ I]. apply Dts in J as [_ J]. congruence. }
  destruct str_order as [SE SF SL].
  (* how two values can be compared *)
  assert (Cases : forall x y, (d x <> d y /\ c x y = Nat.compare (d x) (d y)) \/ (x = y /\ In x ts /\ c x y = Eq) \/
    (exists s t, x = other s /\ y = other t /\ c x y = str_cmp s t)).
  { intros x y. destruct (Nat.eq_dec (d x) (d y)) as [H|H]; [right|left; auto].
    destruct (A x) as [I|[s ->]], (A y) as [J|[t ->]].
    - left. assert (x = y) as <- by now apply Same. auto.
    - apply Dts in I as [I _]. rewrite O in H. lia.
    - apply Dts in J as [J _]. rewrite O in H. lia.
    - right. exists s, t. auto. }
  assert (Oinj : forall s t, other s = other t -> s = t).
  { intros s t H. apply str_same, SE. rewrite <- T, H, T. apply SE. apply str_eqb_refl. }
  split.
  - split.
    + intros x y. rewrite E. destruct (Cases x y) as [[H ->]|[(-> & _ & ->)|(s & t & -> & -> & ->)]].
      * rewrite Nat.compare_eq_iff. split; congruence.
      * split; reflexivity.
      * rewrite SE, str_same. split; [congruence|apply Oinj].
    + intros x y. destruct (Cases x y) as [[H K]|[(-> & I & K)|(s & t & -> & -> & K)]].
      * rewrite K, (L y x) by auto. apply Nat.compare_antisym.
      * rewrite K. reflexivity.
      * rewrite !T. apply SF.
    + intros x y z H K.
      destruct (Cases x y) as [[X1 X2]|[(-> & _ & X2)|(s & t & -> & -> & X2)]]; [| |].
      * rewrite X2 in H. apply Nat.compare_lt_iff in H.
        destruct (Cases y z) as [[Y1 Y2]|[(-> & _ & Y2)|(s & t & -> & -> & Y2)]].
        -- rewrite Y2 in K. apply Nat.compare_lt_iff in K. rewrite L by lia. apply Nat.compare_lt_iff. lia.
        -- congruence.
        -- rewrite O in H. rewrite (L x (other t)) by (rewrite O; lia). apply Nat.compare_lt_iff. rewrite O. exact H.
      * congruence.
      * destruct (Cases (other t) z) as [[Y1 Y2]|[(Y1 & I & Y2)|(s' & t' & Y0 & -> & Y2)]].
        -- rewrite O in Y1, Y2. rewrite (L (other s) z); rewrite O; [congruence|exact Y1].
        -- now apply In_other in I.
        -- apply Oinj in Y0. subst s'. rewrite T in *. eauto.
  - split; [exact A|]. split; [|split].
    + intros i j x y I J. pose proof (D _ _ I). pose proof (D _ _ J).
      destruct (Nat.eq_dec i j) as [->|N].
      * assert (x = y) as <- by congruence. rewrite R by (eapply nth_error_In; eassumption). split; [discriminate|lia].
      * rewrite L by congruence. rewrite Nat.compare_lt_iff. lia.
    + intros x s I. apply Dts in I as [I _]. rewrite L; rewrite O; [|lia]. now apply Nat.compare_lt_iff.
    + intros s t. rewrite T. apply str_before.
Qed.

Lemma listed_positions {X : Type} (ts : list X) (d : X -> nat) :
  forallb (fun i => match nth_error ts i with Some x => d x =? i | None => true end) (seq 0 (length ts)) = true ->
  forall i x, nth_error ts i = Some x -> d x = i.
Proof.
  intros F i x H. assert (I : In i (seq 0 (length ts))).
  { apply in_seq. assert (i < length ts) by (apply nth_error_Some; congruence). lia. }
  apply (proj1 (forallb_forall _ _) F) in I. rewrite H in I. now apply Nat.eqb_eq.
Qed.

Lemma command_orders : total_order command_eq command_cmp /\ listed_order (map snd known_commands) Other command_cmp.
Proof.
  apply variants_order with command_discriminant.
  - intros []; eauto; left; cbn; tauto.
  - apply listed_positions. reflexivity.
  - reflexivity.
  - apply command_same.
  - intros x y H. unfold command_cmp.
    destruct (Nat.compare_spec (command_discriminant x) (command_discriminant y)); congruence.
  - intros x I. unfold command_cmp. rewrite Nat.compare_refl. destruct x; try reflexivity.
    cbn in I. repeat destruct I as [I|I]; try discriminate. destruct I.
  - reflexivity.
Qed.

Lemma tag_orders : total_order tag_eq tag_cmp /\ listed_order declared_tags TUnknown tag_cmp.
Proof.
  apply variants_order with tag_discriminant.
  - intros t. destruct (tag_listed t) as [H|H]; [left|right; exact H]. eapply nth_error_In. exact H.
  - apply listed_positions. reflexivity.
  - reflexivity.
  - apply tag_same.
  - intros x y H. unfold tag_cmp.
    destruct (Nat.compare_spec (tag_discriminant x) (tag_discriminant y)); congruence.
  - intros x I. unfold tag_cmp. rewrite Nat.compare_refl. destruct x; try reflexivity.
    apply In_nth_error in I as [i I].
    assert (H : tag_discriminant (TUnknown key) = i) by (revert I; apply listed_positions; reflexivity).
    cbn in H. subst i. discriminate I.
  - reflexivity.
Qed.

(** ** Hashes *)

Lemma codes_below (s : str) : utf8_valid s = true -> Forall (fun n => n < 255)%N (codes s).
Proof.
  intros U. apply p_c68_utf8 in U as (ns & F & E). unfold codes. rewrite E. clear E s.
  induction F as [|n ns S F IH]; cbn [map concat]; [constructor|]. apply Forall_app. split; [|exact IH].
  unfold scalar_value, encoding in *.
  destruct (digits n) as (a & e & c & d & Be & Bc & Bd & En & -> & E1 & E2 & -> & -> & ->).
  rewrite E1, E2. clear E1 E2. subst n.
  repeat match goal with |- context [N.ltb ?x ?y] => destruct (N.ltb_spec x y) end;
    repeat constructor; lia.
Qed.

Lemma no_ff (s : str) : utf8_valid s = true -> ~ In xff s.
Proof.
  intros U I. apply (in_map Byte.to_N) in I. apply codes_below in U.
  rewrite Forall_forall in U. apply U in I. cbn in I. lia.
Qed.

Lemma ended (s t r r' : str) : ~ In xff s -> ~ In xff t -> hash_str s ++ r = hash_str t ++ r' -> s = t /\ r = r'.
Proof.
  unfold hash_str. revert t. induction s as [|a s IH]; intros [|c t] A C H; cbn in H.
  - split; congruence.
  - injection H as <- _. destruct C. now left.
  - injection H as -> _. destruct A. now left.
  - injection H as <- H. destruct (IH t) as [-> ->]; auto; intros I; [apply A|apply C]; now right.
Qed.

Lemma variants_hash {X : Type} (text : X -> str) (other : str -> X) (k : nat) (d : X -> nat) (e : X -> X -> bool)
    (h : X -> list byte) :
  (forall s, text (other s) = s) -> (forall s, d (other s) = k) -> k < 256 -> (forall x, d x <= k) ->
  (forall x y, e x y = true <-> x = y) ->
  (forall x, (d x < k /\ h x = hash_discriminant (d x)) \/ (exists s, x = other s /\ h x = hash_discriminant k ++ hash_str s)) ->
  (forall x y, d x < k -> d x = d y -> x = y) ->
  hashes (fun x => utf8_valid (text x) = true) e h.
Proof.
  intros T O K D E H Inj x y r r' U V. rewrite E. split; [intros [-> ->]; reflexivity|].
  assert (W : forall n, n <= k -> exists z, hash_discriminant n = z :: repeat x00 7 /\ Byte.to_N z = N.of_nat n).
  { intros n L. unfold hash_discriminant. destruct (Byte.of_N (N.of_nat n)) as [z|] eqn:Z.
    - exists z. split; [reflexivity|]. now apply Byte.to_of_N.
    - apply Byte.of_N_None_iff in Z. lia. }
  destruct (H x) as [[Lx Hx]|(s & -> & Hx)], (H y) as [[Ly Hy]|(t & -> & Hy)]; rewrite Hx, Hy; intros Q.
  - destruct (W (d x)) as (z & Ez & Z); [lia|]. destruct (W (d y)) as (z' & Ez' & Z'); [lia|].
    rewrite Ez, Ez' in Q. cbn [app] in Q. injection Q as -> Q. split; [|exact Q]. apply Inj; [exact Lx|]. lia.
  - destruct (W (d x)) as (z & Ez & Z); [lia|]. destruct (W k) as (z' & Ez' & Z'); [lia|].
    rewrite Ez, Ez' in Q. cbn [app] in Q. injection Q as -> _. lia.
  - destruct (W (d y)) as (z & Ez & Z); [lia|]. destruct (W k) as (z' & Ez' & Z'); [lia|].
    rewrite Ez, Ez' in Q. cbn [app] in Q. injection Q as -> _. lia.
  - rewrite T in U, V. rewrite <- !app_assoc in Q. apply app_inv_head in Q.
    apply ended in Q as [-> ->]; auto using no_ff.
Qed.

(** ** Maps *)

(** Maps that behave as the last insertion says after each step. *)
Lemma folded_with {V : Type} (inv : list (channel * V) -> Prop) (ins : list (channel * V) -> channel * V -> list (channel * V))
    (look : list (channel * V) -> str -> option V) (ops : list (channel * V)) (s : str) :
  inv [] -> look [] s = None -> (forall l kv, inv l -> inv (ins l kv)) ->
  (forall l kv, inv l -> look (ins l kv) s = if str_eqb (chan_as_str (fst kv)) s then Some (snd kv) else look l s) ->
  last_bound (by_text chan_as_str ops) s (look (fold_left ins ops []) s).
Proof.
  intros I0 L0 IS LS.
  assert (inv (fold_left ins ops []) /\ last_bound (by_text chan_as_str ops) s (look (fold_left ins ops []) s)) as [_ H]; [|exact H].
  induction ops as [|kv ops IH] using rev_ind.
  - cbn. split; [exact I0|]. left. auto.
  - rewrite fold_left_app. cbn [fold_left]. destruct IH as [I B]. split; [now apply IS|].
    rewrite LS by exact I. unfold by_text. rewrite map_app. fold (by_text chan_as_str ops). cbn [map].
    destruct (str_eqb_spec (chan_as_str (fst kv)) s) as [<-|N].
    + right. exists (snd kv), (by_text chan_as_str ops), []. auto.
    + destruct B as [[-> B]|(v & l & r & -> & E & B)].
      * left. split; [reflexivity|]. intros v J. apply in_app_or in J as [J|[J|[]]]; [exact (B v J)|congruence].
      * right. exists v, l, (r ++ [(chan_as_str (fst kv), snd kv)]). split; [reflexivity|]. split.
        -- rewrite E, <- app_assoc. reflexivity.
        -- intros w J. apply in_app_or in J as [J|[J|[]]]; [exact (B w J)|congruence].
Qed.

Lemma folded {V : Type} (ins : list (channel * V) -> channel * V -> list (channel * V))
    (look : list (channel * V) -> str -> option V) (ops : list (channel * V)) (s : str) :
  look [] s = None ->
  (forall l kv, True -> look (ins l kv) s = if str_eqb (chan_as_str (fst kv)) s then Some (snd kv) else look l s) ->
  last_bound (by_text chan_as_str ops) s (look (fold_left ins ops []) s).
Proof. intros L0 LS. apply (folded_with (fun _ => True)); auto. Qed.

Lemma hash_step {V : Type} (finish : list byte -> N) (l : list (channel * V)) (c : channel) (v : V) (s : str) :
  let h := fun c => finish (channel_hash c) in
  hash_lookup h (fun t => finish (hash_str t)) chan_as_str (hash_insert h channel_eq l (c, v)) s =
  if str_eqb (chan_as_str (fst (c, v))) s then Some (snd (c, v))
  else hash_lookup h (fun t => finish (hash_str t)) chan_as_str l s.
Proof.
  intros h. unfold hash_lookup, hash_insert. cbn [find fst snd]. unfold h at 1, channel_hash at 1.
  destruct (str_eqb_spec (chan_as_str c) s) as [<-|N].
  - rewrite N.eqb_refl. reflexivity.
  - rewrite andb_false_r. f_equal. induction l as [|[k w] l IH]; [reflexivity|]. cbn [filter find fst].
    destruct (str_eqb_spec (chan_as_str k) s) as [E|E].
    + assert (channel_eq k c = false) as -> by (unfold channel_eq; apply str_eqb_neq; congruence).
      rewrite andb_false_r. cbn [negb find fst].
      assert (h k = finish (hash_str s)) as -> by (unfold h, channel_hash; congruence).
      rewrite E, str_eqb_refl, N.eqb_refl. reflexivity.
    + rewrite andb_false_r. destruct (negb _); [|exact IH]. cbn [find fst]. rewrite (str_eqb_neq _ _ E), andb_false_r. exact IH.
Qed.

(** Strictly sorted keys. *)
Definition sorted_keys {V : Type} (l : list (channel * V)) : Prop :=
  StronglySorted (fun x y => channel_cmp (fst x) (fst y) = Lt) l.

Lemma sorted_kept {V : Type} (l : list (channel * V)) (kv : channel * V) : sorted_keys l -> sorted_keys (sorted_insert channel_cmp l kv).
Proof.
  destruct str_order as [SE SF SL]. intros Srt.
  induction Srt as [|x l Srt IH F]; cbn [sorted_insert]; [constructor; constructor|].
  destruct (channel_cmp (fst kv) (fst x)) eqn:C.
  - constructor; [exact Srt|]. eapply Forall_impl; [|exact F]. intros y H. unfold channel_cmp in *.
    apply SE, str_same in C. congruence.
  - constructor; [now constructor|]. constructor; [exact C|]. eapply Forall_impl; [|exact F].
    intros y H. unfold channel_cmp in *. eapply SL; eassumption.
  - constructor; [exact IH|]. unfold channel_cmp in *.
    assert (G : str_cmp (chan_as_str (fst x)) (chan_as_str (fst kv)) = Lt) by (rewrite SF, C; reflexivity).
    clear - F G. induction l as [|y l IH]; cbn [sorted_insert]; [now auto using Forall_cons, Forall_nil|].
    inversion F; subst. destruct (str_cmp (chan_as_str (fst kv)) _); auto using Forall_cons.
Qed.

Lemma sorted_step {V : Type} (l : list (channel * V)) (c : channel) (v : V) (s : str) : sorted_keys l ->
  sorted_lookup str_cmp chan_as_str (sorted_insert channel_cmp l (c, v)) s =
  if str_eqb (chan_as_str (fst (c, v))) s then Some (snd (c, v)) else sorted_lookup str_cmp chan_as_str l s.
Proof.
  destruct str_order as [SE SF SL]. intros Srt. cbn [fst snd].
  induction Srt as [|x l Srt IH F]; cbn [sorted_insert sorted_lookup fst snd].
  - destruct (str_eqb_spec (chan_as_str c) s) as [<-|N].
    + rewrite (proj2 (SE _ _)); [reflexivity|apply str_eqb_refl].
    + destruct (str_cmp s (chan_as_str c)) eqn:E; try reflexivity. apply SE, str_same in E. congruence.
  - unfold channel_cmp at 1. destruct (str_cmp (chan_as_str c) (chan_as_str (fst x))) eqn:C; cbn [sorted_lookup fst snd].
    + apply SE, str_same in C. rewrite <- C. destruct (str_eqb_spec (chan_as_str c) s) as [<-|N].
      * rewrite (proj2 (SE _ _)); [reflexivity|apply str_eqb_refl].
      * destruct (str_cmp s (chan_as_str c)) eqn:E; try reflexivity. apply SE, str_same in E. congruence.
    + destruct (str_eqb_spec (chan_as_str c) s) as [<-|N].
      * rewrite (proj2 (SE _ _)); [reflexivity|apply str_eqb_refl].
      * destruct (str_cmp s (chan_as_str c)) eqn:E.
        -- apply SE, str_same in E. congruence.
        -- rewrite (SL _ _ _ E C). reflexivity.
        -- reflexivity.
    + rewrite IH. destruct (str_eqb_spec (chan_as_str c) s) as [<-|N]; [rewrite C; reflexivity|]. reflexivity.
Qed.

(** ** C73 *)

(** C73. Two values of a type of messages are equal exactly if all their contents
    are, whoever owns the strings. *)
Lemma p_c73_messages :
  same_as (badge_data_map deref) badge_data_eq /\
  same_as (subscriber_map deref) subscriber_eq /\
  same_as (badge_map deref) badge_eq /\
  same_as (user_map deref) user_eq /\
  same_as (join_map deref) join_eq /\
  same_as (part_map deref) part_eq /\
  same_as (ping_map deref) ping_eq /\
  same_as (pong_map deref) pong_eq /\
  same_as (notice_map deref) notice_eq /\
  same_as (clear_msg_map deref) clear_msg_eq /\
  same_as (action_map deref) action_eq /\
  same_as (clear_chat_map deref) clear_chat_eq /\
  same_as (global_user_state_map deref) global_user_state_eq /\
  same_as (user_state_map deref) user_state_eq /\
  same_as (whisper_map deref) whisper_eq /\
  same_as (room_state_map deref) room_state_eq /\
  same_as (reply_map deref) reply_eq /\
  same_as (pinned_map deref) pinned_eq /\
  same_as (privmsg_map deref) privmsg_eq /\
  same_as (promo_map deref) promo_eq /\
  same_as (event_map deref) event_eq /\
  same_as (user_notice_map deref) user_notice_eq.
Proof.
  repeat apply conj; [exact badge_data_same|exact subscriber_same|exact badge_same|exact user_same|exact join_same|exact part_same|exact ping_same|exact pong_same|exact notice_same|exact clear_msg_same|exact action_same|exact clear_chat_same|exact global_user_state_same|exact user_state_same|exact whisper_same|exact room_state_same|exact reply_same|exact pinned_same|exact privmsg_same|exact promo_same|exact event_same|exact user_notice_same].
Qed.

(** C73. Types without strings, and those of borrowed lines. *)
Lemma p_c73_parts :
  same_as (fun x => x) level_eq /\ same_as (fun x => x) followers_only_eq /\
  same_as (fun x => x) prefix_eq /\ same_as (fun x => x) span_eq /\
  same_as (fun x => x) command_eq /\ same_as (fun x => x) tag_eq /\
  same_as ref_as_str channel_ref_eq /\ same_as chan_as_str channel_eq.
Proof.
  repeat apply conj; intros x y.
  - apply level_same.
  - apply followers_only_same.
  - apply prefix_same.
  - apply span_same.
  - apply command_same.
  - apply tag_same.
  - apply str_same.
  - apply str_same.
Qed.

(** C73. [into_owned] returns an equal value. *)
Lemma p_c73_owned :
  (forall x, badge_data_eq (badge_data_into_owned x) x = true) /\
  (forall x, subscriber_eq (subscriber_into_owned x) x = true) /\
  (forall x, badge_eq (badge_into_owned x) x = true) /\
  (forall x, user_eq (user_into_owned x) x = true) /\
  (forall x, join_eq (join_into_owned x) x = true) /\
  (forall x, part_eq (part_into_owned x) x = true) /\
  (forall x, ping_eq (ping_into_owned x) x = true) /\
  (forall x, pong_eq (pong_into_owned x) x = true) /\
  (forall x, notice_eq (notice_into_owned x) x = true) /\
  (forall x, clear_msg_eq (clear_msg_into_owned x) x = true) /\
  (forall x, action_eq (action_into_owned x) x = true) /\
  (forall x, clear_chat_eq (clear_chat_into_owned x) x = true) /\
  (forall x, global_user_state_eq (global_user_state_into_owned x) x = true) /\
  (forall x, user_state_eq (user_state_into_owned x) x = true) /\
  (forall x, whisper_eq (whisper_into_owned x) x = true) /\
  (forall x, room_state_eq (room_state_into_owned x) x = true) /\
  (forall x, reply_eq (reply_into_owned x) x = true) /\
  (forall x, pinned_eq (pinned_into_owned x) x = true) /\
  (forall x, privmsg_eq (privmsg_into_owned x) x = true) /\
  (forall x, promo_eq (promo_into_owned x) x = true) /\
  (forall x, event_eq (event_into_owned x) x = true) /\
  (forall x, user_notice_eq (user_notice_into_owned x) x = true).
Proof.
  repeat apply conj; intros x.
  - apply badge_data_same. rewrite badge_data_owned, badge_data_map_map. apply badge_data_map_ext. intros []; reflexivity.
  - apply subscriber_same. rewrite subscriber_owned, subscriber_map_map. apply subscriber_map_ext. intros []; reflexivity.
  - apply badge_same. rewrite badge_owned, badge_map_map. apply badge_map_ext. intros []; reflexivity.
  - apply user_same. rewrite user_owned, user_map_map. apply user_map_ext. intros []; reflexivity.
  - apply join_same. rewrite join_owned, join_map_map. apply join_map_ext. intros []; reflexivity.
  - apply part_same. rewrite part_owned, part_map_map. apply part_map_ext. intros []; reflexivity.
  - apply ping_same. rewrite ping_owned, ping_map_map. apply ping_map_ext. intros []; reflexivity.
  - apply pong_same. rewrite pong_owned, pong_map_map. apply pong_map_ext. intros []; reflexivity.
  - apply notice_same. rewrite notice_owned, notice_map_map. apply notice_map_ext. intros []; reflexivity.
  - apply clear_msg_same. rewrite clear_msg_owned, clear_msg_map_map. apply clear_msg_map_ext. intros []; reflexivity.
  - apply action_same. rewrite action_owned, action_map_map. apply action_map_ext. intros []; reflexivity.
  - apply clear_chat_same. rewrite clear_chat_owned, clear_chat_map_map. apply clear_chat_map_ext. intros []; reflexivity.
  - apply global_user_state_same. rewrite global_user_state_owned, global_user_state_map_map. apply global_user_state_map_ext. intros []; reflexivity.
  - apply user_state_same. rewrite user_state_owned, user_state_map_map. apply user_state_map_ext. intros []; reflexivity.
  - apply whisper_same. rewrite whisper_owned, whisper_map_map. apply whisper_map_ext. intros []; reflexivity.
  - apply room_state_same. rewrite room_state_owned, room_state_map_map. apply room_state_map_ext. intros []; reflexivity.
  - apply reply_same. rewrite reply_owned, reply_map_map. apply reply_map_ext. intros []; reflexivity.
  - apply pinned_same. rewrite pinned_owned, pinned_map_map. apply pinned_map_ext. intros []; reflexivity.
  - apply privmsg_same. rewrite privmsg_owned, privmsg_map_map. apply privmsg_map_ext. intros []; reflexivity.
  - apply promo_same. rewrite promo_owned, promo_map_map. apply promo_map_ext. intros []; reflexivity.
  - apply event_same. rewrite event_owned, event_map_map. apply event_map_ext. intros []; reflexivity.
  - apply user_notice_same. rewrite user_notice_owned, user_notice_map_map. apply user_notice_map_ext. intros []; reflexivity.
Qed.

(** C73. Messages are equal exactly if they print alike. *)
Lemma p_c73_printed :
  forall (shown : uchar -> bool) (alt : bool),
    (forall x y, texts (join_map deref) (join_map raw) x -> texts (join_map deref) (join_map raw) y ->
       (join_eq x y = true <-> show shown alt (dbg_join x) = show shown alt (dbg_join y))) /\
    (forall x y, texts (part_map deref) (part_map raw) x -> texts (part_map deref) (part_map raw) y ->
       (part_eq x y = true <-> show shown alt (dbg_part x) = show shown alt (dbg_part y))) /\
    (forall x y, texts (ping_map deref) (ping_map raw) x -> texts (ping_map deref) (ping_map raw) y ->
       (ping_eq x y = true <-> show shown alt (dbg_ping x) = show shown alt (dbg_ping y))) /\
    (forall x y, texts (pong_map deref) (pong_map raw) x -> texts (pong_map deref) (pong_map raw) y ->
       (pong_eq x y = true <-> show shown alt (dbg_pong x) = show shown alt (dbg_pong y))) /\
    (forall x y, texts (notice_map deref) (notice_map raw) x -> texts (notice_map deref) (notice_map raw) y ->
       (notice_eq x y = true <-> show shown alt (dbg_notice x) = show shown alt (dbg_notice y))) /\
    (forall x y, texts (clear_msg_map deref) (clear_msg_map raw) x -> texts (clear_msg_map deref) (clear_msg_map raw) y ->
       (clear_msg_eq x y = true <-> show shown alt (dbg_clear_msg x) = show shown alt (dbg_clear_msg y))) /\
    (forall x y, texts (clear_chat_map deref) (clear_chat_map raw) x -> texts (clear_chat_map deref) (clear_chat_map raw) y ->
       (clear_chat_eq x y = true <-> show shown alt (dbg_clear_chat x) = show shown alt (dbg_clear_chat y))) /\
    (forall x y, texts (global_user_state_map deref) (global_user_state_map raw) x -> texts (global_user_state_map deref) (global_user_state_map raw) y ->
       (global_user_state_eq x y = true <-> show shown alt (dbg_global_user_state x) = show shown alt (dbg_global_user_state y))) /\
    (forall x y, texts (user_state_map deref) (user_state_map raw) x -> texts (user_state_map deref) (user_state_map raw) y ->
       (user_state_eq x y = true <-> show shown alt (dbg_user_state x) = show shown alt (dbg_user_state y))) /\
    (forall x y, texts (whisper_map deref) (whisper_map raw) x -> texts (whisper_map deref) (whisper_map raw) y ->
       (whisper_eq x y = true <-> show shown alt (dbg_whisper x) = show shown alt (dbg_whisper y))) /\
    (forall x y, texts (room_state_map deref) (room_state_map raw) x -> texts (room_state_map deref) (room_state_map raw) y ->
       (room_state_eq x y = true <-> show shown alt (dbg_room_state x) = show shown alt (dbg_room_state y))) /\
    (forall x y, texts (privmsg_map deref) (privmsg_map raw) x -> texts (privmsg_map deref) (privmsg_map raw) y ->
       (privmsg_eq x y = true <-> show shown alt (dbg_privmsg x) = show shown alt (dbg_privmsg y))) /\
    (forall x y, texts (user_notice_map deref) (user_notice_map raw) x -> texts (user_notice_map deref) (user_notice_map raw) y ->
       (user_notice_eq x y = true <-> show shown alt (dbg_user_notice x) = show shown alt (dbg_user_notice y))).
Proof.
  intros shown alt. destruct (p_c71_contents shown alt) as (C0 & C1 & C2 & C3 & C4 & C5 & C6 & C7 & C8 & C9 & C10 & C11 & C12).
  repeat apply conj; intros x y T T'.
  - rewrite (join_same x y). symmetry. now apply C0.
  - rewrite (part_same x y). symmetry. now apply C1.
  - rewrite (ping_same x y). symmetry. now apply C2.
  - rewrite (pong_same x y). symmetry. now apply C3.
  - rewrite (notice_same x y). symmetry. now apply C4.
  - rewrite (clear_msg_same x y). symmetry. now apply C5.
  - rewrite (clear_chat_same x y). symmetry. now apply C6.
  - rewrite (global_user_state_same x y). symmetry. now apply C7.
  - rewrite (user_state_same x y). symmetry. now apply C8.
  - rewrite (whisper_same x y). symmetry. now apply C9.
  - rewrite (room_state_same x y). symmetry. now apply C10.
  - rewrite (privmsg_same x y). symmetry. now apply C11.
  - rewrite (user_notice_same x y). symmetry. now apply C12.
Qed.

(** C73. Commands of parsed lines are equal exactly if their words are. *)
Lemma p_c73_parsed_commands :
  forall (bd bd' : build) (s s' w w' rest rest' : str) (m m' : msg_ref),
    utf8_valid s = true -> below_4gib s -> ref_parse bd s = Ret (Some m) -> command_and_rest s w rest ->
    utf8_valid s' = true -> below_4gib s' -> ref_parse bd' s' = Ret (Some m') -> command_and_rest s' w' rest' ->
    exists c c', ref_command m = Ret c /\ ref_command m' = Ret c' /\ (command_eq c c' = true <-> w = w').
Proof.
  intros bd bd' s s' w w' rest rest' m m' U S E C U' S' E' C'.
  destruct (p_c12_command_exact bd s w rest m U S E C) as (c & R & A & K & O).
  destruct (p_c12_command_exact bd' s' w' rest' m' U' S' E' C') as (c' & R' & A' & K' & O').
  exists c, c'. split; [exact R|]. split; [exact R'|]. rewrite command_same. split; [congruence|]. intros <-.
  destruct command_orders as [_ (All & _)].
  destruct (All c) as [I|[x ->]].
  - apply in_map_iff in I as ([n k] & <- & I). cbn. symmetry. apply (K' n k I). apply (K n k I). reflexivity.
  - destruct (All c') as [I|[x' ->]].
    + apply in_map_iff in I as ([n k] & <- & I). cbn. apply (K n k I). apply (K' n k I). reflexivity.
    + destruct (O x eq_refl) as [-> _]. destruct (O' x' eq_refl) as [-> _]. reflexivity.
Qed.

(** C73. Tag names are parsed to equal values exactly if they are equal. *)
Lemma p_c73_tag_names :
  forall (x y : str), tag_eq (tag_parse x) (tag_parse y) = true <-> x = y.
Proof.
  intros x y. rewrite tag_same. split; [|congruence].
  assert (A : forall s (l : list (str * tag_name)) t, assoc s l = Some t -> In (s, t) l).
  { intros s l t. induction l as [|[k v] l IH]; cbn; [discriminate|].
    destruct (str_eqb_spec s k) as [->|]; [|auto]. intros H. injection H as ->. now left. }
  assert (N : forall s k t, In (s, t) tag_table -> t <> TUnknown k).
  { intros s k t I ->. apply (in_map snd) in I. cbn in I. repeat destruct I as [I|I]; try discriminate. destruct I. }
  assert (D : NoDup (map snd tag_table)).
  { cbn. repeat constructor; cbn; intros I; repeat destruct I as [I|I]; try discriminate; destruct I. }
  unfold tag_parse.
  destruct (assoc x tag_table) as [t|] eqn:X, (assoc y tag_table) as [t'|] eqn:Y; intros H.
  - subst t'. apply A in X, Y. revert X Y D. generalize tag_table. clear.
    intros l. induction l as [|[k v] l IH]; cbn; [intros []|]. intros [X|X] [Y|Y] D; inversion D as [|? ? I D']; subst.
    + congruence.
    + injection X as -> ->. destruct I. exact (in_map snd _ _ Y).
    + injection Y as -> ->. destruct I. exact (in_map snd _ _ X).
    + auto.
  - apply A, N with (k := y) in X. contradiction.
  - symmetry in H. apply A, N with (k := x) in Y. contradiction.
  - congruence.
Qed.

(** C73. Values with the same text need not be equal. *)
Lemma p_c73_same_text_refuted :
  (exists c c', command_as_str c = command_as_str c' /\ command_eq c c' = false) /\
  (exists s s', tag_as_str (tag_parse s) = tag_as_str (tag_parse s') /\ tag_eq (tag_parse s) (tag_parse s') = false).
Proof.
  split.
  - exists Ping, (Other (b "PING")). split; reflexivity.
  - exists (b "pinned-chat-paid-amount"), (b "pinned-chat-paid-canonical-amount"). split; vm_compute; reflexivity.
Qed.

(** C73. The orders are total orders that agree with [==]. *)
Lemma p_c73_orders :
  total_order str_eqb str_cmp /\ total_order channel_ref_eq channel_ref_cmp /\ total_order channel_eq channel_cmp /\
  total_order command_eq command_cmp /\ total_order tag_eq tag_cmp.
Proof.
  pose proof str_order as [A B C].
  repeat apply conj; try apply command_orders; try apply tag_orders; split; intros; unfold channel_ref_eq, channel_eq, channel_ref_cmp, channel_cmp in *; eauto.
Qed.

(** C73. Texts are ordered as in a dictionary, by bytes or, which is the same, by
    code points. *)
Lemma p_c73_dictionary :
  forall (s t : str),
    (str_cmp s t = Lt <-> before (codes s) (codes t)) /\
    (forall ns ms, text_of ns s -> text_of ms t -> (str_cmp s t = Lt <-> before ns ms)).
Proof.
  intros s t. split; [apply str_before|]. intros ns ms [F E] [G E'].
  rewrite str_lex. unfold codes. rewrite E, E', texts_lex by assumption. apply lex_before.
Qed.

(** C73. Variants are ordered as they are declared. *)
Lemma p_c73_variants :
  listed_order (map snd known_commands) Other command_cmp /\ listed_order declared_tags TUnknown tag_cmp.
Proof. split; [apply command_orders|apply tag_orders]. Qed.

(** C73. So not by their texts. *)
Lemma p_c73_alphabetical_refuted :
  (exists c c', command_cmp c c' = Lt /\ before (codes (command_as_str c')) (codes (command_as_str c))) /\
  (exists t t', tag_cmp t t' = Lt /\ before (codes (tag_as_str t')) (codes (tag_as_str t))).
Proof.
  split.
  - exists Privmsg, Notice. split; [reflexivity|]. apply str_before. reflexivity.
  - exists TMsgId, TBadges. split; [reflexivity|]. apply str_before. reflexivity.
Qed.

(** C73. Hashes agree with [==]. *)
Lemma p_c73_hashes :
  hashes (fun s => utf8_valid s = true) str_eqb hash_str /\
  hashes (fun c => utf8_valid (ref_as_str c) = true) channel_ref_eq channel_ref_hash /\
  hashes (fun c => utf8_valid (chan_as_str c) = true) channel_eq channel_hash /\
  hashes (fun c => utf8_valid (command_as_str c) = true) command_eq command_hash /\
  hashes (fun t => utf8_valid (tag_as_str t) = true) tag_eq tag_hash.
Proof.
  assert (A : hashes (fun s => utf8_valid s = true) str_eqb hash_str).
  { intros s t r r' U V. rewrite str_same. split; [intros [-> ->]; reflexivity|]. apply ended; auto using no_ff. }
  repeat apply conj.
  - exact A.
  - intros x y. apply A.
  - intros x y. apply A.
  - apply variants_hash with Other 24 command_discriminant.
    + reflexivity.
    + reflexivity.
    + lia.
    + intros []; cbn; lia.
    + apply command_same.
    + intros []; [left; split; [cbn; lia|reflexivity]..|]. right. exists cmd. split; reflexivity.
    + intros x y H K. apply command_same. unfold command_eq. rewrite K, Nat.eqb_refl.
      destruct x; try reflexivity. cbn in H. lia.
  - apply variants_hash with TUnknown 79 tag_discriminant.
    + reflexivity.
    + reflexivity.
    + lia.
    + intros []; cbn; lia.
    + apply tag_same.
    + intros []; [left; split; [cbn; lia|reflexivity]..|]. right. exists key. split; reflexivity.
    + intros x y H K. apply tag_same. unfold tag_eq. rewrite K, Nat.eqb_refl.
      destruct x; try reflexivity. cbn in H. lia.
Qed.

(** C73. Values of a map with channels as keys are found by the text of the
    channel, with any hash function [finish], and in sorted maps. *)
Lemma p_c73_lookup :
  forall (V : Type) (ops : list (channel * V)) (finish : list byte -> N) (s : str),
    last_bound (by_text chan_as_str ops) s
      (hash_lookup (fun c => finish (channel_hash c)) (fun t => finish (hash_str t)) chan_as_str
         (fold_left (hash_insert (fun c => finish (channel_hash c)) channel_eq) ops []) s) /\
    last_bound (by_text chan_as_str ops) s
      (sorted_lookup str_cmp chan_as_str (fold_left (sorted_insert channel_cmp) ops []) s).
Proof.
  intros V ops finish s. split.
  - apply folded; [reflexivity|]. intros l [c v] I. apply hash_step.
  - apply (folded_with sorted_keys); [constructor|reflexivity|apply sorted_kept|]. intros l [c v] I. now apply sorted_step.
Qed.

(** The printed texts of [chat_line], two codes of one text, and an order that
    bytes and code points share though UTF-16 would not. *)
Example ex_c73 :
  (exists x, message_parse (Simd Sse2 0) Debug chat_line = Ret (Some (MPrivmsg x)) /\
     privmsg_into_owned x <> x /\ privmsg_eq (privmsg_into_owned x) x = true /\
     privmsg_eq x (mk_privmsg (pm_channel x) (pm_channel_id x) (pm_msg_id x) (pm_id x) (pm_sender x) None (pm_pinned_chat x)
       (pm_text x) (pm_is_action x) (pm_badges x) (pm_color x) (pm_custom_reward_id x) (pm_bits x) (pm_emotes x)
       (pm_timestamp x)) = false) /\
  (exists s t, text_of [65376]%N s /\ text_of [128512]%N t /\ str_cmp s t = Lt /\ channel_cmp (Channel t) (Channel s) = Gt) /\
  last_bound (by_text chan_as_str [(Channel (b "#a"), 1); (Channel (b "#c"), 2); (Channel (b "#a"), 3)]) (b "#a") (Some 3) /\
  command_and_rest (b "PING x") (b "PING") (b "x") /\
  command_eq (Other (b "a")) (Other (b "a")) = true /\ command_hash (Other (b "a")) = [x18; x00; x00; x00; x00; x00; x00; x00; x61; xff].
Proof.
  split; [|split; [|split; [|split; [|split]]]].
  - eexists. split; [vm_compute; reflexivity|]. split; [discriminate|]. split; vm_compute; reflexivity.
  - exists [xef; xbd; xa0], [xf0; x9f; x98; x80].
    assert (V : scalar_value 65376 /\ scalar_value 128512) by (unfold scalar_value; lia). destruct V.
    repeat apply conj; try reflexivity; auto using Forall_cons, Forall_nil.
  - right. exists 3, [(b "#a", 1); (b "#c", 2)], []. auto.
  - exists (b "PING x"). split.
    + exists (b "PING x"). split; right; (split; [left; discriminate|reflexivity]).
    + split; [cbn; intuition discriminate|left; reflexivity].
  - reflexivity.
  - reflexivity.
Qed.
