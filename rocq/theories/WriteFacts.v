(** * WriteFacts: written lines say their messages (proofs). *)

From Verif Require Import Base Wide Client Tags Irc Unescape SpecIrc SpecText MsgBase MsgTypes MsgNotice Message SpecMsg SpecWrite Samples.
From Coq Require Import Lia ZifyBool ZifyNat ZifyN.
From Verif Require Import BaseFacts IrcFacts IrcProofs LineProofs AccessProofs FieldFacts TypedFacts NoticeFacts TypedProofs FieldProofs DbgValues.

Open Scope nat_scope.

(** ** Tables *)

Fixpoint row (n : string) (t : table) : option str :=
  match t with
  | [] => None
  | (k, o) :: t' => if String.eqb k n then o else row n t'
  end.

Fixpoint distinct (l : list string) : bool :=
  match l with
  | [] => true
  | k :: l' => negb (existsb (String.eqb k) l') && distinct l'
  end.

Lemma b_inj (x y : string) : b x = b y -> x = y.
Proof.
  intros A. rewrite <- (string_of_list_byte_of_string x), <- (string_of_list_byte_of_string y). f_equal. exact A.
Qed.

Lemma row_absent (n : string) (t : table) : existsb (String.eqb n) (map fst t) = false ->
  lookup (b n) (written t) = None.
Proof.
  induction t as [|[k o] t IH]; cbn [map fst existsb]; [reflexivity|]. intros E.
  apply orb_false_iff in E as [N E]. unfold written. cbn [flat_map snd fst].
  destruct o as [x|]; cbn [app lookup]; [|exact (IH E)].
  rewrite str_eqb_neq; [exact (IH E)|]. intros K. apply b_inj in K. subst k.
  now rewrite String.eqb_refl in N.
Qed.

Lemma lookup_written (n : string) (t : table) : distinct (map fst t) = true ->
  lookup (b n) (written t) = row n t.
Proof.
  induction t as [|[k o] t IH]; cbn [map fst distinct row]; [reflexivity|]. intros E.
  apply andb_true_iff in E as [N E]. apply negb_true_iff in N.
  unfold written. cbn [flat_map snd fst]. destruct (String.eqb_spec k n) as [->|K].
  - destruct o as [x|]; cbn [app lookup]; [now rewrite str_eqb_refl|exact (row_absent n t N)].
  - destruct o as [x|]; cbn [app lookup]; [|exact (IH E)].
    rewrite str_eqb_neq; [exact (IH E)|]. intros Q. now apply b_inj in Q.
Qed.

Lemma written_length (t : table) : length (written t) <= length t.
Proof.
  induction t as [|[k o] t IH]; [auto|]. unfold written in *. cbn [flat_map snd fst length].
  rewrite app_length. destruct o; cbn [length]; lia.
Qed.

(** ** Written values *)

Lemma show_u64 (n : N) : u64 n -> is_u64 (show_N n) n.
Proof.
  intros U. exists (show_N n). split; [now left|]. split; [apply show_N_numeral|]. unfold u64 in U. lia.
Qed.

Lemma write_i64 (z : Z) : i64 z -> is_i64 (write_Z z) z.
Proof.
  unfold i64, write_Z. intros R. destruct (z <? 0)%Z eqn:E.
  - exists (show_N (Z.to_N (- z))), (Z.to_N (- z)). split; [apply show_N_numeral|].
    split; [right; split; [reflexivity|lia]|lia].
  - exists (show_N (Z.to_N z)), (Z.to_N z). split; [apply show_N_numeral|].
    split; [left; split; [now left|lia]|lia].
Qed.

Lemma write_flag_reads (f : bool) : is_flag (write_flag f) f.
Proof.
  unfold is_flag. destruct f; (split; [intros E|intros (n & U & P)]); try reflexivity; try discriminate.
  - exists 1%N. split; [|reflexivity]. exists (b "1"). split; [now left|]. split; [|discriminate].
    split; [discriminate|]. split; [repeat constructor; vm_compute; discriminate|reflexivity].
  - destruct U as (ds & [E|E] & (_ & _ & V) & _).
    + cbn [write_flag] in E. subst ds. subst n. vm_compute in P. discriminate.
    + discriminate.
Qed.

Section Rows.
Context (t : table) (v : view) (T : v_tags v = written t) (D : distinct (map fst t) = true).

Lemma w_look (n : string) : lookup (b n) (v_tags v) = row n t.
Proof. rewrite T. now apply lookup_written. Qed.

Lemma w_has (n : string) (x : str) : row n t = Some x -> has v n x.
Proof. intros E. apply has_iff. now rewrite w_look. Qed.

Lemma w_none (n : string) : row n t = None -> forall x, ~ has v n x.
Proof. intros E. apply has_none. now rewrite w_look. Qed.

Lemma w_only (n : string) (x y : str) : row n t = Some x -> has v n y -> y = x.
Proof. intros E H. apply has_iff in H. rewrite w_look in H. congruence. Qed.

Lemma w_opt (n : string) (o : option str) : row n t = o -> opt (has v n) o.
Proof. intros E. apply opt_has_iff. now rewrite w_look. Qed.

Lemma w_filled (n : string) (o : option str) : row n t = o -> filled o -> opt (has_filled v n) o.
Proof.
  intros E F. destruct o as [x|]; cbn [opt].
  - split; [now apply w_has|]. intros ->. now apply F.
  - intros x [H _]. now apply w_none in H.
Qed.

Lemma w_u64 (n : string) (k : N) : row n t = Some (show_N k) -> u64 k -> has_u64 v n k.
Proof. intros E U. exists (show_N k). split; [now apply w_has|now apply show_u64]. Qed.

Lemma w_no_u64 (n : string) : row n t = None -> forall k, ~ has_u64 v n k.
Proof. intros E k (x & H & _). now apply w_none in H. Qed.

Lemma w_opt_u64 (n : string) (o : option N) : row n t = option_map show_N o -> number o ->
  opt (has_u64 v n) o.
Proof.
  intros E U. destruct o as [k|]; cbn [opt option_map] in *; [apply w_u64; auto|now apply w_no_u64].
Qed.

Lemma w_i64 (n : string) (z : Z) : row n t = Some (write_Z z) -> i64 z -> has_i64 v n z.
Proof. intros E U. exists (write_Z z). split; [now apply w_has|now apply write_i64]. Qed.

Lemma w_time (z : Z) : row "tmi-sent-ts" t = Some (write_Z z) -> timestamp z -> has_time v z.
Proof.
  intros E U. exists (write_Z z). split; [now apply w_has|]. split; [|exact U]. apply write_i64.
  unfold timestamp in U. unfold i64. lia.
Qed.

Lemma w_flag (n : string) (f : bool) : row n t = Some (write_flag f) -> has_flag v n f.
Proof. intros E. exists (write_flag f). split; [now apply w_has|apply write_flag_reads]. Qed.

Lemma w_opt_flag (n : string) (o : option bool) : row n t = option_map write_flag o -> opt (has_flag v n) o.
Proof.
  intros E. destruct o as [f|]; cbn [opt option_map] in *; [now apply w_flag|].
  intros f (x & H & _). now apply w_none in H.
Qed.

Lemma w_or (n : string) (d x : str) : row n t = Some x -> has_or v n d x.
Proof. intros E. left. now apply w_has. Qed.

Lemma w_list (n : string) (ws : list str) : row n t = write_list ws -> Forall no_comma ws -> has_list v n ws.
Proof.
  intros E F. destruct ws as [|w ws]; cbn [write_list] in E.
  - right. split; [now apply w_none|reflexivity].
  - left. exists (join_by "," (w :: ws)). split; [now apply w_has|]. split; [discriminate|]. split; [reflexivity|exact F].
Qed.
End Rows.

(** ** Badges *)

Lemma badge_items_read (l : list (badge str)) : l <> [] -> Forall badge_able l ->
  comma_items (join_by "," (map badge_item l)) (map (fun x => (badge_name x, badge_version x)) l).
Proof.
  intros N F. exists (map badge_item l). split.
  - split; [now destruct l|]. split; [reflexivity|]. clear N. induction F as [|x l (A & _ & B & _) F IH]; [constructor|].
    constructor; [|exact IH]. unfold badge_item. apply not_in_app; [exact A|]. apply not_in_app; [|exact B].
    cbn. intuition discriminate.
  - clear N. induction F as [|x l (_ & A & _) F IH]; [constructor|]. cbn [map]. now constructor.
Qed.

Definition extras (l : list (badge str)) : list (str * str) :=
  flat_map (fun x => match badge_extra x with Some e => [(badge_name x, e)] | None => [] end) l.

Lemma info_items_read (l : list (badge str)) : Forall badge_able l ->
  comma_items (join_by "," (info_items l)) (extras l).
Proof.
  intros F.
  assert (P : Forall (fun w => ~ In ","%byte w) (info_items l)).
  { unfold info_items. induction F as [|x l (A & _ & _ & B & _) F IH]; [constructor|]. cbn [flat_map].
    destruct (badge_extra x) as [e|]; [|exact IH]. constructor; [|exact IH].
    apply not_in_app; [exact A|]. apply not_in_app; [cbn; intuition discriminate|]. now apply B. }
  assert (S : slash_items (info_items l) (extras l)).
  { clear P. unfold info_items, extras. induction F as [|x l (_ & A & _) F IH]; [constructor|]. cbn [flat_map].
    destruct (badge_extra x) as [e|]; [|exact IH]. now constructor. }
  destruct (info_items l) as [|w ws] eqn:E.
  - exists [[]]. split; [split; [discriminate|split; [reflexivity|repeat constructor; auto]]|].
    inversion S; subst. constructor; [auto|constructor].
  - exists (w :: ws). split; [|exact S]. split; [discriminate|]. split; [reflexivity|exact P].
Qed.

Lemma extras_first (l : list (badge str)) (x : badge str) :
  (forall x y, In x l -> In y l -> badge_name x = badge_name y -> badge_extra x = badge_extra y) ->
  In x l -> first_tag (badge_name x) (extras l) (badge_extra x).
Proof.
  intros C I. apply lookup_first. revert x I.
  assert (K : forall k x, incl k l -> In x l -> (In x k \/ lookup (badge_name x) (extras k) = None) ->
    In x k -> lookup (badge_name x) (extras k) = badge_extra x).
  { induction k as [|y k IH]; intros x S I _ J; [destruct J|].
    assert (Iy : In y l) by (apply S; now left).
    assert (Sk : incl k l) by (intros z Z; apply S; now right).
    unfold extras. cbn [flat_map]. destruct (badge_extra y) as [e|] eqn:E.
    - cbn [app lookup]. destruct (str_eqb_spec (badge_name y) (badge_name x)) as [Q|Q].
      + rewrite <- E. now apply C.
      + destruct J as [->|J]; [congruence|]. apply IH; auto.
    - cbn [app]. destruct J as [->|J]; [|apply IH; auto]. rewrite E.
      assert (A : forall z, In z k -> badge_name z = badge_name x -> badge_extra z = None).
      { intros z Z Q. rewrite <- E. apply C; auto. }
      clear -A. induction k as [|z k IH]; [reflexivity|]. cbn [flat_map].
      destruct (badge_extra z) as [e|] eqn:E.
      + cbn [app lookup]. rewrite str_eqb_neq; [apply IH; intros; apply A; auto; now right|].
        intros Q. rewrite (A z) in E; [discriminate|now left|exact Q].
      + apply IH. intros; apply A; auto. now right. }
  intros x I. apply (K l x); auto using incl_refl.
Qed.

Lemma badge_reads (x : badge str) : badge_able x -> is_badge (badge_name x) (badge_version x) (badge_extra x) x.
Proof.
  intros (_ & _ & _ & _ & H). destruct x as [| | | |s|d]; cbn; auto.
  split; [exact H|]. now destruct d.
Qed.

Lemma w_badges (t : table) (v : view) (l : list (badge str)) :
  v_tags v = written t -> distinct (map fst t) = true ->
  row "badges" t = write_list (map badge_item l) ->
  row "badge-info" t = match l with [] => None | _ => Some (join_by "," (info_items l)) end ->
  badges_able l -> has_badges v l.
Proof.
  intros T D E1 E2 [F C]. destruct l as [|x0 l0] eqn:EL.
  { right. split; [|reflexivity]. left. eapply w_none; eassumption. }
  rewrite <- EL in *. assert (N : l <> []) by (rewrite EL; discriminate).
  left. exists (join_by "," (map badge_item l)), (join_by "," (info_items l)). split; [|split].
  - apply (w_has t v T D). rewrite E1. now rewrite EL.
  - apply (w_has t v T D). rewrite E2. now rewrite EL.
  - exists (map (fun x => (badge_name x, badge_version x)) l), (extras l).
    split; [now apply badge_items_read|]. split; [now apply info_items_read|].
    assert (G : forall k, incl k l -> Forall2 (fun nv x => exists e, first_tag (fst nv) (extras l) e /\
      is_badge (fst nv) (snd nv) e x) (map (fun x => (badge_name x, badge_version x)) k) k).
    { induction k as [|x k IH]; intros S; [constructor|]. cbn [map]. constructor.
      - exists (badge_extra x). split; [apply extras_first; [exact C|apply S; now left]|].
        apply badge_reads. rewrite Forall_forall in F. apply F, S. now left.
      - apply IH. intros z Z. apply S. now right. }
    apply G, incl_refl.
Qed.

(** ** The written lines say their messages *)

Definition view_of (m : message) : view :=
  mk_view (m_tags m) (option_map sender_prefix (m_sender m)) (m_command m) (m_channel m) (m_params m).

Lemma colon_text (v : view) (x : str) : v_params v = Some (b ":" ++ x) -> has_text v x.
Proof. intros E. exists (b ":" ++ x). split; [exact E|]. left. exists []. split; [reflexivity|auto]. Qed.

Lemma no_text (v : view) : v_params v = None -> forall x, ~ has_text v x.
Proof. intros E x (p & P & _). congruence. Qed.

Lemma opt_colon_text (v : view) (o : option str) : v_params v = option_map (fun x => b ":" ++ x) o ->
  opt (has_text v) o.
Proof. destruct o as [x|]; cbn [opt option_map]; [apply colon_text|apply no_text]. Qed.

Lemma from_nick (v : view) (n : str) : v_prefix v = option_map sender_prefix (from n) -> has_nick v n.
Proof. intros E. eexists. split; [exact E|reflexivity]. Qed.

Lemma action_reads (v : view) (x : str) (f : bool) : v_params v = after_colon (write_action x f) -> action_able x f ->
  exists t, has_text v t /\ action_text t x f.
Proof.
  intros E A. exists (write_action x f). split; [now apply colon_text|].
  destruct f; cbn [action_text write_action]; [reflexivity|]. split; [reflexivity|]. now apply A.
Qed.

(** Names the table of a written line and checks that its names are distinct. *)
Ltac tabled :=
  cbn [line]; unfold line_with;
  match goal with |- context [written ?t] =>
    let T := fresh "T" in set (T := t);
    assert (D : distinct (map fst T) = true) by reflexivity
  end.

Ltac absent D H := exfalso; eapply w_none; [|exact D| |exact H]; reflexivity.

Ltac by_row D := (eapply w_has || eapply w_opt || eapply w_or); [reflexivity|exact D|reflexivity].

Lemma join_written (x : join_msg str) : join_of (view_of (line (KJoin x))) x.
Proof. split; [reflexivity|now apply from_nick]. Qed.

Lemma part_written (x : part_msg str) : part_of (view_of (line (KPart x))) x.
Proof. split; [reflexivity|now apply from_nick]. Qed.

Lemma ping_written (x : ping_msg str) : ping_of (view_of (line (KPing x))) x.
Proof. now apply opt_colon_text. Qed.

Lemma pong_written (x : pong_msg str) : pong_of (view_of (line (KPong x))) x.
Proof. now apply opt_colon_text. Qed.

Lemma opt_channel (v : view) (o : option str) : v_channel v = o -> opt (has_channel v) o.
Proof. intros E. now apply opt_channel_iff. Qed.

Lemma notice_written (x : notice_msg str) : notice_of (view_of (line (KNotice x))) x.
Proof.
  split; [now apply opt_channel|]. split; [now apply colon_text|]. tabled. by_row D.
Qed.

Lemma clear_msg_written (x : clear_msg str) : able (KClearMsg x) -> clear_msg_of (view_of (line (KClearMsg x))) x.
Proof.
  intros [TS A]. tabled. split; [reflexivity|]. split; [by_row D|]. split; [by_row D|]. split; [by_row D|].
  split; [now apply action_reads|]. eapply w_time; [reflexivity|exact D|reflexivity|exact TS].
Qed.

Lemma clear_chat_written (x : clear_chat str) : able (KClearChat x) -> clear_chat_of (view_of (line (KClearChat x))) x.
Proof.
  destruct x as [ch id a ts]. intros [TS A]. cbn [cc_timestamp cc_action] in *. destruct a as [|u i|u i d]; tabled.
  - split; [reflexivity|]. split; [by_row D|]. split; [reflexivity|].
    eapply w_time; [reflexivity|exact D|reflexivity|exact TS].
  - split; [reflexivity|]. split; [by_row D|]. split.
    + split; [now apply colon_text|]. split; [by_row D|]. eapply w_no_u64; [reflexivity|exact D|reflexivity].
    + eapply w_time; [reflexivity|exact D|reflexivity|exact TS].
  - split; [reflexivity|]. split; [by_row D|]. split.
    + split; [now apply colon_text|]. split; [by_row D|]. eapply w_u64; [reflexivity|exact D|reflexivity|].
      now apply (A u i).
    + eapply w_time; [reflexivity|exact D|reflexivity|exact TS].
Qed.

Lemma global_user_state_written (x : global_user_state str) :
  able (KGlobalUserState x) -> global_user_state_of (view_of (line (KGlobalUserState x))) x.
Proof.
  intros (B & E & F). tabled. split; [by_row D|]. split; [by_row D|].
  split; [eapply w_badges; [reflexivity|exact D|reflexivity|reflexivity|exact B]|].
  split; [eapply w_list; [reflexivity|exact D|reflexivity|exact E]|].
  eapply w_filled; [reflexivity|exact D|reflexivity|exact F].
Qed.

Lemma user_state_written (x : user_state str) :
  able (KUserState x) -> user_state_of (view_of (line (KUserState x))) x.
Proof.
  intros (B & E & F). tabled. split; [reflexivity|]. split; [by_row D|].
  split; [eapply w_badges; [reflexivity|exact D|reflexivity|reflexivity|exact B]|].
  split; [eapply w_list; [reflexivity|exact D|reflexivity|exact E]|].
  eapply w_filled; [reflexivity|exact D|reflexivity|exact F].
Qed.

Lemma around_written (l r : str) : ~ infix (b " :") l -> around_first (b " :") (l ++ b " :" ++ r) l r.
Proof.
  intros N. split; [reflexivity|]. intros l' r' E. apply Nat.nlt_ge. intros L.
  (* an occurrence further left lies in [l] or begins with its last byte *)
  assert (P : exists m, l = l' ++ m /\ m <> []).
  { clear N. revert l' E L. induction l as [|x l IH]; intros l' E L; [cbn in L; lia|].
    destruct l' as [|y l']; [exists (x :: l); split; [reflexivity|discriminate]|].
    injection E as <- E. cbn [length] in L. destruct (IH l' E) as (m & -> & M); [lia|]. now exists m. }
  destruct P as (m & -> & M). rewrite <- app_assoc in E. apply app_inv_head in E.
  destruct m as [|c [|d m]]; [congruence| |].
  - discriminate.
  - injection E as -> -> E. apply N. exists l', m. reflexivity.
Qed.

Lemma whisper_written (x : whisper_msg str) : able (KWhisper x) -> whisper_of (view_of (line (KWhisper x))) x.
Proof.
  intros (B & F & R). tabled.
  split; [eexists; split; [reflexivity|now apply around_written]|]. split; [by_row D|].
  split; [now apply from_nick|]. split; [by_row D|].
  split; [eapply w_badges; [reflexivity|exact D|reflexivity|reflexivity|exact B]|].
  split; [by_row D|]. eapply w_filled; [reflexivity|exact D|reflexivity|exact F].
Qed.

Lemma followers_written (f : followers_only) :
  (forall d, f = Enabled (Some d) -> (0 < d < 2 ^ 63)%N /\ exists n, d = (60 * n)%N) ->
  exists z, is_i64 (write_followers f) z /\ followers_of z f /\ (60 * z <= 2 ^ 63 - 1)%Z.
Proof.
  intros H. destruct f as [|[d|]]; cbn [write_followers].
  - exists (-1)%Z. split; [apply (write_i64 (-1)); unfold i64; lia|]. split; [left; auto with zarith|lia].
  - destruct (H d eq_refl) as [R (n & ->)]. replace (60 * n / 60)%N with n by lia.
    exists (Z.of_N n). split; [|split; [right; right; split; [lia|now rewrite N2Z.id]|lia]].
    replace (show_N n) with (write_Z (Z.of_N n)); [apply write_i64; unfold i64; lia|].
    unfold write_Z. replace (Z.of_N n <? 0)%Z with false by lia. now rewrite N2Z.id.
  - exists 0%Z. split; [apply (write_i64 0); unfold i64; lia|]. split; [right; left; auto|lia].
Qed.

Lemma is_i64_fun (s : str) (x y : Z) : is_i64 s x -> is_i64 s y -> x = y.
Proof. intros A B. apply parse_i64_spec in A, B. congruence. Qed.

Lemma room_state_written (x : room_state str) : able (KRoomState x) ->
  room_state_of (view_of (line (KRoomState x))) x /\ followers_fit (view_of (line (KRoomState x))).
Proof.
  intros [S F]. tabled. split.
  - split; [reflexivity|]. split; [by_row D|].
    split; [eapply w_opt_flag; [reflexivity|exact D|reflexivity]|]. split.
    { destruct (rs_followers_only x) as [f|] eqn:E; cbn [opt].
      - destruct (followers_written f) as (z & A & B & _); [intros d ->; now apply F|].
        exists z. split; [|exact B]. exists (write_followers f). split; [|exact A].
        eapply w_has; [reflexivity|exact D|]. reflexivity.
      - intros f (z & (y & H & _) & _). absent D H. }
    split; [eapply w_opt_flag; [reflexivity|exact D|reflexivity]|].
    split; [eapply w_opt_u64; [reflexivity|exact D|reflexivity|exact S]|].
    eapply w_opt_flag; [reflexivity|exact D|reflexivity].
  - intros n (y & H & I). destruct (rs_followers_only x) as [f|] eqn:E.
    + destruct (followers_written f) as (z & A & _ & B); [intros d ->; now apply F|].
      assert (y = write_followers f) as ->.
      { eapply w_only; [|exact D| |exact H]; reflexivity. }
      now rewrite (is_i64_fun _ _ _ I A).
    + absent D H.
Qed.

Lemma level_written (l : level) : exists n, In (n, l) level_names /\ level_word l = b n.
Proof.
  destruct l;
    [exists "ONE"%string|exists "TWO"%string|exists "THREE"%string|exists "FOUR"%string|exists "FIVE"%string
    |exists "SIX"%string|exists "SEVEN"%string|exists "EIGHT"%string|exists "NINE"%string|exists "TEN"%string];
    (split; [cbn; tauto|reflexivity]).
Qed.

Lemma privmsg_written (x : privmsg str) : able (KPrivmsg x) -> privmsg_of (view_of (line (KPrivmsg x))) x.
Proof.
  intros (B & N & F1 & F2 & TS & A & P). tabled.
  split; [reflexivity|]. split; [by_row D|]. split; [by_row D|]. split; [by_row D|]. split; [by_row D|].
  split; [now apply from_nick|]. split; [by_row D|]. split; [|split].
  - destruct (pm_reply_to x) as [r|] eqn:E; cbn [opt].
    + unfold reply_of, user_of. repeat split; (eapply w_has; [reflexivity|exact D|]; reflexivity).
    + intros r (H & _). absent D H.
  - destruct (pm_pinned_chat x) as [p|] eqn:E; cbn [opt].
    + destruct (P p eq_refl) as [I1 I2].
      split; [eapply w_i64; [reflexivity|exact D| |exact I1]; reflexivity|].
      split; [eapply w_has; [reflexivity|exact D|]; reflexivity|].
      split; [eapply w_i64; [reflexivity|exact D| |exact I2]; reflexivity|].
      split.
      * destruct (level_written (pc_paid_level p)) as (n & I & W). exists n. split; [exact I|].
        eapply w_has; [reflexivity|exact D|]. cbn. now rewrite <- W.
      * eapply w_flag; [reflexivity|exact D|]. reflexivity.
    + intros p ((y & H & _) & _). absent D H.
  - split; [now apply action_reads|].
    split; [eapply w_badges; [reflexivity|exact D|reflexivity|reflexivity|exact B]|].
    split; [eapply w_filled; [reflexivity|exact D|reflexivity|exact F1]|].
    split; [eapply w_filled; [reflexivity|exact D|reflexivity|exact F2]|].
    split; [eapply w_opt_u64; [reflexivity|exact D|reflexivity|exact N]|].
    split; [by_row D|]. eapply w_time; [reflexivity|exact D|reflexivity|exact TS].
Qed.

Lemma known_dec (id : str) : In id known_events \/ ~ In id known_events.
Proof. destruct (in_dec (list_eq_dec byte_eq_dec) id known_events); auto. Qed.

Lemma promo_written (t : table) (v : view) (o : option (promo str)) :
  v_tags v = written t -> distinct (map fst t) = true ->
  row "msg-param-promo-gift-total" t = option_map (fun p => show_N (pr_total_gifts p)) o ->
  row "msg-param-promo-name" t = option_map pr_promo_name o -> promo_able o ->
  opt (promo_of v) o.
Proof.
  intros T D E1 E2 A. destruct o as [p|]; cbn [opt option_map] in *.
  - split; [eapply w_u64; try eassumption; now apply A|eapply w_has; eassumption].
  - intros p ((y & H & _) & _). eapply w_none; [exact T|exact D|exact E1|exact H].
Qed.

Lemma user_notice_written (x : user_notice str) :
  able (KUserNotice x) -> user_notice_of (view_of (line (KUserNotice x))) x.
Proof.
  destruct x as [ch cid se tx sm ev id bg em co mid ts]. unfold able.
  cbn [un_badges un_color un_system_message un_timestamp un_sender un_event_id un_event].
  intros (B & F1 & F2 & TS & S & E).
  assert (ND : forall t, (let v := view_of (line (KUserNotice (mk_user_notice ch cid se tx sm ev id bg em co mid ts))) in
     v_tags v = written t -> distinct (map fst t) = true ->
     row "user-id" t = Some (match se with Some u => u_id u | None => b "274598607" end) ->
     (from_anonymous_account v <-> match se with Some u => u_id u = b "274598607" | None => True end))).
  { intros t v T D R. split.
    - intros H. pose proof (w_only t v T D _ _ _ R H) as Q. destruct se; [now symmetry|trivial].
    - intros H. apply (w_has t v T D). rewrite R. destruct se; [now rewrite H|reflexivity]. }
  unfold user_notice_of.
  cbn [un_channel un_channel_id un_sender un_text un_system_message un_event un_event_id un_badges un_emotes un_color un_message_id un_timestamp].
  assert (G : forall t, let v := view_of (line (KUserNotice (mk_user_notice ch cid se tx sm ev id bg em co mid ts))) in
     v_tags v = written t -> distinct (map fst t) = true ->
     (match se with Some u => row "user-id" t = Some (u_id u) /\ row "login" t = Some (u_login u) /\
        row "display-name" t = Some (u_name u) | None => row "user-id" t = Some (b "274598607") end) ->
     match se with
     | None => anonymous v id
     | Some u => ~ anonymous v id /\ user_of v "user-id" "login" "display-name" u
     end).
  { intros t v T D R. assert (U : row "user-id" t = Some (match se with Some u => u_id u | None => b "274598607" end))
      by (destruct se; tauto).
    pose proof (ND t T D U) as FA. fold v in FA. destruct se as [u|].
    - destruct S as [S1 S2]. destruct R as (R1 & R2 & R3). split.
      + intros [K|[[K1 K2]|K]].
        * apply S1. now left.
        * apply FA in K2. now apply S2.
        * apply S1. now right.
      + split; [|split]; eapply w_has; eassumption.
    - unfold anonymous. destruct S as [[S|S]|S]; [now left|now right; right|].
      right. left. split; [exact S|]. now apply FA. }
  split; [reflexivity|].
  destruct se as [u|]; destruct ev as [rs mo sk pl pn|n url|mo u' pl pn gi|n to pl|n pl|lo na pr|pr|na|n|cl|];
    cbn [event_able] in E; tabled;
    (split; [by_row D|]; split; [apply (G T eq_refl D); repeat split; reflexivity|];
     split; [now apply opt_colon_text|];
     split; [eapply w_filled; [reflexivity|exact D|reflexivity|exact F2]|];
     split; [|split; [by_row D|]; split;
       [eapply w_badges; [reflexivity|exact D|reflexivity|reflexivity|exact B]|];
       split; [by_row D|]; split; [eapply w_filled; [reflexivity|exact D|reflexivity|exact F1]|];
       split; [by_row D|]; eapply w_time; [reflexivity|exact D|reflexivity|exact TS]]);
    cbn [event_of]; repeat match goal with K : _ /\ _ |- _ => destruct K end;
    repeat match goal with
      | |- _ /\ _ => split
      | |- user_of _ _ _ _ _ => unfold user_of
      | |- has_or _ _ _ _ => by_row D
      | |- has _ _ _ => by_row D
      | |- opt (promo_of _) _ => eapply promo_written; [reflexivity|exact D|reflexivity|reflexivity|assumption]
      | |- has_u64 _ _ _ => eapply w_u64; [reflexivity|exact D|reflexivity|assumption]
      end; try assumption; try discriminate; try tauto.
  all: try match goal with |- opt _ ?o => destruct o as [k|]; cbn [opt];
      [match goal with K : forall n, Some _ = Some n -> _ |- _ => destruct (K _ eq_refl) end;
       split; [eapply w_u64; [reflexivity|exact D|reflexivity|assumption]|assumption]
      |intros k [(y & H' & _) _]; absent D H'] end.
  - intros K. apply (ND T eq_refl D eq_refl) in K. subst id.
    match goal with N : gift_id _ -> _ |- _ => apply N; [|exact K] end. right. now left.
  - match goal with K' : _ \/ _ |- _ => destruct K' as [K|[_ K]]; [now left|discriminate] end.
  - match goal with K' : _ \/ _ |- _ => destruct K' as [K|[K _]]; [now left|right] end.
    split; [exact K|]. now apply (ND T eq_refl D eq_refl).
Qed.

(** ** Written lines parse *)

Lemma parsed_render (bd : build) (m : message) :
  wf_message m -> utf8_valid (render m) = true -> below_4gib (render m) ->
  length (m_tags m) <= 128 -> Forall short_tag (m_tags m) ->
  exists r, parsed bd (render m) (view_of m) r.
Proof.
  intros W U S L F. destruct (p_c09_parse_render bd m W U S L F) as (r & c & E & _).
  exists r. pose proof (render_view m W) as V. split; auto.
  apply all_short_spec. apply view_inv in V as (s1 & s2 & rest & ET & _). now rewrite ET.
Qed.

Lemma line_length (c : content) : length (m_tags (line c)) <= 128.
Proof.
  destruct c; cbn [line]; unfold line_with; cbn [m_tags]; (eapply Nat.le_trans; [apply written_length|]);
    rewrite ?app_length; cbn [length badge_rows reply_rows pinned_rows]; try lia.
  - destruct (cc_action x); cbn [length]; lia.
  - destruct (un_sender x), (un_event x); cbn [sender_rows event_rows promo_rows length app]; lia.
Qed.
