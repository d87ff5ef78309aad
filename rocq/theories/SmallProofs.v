(** * SmallProofs: channel names, joined display, bypass, credentials
    (C42, C57, C58, C61). *)

From Verif Require Import Base Wide Tags Irc SpecIrc MsgBase MsgTypes SpecMsg Common Client SpecClient.
From Coq Require Import Lia.
From Verif Require Import BaseFacts.

(** ** C42 *)

Lemma starts_hash (s : str) : starts_with (b "#") s = true <-> starts "#" s.
Proof. rewrite starts_with_true. reflexivity. Qed.

(** C42. [parse] accepts exactly the texts starting with [#], unchanged. *)
Lemma p_c42_parse :
  forall s : str,
    (forall c, channel_ref_parse s = Some c <-> starts "#" s /\ ref_as_str c = s) /\
    (forall c, channel_parse_owned s = Some c <-> starts "#" s /\ chan_as_str c = s) /\
    (~ starts "#" s -> channel_ref_parse s = None /\ channel_parse_owned s = None).
Proof.
  intros s. pose proof (starts_hash s) as H. unfold channel_ref_parse, channel_parse_owned, ref_from_unchecked.
  destruct (starts_with (b "#") s).
  - destruct H as [H _]. specialize (H eq_refl). split; [|split].
    + intros [x]. cbn. split; [intros [= ->]; auto|]. now intros [_ ->].
    + intros [x]. cbn. split; [intros [= ->]; auto|]. now intros [_ ->].
    + intros N. contradiction.
  - destruct H as [_ H]. split; [|split]; [| |auto].
    + intros c. split; [discriminate|]. intros [K _]. now apply H in K.
    + intros c. split; [discriminate|]. intros [K _]. now apply H in K.
Qed.

(** C42. Converting and serialising keep the text; the two types accept and give
    the same. *)
Lemma p_c42_conversions :
  (forall c, chan_as_str (channel_to_owned c) = ref_as_str c) /\
  (forall c, ref_as_str (channel_as_ref c) = chan_as_str c) /\
  (forall c, channel_as_ref (channel_to_owned c) = c) /\
  (forall c, channel_to_owned (channel_as_ref c) = c) /\
  (forall s c, channel_ref_parse s = Some c -> channel_parse_owned s = Some (channel_to_owned c)) /\
  (forall c, channel_ref_serialize c = ref_as_str c /\ channel_serialize (channel_to_owned c) = ref_as_str c).
Proof.
  repeat split; try (intros []; reflexivity).
  intros s c. unfold channel_ref_parse, channel_parse_owned, ref_from_unchecked.
  destruct (starts_with (b "#") s); [|discriminate]. now intros [= <-].
Qed.

(** C42. Every channel name a program can get starts with [#]. *)
Lemma p_c42_always_hash :
  (forall c, made_ref c -> starts "#" (ref_as_str c)) /\ (forall c, made c -> starts "#" (chan_as_str c)).
Proof.
  assert (A : forall s c, channel_ref_parse s = Some c -> starts "#" (ref_as_str c)).
  { intros s c H. destruct (p_c42_parse s) as [P _]. apply P in H as [H1 H2]. now rewrite H2. }
  assert (B : forall s c, channel_parse_owned s = Some c -> starts "#" (chan_as_str c)).
  { intros s c H. destruct (p_c42_parse s) as [_ [P _]]. apply P in H as [H1 H2]. now rewrite H2. }
  assert (T : forall c, made_ref c -> starts "#" (ref_as_str c)).
  { apply (made_ref_ind2 (fun c _ => starts "#" (ref_as_str c)) (fun c _ => starts "#" (chan_as_str c))).
    - exact A.
    - intros o c H. unfold channel_ref_deserialize in H. destruct (de_borrowed_str o); [|discriminate]. eapply A, H.
    - intros [s] M H. exact H.
    - exact B.
    - intros o c H. unfold channel_deserialize in H. destruct (de_string o); [|discriminate]. eapply B, H.
    - intros [s] M H. exact H. }
  split; [exact T|]. intros c []; [eapply B; eassumption| |].
  - unfold channel_deserialize in H. destruct (de_string o); [|discriminate]. eapply B, H.
  - destruct c. now apply T in H.
Qed.

(** C42. Deserialising accepts exactly the texts starting with [#] (a [ChannelRef]
    only from a slice of the input), and gives back what was serialised. *)
Lemma p_c42_serde :
  (forall o c, channel_deserialize o = Some c <-> starts "#" (offered_text o) /\ chan_as_str c = offered_text o) /\
  (forall o c, channel_ref_deserialize o = Some c <->
     (exists s, o = Slice s) /\ starts "#" (offered_text o) /\ ref_as_str c = offered_text o) /\
  (forall c o, made c -> offered_text o = channel_serialize c -> channel_deserialize o = Some c) /\
  (forall c, made_ref c -> channel_ref_deserialize (Slice (channel_ref_serialize c)) = Some c).
Proof.
  assert (D : forall o c, channel_deserialize o = Some c <-> starts "#" (offered_text o) /\ chan_as_str c = offered_text o).
  { intros [s|s] c; apply p_c42_parse. }
  split; [exact D|]. split; [|split].
  - intros [s|s] c; cbn.
    + destruct (p_c42_parse s) as [P _]. rewrite P. split; [eauto|tauto].
    + split; [discriminate|]. now intros [[x E] _].
  - intros c o M E. apply D. split; rewrite E; [now apply p_c42_always_hash|reflexivity].
  - intros c M. cbn. apply p_c42_parse. split; [now apply p_c42_always_hash|reflexivity].
Qed.

(** C42. That a [ChannelRef] can be read back from every serialised form is false: not
    from a copied text. *)
Lemma p_c42_ref_from_copy_refuted :
  exists c o, made_ref c /\ offered_text o = channel_ref_serialize c /\ channel_ref_deserialize o = None.
Proof.
  exists (ChannelRef (b "#a")), (Copied (b "#a")). split; [|split; reflexivity].
  apply (mr_parse (b "#a")). reflexivity.
Qed.

Example ex_c42 :
  made (Channel (b "#forsen")) /\ channel_deserialize (Copied (b "#forsen")) = Some (Channel (b "#forsen")) /\
  channel_ref_parse (b "forsen") = None.
Proof. split; [|split; reflexivity]. apply (md_parse (b "#forsen")). reflexivity. Qed.

(** ** C61 *)

Lemma join_loop_free (sep : str) (items : list str) : forall out,
  join_loop sep items (mk_sink out None) = (mk_sink (out ++ interleave sep items) None, true).
Proof.
  induction items as [|x items IH]; intros out; cbn [join_loop interleave].
  - now rewrite app_nil_r.
  - cbn [write_str sk_room sk_out]. destruct items as [|y items].
    + reflexivity.
    + rewrite IH. now rewrite <- !app_assoc.
Qed.

(** C61. The items, the separator between them, after what was written before; a
    second display fails and writes nothing. *)
Lemma p_c61_display :
  forall (items : list str) (sep out : str),
  exists j, join_fmt (join_new items sep) (mk_sink out None) =
              (j, mk_sink (out ++ interleave sep items) None, true) /\
    forall f, join_fmt j f = (j, f, false).
Proof.
  intros items sep out. exists (mk_join None sep). unfold join_fmt, join_new. cbn [jn_iter jn_sep].
  rewrite join_loop_free. split; reflexivity.
Qed.

Lemma join_loop_room (sep : str) (items : list str) : forall out n,
  if length (interleave sep items) <=? n
  then join_loop sep items (mk_sink out (Some n)) =
       (mk_sink (out ++ interleave sep items) (Some (n - length (interleave sep items))), true)
  else exists p q m, join_loop sep items (mk_sink out (Some n)) = (mk_sink (out ++ p) m, false) /\
         interleave sep items = p ++ q /\ q <> [].
Proof.
  induction items as [|x items IH]; intros out n.
  - cbn. now rewrite app_nil_r, Nat.sub_0_r.
  - destruct items as [|y items].
    + cbn [join_loop interleave write_str sk_room sk_out]. destruct (length x <=? n) eqn:E; [reflexivity|].
      exists [], x, (Some n). rewrite app_nil_r. split; [reflexivity|]. split; [reflexivity|]. destruct x; [|discriminate].
      discriminate E.
    + change (join_loop sep (x :: y :: items) (mk_sink out (Some n))) with
        (let '(f, ok) := write_str (mk_sink out (Some n)) x in
         if ok then let '(f, ok) := write_str f sep in if ok then join_loop sep (y :: items) f else (f, false)
         else (f, false)).
      change (interleave sep (x :: y :: items)) with (x ++ sep ++ interleave sep (y :: items)).
      cbn [write_str sk_room sk_out].
      destruct (length x <=? n) eqn:E1.
      2: { replace (length (x ++ sep ++ interleave sep (y :: items)) <=? n) with false.
           2: { rewrite app_length. symmetry. apply Nat.leb_gt. apply Nat.leb_gt in E1. lia. }
           exists [], (x ++ sep ++ interleave sep (y :: items)), (Some n). rewrite app_nil_r.
           split; [reflexivity|]. split; [reflexivity|]. destruct x; discriminate. }
      apply Nat.leb_le in E1. cbn [write_str sk_room sk_out].
      destruct (length sep <=? n - length x) eqn:E2.
      2: { apply Nat.leb_gt in E2. replace (length (x ++ sep ++ interleave sep (y :: items)) <=? n) with false.
           2: { rewrite !app_length. symmetry. apply Nat.leb_gt. lia. }
           exists x, (sep ++ interleave sep (y :: items)), (Some (n - length x)).
           split; [reflexivity|]. split; [reflexivity|]. destruct sep; [cbn in E2; lia|discriminate]. }
      apply Nat.leb_le in E2. specialize (IH ((out ++ x) ++ sep) (n - length x - length sep)).
      rewrite !app_length.
      replace (length x + (length sep + length (interleave sep (y :: items))) <=? n)
        with (length (interleave sep (y :: items)) <=? n - length x - length sep).
      2: { apply eq_iff_eq_true. rewrite !Nat.leb_le. lia. }
      destruct (_ <=? _).
      * rewrite IH. rewrite <- !app_assoc. do 3 f_equal. lia.
      * destruct IH as (p & q & m & -> & -> & Q). exists (x ++ sep ++ p), q, m. rewrite <- !app_assoc. auto.
Qed.

(** C61. Into a buffer of limited size: all of it, if it fits; otherwise an error, with
    a proper initial part written. *)
Lemma p_c61_limited :
  forall (items : list str) (sep out : str) (n : nat),
    (length (interleave sep items) <= n ->
     exists j m, join_fmt (join_new items sep) (mk_sink out (Some n)) =
       (j, mk_sink (out ++ interleave sep items) m, true)) /\
    (n < length (interleave sep items) ->
     exists j p q m, join_fmt (join_new items sep) (mk_sink out (Some n)) = (j, mk_sink (out ++ p) m, false) /\
       interleave sep items = p ++ q /\ q <> []).
Proof.
  intros items sep out n. pose proof (join_loop_room sep items out n) as H.
  unfold join_fmt, join_new. cbn [jn_iter jn_sep]. split; intros L.
  - rewrite (proj2 (Nat.leb_le _ _) L) in H. rewrite H. eauto.
  - rewrite (proj2 (Nat.leb_gt _ _) L) in H. destruct H as (p & q & m & -> & E & Q). repeat eexists; eauto.
Qed.

Example ex_c61 :
  exists j, join_fmt (join_new [b "a"; b "b"; b "c"] (b ", ")) (mk_sink (b "> ") None) =
    (j, mk_sink (b "> a, b, c") None, true) /\ join_fmt j (mk_sink [] None) = (j, mk_sink [] None, false).
Proof. eexists. split; reflexivity. Qed.

(** ** C57 *)

(** C57. The values alternate, starting with the empty one. *)
Lemma p_c57_alternates :
  forall n i, i < n ->
    nth_error (gets n bypass_default) i = Some (if Nat.even i then [] else invisible).
Proof.
  assert (H : forall n i st, i < n ->
    nth_error (gets n st) i = Some (if Bool.eqb (Nat.even i) st then invisible else [])).
  { induction n as [|n IH]; intros i st L; [lia|]. cbn [gets bypass_get].
    destruct i as [|i]; [now destruct st|]. cbn [nth_error]. rewrite IH by lia.
    rewrite Nat.even_succ, <- Nat.negb_even. now destruct (Nat.even i), st. }
  intros n i L. rewrite H by assumption. now destruct (Nat.even i).
Qed.

(** C57. Two successive messages with the same text differ, from any state; the state
    after two is the one before. *)
Lemma p_c57_consecutive_differ :
  forall (st st1 st2 : bool) (o1 o2 text : str),
    bypass_get st = (st1, o1) -> bypass_get st1 = (st2, o2) ->
    text ++ o1 <> text ++ o2 /\ st2 = st /\ (o1 = [] /\ o2 = invisible \/ o1 = invisible /\ o2 = []).
Proof.
  intros st st1 st2 o1 o2 text H1 H2. unfold bypass_get in *. injection H1 as <- <-. injection H2 as <- <-.
  destruct st; cbn [negb]; (split; [intros E; apply app_inv_head in E; discriminate|]); auto.
Qed.

Example ex_c57 : gets 3 bypass_default = [[]; b " " ++ [xe2; xa0; x80]; []].
Proof. reflexivity. Qed.

(** ** C58 *)

Definition step (acc : N) (c : byte) : N := (10 * acc + (Byte.to_N c - 48))%N.

Lemma show_acc (u : Decimal.uint) : forall p, N.pos (Pos.of_uint_acc u p) = fold_left step (show_uint u) (N.pos p).
Proof.
  induction u as [|u IH|u IH|u IH|u IH|u IH|u IH|u IH|u IH|u IH|u IH]; intros p; [reflexivity|..];
    cbn [Pos.of_uint_acc show_uint fold_left]; rewrite IH; f_equal; unfold step; cbn [Byte.to_N]; lia.
Qed.

Lemma show_value (u : Decimal.uint) : N.of_uint u = value (show_uint u).
Proof.
  unfold N.of_uint, value. change (fun acc c => (10 * acc + (Byte.to_N c - 48))%N) with step.
  induction u as [|u IH|u IH|u IH|u IH|u IH|u IH|u IH|u IH|u IH|u IH]; [reflexivity|exact IH|..];
    cbn [Pos.of_uint show_uint fold_left]; apply show_acc.
Qed.

Lemma show_digits (u : Decimal.uint) : Forall is_digit (show_uint u).
Proof. induction u; cbn [show_uint]; constructor; auto; unfold is_digit; cbn; lia. Qed.

From Coq Require Import DecimalN.

Fixpoint five_digits (fuel : nat) (n : N) : bool :=
  match fuel with
  | 0 => true
  | S f => (length (show_N n) =? 5) && five_digits f (n + 1)
  end.

Lemma five_digits_spec (fuel : nat) : forall n m, five_digits fuel n = true ->
  (n <= m < n + N.of_nat fuel)%N -> length (show_N m) = 5.
Proof.
  induction fuel as [|f IH]; intros n m H L; [lia|]. cbn [five_digits] in H. apply andb_prop in H as [H1 H2].
  destruct (N.eq_dec n m) as [->|N]; [now apply Nat.eqb_eq|]. apply (IH (n + 1)%N); auto. lia.
Qed.

Lemma anon_digits (n : N) : in_anon_range n -> length (show_N n) = 5.
Proof.
  intros R. apply (five_digits_spec (N.to_nat 89999) 10000).
  - vm_compute. reflexivity.
  - unfold in_anon_range in R. rewrite N2Nat.id. lia.
Qed.

(** C58. Anonymous credentials: [justinfan] and the five digits of the number drawn, no
    token. *)
Lemma p_c58_anon :
  forall n : N, in_anon_range n ->
  exists ds, login (credentials_anon n) = b "justinfan" ++ ds /\ length ds = 5 /\ numeral ds n /\
    token (credentials_anon n) = None.
Proof.
  intros n R. pose proof (anon_digits n R) as L. exists (show_N n). split; [reflexivity|].
  split; [exact L|]. split; [|reflexivity].
  split; [now destruct (show_N n)|]. split; [apply show_digits|]. unfold show_N. rewrite <- show_value.
  now rewrite Unsigned.of_to.
Qed.

(** C58. Anonymous exactly without token. *)
Lemma p_c58_is_anon :
  (forall c, is_anon c = true <-> token c = None) /\
  (forall n, is_anon (credentials_anon n) = true) /\
  (forall l t, is_anon (credentials_new l t) = false /\ token (credentials_new l t) = Some t /\
     login (credentials_new l t) = l).
Proof.
  split; [|split; [reflexivity|repeat split]]. intros [l [t|]]; cbn; split; congruence.
Qed.

(** C58. The debug output says nothing about the token: credentials with the same login
    print the same. *)
Lemma p_c58_debug_hides_token :
  forall (dbg : str -> str) (c1 c2 : credentials),
    login c1 = login c2 -> credentials_debug dbg c1 = credentials_debug dbg c2.
Proof. intros dbg [l1 t1] [l2 t2]; cbn. now intros ->. Qed.

Example ex_c58 :
  in_anon_range 11824 /\ login (credentials_anon 11824) = b "justinfan11824" /\
  is_anon (credentials_new (b "forsen") (b "oauth:x")) = false.
Proof. split; [unfold in_anon_range; lia|]. split; reflexivity. Qed.
