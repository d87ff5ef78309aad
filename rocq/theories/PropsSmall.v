(** * PropsSmall: property theorems (generated from SmallProofs.v by tools/gen_props.py).

    Only statements; each is closed by the lemma of the same name. *)

From Verif Require Import Base Wide Tags Irc SpecIrc MsgBase MsgTypes SpecMsg Common Client SpecClient SmallProofs.

(** C42. [parse] accepts exactly the texts starting with [#], unchanged. *)
Theorem c42_parse :
  forall s : str,
    (forall c, channel_ref_parse s = Some c <-> starts "#" s /\ ref_as_str c = s) /\
    (forall c, channel_parse_owned s = Some c <-> starts "#" s /\ chan_as_str c = s) /\
    (~ starts "#" s -> channel_ref_parse s = None /\ channel_parse_owned s = None).
Proof. exact p_c42_parse. Qed.
Print Assumptions c42_parse.

(** C42. Converting and serialising keep the text; the two types accept and give
    the same. *)
Theorem c42_conversions :
  (forall c, chan_as_str (channel_to_owned c) = ref_as_str c) /\
  (forall c, ref_as_str (channel_as_ref c) = chan_as_str c) /\
  (forall c, channel_as_ref (channel_to_owned c) = c) /\
  (forall c, channel_to_owned (channel_as_ref c) = c) /\
  (forall s c, channel_ref_parse s = Some c -> channel_parse_owned s = Some (channel_to_owned c)) /\
  (forall c, channel_ref_serialize c = ref_as_str c /\ channel_serialize (channel_to_owned c) = ref_as_str c).
Proof. exact p_c42_conversions. Qed.
Print Assumptions c42_conversions.

(** C42. Every channel name a program can get starts with [#]. *)
Theorem c42_always_hash :
  (forall c, made_ref c -> starts "#" (ref_as_str c)) /\ (forall c, made c -> starts "#" (chan_as_str c)).
Proof. exact p_c42_always_hash. Qed.
Print Assumptions c42_always_hash.

(** C42. Deserialising accepts exactly the texts starting with [#] (a [ChannelRef]
    only from a slice of the input), and gives back what was serialised. *)
Theorem c42_serde :
  (forall o c, channel_deserialize o = Some c <-> starts "#" (offered_text o) /\ chan_as_str c = offered_text o) /\
  (forall o c, channel_ref_deserialize o = Some c <->
     (exists s, o = Slice s) /\ starts "#" (offered_text o) /\ ref_as_str c = offered_text o) /\
  (forall c o, made c -> offered_text o = channel_serialize c -> channel_deserialize o = Some c) /\
  (forall c, made_ref c -> channel_ref_deserialize (Slice (channel_ref_serialize c)) = Some c).
Proof. exact p_c42_serde. Qed.
Print Assumptions c42_serde.

(** C42. That a [ChannelRef] can be read back from every serialised form is false: not
    from a copied text. *)
Theorem c42_ref_from_copy_refuted :
  exists c o, made_ref c /\ offered_text o = channel_ref_serialize c /\ channel_ref_deserialize o = None.
Proof. exact p_c42_ref_from_copy_refuted. Qed.
Print Assumptions c42_ref_from_copy_refuted.

Example example_c42 :
  made (Channel (b "#forsen")) /\ channel_deserialize (Copied (b "#forsen")) = Some (Channel (b "#forsen")) /\
  channel_ref_parse (b "forsen") = None.
Proof. exact ex_c42. Qed.

(** C61. The items, the separator between them, after what was written before; a
    second display fails and writes nothing. *)
Theorem c61_display :
  forall (items : list str) (sep out : str),
  exists j, join_fmt (join_new items sep) (mk_sink out None) =
              (j, mk_sink (out ++ interleave sep items) None, true) /\
    forall f, join_fmt j f = (j, f, false).
Proof. exact p_c61_display. Qed.
Print Assumptions c61_display.

(** C61. Into a buffer of limited size: all of it, if it fits; otherwise an error, with
    a proper initial part written. *)
Theorem c61_limited :
  forall (items : list str) (sep out : str) (n : nat),
    (length (interleave sep items) <= n ->
     exists j m, join_fmt (join_new items sep) (mk_sink out (Some n)) =
       (j, mk_sink (out ++ interleave sep items) m, true)) /\
    (n < length (interleave sep items) ->
     exists j p q m, join_fmt (join_new items sep) (mk_sink out (Some n)) = (j, mk_sink (out ++ p) m, false) /\
       interleave sep items = p ++ q /\ q <> []).
Proof. exact p_c61_limited. Qed.
Print Assumptions c61_limited.

Example example_c61 :
  exists j, join_fmt (join_new [b "a"; b "b"; b "c"] (b ", ")) (mk_sink (b "> ") None) =
    (j, mk_sink (b "> a, b, c") None, true) /\ join_fmt j (mk_sink [] None) = (j, mk_sink [] None, false).
Proof. exact ex_c61. Qed.

(** C57. The values alternate, starting with the empty one. *)
Theorem c57_alternates :
  forall n i, i < n ->
    nth_error (gets n bypass_default) i = Some (if Nat.even i then [] else invisible).
Proof. exact p_c57_alternates. Qed.
Print Assumptions c57_alternates.

(** C57. Two successive messages with the same text differ, from any state; the state
    after two is the one before. *)
Theorem c57_consecutive_differ :
  forall (st st1 st2 : bool) (o1 o2 text : str),
    bypass_get st = (st1, o1) -> bypass_get st1 = (st2, o2) ->
    text ++ o1 <> text ++ o2 /\ st2 = st /\ (o1 = [] /\ o2 = invisible \/ o1 = invisible /\ o2 = []).
Proof. exact p_c57_consecutive_differ. Qed.
Print Assumptions c57_consecutive_differ.

Example example_c57 : gets 3 bypass_default = [[]; b " " ++ [xe2; xa0; x80]; []].
Proof. exact ex_c57. Qed.

(** C58. Anonymous credentials: [justinfan] and the five digits of the number drawn, no
    token. *)
Theorem c58_anon :
  forall n : N, in_anon_range n ->
  exists ds, login (credentials_anon n) = b "justinfan" ++ ds /\ length ds = 5 /\ numeral ds n /\
    token (credentials_anon n) = None.
Proof. exact p_c58_anon. Qed.
Print Assumptions c58_anon.

(** C58. Anonymous exactly without token. *)
Theorem c58_is_anon :
  (forall c, is_anon c = true <-> token c = None) /\
  (forall n, is_anon (credentials_anon n) = true) /\
  (forall l t, is_anon (credentials_new l t) = false /\ token (credentials_new l t) = Some t /\
     login (credentials_new l t) = l).
Proof. exact p_c58_is_anon. Qed.
Print Assumptions c58_is_anon.

(** C58. The debug output says nothing about the token: credentials with the same login
    print the same. *)
Theorem c58_debug_hides_token :
  forall (dbg : str -> str) (c1 c2 : credentials),
    login c1 = login c2 -> credentials_debug dbg c1 = credentials_debug dbg c2.
Proof. exact p_c58_debug_hides_token. Qed.
Print Assumptions c58_debug_hides_token.

Example example_c58 :
  in_anon_range 11824 /\ login (credentials_anon 11824) = b "justinfan11824" /\
  is_anon (credentials_new (b "forsen") (b "oauth:x")) = false.
Proof. exact ex_c58. Qed.
