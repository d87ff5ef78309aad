(** * PropsAccess: property theorems (generated from AccessProofs.v by tools/gen_props.py).

    Only statements; each is closed by the lemma of the same name. *)

From Verif Require Import Base Wide Tags Irc SpecIrc Samples AccessProofs.

(** C11. The three usual prefix forms are read exactly, and printing the prefix
    gives the source text back. *)
Theorem c11_prefix_read_and_printed :
  forall (bd : build) (s s1 rest : str) (p : sender) (m : msg_ref),
    utf8_valid s = true -> below_4gib s -> ref_parse bd s = Ret (Some m) ->
    removed "@" s s1 -> s1 = b ":" ++ render_sender p ++ b " " ++ rest -> wf_sender p ->
    ref_prefix m = Ret (Some (sender_prefix p)) /\
    prefix_display (sender_prefix p) = render_sender p.
Proof. exact p_c11_prefix_read_and_printed. Qed.
Print Assumptions c11_prefix_read_and_printed.

(** C11. A user comes with a nick, whatever the line. *)
Theorem c11_user_needs_nick :
  forall (bd : build) (s : str) (m : msg_ref) (p : prefix),
    utf8_valid s = true -> below_4gib s -> ref_parse bd s = Ret (Some m) ->
    ref_prefix m = Ret (Some p) -> user p <> None -> nick p <> None.
Proof. exact p_c11_user_needs_nick. Qed.
Print Assumptions c11_user_needs_nick.

(** C11. A prefix is recognised exactly when [':'] opens the line (after the
    tags) and a space follows. *)
Theorem c11_prefix_recognised_iff :
  forall (bd : build) (s s1 : str) (m : msg_ref),
    utf8_valid s = true -> below_4gib s -> ref_parse bd s = Ret (Some m) -> removed "@" s s1 ->
    (ref_prefix m <> Ret None <-> exists r, s1 = b ":" ++ r /\ In " "%byte r).
Proof. exact p_c11_prefix_recognised_iff. Qed.
Print Assumptions c11_prefix_recognised_iff.

(** C11. Printing a prefix does not always give the source text back: a prefix
    with ['!'] and no ['@'] prints with the nick doubled. *)
Theorem c11_print_any_prefix_refuted :
  exists (s : str) (m : msg_ref) (p : prefix),
    utf8_valid s = true /\ ref_parse Scalar s = Ret (Some m) /\ ref_prefix m = Ret (Some p) /\
    s = b ":a!b PING" /\ prefix_display p = b "a@a!b".
Proof. exact p_c11_print_any_prefix_refuted. Qed.
Print Assumptions c11_print_any_prefix_refuted.

Example example_c11 :
  removed "@" sample (b ":nick!user@host.tmi.twitch.tv PRIVMSG #channel :hello there") /\
  wf_sender (SFull (b "nick") (b "user") (b "host.tmi.twitch.tv")) /\
  exists m, ref_parse (Simd Sse2 0) sample = Ret (Some m) /\
    ref_prefix m = Ret (Some (mk_prefix (Some (b "nick")) (Some (b "user")) (b "host.tmi.twitch.tv"))).
Proof. exact ex_c11. Qed.

(** C12. The command is the command word of the line, and is a named variant
    exactly when the word is that variant's name. *)
Theorem c12_command_exact :
  forall (bd : build) (s w rest : str) (m : msg_ref),
    utf8_valid s = true -> below_4gib s -> ref_parse bd s = Ret (Some m) ->
    command_and_rest s w rest ->
    exists c, ref_command m = Ret c /\ command_as_str c = w /\
      (forall name k, In (name, k) known_commands -> (c = k <-> w = name)) /\
      (forall x, c = Other x -> x = w /\ x <> [] /\ ~ In " "%byte x /\
         forall name k, In (name, k) known_commands -> x <> name).
Proof. exact p_c12_command_exact. Qed.
Print Assumptions c12_command_exact.

Example example_c12 :
  command_and_rest sample (b "PRIVMSG") (b "#channel :hello there") /\
  command_and_rest (b "Ping x") (b "Ping") (b "x") /\
  exists m, ref_parse Scalar (b "Ping x") = Ret (Some m) /\ ref_command m = Ret (Other (b "Ping")).
Proof. exact ex_c12. Qed.

(** C13. [channel()]: the word after the command if it starts with ['#']; for the
    NAMES replies a word of the params. *)
Theorem c13_channel :
  forall (bd : build) (s w rest : str) (m : msg_ref),
    utf8_valid s = true -> below_4gib s -> ref_parse bd s = Ret (Some m) ->
    command_and_rest s w rest ->
    (w <> b "353" -> w <> b "366" ->
       (starts "#" rest -> exists ch r, word_rest rest ch r /\ ref_channel m = Ret (Some ch)) /\
       (~ starts "#" rest -> ref_channel m = Ret None)) /\
    (w = b "353" \/ w = b "366" ->
       (ref_params m = Ret None -> ref_channel m = Ret None) /\
       (forall p ws, ref_params m = Ret (Some p) -> words_of (chars p) ws ->
          ref_channel m = Ret (nth_error ws (if str_eqb w (b "353") then 2 else 1)))).
Proof. exact p_c13_channel. Qed.
Print Assumptions c13_channel.

(** C13. Every text has exactly one list of words. *)
Theorem c13_words_unique : forall s : str, exists! ws, words_of (chars s) ws.
Proof. exact p_c13_words_unique. Qed.
Print Assumptions c13_words_unique.

Example example_c13 :
  exists m, ref_parse (Simd Sse2 0) (b ":h 353 nick =　#chan :a b") = Ret (Some m) /\
    ref_channel m = Ret (Some (b "#chan")) /\
    words_of (chars (b "nick =　#chan :a b")) [b "nick"; b "="; b "#chan"; b ":a"; b "b"].
Proof. exact ex_c13. Qed.

(** C14. [text()] is absent exactly without params and otherwise what follows the
    first colon of the params. *)
Theorem c14_text :
  forall (bd : build) (s : str) (m : msg_ref),
    utf8_valid s = true -> below_4gib s -> ref_parse bd s = Ret (Some m) ->
    (ref_text m = Ret None <-> ref_params m = Ret None) /\
    (forall p, ref_params m = Ret (Some p) ->
       exists t, ref_text m = Ret (Some t) /\ after_first ":" p t).
Proof. exact p_c14_text. Qed.
Print Assumptions c14_text.

(** C14. The documented reading (after the last colon) is not what happens. *)
Theorem c14_after_last_colon_refuted :
  exists (s : str) (m : msg_ref) (p t : str),
    utf8_valid s = true /\ ref_parse Scalar s = Ret (Some m) /\
    ref_params m = Ret (Some p) /\ ref_text m = Ret (Some t) /\ ~ after_last ":" p t.
Proof. exact p_c14_after_last_colon_refuted. Qed.
Print Assumptions c14_after_last_colon_refuted.

Example example_c14 :
  exists m m', ref_parse Scalar (b "PART #c") = Ret (Some m) /\ ref_text m = Ret None /\
    ref_parse Scalar (b "CAP * ACK :a :b") = Ret (Some m') /\ ref_text m' = Ret (Some (b "a :b")).
Proof. exact ex_c14. Qed.

(** C15. Owned and borrowed parsing agree, and so do all accessors except
    [text()] (any bytes, no size limits). *)
Theorem c15_owned_agrees :
  forall (bd : build) (s : str),
    match ref_parse bd s with
    | Ret (Some m) =>
      own_parse bd s = Ret (Some (ref_into_owned m)) /\
      own_as_ref (ref_into_owned m) = m /\
      own_raw (ref_into_owned m) = ref_raw m /\
      own_tags (ref_into_owned m) = ref_tags m /\
      (forall t, own_tag (ref_into_owned m) t = ref_tag m t) /\
      own_prefix (ref_into_owned m) = ref_prefix m /\
      own_command (ref_into_owned m) = ref_command m /\
      own_channel (ref_into_owned m) = ref_channel m /\
      own_params (ref_into_owned m) = ref_params m
    | Ret None => own_parse bd s = Ret None
    | Panic => own_parse bd s = Panic
    | _ => False
    end.
Proof. exact p_c15_owned_agrees. Qed.
Print Assumptions c15_owned_agrees.

(** C15. [text()]: equal without params or with a colon in them, different in
    every other case. *)
Theorem c15_text :
  forall (bd : build) (s : str) (m : msg_ref) (o : option str),
    utf8_valid s = true -> below_4gib s -> ref_parse bd s = Ret (Some m) -> ref_params m = Ret o ->
    match o with
    | None => own_text (ref_into_owned m) = Ret None /\ ref_text m = Ret None
    | Some p =>
      (In ":"%byte p -> own_text (ref_into_owned m) = ref_text m /\ exists t, ref_text m = Ret (Some t)) /\
      (~ In ":"%byte p -> own_text (ref_into_owned m) = Ret None /\ ref_text m = Ret (Some p))
    end.
Proof. exact p_c15_text. Qed.
Print Assumptions c15_text.

Example example_c15 :
  exists m, ref_parse (Simd Sse2 9) (b "NOTICE #c hi") = Ret (Some m) /\
    ref_params m = Ret (Some (b "hi")) /\ ref_text m = Ret (Some (b "hi")) /\
    own_text (ref_into_owned m) = Ret None.
Proof. exact ex_c15. Qed.

(** C16. [tag(t)] is the raw value of the first tag whose key is the name of
    [t]. *)
Theorem c16_tag_is_first_match :
  forall (bd : build) (s : str) (m : msg_ref) (l : list (str * str)) (t : tag_name) (o : option str),
    utf8_valid s = true -> below_4gib s -> all_short s -> ref_parse bd s = Ret (Some m) ->
    ref_tags m = Ret l -> first_tag (tag_as_str t) l o ->
    ref_tag m t = Ret o /\ own_tag (ref_into_owned m) t = Ret o.
Proof. exact p_c16_tag_is_first_match. Qed.
Print Assumptions c16_tag_is_first_match.

(** C16. For any key and any tags there is exactly one first match. *)
Theorem c16_first_match_unique :
  forall (k : str) (l : list (str * str)), exists! o, first_tag k l o.
Proof. exact p_c16_first_match_unique. Qed.
Print Assumptions c16_first_match_unique.

(** C16. The string name of a variant is the kebab case of its identifier, with
    four listed exceptions; [Unknown] is its own name, and one variant has the name
    of another. *)
Theorem c16_tag_names :
  Forall (fun nt => tag_as_str (snd nt) = kebab (b (fst nt))) kebab_variants /\
  Forall (fun nt => tag_as_str (snd nt) = b (fst nt)) special_variants /\
  (forall x, tag_as_str (TUnknown x) = x) /\
  (forall t, In t (map snd kebab_variants) \/ In t (map snd special_variants) \/
             (exists x, t = TUnknown x) \/ t = TPinnedChatPaidCanonicalAmount) /\
  tag_as_str TPinnedChatPaidCanonicalAmount = b "pinned-chat-paid-amount".
Proof. exact p_c16_tag_names. Qed.
Print Assumptions c16_tag_names.

Example example_c16 :
  exists m, ref_parse (Simd Neon 2) (b "@id=1;color=a\sb;id=2 PING") = Ret (Some m) /\
    ref_tag m TId = Ret (Some (b "1")) /\ ref_tag m TColor = Ret (Some (b "a\sb")) /\
    ref_tag m TMod = Ret None /\
    first_tag (b "id") [(b "id", b "1"); (b "color", b "a\sb"); (b "id", b "2")] (Some (b "1")).
Proof. exact ex_c16. Qed.

(** C17. Looking a tag up by its name, for every name but one. *)
Theorem c17_lookup_by_name :
  forall (bd : build) (s name : str) (m : msg_ref) (l : list (str * str)) (o : option str),
    utf8_valid s = true -> below_4gib s -> all_short s -> ref_parse bd s = Ret (Some m) ->
    ref_tags m = Ret l -> name <> b "pinned-chat-paid-canonical-amount" -> first_tag name l o ->
    ref_tag_str m name = Ret o /\ own_tag_str (ref_into_owned m) name = Ret o.
Proof. exact p_c17_lookup_by_name. Qed.
Print Assumptions c17_lookup_by_name.

(** C17. For the remaining name the lookup reads another tag. *)
Theorem c17_canonical_amount_refuted :
  exists (s : str) (m : msg_ref) (l : list (str * str)),
    utf8_valid s = true /\ ref_parse Scalar s = Ret (Some m) /\ ref_tags m = Ret l /\
    first_tag (b "pinned-chat-paid-canonical-amount") l (Some (b "2")) /\
    ref_tag_str m (b "pinned-chat-paid-canonical-amount") = Ret (Some (b "1")).
Proof. exact p_c17_canonical_amount_refuted. Qed.
Print Assumptions c17_canonical_amount_refuted.

(** C17. On every line it reads [pinned-chat-paid-amount]. *)
Theorem c17_canonical_amount_reads_amount :
  forall (bd : build) (s : str) (m : msg_ref) (l : list (str * str)) (o : option str),
    utf8_valid s = true -> below_4gib s -> all_short s -> ref_parse bd s = Ret (Some m) ->
    ref_tags m = Ret l -> first_tag (b "pinned-chat-paid-amount") l o ->
    ref_tag_str m (b "pinned-chat-paid-canonical-amount") = Ret o.
Proof. exact p_c17_canonical_amount_reads_amount. Qed.
Print Assumptions c17_canonical_amount_reads_amount.

Example example_c17 :
  exists m, ref_parse Scalar (b "@custom=x;emote-only=1 PING") = Ret (Some m) /\
    ref_tag_str m (b "custom") = Ret (Some (b "x")) /\ ref_tag_str m (b "emote-only") = Ret (Some (b "1")).
Proof. exact ex_c17. Qed.

(** C18. [Tag::Unknown(name)] looks up the key [name], also when a named variant
    has that name. *)
Theorem c18_unknown_matches :
  forall (bd : build) (s name : str) (m : msg_ref) (l : list (str * str)) (o : option str),
    utf8_valid s = true -> below_4gib s -> all_short s -> ref_parse bd s = Ret (Some m) ->
    ref_tags m = Ret l -> first_tag name l o ->
    ref_tag m (TUnknown name) = Ret o /\
    forall t, tag_as_str t = name -> ref_tag m t = Ret o.
Proof. exact p_c18_unknown_matches. Qed.
Print Assumptions c18_unknown_matches.

(** C18. The documentation's claim that [Unknown] does not match a named tag. *)
Theorem c18_unknown_never_matches_refuted :
  exists (s : str) (m : msg_ref),
    utf8_valid s = true /\ ref_parse Scalar s = Ret (Some m) /\
    ref_tag m (TUnknown (b "msg-id")) = Ret (Some (b "raid")) /\ ref_tag m TMsgId = Ret (Some (b "raid")).
Proof. exact p_c18_unknown_never_matches_refuted. Qed.
Print Assumptions c18_unknown_never_matches_refuted.

(** C01. In a SIMD build the tag section ends at the first space of the line, whatever
    the address: the tags are those of the text up to there, and the prefix and the
    command are those of the text after it. *)
Theorem c01_section_ends_at_first_space :
  forall (v : backend) (addr : nat) (s sec rest : str) (m : msg_ref),
    utf8_valid s = true -> below_4gib s -> has_section s sec rest ->
    ref_parse (Simd v addr) s = Ret (Some m) ->
    (all_short s -> exists l, tag_section sec l /\ ref_tags m = Ret l) /\
    (forall p t, rest = b ":" ++ p ++ b " " ++ t -> ~ In " "%byte p -> ref_prefix m = Ret (Some (spec_prefix p))) /\
    ((forall p, rest <> b ":" ++ p) \/ ~ In " "%byte rest -> ref_prefix m = Ret None) /\
    exists s2 w r c, removed ":" rest s2 /\ word_rest s2 w r /\
      ref_command m = Ret c /\ command_as_str c = w.
Proof. exact p_c01_section_ends_at_first_space. Qed.
Print Assumptions c01_section_ends_at_first_space.

Example example_c01_section :
  has_section sample (b "badge-info=;badges=premium/1;color=#8A2BE2;id=885196de-cb67-427a-baa8-82f9b0fcd05f")
    (skipn 84 sample) /\
  exists m, ref_parse (Simd Neon 5) sample = Ret (Some m) /\ exists l, ref_tags m = Ret l /\ length l = 4.
Proof. exact ex_c01_section. Qed.

(** C02. The owned parser and the accessors: for any message value, whatever its
    positions, every accessor returns or panics; no index is used unchecked. *)
Theorem c02_accessors_checked :
  (forall (bd : build) (s : str), (exists r, own_parse bd s = Ret r) \/ own_parse bd s = Panic) /\
  forall m : msg_ref,
    let checked {A : Type} (r : res A) := (exists a, r = Ret a) \/ r = Panic in
    checked (ref_tags m) /\ (forall t, checked (ref_tag m t)) /\ checked (ref_prefix m) /\
    checked (ref_command m) /\ checked (ref_channel m) /\ checked (ref_params m) /\
    checked (ref_text m) /\ checked (own_text (ref_into_owned m)).
Proof. exact p_c02_accessors_checked. Qed.
Print Assumptions c02_accessors_checked.

(** A message whose positions do not fit its text: the accessors panic. *)
Example example_c02_accessors :
  let m := mk_ref (b "é") (mk_parts [] None RPing (Some (mk_span 0 1)) (Some (mk_span 0 9))) in
  ref_channel m = Panic /\ ref_params m = Panic /\ ref_text m = Panic /\ ref_tags m = Ret [].
Proof. exact ex_c02_accessors. Qed.

(** C05. The same for the owned parser, in both builds. *)
Theorem c05_owned_panics_iff :
  forall (bd : build) (s : str),
    utf8_valid s = true -> below_4gib s ->
    (own_parse bd s = Panic <->
     (bd = Scalar /\ unterminated_tags s) \/
     exists sec rest l, has_section s sec rest /\ tag_section sec l /\ 128 < length l) /\
    (own_parse bd s <> Panic -> exists r, own_parse bd s = Ret r).
Proof. exact p_c05_owned_panics_iff. Qed.
Print Assumptions c05_owned_panics_iff.

Example example_c05_owned :
  own_parse (Simd Avx2 4) (b "@" ++ concat (repeat (b "a=1;") 129) ++ b " PING") = Panic /\
  own_parse Scalar (b "@a=1") = Panic /\ unterminated_tags (b "@a=1") /\
  own_parse (Simd Avx2 4) (b "@a=1") <> Panic.
Proof. exact ex_c05_owned. Qed.

(** C10. What the accessors return are exactly the parts of the line as the position-free
    reading [spec_view] gives them. *)
Theorem c10_accessors_view :
  forall (bd : build) (s : str) (m : msg_ref) (v : view),
    utf8_valid s = true -> below_4gib s -> ref_parse bd s = Ret (Some m) -> spec_view s = Some v ->
    (all_short s -> ref_tags m = Ret (v_tags v) /\
       forall t, ref_tag m t = Ret (lookup (tag_as_str t) (v_tags v))) /\
    ref_prefix m = Ret (v_prefix v) /\ ref_command m = Ret (spec_command (v_command v)) /\
    ref_channel m = Ret (spec_channel v) /\ ref_params m = Ret (v_params v) /\
    ref_text m = Ret (spec_text v).
Proof. exact p_c10_accessors_view. Qed.
Print Assumptions c10_accessors_view.

Example example_c10_view :
  exists v m, spec_view sample = Some v /\ ref_parse (Simd Sse2 11) sample = Ret (Some m) /\
    length (v_tags v) = 4 /\ ref_params m = Ret (Some (b ":hello there")) /\ v_params v = Some (b ":hello there").
Proof. exact ex_c10_view. Qed.
