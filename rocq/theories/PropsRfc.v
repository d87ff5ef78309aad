(** * PropsRfc: property theorems (generated from RfcProofs.v by tools/gen_props.py).

    Only statements; each is closed by the lemma of the same name. *)

From Verif Require Import Base Wide Tags Irc Unescape SpecIrc SpecText SpecRfc RfcProofs.

(** C80. A line of the grammar makes the parser panic exactly when more than 128 of its
    tags have an ['='], is rejected exactly when there is more than one space after the
    tags or after the prefix, and is read otherwise; in every build. *)
Theorem c80_outcome :
  forall (bd : build) (gaps : nat -> nat) (pad : nat) (g : grammar),
    wf_grammar g -> utf8_valid (write gaps pad g) = true -> sized (write gaps pad g) ->
    (ref_parse bd (write gaps pad g) = Panic <-> 128 < with_values g) /\
    (ref_parse bd (write gaps pad g) = Ret None <-> with_values g <= 128 /\ too_wide gaps g) /\
    ((exists m, ref_parse bd (write gaps pad g) = Ret (Some m)) <-> with_values g <= 128 /\ ~ too_wide gaps g).
Proof. exact p_c80_outcome. Qed.
Print Assumptions c80_outcome.

(** C80. What is read from a line with single spaces. *)
Theorem c80_read :
  forall (bd : build) (g : grammar),
    wf_grammar g -> utf8_valid (write single 0 g) = true -> sized (write single 0 g) -> with_values g <= 128 ->
    exists m c, ref_parse bd (write single 0 g) = Ret (Some m) /\
      ref_command m = Ret c /\ command_as_str c = g_command g /\
      (g_command g <> b "353" -> g_command g <> b "366" -> ref_channel m = Ret (channel_of (g_middles g))) /\
      ref_params m = Ret (some_params (parameters (after_channel (g_middles g)) (g_trailing g))).
Proof. exact p_c80_read. Qed.
Print Assumptions c80_read.

(** C80. The tags of a line that is read: the ones without an ['='] are merged into the
    next key, so the tags are what is meant exactly if each has an ['=']. *)
Theorem c80_tags :
  forall (bd : build) (gaps : nat -> nat) (pad : nat) (g : grammar) (m : msg_ref),
    wf_grammar g -> utf8_valid (write gaps pad g) = true -> sized (write gaps pad g) ->
    ref_parse bd (write gaps pad g) = Ret (Some m) ->
    ref_tags m = Ret (merged [] (g_tags g)) /\
    (ref_tags m = Ret (meant_tags g) <-> Forall (fun kv => snd kv <> None) (g_tags g)).
Proof. exact p_c80_tags. Qed.
Print Assumptions c80_tags.

(** C80. The prefix of a line that is read: it tells who sent it, except when there is a
    user without a host, or a user with ['!'] in it. *)
Theorem c80_prefix :
  forall (bd : build) (gaps : nat -> nat) (pad : nat) (g : grammar) (m : msg_ref),
    wf_grammar g -> utf8_valid (write gaps pad g) = true -> sized (write gaps pad g) ->
    ref_parse bd (write gaps pad g) = Ret (Some m) ->
    match g_origin g with
    | None => ref_prefix m = Ret None
    | Some o => exists p, ref_prefix m = Ret (Some p) /\ (tells p o <-> well_told o)
    end.
Proof. exact p_c80_prefix. Qed.
Print Assumptions c80_prefix.

(** C80. What is read from a line with any spaces: the channel only if there is a single
    space before it, and as parameters what is written after it, or after the command,
    less one space; spaces at the end are part of them. *)
Theorem c80_spaced :
  forall (bd : build) (gaps : nat -> nat) (pad : nat) (g : grammar) (m : msg_ref),
    wf_grammar g -> utf8_valid (write gaps pad g) = true -> sized (write gaps pad g) ->
    ref_parse bd (write gaps pad g) = Ret (Some m) ->
    exists c, ref_command m = Ret c /\ command_as_str c = g_command g /\
      (g_command g <> b "353" -> g_command g <> b "366" -> ref_channel m = Ret (channel_seen gaps g)) /\
      ref_params m = Ret (params_seen gaps pad g).
Proof. exact p_c80_spaced. Qed.
Print Assumptions c80_spaced.

(** C80. The text of a line that is read is its trailing parameter exactly when no
    parameter before it, except the channel, contains a colon; without a trailing
    parameter and without colons it is all parameters. *)
Theorem c80_text :
  forall (bd : build) (gaps : nat -> nat) (pad : nat) (g : grammar) (m : msg_ref),
    wf_grammar g -> utf8_valid (write gaps pad g) = true -> sized (write gaps pad g) ->
    ref_parse bd (write gaps pad g) = Ret (Some m) ->
    match g_trailing g with
    | Some t => exists x, ref_text m = Ret (Some x) /\
        (x = t <-> Forall (fun p => ~ In ":"%byte p) (middles_left gaps g))
    | None => Forall (fun p => ~ In ":"%byte p) (middles_left gaps g) ->
        ref_text m = Ret (params_seen gaps pad g)
    end.
Proof. exact p_c80_text. Qed.
Print Assumptions c80_text.

(** C80. A tag value whose backslashes all begin one of the five escapes, and whose text
    has no comma mark, is unescaped as IRCv3 says, by both functions. *)
Theorem c80_unescape :
  forall v : str,
    wf_value v -> proper v -> utf8_valid (ircv3 v) = true -> ~ infix comma_mark (ircv3 v) ->
    unescape v = ircv3 v /\
    exists c, maybe_unescape (Borrowed v) = Ret c /\ deref c = ircv3 v.
Proof. exact p_c80_unescape. Qed.
Print Assumptions c80_unescape.

(** C80. With another character after a backslash it is not: the backslash stays in force. *)
Theorem c80_unescape_refuted :
  exists v : str, wf_value v /\ utf8_valid v = true /\ ~ infix comma_mark v /\
    unescape v <> ircv3 v /\ forall c, maybe_unescape (Borrowed v) = Ret c -> deref c <> ircv3 v.
Proof. exact p_c80_unescape_refuted. Qed.
Print Assumptions c80_unescape_refuted.

(** C80. There are lines of the grammar, shorter than the 512 bytes of RFC 1459, that make
    the parser panic, in every build. *)
Theorem c80_total_refuted :
  exists g : grammar, wf_grammar g /\ utf8_valid (write single 0 g) = true /\
    length (write single 0 g) <= 510 /\ forall bd : build, ref_parse bd (write single 0 g) = Panic.
Proof. exact p_c80_total_refuted. Qed.
Print Assumptions c80_total_refuted.

(** C80. More spaces than one are a separator too, but a line may then be rejected, or
    lose its channel. *)
Theorem c80_spaces_refuted :
  exists (g : grammar) (gaps : nat -> nat), wf_grammar g /\ (forall i, gaps i <= 1) /\
    utf8_valid (write gaps 0 g) = true /\ forall bd : build, ref_parse bd (write gaps 0 g) = Ret None.
Proof. exact p_c80_spaces_refuted. Qed.
Print Assumptions c80_spaces_refuted.

Theorem c80_channel_refuted :
  exists (g : grammar) (gaps : nat -> nat) (ch : str), wf_grammar g /\ channel_of (g_middles g) = Some ch /\
    utf8_valid (write gaps 0 g) = true /\
    forall (bd : build) (m : msg_ref), ref_parse bd (write gaps 0 g) = Ret (Some m) -> ref_channel m = Ret None.
Proof. exact p_c80_channel_refuted. Qed.
Print Assumptions c80_channel_refuted.

(** C80. Spaces at the end are not a part of the last parameter, but are read as one. *)
Theorem c80_padding_refuted :
  exists (g : grammar) (pad : nat), wf_grammar g /\ utf8_valid (write single pad g) = true /\
    forall (bd : build) (m m' : msg_ref),
      ref_parse bd (write single 0 g) = Ret (Some m) -> ref_parse bd (write single pad g) = Ret (Some m') ->
      ref_params m = Ret (Some (b "nick")) /\ ref_params m' = Ret (Some (b "nick ")).
Proof. exact p_c80_padding_refuted. Qed.
Print Assumptions c80_padding_refuted.

(** C80. IRCv3 says that of several tags with one key the last one counts; here it is the
    first. *)
Theorem c80_last_tag_refuted :
  exists (g : grammar) (t : tag_name) (x y : str), wf_grammar g /\ utf8_valid (write single 0 g) = true /\
    meant_tags g = [(tag_as_str t, x); (tag_as_str t, y)] /\ x <> y /\
    forall (bd : build) (m : msg_ref), ref_parse bd (write single 0 g) = Ret (Some m) -> ref_tag m t = Ret (Some x).
Proof. exact p_c80_last_tag_refuted. Qed.
Print Assumptions c80_last_tag_refuted.

Example example_c80 :
  wf_grammar sample_grammar /\ utf8_valid (write single 0 sample_grammar) = true /\
  sized (write single 0 sample_grammar) /\ with_values sample_grammar = 2 /\
  write single 0 sample_grammar =
    b "@flag;twitch.tv/x=a\sb;id=;+end :nick!~user@some.host PRIVMSG #chan x :hé : llo " /\
  write (fun i => i) 0 sample_grammar =
    b "@flag;twitch.tv/x=a\sb;id=;+end :nick!~user@some.host  PRIVMSG   #chan    x     :hé : llo " /\
  channel_seen single sample_grammar = Some (b "#chan") /\ channel_seen (fun i => i) sample_grammar = None /\
  params_seen (fun i => i - 2) 5 sample_grammar = Some (b " x   :hé : llo ") /\
  write single 2 (mk_grammar [] None (b "NICK") [b "nick"] None) = b "NICK nick  " /\
  merged [] (g_tags sample_grammar) = [(b "flag;twitch.tv/x", b "a\sb"); (b "id", [])] /\
  meant_tags sample_grammar = [(b "flag", []); (b "twitch.tv/x", b "a\sb"); (b "id", []); (b "+end", [])] /\
  well_told (User (b "nick") (Some (b "~user")) (Some (b "some.host"))) /\
  ~ well_told (User (b "nick") (Some (b "a!b")) (Some (b "some.host"))) /\
  too_wide (fun i => i) sample_grammar /\
  wf_value (b "a\sb\\\:é") /\ proper (b "a\sb\\\:é") /\ ircv3 (b "a\sb\\\:é") = b "a b\;é" /\
  ircv3 (b "C:\users\") = b "C:users" /\ unescape (b "C:\users\") = b "C:u ers".
Proof. exact ex_c80. Qed.
