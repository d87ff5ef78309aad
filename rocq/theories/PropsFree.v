(** * PropsFree: property theorems (generated from FreeProofs.v by tools/gen_props.py).

    Only statements; each is closed by the lemma of the same name. *)

From Verif Require Import Base Wide Tags Irc MsgBase MsgTypes MsgNotice Message SpecIrc SpecText SpecMsg SpecQuote SpecFree FreeProofs.

(** C88. The value of a tag may be any text without space and semicolon: the line
    still parses, and nothing else of it changes. *)
Theorem c88_value_is_only_value :
  forall (bd : build) (l1 : list (str * str)) (k x x' z rest : str) (v : view) (m : msg_ref),
    let old := b "@" ++ (written l1 ++ k ++ b "=" ++ x ++ z) ++ b " " ++ rest in
    let new := b "@" ++ (written l1 ++ k ++ b "=" ++ x' ++ z) ++ b " " ++ rest in
    parsed bd old v m ->
    Forall good_pair l1 -> ~ In "="%byte k -> ~ In ";"%byte x -> (z = [] \/ starts ";" z) ->
    ~ In " "%byte (written l1 ++ k ++ b "=" ++ x ++ z) ->
    ~ In " "%byte x' -> ~ In ";"%byte x' -> short_tag (k, x') -> utf8_valid x' = true -> below_4gib new ->
    exists l2 m', v_tags v = l1 ++ (k, x) :: l2 /\ parsed bd new (with_tags v (l1 ++ (k, x') :: l2)) m'.
Proof. exact p_c88_value_is_only_value. Qed.
Print Assumptions c88_value_is_only_value.

(** C88. Two lines that differ only in the values of tags someone may choose are
    the same typed message, but for the fields with these values. *)
Theorem c88_free_values :
  forall (bd bd' : build) (pf : profile) (s s' : str) (v : view) (l' : list (str * str)) (m m' : msg_ref),
    parsed bd s v m -> parsed bd' s' (with_tags v l') m' -> other_values (v_tags v) l' ->
    In (v_command v) typed_words ->
    from_irc pf m' = from_irc pf m \/
    exists y y', from_irc pf m = Ret (Some y) /\ from_irc pf m' = Ret (Some y') /\
      without_free y = without_free y'.
Proof. exact p_c88_free_values. Qed.
Print Assumptions c88_free_values.

(** C88. So for one of these tags in a line any text could be written, escaped:
    the line still parses, and its typed message is the same but for the fields with
    these values. *)
Theorem c88_any_text_escaped :
  forall (bd : build) (pf : profile) (l1 : list (str * str)) (k x t z rest : str) (v : view) (m : msg_ref),
    let old := b "@" ++ (written l1 ++ k ++ b "=" ++ x ++ z) ++ b " " ++ rest in
    let new := b "@" ++ (written l1 ++ k ++ b "=" ++ escape t ++ z) ++ b " " ++ rest in
    parsed bd old v m -> In (v_command v) typed_words ->
    Forall good_pair l1 -> In k (map b free_tags) -> ~ In ";"%byte x -> (z = [] \/ starts ";" z) ->
    ~ In " "%byte (written l1 ++ k ++ b "=" ++ x ++ z) ->
    utf8_valid t = true -> short_tag (k, escape t) -> below_4gib new ->
    exists m', ref_parse bd new = Ret (Some m') /\
      ref_command m' = ref_command m /\ ref_prefix m' = ref_prefix m /\ ref_channel m' = ref_channel m /\
      ref_params m' = ref_params m /\ ref_text m' = ref_text m /\
      (forall tag, tag_as_str tag <> k -> ref_tag m' tag = ref_tag m tag) /\
      (from_irc pf m' = from_irc pf m \/
       exists y y', from_irc pf m = Ret (Some y) /\ from_irc pf m' = Ret (Some y') /\
         without_free y = without_free y').
Proof. exact p_c88_any_text_escaped. Qed.
Print Assumptions c88_any_text_escaped.

(** C88. Without the escapes it is wrong: a semicolon in a display name brings in
    another user id, a space another sender and channel. *)
Theorem c88_semicolon_refuted :
  exists (l1 : list (str * str)) (x x' z rest : str) (v v' : view) (m m' : msg_ref) (y y' : privmsg cow),
    parsed Scalar (b "@" ++ (written l1 ++ b "display-name" ++ b "=" ++ x ++ z) ++ b " " ++ rest) v m /\
    Forall good_pair l1 /\ ~ In ";"%byte x /\ starts ";" z /\ ~ In " "%byte x' /\
    parsed Scalar (b "@" ++ (written l1 ++ b "display-name" ++ b "=" ++ x' ++ z) ++ b " " ++ rest) v' m' /\
    (forall pf, from_irc pf m = Ret (Some (MPrivmsg y)) /\ from_irc pf m' = Ret (Some (MPrivmsg y'))) /\
    deref (u_id (pm_sender y)) = b "2" /\ deref (u_id (pm_sender y')) = b "1".
Proof. exact p_c88_semicolon_refuted. Qed.
Print Assumptions c88_semicolon_refuted.

Theorem c88_space_refuted :
  exists (l1 : list (str * str)) (x x' rest : str) (v v' : view) (m m' : msg_ref) (y y' : privmsg cow),
    parsed Scalar (b "@" ++ (written l1 ++ b "display-name" ++ b "=" ++ x) ++ b " " ++ rest) v m /\
    Forall good_pair l1 /\ ~ In ";"%byte x /\ ~ In ";"%byte x' /\
    parsed Scalar (b "@" ++ (written l1 ++ b "display-name" ++ b "=" ++ x') ++ b " " ++ rest) v' m' /\
    (forall pf, from_irc pf m = Ret (Some (MPrivmsg y)) /\ from_irc pf m' = Ret (Some (MPrivmsg y'))) /\
    deref (u_login (pm_sender y)) = b "d" /\ deref (u_login (pm_sender y')) = b "boss" /\
    deref (pm_channel y) = b "#c" /\ deref (pm_channel y') = b "#other".
Proof. exact p_c88_space_refuted. Qed.
Print Assumptions c88_space_refuted.

(** The same texts, escaped. *)
Example example_c88 :
  let l1 := [(b "room-id", b "1"); (b "id", b "9")] in
  let t := b "D;user-id=1 :boss!boss@boss PRIVMSG #other :hey" in
  let z := b ";user-id=2;tmi-sent-ts=5" in
  let rest := b ":d!d@d PRIVMSG #c :hi" in
  let line x := b "@" ++ (written l1 ++ b "display-name" ++ b "=" ++ x ++ z) ++ b " " ++ rest in
  exists v m m' y',
    parsed Scalar (line (b "D")) v m /\ In (v_command v) typed_words /\ Forall good_pair l1 /\
    In (b "display-name") (map b free_tags) /\ starts ";" z /\
    ~ In " "%byte (written l1 ++ b "display-name" ++ b "=" ++ b "D" ++ z) /\
    utf8_valid t = true /\ short_tag (b "display-name", escape t) /\ below_4gib (line (escape t)) /\
    ref_parse Scalar (line (escape t)) = Ret (Some m') /\ from_irc Debug m' = Ret (Some (MPrivmsg y')) /\
    user_name (pm_sender y') = Ret (Owned t) /\
    deref (u_id (pm_sender y')) = b "2" /\ deref (u_login (pm_sender y')) = b "d" /\ deref (pm_channel y') = b "#c".
Proof. exact ex_c88. Qed.
