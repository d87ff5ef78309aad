(** * AccessProofs: the property lemmas about the accessors, C11-C18. *)

From Coq Require Import Lia ZifyBool ZifyNat ZifyN.
From Verif Require Import Base Wide Tags Irc SpecIrc Samples.
From Verif Require Import BaseFacts SimdFacts IrcFacts Utf8Facts IrcProofs LineProofs.

Lemma view_body (s : str) (v : view) :
  spec_view s = Some v ->
  exists rest, command_and_rest s (v_command v) rest /\
    match rest with
    | x :: _ =>
      if Byte.eqb x "#" then
        exists ch r, v_channel v = Some ch /\ word_rest rest ch r /\
          v_params v = match r with [] => None | _ => Some r end
      else v_channel v = None /\ v_params v = Some rest
    | [] => v_channel v = None /\ v_params v = None
    end.
Proof.
  intros V. apply view_inv in V as (s1 & s2 & rest & ET & EP & W & NE & M).
  exists rest. split; [|exact M]. exists s2. split; [|exact W]. exists s1.
  apply spec_tags_removed in ET as [ET _]. apply split_prefix_cases in EP as [EP _]. auto.
Qed.

Lemma command_and_rest_unique (s w r w' r' : str) :
  command_and_rest s w r -> command_and_rest s w' r' -> w = w' /\ r = r'.
Proof.
  intros (x & A & B) (y & C & D). apply body_unique in A. apply body_unique in C. subst x y.
  eapply word_rest_unique; eassumption.
Qed.

(** ** C11 *)

(** C11. The three usual prefix forms are read exactly, and printing the prefix
    gives the source text back. *)
Lemma p_c11_prefix_read_and_printed :
  forall (bd : build) (s s1 rest : str) (p : sender) (m : msg_ref),
    utf8_valid s = true -> below_4gib s -> ref_parse bd s = Ret (Some m) ->
    removed "@" s s1 -> s1 = b ":" ++ render_sender p ++ b " " ++ rest -> wf_sender p ->
    ref_prefix m = Ret (Some (sender_prefix p)) /\
    prefix_display (sender_prefix p) = render_sender p.
Proof.
  intros bd s s1 rest p m U S E R E1 W. split.
  - destruct (parse_reads bd s m U S E) as (v & V & [_ R2 _ _ _ _]). rewrite R2. do 2 f_equal.
    apply view_inv in V as (x & s2 & r & ET & EP & _). apply removed_tags in R. rewrite ET in R.
    cbn [snd] in R. subst x. rewrite E1 in EP.
    apply split_prefix_cases in EP as [_ [(pt & EQ & H & ->)|(_ & _ & H)]].
    + injection EQ as EQ. apply first_split_unique in EQ; [|now apply sender_no_space|exact H].
      destruct EQ as [<- _]. now rewrite spec_prefix_sender.
    + exfalso. now apply (H (render_sender p) rest).
  - destruct p; reflexivity.
Qed.

(** C11. A user comes with a nick, whatever the line. *)
Lemma p_c11_user_needs_nick :
  forall (bd : build) (s : str) (m : msg_ref) (p : prefix),
    utf8_valid s = true -> below_4gib s -> ref_parse bd s = Ret (Some m) ->
    ref_prefix m = Ret (Some p) -> user p <> None -> nick p <> None.
Proof.
  intros bd s m p U S E EP H. destruct (parse_reads bd s m U S E) as (v & V & [_ R2 _ _ _ _]).
  rewrite R2 in EP. injection EP as EP.
  apply view_composed in V as (sec & pt & _ & _ & B & _). destruct pt as [x|]; [|congruence].
  destruct B as [_ B]. rewrite B in EP. injection EP as <-. unfold spec_prefix in *. cbn [user nick] in *.
  destruct (cut_last "@" x) as [[q h]|] eqn:C; [|congruence].
  destruct (cut_last "!" x) as [[n r]|] eqn:D; discriminate.
Qed.

(** C11. A prefix is recognised exactly when [':'] opens the line (after the
    tags) and a space follows. *)
Lemma p_c11_prefix_recognised_iff :
  forall (bd : build) (s s1 : str) (m : msg_ref),
    utf8_valid s = true -> below_4gib s -> ref_parse bd s = Ret (Some m) -> removed "@" s s1 ->
    (ref_prefix m <> Ret None <-> exists r, s1 = b ":" ++ r /\ In " "%byte r).
Proof.
  intros bd s s1 m U S E R. destruct (parse_reads bd s m U S E) as (v & V & [_ R2 _ _ _ _]).
  rewrite R2. apply view_inv in V as (x & s2 & r & ET & EP & _). apply removed_tags in R. rewrite ET in R.
  cbn [snd] in R. subst x.
  apply split_prefix_cases in EP as [_ [(pt & -> & H & ->)|(-> & _ & H)]].
  - split; [|discriminate]. intros _. exists (pt ++ b " " ++ s2). split; [reflexivity|].
    apply in_or_app. right. now left.
  - split; [congruence|]. intros (q & -> & I). exfalso. apply in_split_first in I as (a & c & -> & _).
    now apply (H a c).
Qed.

(** C11. Printing a prefix does not always give the source text back: a prefix
    with ['!'] and no ['@'] prints with the nick doubled. *)
Lemma p_c11_print_any_prefix_refuted :
  exists (s : str) (m : msg_ref) (p : prefix),
    utf8_valid s = true /\ ref_parse Scalar s = Ret (Some m) /\ ref_prefix m = Ret (Some p) /\
    s = b ":a!b PING" /\ prefix_display p = b "a@a!b".
Proof.
  exists (b ":a!b PING"). eexists. eexists. split; [reflexivity|].
  split; [vm_compute; reflexivity|]. split; [vm_compute; reflexivity|]. split; reflexivity.
Qed.

Example ex_c11 :
  removed "@" sample (b ":nick!user@host.tmi.twitch.tv PRIVMSG #channel :hello there") /\
  wf_sender (SFull (b "nick") (b "user") (b "host.tmi.twitch.tv")) /\
  exists m, ref_parse (Simd Sse2 0) sample = Ret (Some m) /\
    ref_prefix m = Ret (Some (mk_prefix (Some (b "nick")) (Some (b "user")) (b "host.tmi.twitch.tv"))).
Proof.
  split; [left; exists (b "badge-info=;badges=premium/1;color=#8A2BE2;id=885196de-cb67-427a-baa8-82f9b0fcd05f");
          split; [reflexivity|cbn; intuition discriminate]|].
  split; [unfold wf_sender, no_delim; cbn; intuition discriminate|].
  eexists. split; vm_compute; reflexivity.
Qed.

(** ** C12 *)

(** C12. The command is the command word of the line, and is a named variant
    exactly when the word is that variant's name. *)
Lemma p_c12_command_exact :
  forall (bd : build) (s w rest : str) (m : msg_ref),
    utf8_valid s = true -> below_4gib s -> ref_parse bd s = Ret (Some m) ->
    command_and_rest s w rest ->
    exists c, ref_command m = Ret c /\ command_as_str c = w /\
      (forall name k, In (name, k) known_commands -> (c = k <-> w = name)) /\
      (forall x, c = Other x -> x = w /\ x <> [] /\ ~ In " "%byte x /\
         forall name k, In (name, k) known_commands -> x <> name).
Proof.
  intros bd s w rest m U S E C. destruct (parse_reads bd s m U S E) as (v & V & [_ _ R3 _ _ _]).
  pose proof (view_body s v V) as (rest' & C' & _).
  destruct (command_and_rest_unique _ _ _ _ _ C C') as [-> _].
  exists (spec_command (v_command v)). split; [exact R3|].
  destruct (spec_command_names (v_command v)) as (F & N & A). split; [exact A|].
  rewrite Forall_forall in F. split; [intros name k I; exact (F _ I)|].
  intros x EX. assert (x = v_command v) by (rewrite EX in A; exact A). subst x.
  split; [reflexivity|]. apply view_composed in V as (_ & _ & _ & _ & _ & V1 & V2 & _).
  split; [exact V1|]. split; [exact V2|]. intros name k I K. apply N in EX. apply EX.
  rewrite K. apply (in_map fst) in I. exact I.
Qed.

Example ex_c12 :
  command_and_rest sample (b "PRIVMSG") (b "#channel :hello there") /\
  command_and_rest (b "Ping x") (b "Ping") (b "x") /\
  exists m, ref_parse Scalar (b "Ping x") = Ret (Some m) /\ ref_command m = Ret (Other (b "Ping")).
Proof.
  split; [|split].
  - exists (b "PRIVMSG #channel :hello there"). split.
    + exists (b ":nick!user@host.tmi.twitch.tv PRIVMSG #channel :hello there"). split; left.
      * exists (b "badge-info=;badges=premium/1;color=#8A2BE2;id=885196de-cb67-427a-baa8-82f9b0fcd05f").
        split; [reflexivity|cbn; intuition discriminate].
      * exists (b "nick!user@host.tmi.twitch.tv"). split; [reflexivity|cbn; intuition discriminate].
    + split; [cbn; intuition discriminate|left; reflexivity].
  - exists (b "Ping x"). split.
    + exists (b "Ping x"). split; right; (split; [left; discriminate|reflexivity]).
    + split; [cbn; intuition discriminate|left; reflexivity].
  - eexists. split; vm_compute; reflexivity.
Qed.

(** ** C13 *)

(** C13. [channel()]: the word after the command if it starts with ['#']; for the
    NAMES replies a word of the params. *)
Lemma p_c13_channel :
  forall (bd : build) (s w rest : str) (m : msg_ref),
    utf8_valid s = true -> below_4gib s -> ref_parse bd s = Ret (Some m) ->
    command_and_rest s w rest ->
    (w <> b "353" -> w <> b "366" ->
       (starts "#" rest -> exists ch r, word_rest rest ch r /\ ref_channel m = Ret (Some ch)) /\
       (~ starts "#" rest -> ref_channel m = Ret None)) /\
    (w = b "353" \/ w = b "366" ->
       (ref_params m = Ret None -> ref_channel m = Ret None) /\
       (forall p ws, ref_params m = Ret (Some p) -> words_of (chars p) ws ->
          ref_channel m = Ret (nth_error ws (if str_eqb w (b "353") then 2 else 1)))).
Proof.
  intros bd s w rest m U S E C. destruct (parse_reads bd s m U S E) as (v & V & [_ _ R3 R4 R5 _]).
  pose proof (view_body s v V) as (rest' & C' & M).
  destruct (command_and_rest_unique _ _ _ _ _ C C') as [-> ->].
  rewrite R4, R5. unfold spec_channel. split.
  - intros N1 N2. rewrite !str_eqb_neq by assumption. destruct rest' as [|x q].
    + destruct M as [-> _]. split; [intros [? ?]; discriminate|reflexivity].
    + destruct (byte_eqb_spec x "#") as [->|N].
      * destruct M as (ch & r & -> & M & _). split; [eauto|]. intros K. destruct K. now exists q.
      * destruct M as [-> _]. split; [|reflexivity]. intros [y Y]. congruence.
  - intros W. assert (K : forall n, (Ret (v_params v) = Ret None ->
       Ret (opt_bind (v_params v) (fun p => nth_error (split_whitespace p) n)) = Ret None) /\
      (forall p ws, Ret (v_params v) = Ret (Some p) -> words_of (chars p) ws ->
        Ret (opt_bind (v_params v) (fun p => nth_error (split_whitespace p) n)) = Ret (nth_error ws n))).
    { intros n. split; [intros [= ->]; reflexivity|]. intros p ws [= ->] H. cbn.
      now rewrite (words_of_unique _ _ H _ (split_whitespace_words p)). }
    destruct W as [-> | ->]; apply K.
Qed.

(** C13. Every text has exactly one list of words. *)
Lemma p_c13_words_unique : forall s : str, exists! ws, words_of (chars s) ws.
Proof.
  intros s. exists (split_whitespace s). split; [apply split_whitespace_words|].
  intros ws H. apply (words_of_unique (chars s)); [apply split_whitespace_words|exact H].
Qed.

Example ex_c13 :
  exists m, ref_parse (Simd Sse2 0) (b ":h 353 nick =　#chan :a b") = Ret (Some m) /\
    ref_channel m = Ret (Some (b "#chan")) /\
    words_of (chars (b "nick =　#chan :a b")) [b "nick"; b "="; b "#chan"; b ":a"; b "b"].
Proof.
  eexists. split; [vm_compute; reflexivity|]. split; [vm_compute; reflexivity|].
  exact (split_whitespace_words (b "nick =　#chan :a b")).
Qed.

(** ** C14 *)

(** C14. [text()] is absent exactly without params and otherwise what follows the
    first colon of the params. *)
Lemma p_c14_text :
  forall (bd : build) (s : str) (m : msg_ref),
    utf8_valid s = true -> below_4gib s -> ref_parse bd s = Ret (Some m) ->
    (ref_text m = Ret None <-> ref_params m = Ret None) /\
    (forall p, ref_params m = Ret (Some p) ->
       exists t, ref_text m = Ret (Some t) /\ after_first ":" p t).
Proof.
  intros bd s m U S E. destruct (parse_reads bd s m U S E) as (v & V & [_ _ _ _ R5 R6]).
  rewrite R5, R6. unfold spec_text. destruct (v_params v) as [p|].
  - destruct (cut ":" p) as [l [r|]] eqn:C; (split; [split; discriminate|]); intros q [= <-].
    + exists r. split; [reflexivity|]. apply cut_some in C as [-> C]. left. exists l. auto.
    + exists p. split; [reflexivity|]. apply cut_none in C as [-> C]. right. auto.
  - split; [tauto|discriminate].
Qed.

(** C14. The documented reading (after the last colon) is not what happens. *)
Lemma p_c14_after_last_colon_refuted :
  exists (s : str) (m : msg_ref) (p t : str),
    utf8_valid s = true /\ ref_parse Scalar s = Ret (Some m) /\
    ref_params m = Ret (Some p) /\ ref_text m = Ret (Some t) /\ ~ after_last ":" p t.
Proof.
  exists (b "PRIVMSG #c :see http://x"). eexists. exists (b ":see http://x"), (b "see http://x").
  split; [reflexivity|]. split; [vm_compute; reflexivity|]. split; [vm_compute; reflexivity|].
  split; [vm_compute; reflexivity|]. intros [(l & _ & H)|[H _]]; apply H; vm_compute; tauto.
Qed.

Example ex_c14 :
  exists m m', ref_parse Scalar (b "PART #c") = Ret (Some m) /\ ref_text m = Ret None /\
    ref_parse Scalar (b "CAP * ACK :a :b") = Ret (Some m') /\ ref_text m' = Ret (Some (b "a :b")).
Proof.
  eexists. eexists. split; [vm_compute; reflexivity|]. split; [vm_compute; reflexivity|].
  split; vm_compute; reflexivity.
Qed.

(** ** C15 *)

(** C15. Owned and borrowed parsing agree, and so do all accessors except
    [text()] (any bytes, no size limits). *)
Lemma p_c15_owned_agrees :
  forall (bd : build) (s : str),
    match ref_parse bd s with
    | Ret (Some m) =>
      own_parse bd s = Ret (Some (ref_into_owned m)) /\
      own_as_ref (ref_into_owned m) = m /\
      own_raw (ref_into_owned m) = ref_raw m /\
      own_tags (ref_into_owned m) = ref_tags m /\
      (forall t, own_tag (ref_into_owned m) t = ref_tag m t) /\
      own_prefix (ref_into_owned m) = ref_prefix m /\
      own_command (ref_into_owned m) = ref_command m /\
      own_channel (ref_into_owned m) = ref_channel m /\
      own_params (ref_into_owned m) = ref_params m
    | Ret None => own_parse bd s = Ret None
    | Panic => own_parse bd s = Panic
    | _ => False
    end.
Proof.
  intros bd s. destruct (p_c02_no_undefined_behaviour bd s) as [[r E]|E].
  - pose proof E as E'. unfold own_parse. rewrite E. cbn [bind]. destruct r as [m|]; [|reflexivity].
    assert (R : r_src m = s).
    { clear -E. unfold ref_parse in E.
      destruct (tags_parse bd s 0) as [[t p0]| | |]; try discriminate E. cbn [bind] in E.
      destruct (prefix_parse s p0) as [[px p1]| | |]; try discriminate E. cbn [bind] in E.
      destruct (command_parse s p1) as [[[c|] p2]| | |]; try discriminate E. cbn [bind] in E.
      destruct (channel_parse s p2) as [[ch p3]| | |]; try discriminate E. cbn [bind] in E.
      destruct (params_parse s p3) as [ps| | |]; try discriminate E. cbn [bind] in E.
      injection E as <-. reflexivity. }
    destruct m as [src ps]. cbn in *. subst src. repeat split.
  - unfold own_parse. rewrite E. reflexivity.
Qed.

(** C15. [text()]: equal without params or with a colon in them, different in
    every other case. *)
Lemma p_c15_text :
  forall (bd : build) (s : str) (m : msg_ref) (o : option str),
    utf8_valid s = true -> below_4gib s -> ref_parse bd s = Ret (Some m) -> ref_params m = Ret o ->
    match o with
    | None => own_text (ref_into_owned m) = Ret None /\ ref_text m = Ret None
    | Some p =>
      (In ":"%byte p -> own_text (ref_into_owned m) = ref_text m /\ exists t, ref_text m = Ret (Some t)) /\
      (~ In ":"%byte p -> own_text (ref_into_owned m) = Ret None /\ ref_text m = Ret (Some p))
    end.
Proof.
  intros bd s m o U S E EP. destruct (parse_reads bd s m U S E) as (v & V & [_ _ _ _ R5 R6]).
  assert (PO : own_params (ref_into_owned m) = Ret o) by exact EP.
  unfold own_text. rewrite PO. cbn [bind]. rewrite R5 in EP. injection EP as EP.
  rewrite R6. unfold spec_text. rewrite EP. destruct o as [p|]; [|auto].
  split; intros I.
  - assert (X : ref_text m = own_text (ref_into_owned m)).
    { unfold own_text. rewrite PO. cbn [bind]. unfold own_params, ref_into_owned in PO. cbn in PO.
      unfold ref_text. destruct (p_params (r_parts m)) as [sp|]; [|discriminate].
      cbn [opt_span_get] in PO. unfold rmap in PO. destruct (span_get (r_src m) sp) as [x| | |]; try discriminate.
      cbn [bind] in PO. injection PO as ->. cbn [bind]. destruct (find_byte ":" p) eqn:F; [reflexivity|].
      now apply find_byte_none in F. }
    unfold own_text in X. rewrite PO in X. cbn [bind] in X. rewrite <- X, R6. unfold spec_text. rewrite EP.
    destruct (cut ":" p) as [l [r|]] eqn:C; [eauto|]. eauto.
  - pose proof (proj2 (find_byte_none _ _) I) as F. rewrite F. split; [reflexivity|].
    pose proof (proj2 (cut_none ":" p p) (conj eq_refl I)) as C. now rewrite C.
Qed.

Example ex_c15 :
  exists m, ref_parse (Simd Sse2 9) (b "NOTICE #c hi") = Ret (Some m) /\
    ref_params m = Ret (Some (b "hi")) /\ ref_text m = Ret (Some (b "hi")) /\
    own_text (ref_into_owned m) = Ret None.
Proof.
  eexists. split; [vm_compute; reflexivity|]. split; [vm_compute; reflexivity|]. split; vm_compute; reflexivity.
Qed.

(** ** C16 *)

Lemma first_tag_parse (bd : build) (s : str) (m : msg_ref) (l : list (str * str)) (key : str) (o : option str) :
  utf8_valid s = true -> below_4gib s -> all_short s -> ref_parse bd s = Ret (Some m) ->
  ref_tags m = Ret l -> first_tag key l o ->
  tag_find (r_src m) (p_tags (r_parts m)) key = Ret o.
Proof.
  intros U S F E T FT. destruct (parse_tags bd s m U S E F) as [A B]. rewrite T in A. injection A as A.
  rewrite B, <- A. apply lookup_first in FT. now rewrite FT.
Qed.

(** C16. [tag(t)] is the raw value of the first tag whose key is the name of
    [t]. *)
Lemma p_c16_tag_is_first_match :
  forall (bd : build) (s : str) (m : msg_ref) (l : list (str * str)) (t : tag_name) (o : option str),
    utf8_valid s = true -> below_4gib s -> all_short s -> ref_parse bd s = Ret (Some m) ->
    ref_tags m = Ret l -> first_tag (tag_as_str t) l o ->
    ref_tag m t = Ret o /\ own_tag (ref_into_owned m) t = Ret o.
Proof.
  intros bd s m l t o U S F E T FT. split; exact (first_tag_parse bd s m l (tag_as_str t) o U S F E T FT).
Qed.

(** C16. For any key and any tags there is exactly one first match. *)
Lemma p_c16_first_match_unique :
  forall (k : str) (l : list (str * str)), exists! o, first_tag k l o.
Proof.
  intros k l. exists (lookup k l). split; [now apply lookup_first|].
  intros o H. now apply lookup_first.
Qed.

(** C16. The string name of a variant is the kebab case of its identifier, with
    four listed exceptions; [Unknown] is its own name, and one variant has the name
    of another. *)
Lemma p_c16_tag_names :
  Forall (fun nt => tag_as_str (snd nt) = kebab (b (fst nt))) kebab_variants /\
  Forall (fun nt => tag_as_str (snd nt) = b (fst nt)) special_variants /\
  (forall x, tag_as_str (TUnknown x) = x) /\
  (forall t, In t (map snd kebab_variants) \/ In t (map snd special_variants) \/
             (exists x, t = TUnknown x) \/ t = TPinnedChatPaidCanonicalAmount) /\
  tag_as_str TPinnedChatPaidCanonicalAmount = b "pinned-chat-paid-amount".
Proof.
  split; [repeat (constructor; [vm_compute; reflexivity|]); constructor|].
  split; [repeat (constructor; [vm_compute; reflexivity|]); constructor|].
  split; [reflexivity|]. split; [|reflexivity].
  intros t. destruct t; cbn [map snd kebab_variants special_variants In]; eauto 10; tauto.
Qed.

Example ex_c16 :
  exists m, ref_parse (Simd Neon 2) (b "@id=1;color=a\sb;id=2 PING") = Ret (Some m) /\
    ref_tag m TId = Ret (Some (b "1")) /\ ref_tag m TColor = Ret (Some (b "a\sb")) /\
    ref_tag m TMod = Ret None /\
    first_tag (b "id") [(b "id", b "1"); (b "color", b "a\sb"); (b "id", b "2")] (Some (b "1")).
Proof.
  eexists. split; [vm_compute; reflexivity|]. split; [vm_compute; reflexivity|].
  split; [vm_compute; reflexivity|]. split; [vm_compute; reflexivity|].
  exists [], [(b "color", b "a\sb"); (b "id", b "2")]. split; [reflexivity|intros []].
Qed.

(** ** C17 *)

Definition broken_name : str := b "pinned-chat-paid-canonical-amount".

Lemma tag_table_names :
  Forall (fun nt => fst nt <> broken_name -> tag_as_str (snd nt) = fst nt) tag_table.
Proof. repeat (constructor; [vm_compute; congruence|]). constructor. Qed.

Lemma tag_parse_name (s : str) : s <> broken_name -> tag_as_str (tag_parse s) = s.
Proof.
  intros N. unfold tag_parse. destruct (assoc s tag_table) as [t|] eqn:A; [|reflexivity].
  apply assoc_in in A. pose proof tag_table_names as T. rewrite Forall_forall in T. exact (T _ A N).
Qed.

(** C17. Looking a tag up by its name, for every name but one. *)
Lemma p_c17_lookup_by_name :
  forall (bd : build) (s name : str) (m : msg_ref) (l : list (str * str)) (o : option str),
    utf8_valid s = true -> below_4gib s -> all_short s -> ref_parse bd s = Ret (Some m) ->
    ref_tags m = Ret l -> name <> b "pinned-chat-paid-canonical-amount" -> first_tag name l o ->
    ref_tag_str m name = Ret o /\ own_tag_str (ref_into_owned m) name = Ret o.
Proof.
  intros bd s name m l o U S F E T N FT. unfold ref_tag_str, own_tag_str.
  apply (p_c16_tag_is_first_match bd s m l); auto. now rewrite tag_parse_name.
Qed.

(** C17. For the remaining name the lookup reads another tag. *)
Lemma p_c17_canonical_amount_refuted :
  exists (s : str) (m : msg_ref) (l : list (str * str)),
    utf8_valid s = true /\ ref_parse Scalar s = Ret (Some m) /\ ref_tags m = Ret l /\
    first_tag (b "pinned-chat-paid-canonical-amount") l (Some (b "2")) /\
    ref_tag_str m (b "pinned-chat-paid-canonical-amount") = Ret (Some (b "1")).
Proof.
  exists (b "@pinned-chat-paid-amount=1;pinned-chat-paid-canonical-amount=2 PING").
  eexists. eexists. split; [reflexivity|]. split; [vm_compute; reflexivity|].
  split; [vm_compute; reflexivity|]. split; [|vm_compute; reflexivity].
  apply lookup_first. vm_compute. reflexivity.
Qed.

(** C17. On every line it reads [pinned-chat-paid-amount]. *)
Lemma p_c17_canonical_amount_reads_amount :
  forall (bd : build) (s : str) (m : msg_ref) (l : list (str * str)) (o : option str),
    utf8_valid s = true -> below_4gib s -> all_short s -> ref_parse bd s = Ret (Some m) ->
    ref_tags m = Ret l -> first_tag (b "pinned-chat-paid-amount") l o ->
    ref_tag_str m (b "pinned-chat-paid-canonical-amount") = Ret o.
Proof.
  intros bd s m l o U S F E T FT. unfold ref_tag_str.
  change (tag_parse (b "pinned-chat-paid-canonical-amount")) with TPinnedChatPaidCanonicalAmount.
  apply (p_c16_tag_is_first_match bd s m l); auto.
Qed.

Example ex_c17 :
  exists m, ref_parse Scalar (b "@custom=x;emote-only=1 PING") = Ret (Some m) /\
    ref_tag_str m (b "custom") = Ret (Some (b "x")) /\ ref_tag_str m (b "emote-only") = Ret (Some (b "1")).
Proof.
  eexists. split; [vm_compute; reflexivity|]. split; vm_compute; reflexivity.
Qed.

(** ** C18 *)

(** C18. [Tag::Unknown(name)] looks up the key [name], also when a named variant
    has that name. *)
Lemma p_c18_unknown_matches :
  forall (bd : build) (s name : str) (m : msg_ref) (l : list (str * str)) (o : option str),
    utf8_valid s = true -> below_4gib s -> all_short s -> ref_parse bd s = Ret (Some m) ->
    ref_tags m = Ret l -> first_tag name l o ->
    ref_tag m (TUnknown name) = Ret o /\
    forall t, tag_as_str t = name -> ref_tag m t = Ret o.
Proof.
  intros bd s name m l o U S F E T FT. split.
  - apply (p_c16_tag_is_first_match bd s m l); auto.
  - intros t <-. apply (p_c16_tag_is_first_match bd s m l); auto.
Qed.

(** C18. The documentation's claim that [Unknown] does not match a named tag. *)
Lemma p_c18_unknown_never_matches_refuted :
  exists (s : str) (m : msg_ref),
    utf8_valid s = true /\ ref_parse Scalar s = Ret (Some m) /\
    ref_tag m (TUnknown (b "msg-id")) = Ret (Some (b "raid")) /\ ref_tag m TMsgId = Ret (Some (b "raid")).
Proof.
  exists (b "@msg-id=raid USERNOTICE #c"). eexists. split; [reflexivity|].
  split; [vm_compute; reflexivity|]. split; vm_compute; reflexivity.
Qed.

(** ** More about C01, C02, C05 and C10, with the accessors *)

(** C01. In a SIMD build the tag section ends at the first space of the line, whatever
    the address: the tags are those of the text up to there, and the prefix and the
    command are those of the text after it. *)
Lemma p_c01_section_ends_at_first_space :
  forall (v : backend) (addr : nat) (s sec rest : str) (m : msg_ref),
    utf8_valid s = true -> below_4gib s -> has_section s sec rest ->
    ref_parse (Simd v addr) s = Ret (Some m) ->
    (all_short s -> exists l, tag_section sec l /\ ref_tags m = Ret l) /\
    (forall p t, rest = b ":" ++ p ++ b " " ++ t -> ~ In " "%byte p -> ref_prefix m = Ret (Some (spec_prefix p))) /\
    ((forall p, rest <> b ":" ++ p) \/ ~ In " "%byte rest -> ref_prefix m = Ret None) /\
    exists s2 w r c, removed ":" rest s2 /\ word_rest s2 w r /\
      ref_command m = Ret c /\ command_as_str c = w.
Proof.
  intros bk addr s sec rest m U S H E. split.
  - intros F. destruct (parse_tags _ s m U S E F) as [T _].
    pose proof (proj2 (tag_list_section sec _) eq_refl) as B.
    rewrite (section_spec s sec rest _ H B) in T. eauto.
  - destruct (parse_reads _ s m U S E) as (v & V & R).
    pose proof (view_inv s v V) as (s1 & s2 & r & ET & EP & W & _).
    assert (X : s1 = rest).
    { apply spec_tags_removed in ET as [ET _]. apply (removed_unique "@" s); [discriminate|exact ET|].
      left. exists sec. destruct H as [-> H]. split; [reflexivity|exact H]. }
    subst s1. apply split_prefix_cases in EP as [EP Q].
    assert (RP : ref_prefix m = Ret (v_prefix v)) by apply R. rewrite RP. clear RP.
    split; [|split].
    + intros p t -> I. destruct Q as [(p' & Q & I' & ->)|(_ & _ & Q)].
      * injection Q as Q. apply first_split_unique in Q; auto. now destruct Q as [-> _].
      * now destruct (Q p t).
    + intros Q'. destruct Q as [(p' & -> & _)|(-> & _)]; [exfalso|reflexivity].
      destruct Q' as [Q'|Q']; [now eapply Q'|]. apply Q'. rewrite !in_app_iff. right. right. left. now left.
    + exists s2, (v_command v), r, (spec_command (v_command v)).
    split; [exact EP|]. split; [exact W|].
    split; [apply R|apply spec_command_names].
Qed.

Example ex_c01_section :
  has_section sample (b "badge-info=;badges=premium/1;color=#8A2BE2;id=885196de-cb67-427a-baa8-82f9b0fcd05f")
    (skipn 84 sample) /\
  exists m, ref_parse (Simd Neon 5) sample = Ret (Some m) /\ exists l, ref_tags m = Ret l /\ length l = 4.
Proof.
  split; [split; [reflexivity|cbn; intuition discriminate]|].
  eexists. split; [vm_compute; reflexivity|]. eexists. split; vm_compute; reflexivity.
Qed.

Lemma mapM_fine {A B : Type} (f : A -> res B) (l : list A) : (forall a, fine (f a)) -> fine (mapM f l).
Proof.
  intros H. induction l as [|a l IH]; cbn [mapM]; [apply fine_ret|].
  apply fine_bind; [apply H|]. intros y. apply fine_bind; [exact IH|]. intros; apply fine_ret.
Qed.

Lemma u32_add_fine (x y : nat) : fine (u32_add x y).
Proof. unfold u32_add. destruct (_ <? _)%N; [apply fine_ret|now right]. Qed.

Lemma rmap_fine {A B : Type} (f : A -> B) (r : res A) : fine r -> fine (rmap f r).
Proof. intros H. unfold rmap. apply fine_bind; [exact H|intros; apply fine_ret]. Qed.

Lemma span_fine (s : str) (sp : span) : fine (span_get s sp).
Proof. apply slice_fine. Qed.

Lemma opt_span_fine (s : str) (o : option span) : fine (opt_span_get s o).
Proof. destruct o; cbn [opt_span_get]; [apply rmap_fine, span_fine|apply fine_ret]. Qed.

Lemma pair_key_fine (p : tag_pair) : fine (pair_key p).
Proof. apply fine_bind; [apply u32_add_fine|intros; apply fine_ret]. Qed.

Lemma pair_value_fine (p : tag_pair) : fine (pair_value p).
Proof. repeat (apply fine_bind; [apply u32_add_fine|intros ?]). apply fine_ret. Qed.

(** C02. The owned parser and the accessors: for any message value, whatever its
    positions, every accessor returns or panics; no index is used unchecked. *)
Lemma p_c02_accessors_checked :
  (forall (bd : build) (s : str), (exists r, own_parse bd s = Ret r) \/ own_parse bd s = Panic) /\
  forall m : msg_ref,
    let checked {A : Type} (r : res A) := (exists a, r = Ret a) \/ r = Panic in
    checked (ref_tags m) /\ (forall t, checked (ref_tag m t)) /\ checked (ref_prefix m) /\
    checked (ref_command m) /\ checked (ref_channel m) /\ checked (ref_params m) /\
    checked (ref_text m) /\ checked (own_text (ref_into_owned m)).
Proof.
  split.
  { intros bd s. change (fine (own_parse bd s)). unfold own_parse. apply fine_bind.
    - apply p_c02_no_undefined_behaviour.
    - intros [?|]; apply fine_ret. }
  intros m checked.
  assert (C : fine (ref_command m)).
  { unfold ref_command, raw_command_get. destruct (p_command (r_parts m)); try apply fine_ret.
    apply rmap_fine, span_fine. }
  assert (TX : forall p o, fine (match find_byte ":" p with Some i => rmap Some (slice_from p (i + 1)) | None => Ret o end)).
  { intros p o. destruct (find_byte ":" p); [|apply fine_ret]. apply rmap_fine, slice_fine. }
  split; [|split; [|split; [|split; [exact C|split; [|split; [|split]]]]]].
  - apply mapM_fine. intros p. unfold pair_get. apply fine_bind; [apply pair_key_fine|]. intros a.
    apply fine_bind; [apply span_fine|]. intros k. apply fine_bind; [apply pair_value_fine|]. intros c.
    apply fine_bind; [apply span_fine|]. intros; apply fine_ret.
  - intros t. change (fine (ref_tag m t)). unfold ref_tag. generalize (p_tags (r_parts m)) as l.
    induction l as [|p l IH]; cbn [tag_find]; [apply fine_ret|].
    apply fine_bind; [apply pair_key_fine|]. intros a. apply fine_bind; [apply span_fine|]. intros k.
    destruct (str_eqb k _); [|exact IH]. apply fine_bind; [apply pair_value_fine|]. intros c.
    apply rmap_fine, span_fine.
  - change (fine (ref_prefix m)). unfold ref_prefix. destruct (p_prefix (r_parts m)) as [p|]; [|apply fine_ret].
    apply rmap_fine. unfold raw_prefix_get. apply fine_bind; [apply opt_span_fine|]. intros n.
    apply fine_bind; [apply opt_span_fine|]. intros u. apply fine_bind; [apply span_fine|].
    intros; apply fine_ret.
  - change (fine (ref_channel m)). unfold ref_channel. apply fine_bind; [exact C|]. intros c.
    destruct c; try apply opt_span_fine; (apply fine_bind; [apply opt_span_fine|intros; apply fine_ret]).
  - apply opt_span_fine.
  - change (fine (ref_text m)). unfold ref_text. destruct (p_params (r_parts m)) as [sp|]; [|apply fine_ret].
    apply fine_bind; [apply span_fine|]. intros p. apply TX.
  - change (fine (own_text (ref_into_owned m))). unfold own_text. apply fine_bind; [apply opt_span_fine|].
    intros [p|]; [apply TX|apply fine_ret].
Qed.

(** A message whose positions do not fit its text: the accessors panic. *)
Example ex_c02_accessors :
  let m := mk_ref (b "é") (mk_parts [] None RPing (Some (mk_span 0 1)) (Some (mk_span 0 9))) in
  ref_channel m = Panic /\ ref_params m = Panic /\ ref_text m = Panic /\ ref_tags m = Ret [].
Proof. repeat split; vm_compute; reflexivity. Qed.

(** C05. The same for the owned parser, in both builds. *)
Lemma p_c05_owned_panics_iff :
  forall (bd : build) (s : str),
    utf8_valid s = true -> below_4gib s ->
    (own_parse bd s = Panic <->
     (bd = Scalar /\ unterminated_tags s) \/
     exists sec rest l, has_section s sec rest /\ tag_section sec l /\ 128 < length l) /\
    (own_parse bd s <> Panic -> exists r, own_parse bd s = Ret r).
Proof.
  intros bd s U S. split.
  - assert (X : own_parse bd s = Panic <-> ref_parse bd s = Panic).
    { pose proof (p_c15_owned_agrees bd s) as A. destruct (ref_parse bd s) as [[m|]| | |]; try tauto.
      - destruct A as [-> _]. split; discriminate.
      - rewrite A. split; discriminate. }
    rewrite X. destruct bd as [v addr|].
    + rewrite (proj1 (p_c05_simd_panics_iff v addr s U S)). split; [tauto|]. intros [[? _]|?]; [discriminate|tauto].
    + rewrite (proj1 (p_c05_scalar_panics_iff s U S)). tauto.
  - intros H. destruct (proj1 p_c02_accessors_checked bd s); tauto.
Qed.

Example ex_c05_owned :
  own_parse (Simd Avx2 4) (b "@" ++ concat (repeat (b "a=1;") 129) ++ b " PING") = Panic /\
  own_parse Scalar (b "@a=1") = Panic /\ unterminated_tags (b "@a=1") /\
  own_parse (Simd Avx2 4) (b "@a=1") <> Panic.
Proof.
  split; [vm_compute; reflexivity|]. split; [vm_compute; reflexivity|].
  split; [split; [eexists; reflexivity|cbn; intuition discriminate]|]. vm_compute. discriminate.
Qed.

(** C10. What the accessors return are exactly the parts of the line as the position-free
    reading [spec_view] gives them. *)
Lemma p_c10_accessors_view :
  forall (bd : build) (s : str) (m : msg_ref) (v : view),
    utf8_valid s = true -> below_4gib s -> ref_parse bd s = Ret (Some m) -> spec_view s = Some v ->
    (all_short s -> ref_tags m = Ret (v_tags v) /\
       forall t, ref_tag m t = Ret (lookup (tag_as_str t) (v_tags v))) /\
    ref_prefix m = Ret (v_prefix v) /\ ref_command m = Ret (spec_command (v_command v)) /\
    ref_channel m = Ret (spec_channel v) /\ ref_params m = Ret (v_params v) /\
    ref_text m = Ret (spec_text v).
Proof.
  intros bd s m v U S E V. destruct (parse_reads bd s m U S E) as (v' & V' & [R1 R2 R3 R4 R5 R6]).
  rewrite V in V'. injection V' as <-. split; [|auto].
  intros F. destruct (parse_tags bd s m U S E F) as [A B].
  apply view_inv in V as (s1 & s2 & rest & ET & _). rewrite ET in A, B. cbn [fst] in A, B.
  split; [exact A|]. intros t. apply B.
Qed.

Example ex_c10_view :
  exists v m, spec_view sample = Some v /\ ref_parse (Simd Sse2 11) sample = Ret (Some m) /\
    length (v_tags v) = 4 /\ ref_params m = Ret (Some (b ":hello there")) /\ v_params v = Some (b ":hello there").
Proof.
  eexists _, _. split; [vm_compute; reflexivity|]. split; [vm_compute; reflexivity|].
  split; [reflexivity|]. split; [vm_compute; reflexivity|]. reflexivity.
Qed.
