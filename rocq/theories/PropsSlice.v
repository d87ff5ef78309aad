(** * PropsSlice: property theorems (generated from SliceProofs.v by tools/gen_props.py).

    Only statements; each is closed by the lemma of the same name. *)

From Verif Require Import Base Wide Tags Irc MsgBase MsgTypes MsgNotice Message SpecIrc SpecMsg SpecSlice SliceProofs.

(** C85. The strings of a typed message are stretches of the line it was read
    from, borrowed and at character boundaries. Only the months of a subscriber
    badge without and the colour of an announcement without are made up. *)
Theorem c85_strings_of_the_line :
  forall (bd : build) (pf : profile) (s : str) (v : view) (m : msg_ref) (t : typed),
    parsed bd s v m -> In (v_command v) typed_words -> from_irc pf m = Ret (Some t) ->
    made_with (fun p : piece s v => Borrowed (piece_text p)) t.
Proof. exact p_c85_strings_of_the_line. Qed.
Print Assumptions c85_strings_of_the_line.

(** C85. That every string comes from the line is false: the colour of an
    announcement need not. *)
Theorem c85_no_made_up_strings_refuted :
  exists (s : str) (v : view) (m : msg_ref) (t : typed),
    (forall bd, parsed bd s v m) /\ In (v_command v) typed_words /\
    (forall pf, from_irc pf m = Ret (Some t)) /\
    ~ made_with (fun p : {x : str | infix x s} => Borrowed (proj1_sig p)) t.
Proof. exact p_c85_no_made_up_strings_refuted. Qed.
Print Assumptions c85_no_made_up_strings_refuted.

Example example_c85 :
  exists v m t, (forall bd, parsed bd whisper_line v m) /\ In (v_command v) typed_words /\
    (forall pf, from_irc pf m = Ret (Some t)) /\ bare_subscriber v /\
    t = MWhisper (mk_whisper (Borrowed (b "me"))
          (mk_user (Borrowed (b "8")) (Borrowed (b "n")) (Borrowed (b "A\sB"))) (Borrowed (b "h:i"))
          [BSubscriber (mk_subscriber (Borrowed (b "3")) (Borrowed (b "1")) 1);
           BOther (mk_badge_data (Borrowed (b "vip")) (Borrowed (b "1")) (Some (Borrowed (b "2"))))]
          (Borrowed []) None).
Proof. exact ex_c85. Qed.
