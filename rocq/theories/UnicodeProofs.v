(** * UnicodeProofs: the texts of the model are UTF-8 (C68). *)

From Coq Require Import Lia ZifyBool ZifyNat ZifyN.
From Verif Require Import Base SpecIrc SpecUnicode BaseFacts Utf8Facts.

Ltac Zify.zify_post_hook ::= Z.to_euclidean_division_equations.

Open Scope N_scope.
(* props-preamble
Open Scope N_scope.
*)

(** The equations between the members of two equal lists of up to four numbers. *)
Ltac heads E :=
  pose proof (f_equal (fun l => nth 0 l 0) E); pose proof (f_equal (fun l => nth 1 l 0) E);
  pose proof (f_equal (fun l => nth 2 l 0) E); pose proof (f_equal (fun l => nth 3 l 0) E);
  cbn [nth map] in *; clear E.

Lemma encoding_unique (n m : N) : scalar_value n -> scalar_value m -> encoding n = encoding m -> n = m.
Proof.
  unfold encoding, scalar_value. intros A B.
  destruct (N.ltb_spec n 128), (N.ltb_spec n 2048), (N.ltb_spec n 65536), (N.ltb_spec m 128), (N.ltb_spec m 2048), (N.ltb_spec m 65536);
    try lia; intros E; try discriminate E;
    heads E; lia.
Qed.

Lemma valid_encodes (c : str) : one_char c -> exists n, encodes n c.
Proof.
  intros (V & x & t & -> & _ & T). pose proof (Byte.to_N_bounded x).
  assert (L : forall y l, utf8_valid (y :: l) = true -> is_cont y = true -> False).
  { intros y l U K. apply utf8_head in U. congruence. }
  cbn [utf8_valid] in V. unfold encodes, scalar_value.
  destruct (in_range 0 127 x) eqn:E1.
  { destruct t as [|y t].
    - exists (Byte.to_N x). unfold in_range in *. split; [lia|]. unfold encoding. destruct (N.ltb_spec (Byte.to_N x) 128); [reflexivity|lia].
    - exfalso. inversion T; subst. eapply L; eassumption. }
  destruct (in_range 194 223 x) eqn:E2.
  { destruct t as [|c1 t]; [discriminate|]. apply andb_prop in V as [C1 V]. inversion T as [|? ? _ T']; subst.
    destruct t as [|y t]; [|exfalso; inversion T'; subst; eapply L; eassumption].
    pose proof (Byte.to_N_bounded c1). unfold is_cont, in_range in *.
    exists ((Byte.to_N x - 192) * 64 + (Byte.to_N c1 - 128)). split; [lia|]. unfold encoding.
    repeat (match goal with |- context [?u <? ?w] => destruct (N.ltb_spec u w); try lia end).
    cbn [map]. repeat (apply (f_equal2 (@cons N)); [lia|]); reflexivity. }
  destruct (in_range 224 239 x) eqn:E3.
  { destruct t as [|c1 [|c2 t]]; try discriminate.
    apply andb_prop in V as [V0 V]. apply andb_prop in V0 as [C1 C2].
    inversion T as [|? ? K1 T']; subst. inversion T' as [|? ? K2 T'']; subst.
    destruct t as [|y t]; [|exfalso; inversion T''; subst; eapply L; eassumption].
    exists ((Byte.to_N x - 224) * 4096 + (Byte.to_N c1 - 128) * 64 + (Byte.to_N c2 - 128)).
    assert (R : 2048 <= (Byte.to_N x - 224) * 4096 + (Byte.to_N c1 - 128) * 64 + (Byte.to_N c2 - 128) < 65536 /\ ((Byte.to_N x - 224) * 4096 + (Byte.to_N c1 - 128) * 64 + (Byte.to_N c2 - 128) < 55296 \/ 57344 <= (Byte.to_N x - 224) * 4096 + (Byte.to_N c1 - 128) * 64 + (Byte.to_N c2 - 128))).
    { unfold is_cont in *. destruct (in_range 224 224 x) eqn:Q1; [|destruct (in_range 237 237 x) eqn:Q2]; unfold in_range in *; lia. }
    clear C1. unfold is_cont, in_range in *.
    split; [lia|]. unfold encoding.
    repeat (match goal with |- context [?u <? ?w] => destruct (N.ltb_spec u w); try lia end).
    cbn [map]. repeat (apply (f_equal2 (@cons N)); [lia|]); reflexivity. }
  destruct (in_range 240 244 x) eqn:E4; [|discriminate].
  destruct t as [|c1 [|c2 [|c3 t]]]; try discriminate.
  apply andb_prop in V as [V0 V]. apply andb_prop in V0 as [V1 C3]. apply andb_prop in V1 as [C1 C2].
  inversion T as [|? ? K1 T']; subst. inversion T' as [|? ? K2 T'']; subst. inversion T'' as [|? ? K3 T3]; subst.
  destruct t as [|y t]; [|exfalso; inversion T3; subst; eapply L; eassumption].
  exists ((Byte.to_N x - 240) * 262144 + (Byte.to_N c1 - 128) * 4096 + (Byte.to_N c2 - 128) * 64 + (Byte.to_N c3 - 128)).
  assert (R : 65536 <= (Byte.to_N x - 240) * 262144 + (Byte.to_N c1 - 128) * 4096 + (Byte.to_N c2 - 128) * 64 + (Byte.to_N c3 - 128) < 1114112).
  { unfold is_cont in *. destruct (in_range 240 240 x) eqn:Q1; [|destruct (in_range 244 244 x) eqn:Q2]; unfold in_range in *; lia. }
  clear C1. unfold is_cont, in_range in *.
  split; [lia|]. unfold encoding.
  repeat (match goal with |- context [?u <? ?w] => destruct (N.ltb_spec u w); try lia end).
  cbn [map]. repeat (apply (f_equal2 (@cons N)); [lia|]); reflexivity.
Qed.

Lemma encodes_valid (n : N) (c : str) : encodes n c -> one_char c.
Proof.
  unfold encodes, scalar_value, encoding. intros [S E].
  destruct (N.ltb_spec n 128); [|destruct (N.ltb_spec n 2048); [|destruct (N.ltb_spec n 65536)]].
  - destruct c as [|x [|y c]]; try discriminate E. injection E as E.
    assert (R : in_range 0 127 x = true) by (unfold in_range; lia).
    split; [cbn; now rewrite R|]. exists x, []. split; [reflexivity|]. split; [unfold is_cont, in_range; lia|constructor].
  - destruct c as [|x [|y [|z c]]]; try discriminate E. heads E.
    assert (R1 : in_range 0 127 x = false) by (unfold in_range; lia).
    assert (R2 : in_range 194 223 x = true) by (unfold in_range; lia).
    assert (R3 : is_cont y = true) by (unfold is_cont, in_range; lia).
    split; [cbn; now rewrite R1, R2, R3|]. exists x, [y]. split; [reflexivity|]. split; [unfold is_cont, in_range; lia|auto].
  - destruct c as [|x [|y [|z [|w c]]]]; try discriminate E. heads E.
    assert (R1 : in_range 0 127 x = false) by (unfold in_range; lia).
    assert (R2 : in_range 194 223 x = false) by (unfold in_range; lia).
    assert (R3 : in_range 224 239 x = true) by (unfold in_range; lia).
    assert (R4 : is_cont y = true) by (unfold is_cont, in_range; lia).
    assert (R5 : is_cont z = true) by (unfold is_cont, in_range; lia).
    split.
    + cbn. rewrite R1, R2, R3, R4, R5.
      destruct (in_range 224 224 x) eqn:Q1; [unfold in_range in *; lia|].
      destruct (in_range 237 237 x) eqn:Q2; [unfold in_range in *; lia|]. reflexivity.
    + exists x, [y; z]. split; [reflexivity|]. split; [unfold is_cont, in_range; lia|auto].
  - destruct c as [|x [|y [|z [|w [|q c]]]]]; try discriminate E. heads E.
    assert (R1 : in_range 0 127 x = false) by (unfold in_range; lia).
    assert (R2 : in_range 194 223 x = false) by (unfold in_range; lia).
    assert (R3 : in_range 224 239 x = false) by (unfold in_range; lia).
    assert (R3' : in_range 240 244 x = true) by (unfold in_range; lia).
    assert (R4 : is_cont y = true) by (unfold is_cont, in_range; lia).
    assert (R5 : is_cont z = true) by (unfold is_cont, in_range; lia).
    assert (R6 : is_cont w = true) by (unfold is_cont, in_range; lia).
    split.
    + cbn. rewrite R1, R2, R3, R3', R4, R5, R6.
      destruct (in_range 240 240 x) eqn:Q1; [unfold in_range in *; lia|].
      destruct (in_range 244 244 x) eqn:Q2; [unfold in_range in *; lia|]. reflexivity.
    + exists x, [y; z; w]. split; [reflexivity|]. split; [unfold is_cont, in_range; lia|auto].
Qed.

Lemma to_N_inj (s t : str) : map Byte.to_N s = map Byte.to_N t -> s = t.
Proof.
  revert t. induction s as [|x s IH]; intros [|y t] E; try discriminate; [reflexivity|].
  cbn in E. injection E as E1 E2. f_equal; [|now apply IH].
  assert (Byte.of_N (Byte.to_N x) = Byte.of_N (Byte.to_N y)) as K by congruence.
  rewrite !Byte.of_to_N in K. congruence.
Qed.

Lemma scalars_of (ws : list str) : Forall one_char ws -> exists ns, Forall2 encodes ns ws.
Proof.
  induction 1 as [|w ws O _ (ns & IH)]; [now exists []|].
  destruct (valid_encodes w O) as [n E]. exists (n :: ns). now constructor.
Qed.

Lemma encodes_text (ns : list N) (ws : list str) : Forall2 encodes ns ws -> text_of ns (concat ws).
Proof.
  induction 1 as [|n w ns ws [S E] _ [IH1 IH2]]; [split; [constructor|reflexivity]|].
  split; [now constructor|]. cbn. rewrite map_app, E, IH2. reflexivity.
Qed.

Lemma text_encodes (ns : list N) : forall s, text_of ns s -> exists ws, Forall2 encodes ns ws /\ s = concat ws.
Proof.
  induction ns as [|n ns IH]; intros s [F E].
  - exists []. split; [constructor|]. now destruct s.
  - inversion F as [|? ? S F']; subst. cbn in E.
    assert (K : map Byte.to_N (firstn (length (encoding n)) s) = encoding n /\
                map Byte.to_N (skipn (length (encoding n)) s) = concat (map encoding ns)).
    { rewrite <- firstn_map, <- skipn_map, E. rewrite firstn_app, firstn_all, skipn_app, skipn_all, Nat.sub_diag.
      cbn. now rewrite app_nil_r. }
    destruct K as [K1 K2]. destruct (IH _ (conj F' K2)) as (ws & W & EW).
    exists (firstn (length (encoding n)) s :: ws). split; [constructor; [split; assumption|exact W]|].
    cbn. rewrite <- EW. symmetry. apply firstn_skipn.
Qed.

(** C68. A text is valid if and only if it is the UTF-8 encoding of some scalar values... *)
Lemma p_c68_utf8 :
  forall (s : str), utf8_valid s = true <-> exists ns, text_of ns s.
Proof.
  intros s. split.
  - intros V. destruct (scalars_of _ (chars_one s V)) as (ns & F). exists ns.
    rewrite <- (concat_chars s). now apply encodes_text.
  - intros (ns & T). destruct (text_encodes ns s T) as (ws & F & ->). apply utf8_concat.
    clear T. induction F as [|n w ns ws E _ IH]; constructor; auto. apply (encodes_valid n w E).
Qed.

(** C68. ... which are then determined, and are its characters. *)
Lemma p_c68_characters :
  forall (s : str) (ns : list N), text_of ns s ->
    Forall2 encodes ns (chars s) /\ concat (chars s) = s /\ forall ms, text_of ms s -> ms = ns.
Proof.
  intros s ns T.
  assert (C : forall ms, text_of ms s -> Forall2 encodes ms (chars s)).
  { intros ms M. destruct (text_encodes ms s M) as (ws & F & ->). rewrite chars_of_concat; [exact F|].
    clear M T. induction F as [|n w ks ws E _ IH]; constructor; auto. now apply (encodes_valid n). }
  split; [now apply C|]. split; [apply concat_chars|]. intros ms M. pose proof (C ms M) as F1. pose proof (C ns T) as F2.
  revert F1 F2. generalize (chars s). clear. intros ws F1. revert ns.
  induction F1 as [|n w ms ws [S E] _ IH]; intros ns F2; inversion F2 as [|m ? ns' ? [S' E'] F3]; subst; [reflexivity|].
  f_equal; [apply encoding_unique; congruence|now apply IH].
Qed.

(** C68. Slices of a valid text are valid exactly at the boundaries of its characters. *)
Lemma p_c68_boundaries :
  forall (s : str) (i : nat), utf8_valid s = true -> (i <= length s)%nat ->
    (is_char_boundary s i = true <-> exists k, i = length (concat (firstn k (chars s)))).
Proof.
  intros s i V. revert s V i.
  apply (utf8_ind (fun s => forall i, (i <= length s)%nat -> (is_char_boundary s i = true <->
    exists k, i = length (concat (firstn k (chars s)))))).
  { intros i L. cbn in L. assert (i = 0%nat) as -> by lia. split; [now exists 0%nat|reflexivity]. }
  intros c r O V Q1 Q2 IH i L. rewrite Q2. rewrite app_length in L. pose proof (one_char_nonempty c O) as N0.
  destruct (Nat.eq_dec i 0) as [->|NZ]; [split; [now exists 0%nat|reflexivity]|].
  destruct (Nat.lt_ge_cases i (length c)) as [M|M].
  - split.
    + intros B. exfalso. destruct O as (_ & x & t & -> & Hx & Ht).
      destruct i as [|i]; [lia|]. cbn in M. unfold is_char_boundary in B. cbn [app nth_error] in B.
      rewrite nth_error_app1 in B by lia.
      destruct (nth_error t i) as [y|] eqn:E; [|apply nth_error_None in E; lia].
      apply nth_error_In in E. rewrite Forall_forall in Ht. rewrite (Ht _ E) in B. discriminate.
    + intros (k & E). destruct k as [|k]; cbn in E; [lia|]. rewrite app_length in E. lia.
  - specialize (IH (i - length c)%nat ltac:(lia)).
    assert (B : is_char_boundary (c ++ r) i = is_char_boundary r (i - length c)).
    { unfold is_char_boundary. rewrite nth_error_app2 by lia. rewrite app_length.
      destruct (Nat.eq_dec i (length c)) as [->|NE].
      - rewrite Nat.sub_diag. destruct r as [|y r]; cbn.
        + destruct (length c); cbn; [reflexivity|]. apply Nat.eqb_eq. lia.
        + apply utf8_head in V. rewrite V. destruct (length c); reflexivity.
      - replace (i =? 0)%nat with false by lia. replace (i - length c =? 0)%nat with false by lia.
        cbn [orb]. destruct (nth_error r (i - length c)); [reflexivity|]. lia. }
    rewrite B, IH. split; intros (k & E).
    + exists (S k). cbn. rewrite app_length. lia.
    + destruct k as [|k]; cbn in E; [lia|]. rewrite app_length in E. exists k. lia.
Qed.

(** C68. The characters that separate words are those with the property White_Space. *)
Lemma p_c68_white_space :
  forall (c : uchar) (n : N), encodes n c -> (is_whitespace c = true <-> white_space n).
Proof.
  intros c n [S E]. rewrite is_whitespace_spec. split.
  - intros I. assert (W : exists m, white_space m /\ scalar_value m /\ map Byte.to_N c = encoding m).
    { clear -I. cbn in I.
      Ltac one m := exists m; split; [unfold white_space; lia|split; [unfold scalar_value; lia|reflexivity]].
      repeat (destruct I as [<-|I]); [one 9|one 10|one 11|one 12|one 13|one 32|one 133|one 160|one 5760
        |one 8192|one 8193|one 8194|one 8195|one 8196|one 8197|one 8198|one 8199|one 8200|one 8201|one 8202
        |one 8232|one 8233|one 8239|one 8287|one 12288|destruct I]. }
    destruct W as (m & W & S' & E'). rewrite E in E'. apply encoding_unique in E'; auto. now subst.
  - intros W.
    assert (W' : In n [9;10;11;12;13;32;133;160;5760;8192;8193;8194;8195;8196;8197;8198;8199;8200;8201;8202;8232;8233;8239;8287;12288]).
    { unfold white_space in W. cbn. lia. }
    clear W S. cbn in W'.
    repeat (destruct W' as [<-|W']; [match type of E with _ = encoding ?k =>
      let v := eval vm_compute in (encoding k) in change (map Byte.to_N c = v) in E end|]); [..|destruct W'].
    all: match type of E with _ = ?v =>
      let w := eval vm_compute in (map (fun k => match Byte.of_N k with Some x => x | None => x00 end) v) in
      assert (c = w) as -> by (apply to_N_inj; exact E) end.
    all: unfold whitespace_chars; cbn; tauto.
Qed.

Example ex_c68 :
  let s := [x61; xc3; xa9; xe2; x82; xac; xf0; x9f; x98; x80] in
  text_of [97; 233; 8364; 128512] s /\ chars s = [[x61]; [xc3; xa9]; [xe2; x82; xac]; [xf0; x9f; x98; x80]] /\
  utf8_valid [xed; xa0; x80] = false /\ utf8_valid [xc0; xaf] = false /\ utf8_valid [xf4; x90; x80; x80] = false /\
  (exists c, encodes 160 c /\ is_whitespace c = true) /\ (exists c, encodes 8203 c /\ is_whitespace c = false).
Proof.
  cbn zeta. split.
  - split; [|vm_compute; reflexivity]. repeat constructor; unfold scalar_value; lia.
  - split; [vm_compute; reflexivity|]. split; [reflexivity|]. split; [reflexivity|]. split; [reflexivity|]. split.
    + exists [xc2; xa0]. split; [split; [unfold scalar_value; lia|reflexivity]|reflexivity].
    + exists [xe2; x80; x8b]. split; [split; [unfold scalar_value; lia|reflexivity]|reflexivity].
Qed.
