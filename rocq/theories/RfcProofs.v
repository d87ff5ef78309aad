(** * RfcProofs: how lines of the IRC grammar are read, C80. *)

From Coq Require Import Lia ZifyBool ZifyNat ZifyN.
From Verif Require Import Base Wide Tags Irc Unescape SpecIrc SpecText SpecRfc.
From Verif Require Import BaseFacts SimdFacts IrcFacts Utf8Facts IrcProofs LineProofs AccessProofs UnescapeProofs.

(** ** Characters *)

Lemma key_clean (k : str) : wf_key k -> ~ In "="%byte k /\ ~ In ";"%byte k /\ ~ In " "%byte k.
Proof.
  intros [_ F]. rewrite Forall_forall in F.
  repeat split; intros I; apply F in I; unfold letter, digit in I; vm_compute in I; intuition discriminate.
Qed.

Lemma without_not_in (l : list byte) (s : str) (c : byte) : without l s -> In c l -> ~ In c s.
Proof.
  intros W I K. unfold without in W. rewrite Forall_forall in W. apply (W c K). apply in_or_app. now right.
Qed.

Lemma command_clean (w : str) :
  wf_command w -> w <> [] /\ ~ In " "%byte w /\ ~ starts ":" w /\ ~ starts "@" w.
Proof.
  assert (K : w <> [] /\ Forall (fun c => letter c \/ digit c) w ->
              w <> [] /\ ~ In " "%byte w /\ ~ starts ":" w /\ ~ starts "@" w).
  { intros [N F]. rewrite Forall_forall in F. split; [exact N|].
    repeat split; [intros I| |]; try (intros [r E]; assert (I : In (hd "x"%byte w) w) by (rewrite E; now left); rewrite E in I at 1; cbn [hd] in I);
      apply F in I; unfold letter, digit in I; vm_compute in I; intuition discriminate. }
  intros [[N F]|[L F]]; apply K; (split; [|eapply Forall_impl; [|exact F]; cbn; tauto]).
  - exact N.
  - intros ->. discriminate.
Qed.

Lemma command_starts (w r : str) (c : byte) :
  w <> [] -> ~ starts c w -> ~ starts c (w ++ r).
Proof.
  intros N K [x E]. destruct w as [|a w]; [congruence|]. injection E as -> _. apply K. now exists w.
Qed.

Lemma name_clean (s : str) : wf_name s -> ~ In " "%byte s /\ ~ In "!"%byte s /\ ~ In "@"%byte s.
Proof. intros [_ W]. repeat split; apply (without_not_in _ _ _ W); vm_compute; tauto. Qed.

Lemma user_clean (s : str) : wf_user s -> ~ In " "%byte s /\ ~ In "@"%byte s.
Proof. intros [_ W]. repeat split; apply (without_not_in _ _ _ W); vm_compute; tauto. Qed.

Lemma origin_no_space (o : origin) : wf_origin o -> ~ In " "%byte (write_origin o).
Proof.
  destruct o as [s|n u h]; cbn [wf_origin write_origin]; intros W.
  - now apply name_clean in W.
  - destruct W as (N & U & H). apply name_clean in N.
    destruct u as [u|], h as [h|]; cbn [wf_opt] in *;
      try apply user_clean in U; try apply name_clean in H; no_in.
Qed.

(** ** Tags *)

Lemma tags_section (l : list (str * option str)) :
  Forall (fun kv => wf_key (fst kv) /\ wf_opt wf_value (snd kv)) l -> l <> [] ->
  (forall pre, ~ In "="%byte pre -> tag_section (pre ++ write_tags l) (merged pre l)) /\
  ~ In " "%byte (write_tags l).
Proof.
  induction l as [|[k o] l IH]; intros F N; [congruence|]. clear N.
  apply Forall_cons_iff in F as [[K V] F]. cbn [fst snd] in *. apply key_clean in K as (K1 & K2 & K3).
  destruct l as [|kv l].
  - cbn [write_tags]. destruct o as [v|]; cbn [write_tag merged wf_opt] in *.
    + split.
      * intros pre P. rewrite app_assoc. apply ts_last; [no_in|]. apply (without_not_in _ _ _ V). vm_compute. tauto.
      * pose proof (without_not_in _ _ " "%byte V ltac:(vm_compute; tauto)). no_in.
    + split; [|exact K3]. intros pre P. apply ts_none. no_in.
  - destruct (IH F ltac:(discriminate)) as [A B].
    change (write_tags ((k, o) :: kv :: l)) with (write_tag (k, o) ++ b ";" ++ write_tags (kv :: l)).
    set (w := write_tags (kv :: l)) in *. set (l' := kv :: l) in *. clearbody w l'.
    destruct o as [v|]; cbn [write_tag merged wf_opt] in *.
    + pose proof (without_not_in _ _ " "%byte V ltac:(vm_compute; tauto)) as V1.
      pose proof (without_not_in _ _ ";"%byte V ltac:(vm_compute; tauto)) as V2.
      split; [|no_in]. intros pre P. rewrite <- !app_assoc, app_assoc. apply ts_more; [no_in|exact V2|].
      exact (A [] ltac:(now intros [])).
    + split; [|no_in]. intros pre P. replace (pre ++ k ++ b ";" ++ w) with ((pre ++ k ++ b ";") ++ w) by now rewrite <- !app_assoc.
      apply A. no_in.
Qed.

Lemma merged_count (l : list (str * option str)) : forall pre,
  length (merged pre l) =
  length (filter (fun kv => match snd kv with Some _ => true | None => false end) l).
Proof. induction l as [|[k [v|]] l IH]; intros pre; cbn; [reflexivity| |]; now rewrite IH. Qed.

Lemma merged_bound (l : list (str * option str)) : forall pre,
  Forall (fun kv => length (fst kv) <= length pre + length (write_tags l) /\
                    length (snd kv) <= length pre + length (write_tags l)) (merged pre l).
Proof.
  induction l as [|[k o] l IH]; intros pre; [constructor|].
  assert (E : write_tags ((k, o) :: l) = write_tag (k, o) ++ match l with [] => [] | _ => b ";" ++ write_tags l end).
  { destruct l; [now rewrite app_nil_r|reflexivity]. }
  rewrite E, app_length. clear E.
  destruct o as [v|]; cbn [merged write_tag].
  - constructor.
    + cbn [fst snd]. rewrite !app_length. lia.
    + eapply Forall_impl; [|exact (IH [])]. cbn [length]. intros kv [A B].
      destruct l; [cbn [write_tags length] in *; lia|]. rewrite !app_length. lia.
  - destruct l as [|kv l]; [constructor|]. eapply Forall_impl; [|exact (IH (pre ++ k ++ b ";"))].
    intros x [A B]. rewrite !app_length in *. cbn [length] in *. lia.
Qed.

(** ** The parts of a written line *)

Definition after_prefix (gaps : nat -> nat) (pad : nat) (g : grammar) : str :=
  g_command g ++ write_params (fun i => gaps (S (S i))) (parameters (g_middles g) (g_trailing g)) ++
  padding pad (g_trailing g).

Definition after_tags (gaps : nat -> nat) (pad : nat) (g : grammar) : str :=
  match g_origin g with None => [] | Some o => b ":" ++ write_origin o ++ gap (gaps 1) end ++ after_prefix gaps pad g.

Lemma write_section (gaps : nat -> nat) (pad : nat) (g : grammar) :
  wf_grammar g -> g_tags g <> [] ->
  has_section (write gaps pad g) (write_tags (g_tags g)) (spaces (gaps 0) ++ after_tags gaps pad g) /\
  tag_section (write_tags (g_tags g)) (merged [] (g_tags g)).
Proof.
  intros (WT & _) N. destruct (tags_section (g_tags g) WT N) as [A B].
  split; [split; [|exact B]|exact (A [] ltac:(now intros []))].
  unfold write, after_tags, after_prefix, gap. destruct (g_tags g) as [|kv l]; [congruence|].
  now rewrite <- !app_assoc.
Qed.

Lemma write_no_section (gaps : nat -> nat) (pad : nat) (g : grammar) :
  wf_grammar g -> g_tags g = [] ->
  write gaps pad g = after_tags gaps pad g /\ ~ starts "@" (write gaps pad g).
Proof.
  intros (_ & _ & WC & _) E. apply command_clean in WC as (C1 & _ & _ & C2).
  unfold write, after_tags, after_prefix. rewrite E. split; [reflexivity|].
  destruct (g_origin g) as [o|]; [intros [r K]; discriminate|]. cbn [app]. now apply command_starts.
Qed.

Lemma write_tags_spec (gaps : nat -> nat) (pad : nat) (g : grammar) :
  wf_grammar g ->
  spec_tags (write gaps pad g) =
  (merged [] (g_tags g), match g_tags g with [] => [] | _ => spaces (gaps 0) end ++ after_tags gaps pad g).
Proof.
  intros W. destruct (g_tags g) as [|kv l] eqn:E.
  - destruct (write_no_section gaps pad g W E) as [A B]. rewrite A in *. cbn [merged app].
    apply no_section_spec. intros sec rest [K _]. apply B. rewrite K. now eexists.
  - destruct (write_section gaps pad g W ltac:(congruence)) as [A B]. rewrite E in A, B.
    now apply (section_spec _ (write_tags (kv :: l))).
Qed.

Lemma write_prefix_spec (gaps : nat -> nat) (pad : nat) (g : grammar) :
  wf_grammar g ->
  spec_split_prefix (after_tags gaps pad g) =
  (option_map (fun o => spec_prefix (write_origin o)) (g_origin g),
   match g_origin g with None => [] | _ => spaces (gaps 1) end ++ after_prefix gaps pad g).
Proof.
  intros (_ & WO & WC & _). apply command_clean in WC as (C1 & _ & C2 & _). unfold after_tags.
  destruct (g_origin g) as [o|].
  - cbn [option_map]. pose proof (origin_no_space o WO) as NS.
    replace ((b ":" ++ write_origin o ++ gap (gaps 1)) ++ after_prefix gaps pad g)
      with (":"%byte :: (write_origin o ++ " "%byte :: spaces (gaps 1) ++ after_prefix gaps pad g)).
    2:{ unfold gap. rewrite <- !app_assoc. reflexivity. }
    cbn. assert (C : cut " " (write_origin o ++ " "%byte :: spaces (gaps 1) ++ after_prefix gaps pad g)
        = (write_origin o, Some (spaces (gaps 1) ++ after_prefix gaps pad g))) by (apply cut_some; auto).
    now rewrite C.
  - cbn [app option_map]. apply spec_split_prefix_none. now apply command_starts.
Qed.

Lemma unterminated_not (gaps : nat -> nat) (pad : nat) (g : grammar) :
  wf_grammar g -> ~ unterminated_tags (write gaps pad g).
Proof.
  intros W [[r E] K]. destruct (g_tags g) as [|kv l] eqn:T.
  - destruct (write_no_section gaps pad g W T) as [_ B]. apply B. rewrite E. now exists r.
  - destruct (write_section gaps pad g W ltac:(congruence)) as [[A _] _]. apply K. rewrite A.
    apply in_or_app. right. apply in_or_app. right. now left.
Qed.

Lemma wide_rejected (gaps : nat -> nat) (pad : nat) (g : grammar) :
  wf_grammar g -> (too_wide gaps g <-> spec_view (write gaps pad g) = None).
Proof.
  intros W. unfold spec_view. rewrite write_tags_spec by exact W.
  assert (SP : forall n r pf, match cut " " (spaces (S n) ++ r) with
      | ([], _) => None | (w, r') => let '(ch, ps) := spec_split_channel (or_empty r') in
        Some (mk_view (merged [] (g_tags g)) pf w ch (match ps with [] => None | _ => Some ps end)) end = None).
  { intros. reflexivity. }
  assert (G : forall pf, match cut " " (after_prefix gaps pad g) with
      | ([], _) => None | (w, r') => let '(ch, ps) := spec_split_channel (or_empty r') in
        Some (mk_view (merged [] (g_tags g)) pf w ch (match ps with [] => None | _ => Some ps end)) end <> None).
  { intros pf. pose proof W as (_ & _ & WC & _). apply command_clean in WC as (C1 & C3 & C2 & _).
    destruct (cut " " (after_prefix gaps pad g)) as [w o] eqn:C. destruct w as [|c w].
    - exfalso. unfold after_prefix in C. destruct (g_command g) as [|c w]; [congruence|].
      cbn [app cut] in C. destruct (byte_eqb_spec c " ") as [->|_]; [apply C3; now left|].
      destruct (cut " " _) in C. discriminate.
    - destruct (spec_split_channel (or_empty o)). discriminate. }
  unfold too_wide. destruct (g_tags g) as [|kv l] eqn:T.
  - cbn [app]. rewrite write_prefix_spec by exact W.
    destruct (g_origin g) as [o|]; cbn [option_map].
    + destruct (gaps 1) as [|n]; cbn [spaces repeat app].
      * split; [intros [[]|[_ []]]; congruence|]. intros K. now apply G in K.
      * split; [intros _; reflexivity|]. intros _. right. split; discriminate.
    + cbn [app]. split; [intros [[]|[]]; congruence|]. intros K. now apply G in K.
  - destruct (gaps 0) as [|n].
    + cbn [spaces repeat app]. rewrite write_prefix_spec by exact W.
      destruct (g_origin g) as [o|]; cbn [option_map].
      * destruct (gaps 1) as [|n]; cbn [spaces repeat app].
        -- split; [intros [[_ []]|[_ []]]; congruence|]. intros K. now apply G in K.
        -- split; [intros _; reflexivity|]. intros _. right. split; discriminate.
      * cbn [app]. split; [intros [[_ []]|[[] _]]; congruence|]. intros K. now apply G in K.
    + cbn. split; [reflexivity|]. intros _. left. split; discriminate.
Qed.

Lemma sized_below (s : str) : sized s -> below_4gib s.
Proof. unfold sized, below_4gib. lia. Qed.

(** ** Single spaces *)

Lemma write_params_single (ps : list str) :
  write_params single ps = match ps with [] => [] | _ => b " " ++ spaced ps end.
Proof.
  induction ps as [|p ps IH]; [reflexivity|]. cbn [write_params]. unfold gap, single in *. cbn [spaces repeat].
  rewrite IH. destruct ps as [|q ps]; cbn [spaced]; rewrite ?app_nil_r; reflexivity.
Qed.

Lemma parameters_nonempty (ms : list str) (t : option str) :
  Forall wf_middle ms -> Forall (fun p => p <> []) (parameters ms t).
Proof.
  intros F. unfold parameters. apply Forall_app. split.
  - eapply Forall_impl; [|exact F]. now intros m [N _].
  - destruct t; repeat constructor. discriminate.
Qed.

Lemma spaced_nonempty (l : list str) : Forall (fun p => p <> []) l -> l <> [] -> spaced l <> [].
Proof.
  intros F N. destruct l as [|x l]; [congruence|]. apply Forall_cons_iff in F as [A _].
  destruct l; cbn [spaced]; [exact A|]. destruct x; [congruence|discriminate].
Qed.

(** ** Any spaces *)

(** What follows a word: nothing, or a space and the rest. *)
Definition cont (x : str) : Prop := x = [] \/ exists r, x = " "%byte :: r.

Lemma write_cont (gaps : nat -> nat) (pad : nat) (ps : list str) (t : option str) :
  cont (write_params gaps ps ++ padding pad t).
Proof.
  destruct ps as [|p ps]; cbn [write_params].
  - cbn [app]. destruct t; [now left|]. destruct pad; [now left|]. right. now eexists.
  - right. unfold gap. rewrite <- !app_assoc. now eexists.
Qed.

Lemma cut_cont (w x : str) :
  ~ In " "%byte w -> cont x -> cut " " (w ++ x) = (w, match x with [] => None | _ => Some (tl x) end).
Proof.
  intros N [->|[r ->]].
  - rewrite app_nil_r. now apply cut_none.
  - now apply cut_some.
Qed.

Lemma no_channel (x : str) : ~ starts "#" x -> spec_split_channel x = (None, x).
Proof.
  intros N. destruct x as [|c x]; [reflexivity|]. unfold spec_split_channel.
  destruct (byte_eqb_spec c "#") as [->|_]; [|reflexivity]. exfalso. apply N. now exists x.
Qed.

Lemma hash_channel (m x : str) :
  ~ In " "%byte m -> cont x -> spec_split_channel (("#"%byte :: m) ++ x) = (Some ("#"%byte :: m), tl x).
Proof.
  intros N C. assert (K : cut " " (("#"%byte :: m) ++ x) = ("#"%byte :: m, match x with [] => None | _ => Some (tl x) end)).
  { apply cut_cont; [|exact C]. intros [I|I]; [discriminate|now apply N]. }
  unfold spec_split_channel. cbn [app] in *. rewrite byte_eqb_refl. rewrite K. now destruct C as [->|[r ->]].
Qed.

Lemma spaces_no_hash (n : nat) (x : str) : n <> 0 -> ~ starts "#" (spaces n ++ x).
Proof. intros N [r E]. destruct n; [congruence|discriminate]. Qed.

Lemma body_split (gaps : nat -> nat) (pad : nat) (g : grammar) :
  wf_grammar g ->
  spec_split_channel (tl (write_params (fun i => gaps (S (S i))) (parameters (g_middles g) (g_trailing g)) ++
                          padding pad (g_trailing g))) =
  (channel_seen gaps g, tl (written_after gaps pad g)).
Proof.
  intros (_ & _ & _ & WM & _). unfold written_after, middles_left.
  destruct (channel_seen gaps g) as [ch|] eqn:E.
  - unfold channel_seen in E. destruct (gaps 2) as [|k] eqn:G2; [|discriminate].
    destruct (g_middles g) as [|m ms]; [discriminate|]. apply Forall_cons_iff in WM as [(N & W & _) _].
    destruct m as [|c m]; [congruence|]. destruct (byte_eqb_spec c "#") as [->|NC].
    2:{ exfalso. cbn in E. destruct c; congruence. }
    cbn in E. injection E as <-.
    assert (NS : ~ In " "%byte m).
    { pose proof (without_not_in _ _ " "%byte W ltac:(vm_compute; tauto)) as K. intros I. apply K. now right. }
    change (parameters (("#"%byte :: m) :: ms) (g_trailing g)) with (("#"%byte :: m) :: parameters ms (g_trailing g)).
    cbn [write_params tl]. rewrite G2. unfold gap. cbn [spaces repeat]. rewrite <- !app_assoc.
    etransitivity; [|apply (hash_channel m _ NS (write_cont (fun i => gaps (3 + i)) pad (parameters ms (g_trailing g)) (g_trailing g)))].
    reflexivity.
  - change (fun i => gaps (2 + i)) with (fun i => gaps (S (S i))). apply no_channel.
    unfold channel_seen in E. destruct (g_middles g) as [|m ms].
    + unfold parameters. cbn [app]. destruct (g_trailing g) as [t|]; cbn [write_params app padding].
      * unfold gap. rewrite <- !app_assoc. cbn [app b tl]. intros [r K]. destruct (gaps 2); discriminate.
      * intros [r K]. destruct pad as [|[|pad]]; discriminate.
    + apply Forall_cons_iff in WM as [(N & W & _) _]. destruct m as [|c m]; [congruence|].
      change (parameters ((c :: m) :: ms) (g_trailing g)) with ((c :: m) :: parameters ms (g_trailing g)).
      cbn [write_params]. unfold gap. rewrite <- !app_assoc. cbn [app b tl].
      destruct (gaps 2) as [|k]; [|now apply spaces_no_hash].
      intros [r K]. cbn in K. injection K as -> _. discriminate E.
Qed.

Lemma seen_view (gaps : nat -> nat) (pad : nat) (g : grammar) :
  wf_grammar g -> ~ too_wide gaps g ->
  spec_view (write gaps pad g) =
  Some (mk_view (merged [] (g_tags g)) (option_map (fun o => spec_prefix (write_origin o)) (g_origin g))
          (g_command g) (channel_seen gaps g) (params_seen gaps pad g)).
Proof.
  intros W NW. unfold spec_view. rewrite write_tags_spec by exact W.
  replace (match g_tags g with [] => [] | _ => spaces (gaps 0) end ++ after_tags gaps pad g)
    with (after_tags gaps pad g).
  2:{ unfold too_wide in NW. destruct (g_tags g); [reflexivity|]. destruct (gaps 0); [reflexivity|].
      exfalso. apply NW. left. split; discriminate. }
  rewrite write_prefix_spec by exact W.
  replace (match g_origin g with None => [] | _ => spaces (gaps 1) end ++ after_prefix gaps pad g)
    with (after_prefix gaps pad g).
  2:{ unfold too_wide in NW. destruct (g_origin g); [|reflexivity]. destruct (gaps 1); [reflexivity|].
      exfalso. apply NW. right. split; discriminate. }
  pose proof (body_split gaps pad g W) as BS.
  destruct W as (_ & _ & WC & _). apply command_clean in WC as (C1 & C2 & _).
  unfold after_prefix. pose proof (write_cont (fun i => gaps (S (S i))) pad (parameters (g_middles g) (g_trailing g)) (g_trailing g)) as CT.
  set (body := write_params (fun i => gaps (S (S i))) (parameters (g_middles g) (g_trailing g)) ++ padding pad (g_trailing g)) in *.
  match goal with |- context [cut " " ?x] =>
    assert (C : cut " " x = (g_command g, match body with [] => None | _ => Some (tl body) end)) by now apply cut_cont end.
  rewrite C. destruct (g_command g) as [|c w]; [congruence|].
  match goal with |- context [or_empty ?x] => assert (O : or_empty x = tl body) by now destruct body end.
  rewrite O. match goal with |- context [spec_split_channel ?x] =>
    assert (Q : spec_split_channel x = (channel_seen gaps g, tl (written_after gaps pad g))) by exact BS end.
  rewrite Q. unfold params_seen. now destruct (tl (written_after gaps pad g)).
Qed.

Lemma single_not_wide (g : grammar) : ~ too_wide single g.
Proof. unfold too_wide, single. intuition. Qed.

Lemma single_params (l : list str) (t : option str) :
  Forall wf_middle l ->
  match tl (write_params single (parameters l t) ++ padding 0 t) with [] => None | p => Some p end =
  some_params (parameters l t).
Proof.
  intros F. pose proof (parameters_nonempty _ t F) as PN. rewrite write_params_single.
  replace (padding 0 t) with (@nil byte) by now destruct t. rewrite app_nil_r.
  destruct (parameters l t) as [|p ps]; [reflexivity|].
  pose proof (spaced_nonempty (p :: ps) PN ltac:(discriminate)) as SN. cbn [some_params].
  change (tl (b " " ++ spaced (p :: ps))) with (spaced (p :: ps)). now destruct (spaced (p :: ps)).
Qed.

Lemma single_view (g : grammar) :
  wf_grammar g ->
  spec_view (write single 0 g) =
  Some (mk_view (merged [] (g_tags g)) (option_map (fun o => spec_prefix (write_origin o)) (g_origin g))
          (g_command g) (channel_of (g_middles g))
          (some_params (parameters (after_channel (g_middles g)) (g_trailing g)))).
Proof.
  intros W. rewrite seen_view by (auto using single_not_wide).
  assert (L : middles_left single g = after_channel (g_middles g)).
  { unfold middles_left, after_channel, channel_seen. cbn [single]. now destruct (g_middles g) as [|m ms]. }
  assert (WM' : Forall wf_middle (after_channel (g_middles g))).
  { destruct W as (_ & _ & _ & WM & _). unfold after_channel. destruct (g_middles g); [constructor|].
    destruct (channel_of _); [|exact WM]. now apply Forall_cons_iff in WM. }
  assert (P : params_seen single 0 g = some_params (parameters (after_channel (g_middles g)) (g_trailing g))).
  { rewrite <- (single_params _ (g_trailing g) WM'), <- L. unfold params_seen, written_after.
    now destruct (channel_seen single g). }
  now rewrite P.
Qed.

(** ** Prefixes *)

(** The prefixes that are read as they are meant. *)
Lemma prefix_tells (o : origin) :
  wf_origin o -> (tells (spec_prefix (write_origin o)) o <-> well_told o).
Proof.
  assert (P : forall s, ~ In "!"%byte s -> ~ In "@"%byte s -> spec_prefix s = mk_prefix None None s).
  { intros s A B. unfold spec_prefix. now rewrite (proj2 (cut_last_none "@" s) B), (proj2 (cut_last_none "!" s) A). }
  destruct o as [s|n u h]; cbn [wf_origin write_origin]; intros W.
  - apply name_clean in W as (_ & A & B). cbn [tells well_told]. rewrite P by assumption. cbn. tauto.
  - destruct W as (N & U & H). apply name_clean in N as (_ & N1 & N2).
    destruct u as [u|], h as [h|]; cbn [wf_opt well_told tells] in *.
    + apply user_clean in U as (_ & U2). apply name_clean in H as (_ & H1 & H2).
      assert (A : cut_last "@" (n ++ (b "!" ++ u) ++ b "@" ++ h) = Some (n ++ b "!" ++ u, h)).
      { apply cut_last_some. split; [now rewrite <- !app_assoc|exact H2]. }
      unfold spec_prefix. rewrite A. cbn [host nick user]. split.
      * intros (_ & E & _). split; [discriminate|]. intros I.
        destruct (cut_last "!" u) as [[l r]|] eqn:C; [|now apply cut_last_none in C].
        apply cut_last_some in C as [-> C].
        assert (B : cut_last "!" (n ++ (b "!" ++ l ++ "!"%byte :: r) ++ b "@" ++ h) = Some (n ++ b "!" ++ l, r ++ b "@" ++ h)).
        { apply cut_last_some. split; [now rewrite <- !app_assoc|no_in]. }
        rewrite B in E. injection E as E. apply (f_equal (@length byte)) in E. rewrite !app_length in E. cbn in E. lia.
      * intros [_ I].
        assert (B : cut_last "!" (n ++ (b "!" ++ u) ++ b "@" ++ h) = Some (n, u ++ b "@" ++ h)).
        { apply cut_last_some. split; [now rewrite <- !app_assoc|no_in]. }
        rewrite B. assert (D : cut_last "!" (n ++ b "!" ++ u) = Some (n, u)) by now apply cut_last_some.
        rewrite D. auto.
    + apply user_clean in U as (_ & U2). split; [|intros [[] _]; reflexivity].
      intros [_ E]. unfold spec_prefix in E. cbn [user] in E.
      assert (A : cut_last "@" (n ++ (b "!" ++ u) ++ []) = None) by (apply cut_last_none; rewrite app_nil_r; no_in).
      rewrite A in E. discriminate.
    + apply name_clean in H as (_ & H1 & H2).
      assert (A : cut_last "@" (n ++ [] ++ b "@" ++ h) = Some (n, h)) by now apply cut_last_some.
      unfold spec_prefix. rewrite A. cbn [host nick user].
      rewrite (proj2 (cut_last_none "!" n) N1), (proj2 (cut_last_none "!" (n ++ [] ++ b "@" ++ h))) by no_in. tauto.
    + rewrite !app_nil_r. rewrite P by assumption. cbn. tauto.
Qed.

(** ** C80 *)

Lemma accepted_parts (bd : build) (gaps : nat -> nat) (pad : nat) (g : grammar) (m : msg_ref) :
  wf_grammar g -> utf8_valid (write gaps pad g) = true -> sized (write gaps pad g) ->
  ref_parse bd (write gaps pad g) = Ret (Some m) ->
  ref_tags m = Ret (merged [] (g_tags g)) /\
  ref_prefix m = Ret (option_map (fun o => spec_prefix (write_origin o)) (g_origin g)) /\
  all_short (write gaps pad g).
Proof.
  intros W U S E. pose proof (sized_below _ S) as B. pose proof (write_tags_spec gaps pad g W) as T.
  assert (A : all_short (write gaps pad g)).
  { apply all_short_spec. rewrite T. cbn [fst]. eapply Forall_impl; [|exact (merged_bound (g_tags g) [])].
    cbn [length]. intros [k v] [K V]. unfold sized in S. cbn [fst snd] in *.
    assert (L : length (write_tags (g_tags g)) <= length (write gaps pad g)).
    { unfold write. rewrite app_length. destruct (g_tags g) as [|x l]; [cbn; lia|]. rewrite !app_length. lia. }
    unfold short. cbn [fst snd]. lia. }
  destruct (parse_tags bd _ m U B E A) as [R _]. rewrite T in R. split; [exact R|]. split; [|exact A].
  destruct (parse_reads bd _ m U B E) as (v & V & [_ R2 _ _ _ _]). rewrite R2.
  assert (NW : ~ too_wide gaps g).
  { intros K. apply (wide_rejected gaps pad g W) in K. congruence. }
  apply view_inv in V as (s1 & s2 & rest & T1 & P1 & _). rewrite T in T1. injection T1 as _ <-.
  replace (match g_tags g with [] => [] | _ => spaces (gaps 0) end ++ after_tags gaps pad g) with (after_tags gaps pad g) in P1.
  - rewrite write_prefix_spec in P1 by exact W. now injection P1 as <- _.
  - unfold too_wide in NW. destruct (g_tags g); [reflexivity|]. destruct (gaps 0); [reflexivity|].
    exfalso. apply NW. left. split; discriminate.
Qed.

(** C80. A line of the grammar makes the parser panic exactly when more than 128 of its
    tags have an ['='], is rejected exactly when there is more than one space after the
    tags or after the prefix, and is read otherwise; in every build. *)
Lemma p_c80_outcome :
  forall (bd : build) (gaps : nat -> nat) (pad : nat) (g : grammar),
    wf_grammar g -> utf8_valid (write gaps pad g) = true -> sized (write gaps pad g) ->
    (ref_parse bd (write gaps pad g) = Panic <-> 128 < with_values g) /\
    (ref_parse bd (write gaps pad g) = Ret None <-> with_values g <= 128 /\ too_wide gaps g) /\
    ((exists m, ref_parse bd (write gaps pad g) = Ret (Some m)) <-> with_values g <= 128 /\ ~ too_wide gaps g).
Proof.
  intros bd gaps pad g W U S. pose proof (sized_below _ S) as B.
  pose proof (fun _ : bd = Scalar => unterminated_not gaps pad g W) as T.
  pose proof (merged_count (g_tags g) []) as C. change (length (filter _ (g_tags g))) with (with_values g) in C.
  destruct (Nat.le_gt_cases (with_values g) 128) as [L|L].
  - pose proof (parse_cases bd _ U B T) as P. rewrite write_tags_spec in P by exact W. cbn [fst] in P.
    rewrite C in P. specialize (P L). pose proof (wide_rejected gaps pad g W) as WR.
    destruct (spec_view (write gaps pad g)) as [v|].
    + destruct P as (m & -> & _). split; [split; [discriminate|lia]|]. split.
      * split; [discriminate|]. intros [_ K]. apply WR in K. discriminate.
      * split; [|eauto]. intros _. split; [exact L|]. intros K. apply WR in K. discriminate.
    + rewrite P. split; [split; [discriminate|lia]|]. split.
      * split; [|reflexivity]. intros _. split; [exact L|]. now apply WR.
      * split; [intros [m K]; discriminate|]. intros [_ K]. destruct K. now apply WR.
  - rewrite parse_panics; auto.
    2:{ rewrite write_tags_spec by exact W. cbn [fst]. lia. }
    split; [split; auto|]. split; split; try discriminate; try lia. intros [m K]; discriminate.
Qed.

(** C80. What is read from a line with single spaces. *)
Lemma p_c80_read :
  forall (bd : build) (g : grammar),
    wf_grammar g -> utf8_valid (write single 0 g) = true -> sized (write single 0 g) -> with_values g <= 128 ->
    exists m c, ref_parse bd (write single 0 g) = Ret (Some m) /\
      ref_command m = Ret c /\ command_as_str c = g_command g /\
      (g_command g <> b "353" -> g_command g <> b "366" -> ref_channel m = Ret (channel_of (g_middles g))) /\
      ref_params m = Ret (some_params (parameters (after_channel (g_middles g)) (g_trailing g))).
Proof.
  intros bd g W U S L. pose proof (sized_below _ S) as B.
  destruct (p_c80_outcome bd single 0 g W U S) as (_ & _ & O).
  destruct (proj2 O) as [m E].
  { split; [exact L|]. unfold too_wide, single. intuition. }
  pose proof (single_view g W) as V. destruct (parse_reads bd _ m U B E) as (v & V' & [_ _ R3 R4 R5 _]).
  rewrite V in V'. injection V' as <-. cbn [v_command v_params] in *.
  exists m, (spec_command (g_command g)). repeat split; auto.
  - apply spec_command_names.
  - intros N1 N2. rewrite R4. unfold spec_channel. cbn [v_command v_channel].
    now rewrite !str_eqb_neq by assumption.
Qed.

(** C80. The tags of a line that is read: the ones without an ['='] are merged into the
    next key, so the tags are what is meant exactly if each has an ['=']. *)
Lemma p_c80_tags :
  forall (bd : build) (gaps : nat -> nat) (pad : nat) (g : grammar) (m : msg_ref),
    wf_grammar g -> utf8_valid (write gaps pad g) = true -> sized (write gaps pad g) ->
    ref_parse bd (write gaps pad g) = Ret (Some m) ->
    ref_tags m = Ret (merged [] (g_tags g)) /\
    (ref_tags m = Ret (meant_tags g) <-> Forall (fun kv => snd kv <> None) (g_tags g)).
Proof.
  intros bd gaps pad g m W U S E. destruct (accepted_parts bd gaps pad g m W U S E) as (T & _ & _).
  split; [exact T|]. rewrite T. unfold meant_tags. generalize (g_tags g). intros l. split.
  - intros [= K]. apply (f_equal (@length _)) in K. rewrite merged_count, map_length in K.
    clear -K. assert (G : forall l' : list (str * option str),
       length (filter (fun kv => match snd kv with Some _ => true | None => false end) l') <= length l').
    { induction l' as [|[k [v|]] l' IH]; cbn; lia. }
    induction l as [|[k [v|]] l IH]; [constructor| |].
    + cbn [filter snd length] in K. constructor; [discriminate|]. apply IH. lia.
    + cbn [filter snd length] in K. specialize (G l). lia.
  - intros F. f_equal. induction F as [|[k [v|]] l N F IH]; [reflexivity| |].
    + cbn [merged map fst snd or_empty app]. now rewrite IH.
    + now destruct N.
Qed.

(** C80. The prefix of a line that is read: it tells who sent it, except when there is a
    user without a host, or a user with ['!'] in it. *)
Lemma p_c80_prefix :
  forall (bd : build) (gaps : nat -> nat) (pad : nat) (g : grammar) (m : msg_ref),
    wf_grammar g -> utf8_valid (write gaps pad g) = true -> sized (write gaps pad g) ->
    ref_parse bd (write gaps pad g) = Ret (Some m) ->
    match g_origin g with
    | None => ref_prefix m = Ret None
    | Some o => exists p, ref_prefix m = Ret (Some p) /\ (tells p o <-> well_told o)
    end.
Proof.
  intros bd gaps pad g m W U S E. destruct (accepted_parts bd gaps pad g m W U S E) as (_ & P & _).
  destruct W as (_ & WO & _). destruct (g_origin g) as [o|]; [|exact P]. cbn [option_map] in P.
  exists (spec_prefix (write_origin o)). split; [exact P|]. now apply prefix_tells.
Qed.

Lemma spaced_snoc (l : list str) (x : str) :
  exists pre, spaced (l ++ [x]) = pre ++ x /\ (~ In ":"%byte pre <-> Forall (fun m => ~ In ":"%byte m) l).
Proof.
  induction l as [|y l IH].
  - exists []. split; [reflexivity|]. split; [constructor|intros _ []].
  - destruct IH as (pre & E & I). exists (y ++ b " " ++ pre). split.
    + cbn [app]. replace (spaced (y :: l ++ [x])) with (y ++ b " " ++ spaced (l ++ [x])).
      * rewrite E. now rewrite <- !app_assoc.
      * destruct (l ++ [x]) eqn:K; [now destruct l|reflexivity].
    + rewrite Forall_cons_iff, <- I. split.
      * intros H. split; intros K; apply H; apply in_or_app; [now left|]. right. apply in_or_app. now right.
      * intros [A B]. no_in.
Qed.

Lemma spaced_clean (l : list str) : Forall (fun m => ~ In ":"%byte m) l -> ~ In ":"%byte (spaced l).
Proof.
  induction 1 as [|x l N F IH]; [intros []|]. destruct l as [|y l]; [exact N|].
  change (spaced (x :: y :: l)) with (x ++ b " " ++ spaced (y :: l)). no_in.
Qed.

(** What is written between the command, or the channel, and a trailing parameter. *)
Lemma written_snoc (gaps : nat -> nat) (l : list str) (t : str) :
  exists pre, tl (write_params gaps (l ++ [b ":" ++ t])) = pre ++ b ":" ++ t /\
    (~ In ":"%byte pre <-> Forall (fun m => ~ In ":"%byte m) l).
Proof.
  assert (SP : forall n, ~ In ":"%byte (spaces n)) by (intros n I; apply repeat_spec in I; discriminate).
  assert (K : forall l gaps, exists pre, write_params gaps (l ++ [b ":" ++ t]) = b " " ++ pre ++ b ":" ++ t /\
            (~ In ":"%byte pre <-> Forall (fun m => ~ In ":"%byte m) l)).
  { clear gaps l. induction l as [|y l IH]; intros gaps.
    - exists (spaces (gaps 0)). cbn [app write_params]. unfold gap. rewrite app_nil_r, <- !app_assoc.
      split; [reflexivity|]. split; [constructor|]. intros _. apply SP.
    - destruct (IH (fun i => gaps (S i))) as (pre & E & I). exists (spaces (gaps 0) ++ y ++ b " " ++ pre).
      cbn [app write_params]. unfold gap. rewrite E. split; [now rewrite <- !app_assoc|].
      rewrite Forall_cons_iff, <- I. specialize (SP (gaps 0)). split.
      + intros N. split; intros J; apply N; rewrite !in_app_iff; tauto.
      + intros [A B] J. rewrite !in_app_iff in J. destruct J as [J|[J|[J|J]]]; try tauto.
        destruct J as [J|[]]. discriminate. }
  destruct (K l gaps) as (pre & E & I). exists pre. split; [exact (f_equal (@tl byte) E)|exact I].
Qed.

Lemma written_clean (gaps : nat -> nat) (pad : nat) (l : list str) :
  Forall (fun m => ~ In ":"%byte m) l -> ~ In ":"%byte (tl (write_params gaps l ++ spaces pad)).
Proof.
  assert (SP : forall n, ~ In ":"%byte (spaces n)) by (intros n I; apply repeat_spec in I; discriminate).
  intros F. assert (K : ~ In ":"%byte (write_params gaps l ++ spaces pad)).
  { revert gaps. induction F as [|x l N F IH]; intros gaps; [apply SP|]. cbn [write_params]. unfold gap.
    intros J. rewrite <- !app_assoc, !in_app_iff in J. specialize (IH (fun i => gaps (S i))). rewrite in_app_iff in IH.
    specialize (SP (gaps 0)). destruct J as [[J|[]]|J]; [discriminate|tauto]. }
  intros I. apply K. destruct (write_params gaps l ++ spaces pad); [exact I|now right].
Qed.

(** C80. What is read from a line with any spaces: the channel only if there is a single
    space before it, and as parameters what is written after it, or after the command,
    less one space; spaces at the end are part of them. *)
Lemma p_c80_spaced :
  forall (bd : build) (gaps : nat -> nat) (pad : nat) (g : grammar) (m : msg_ref),
    wf_grammar g -> utf8_valid (write gaps pad g) = true -> sized (write gaps pad g) ->
    ref_parse bd (write gaps pad g) = Ret (Some m) ->
    exists c, ref_command m = Ret c /\ command_as_str c = g_command g /\
      (g_command g <> b "353" -> g_command g <> b "366" -> ref_channel m = Ret (channel_seen gaps g)) /\
      ref_params m = Ret (params_seen gaps pad g).
Proof.
  intros bd gaps pad g m W U S E. pose proof (sized_below _ S) as B.
  destruct (parse_reads bd _ m U B E) as (v & V & [_ _ R3 R4 R5 _]).
  assert (NW : ~ too_wide gaps g).
  { intros K. apply (wide_rejected gaps pad g W) in K. congruence. }
  rewrite seen_view in V by assumption. injection V as <-. cbn [v_command v_params] in *.
  exists (spec_command (g_command g)). repeat split; auto.
  - apply spec_command_names.
  - intros N1 N2. rewrite R4. unfold spec_channel. cbn [v_command v_channel].
    now rewrite !str_eqb_neq by assumption.
Qed.

(** C80. The text of a line that is read is its trailing parameter exactly when no
    parameter before it, except the channel, contains a colon; without a trailing
    parameter and without colons it is all parameters. *)
Lemma p_c80_text :
  forall (bd : build) (gaps : nat -> nat) (pad : nat) (g : grammar) (m : msg_ref),
    wf_grammar g -> utf8_valid (write gaps pad g) = true -> sized (write gaps pad g) ->
    ref_parse bd (write gaps pad g) = Ret (Some m) ->
    match g_trailing g with
    | Some t => exists x, ref_text m = Ret (Some x) /\
        (x = t <-> Forall (fun p => ~ In ":"%byte p) (middles_left gaps g))
    | None => Forall (fun p => ~ In ":"%byte p) (middles_left gaps g) ->
        ref_text m = Ret (params_seen gaps pad g)
    end.
Proof.
  intros bd gaps pad g m W U S E. pose proof (sized_below _ S) as B.
  destruct (parse_reads bd _ m U B E) as (v & V & [_ _ _ _ _ R6]).
  assert (NW : ~ too_wide gaps g).
  { intros K. apply (wide_rejected gaps pad g W) in K. congruence. }
  rewrite seen_view in V by assumption.
  injection V as <-. rewrite R6. clear R6 E NW. unfold spec_text. cbn [v_params]. unfold params_seen, written_after, parameters.
  generalize (middles_left gaps g). intros l.
  generalize (fun i => gaps match channel_seen gaps g with Some _ => 3 + i | None => 2 + i end). intros gs.
  destruct (g_trailing g) as [t|]; cbn [padding].
  - destruct (written_snoc gs l t) as (pre & P & HI).
    assert (Q : tl (write_params gs (l ++ [b ":" ++ t]) ++ []) = pre ++ b ":" ++ t) by (rewrite app_nil_r; exact P).
    match goal with |- context [match tl ?x with _ => _ end] => change (tl x) with (tl (write_params gs (l ++ [b ":" ++ t]) ++ [])) end.
    rewrite Q. clear P Q.
    destruct (pre ++ b ":" ++ t) as [|c0 x0] eqn:X0; [now destruct pre|]. rewrite <- X0. clear X0 c0 x0.
    destruct (in_dec byte_eq_dec ":"%byte pre) as [I|I].
    + apply in_split in I as (l1 & l2 & ->).
      destruct (cut ":" ((l1 ++ ":"%byte :: l2) ++ b ":" ++ t)) as [a [x|]] eqn:C.
      * exists x. split; [reflexivity|]. rewrite <- HI. apply cut_some in C as [C N]. split.
        -- intros ->. exfalso. apply N.
           assert (A : l1 ++ ":"%byte :: l2 = a).
           { exact (app_inv_tail (":"%byte :: t) _ _ C). }
           rewrite <- A. apply in_or_app. right. now left.
        -- intros K. exfalso. apply K. apply in_or_app. right. now left.
      * apply cut_none in C as [_ C]. exfalso. apply C. apply in_or_app. left. apply in_or_app. right. now left.
    + exists t. rewrite <- HI. split; [|tauto].
      assert (C : cut ":" (pre ++ b ":" ++ t) = (pre, Some t)) by (apply cut_some; auto). now rewrite C.
  - intros F. rewrite app_nil_r. pose proof (written_clean gs pad l F) as N.
    destruct (tl (write_params gs l ++ spaces pad)) as [|c x]; [reflexivity|].
    assert (C : cut ":" (c :: x) = (c :: x, None)) by (apply cut_none; auto). now rewrite C.
Qed.

(** ** Unescaping *)

Lemma proper_escape (v : str) :
  proper v -> Forall (fun c => ~ In c [";"%byte; " "%byte; x0d; x0a]) v -> escape (ircv3 v) = v.
Proof.
  induction 1 as [|c s N P IH|k v s I P IH]; intros F; [reflexivity| |].
  - apply Forall_cons_iff in F as [A F]. cbn [ircv3]. rewrite byte_eqb_neq by exact N.
    unfold escape in *. cbn [flat_map]. rewrite IH by exact F.
    assert (EB : escape_byte c = [c]).
    { cbn [In] in A. unfold escape_byte. destruct c; try reflexivity; exfalso; apply A; tauto || congruence. }
    now rewrite EB.
  - assert (F' : Forall (fun c => ~ In c [";"%byte; " "%byte; x0d; x0a]) s).
    { apply Forall_app in F as [_ F]. now apply Forall_app in F as [_ F]. }
    specialize (IH F'). cbn in I.
    repeat (destruct I as [I|I]; [injection I as <- <-; cbn; unfold escape in IH; now rewrite IH|]). destruct I.
Qed.

(** C80. A tag value whose backslashes all begin one of the five escapes, and whose text
    has no comma mark, is unescaped as IRCv3 says, by both functions. *)
Lemma p_c80_unescape :
  forall v : str,
    wf_value v -> proper v -> utf8_valid (ircv3 v) = true -> ~ infix comma_mark (ircv3 v) ->
    unescape v = ircv3 v /\
    exists c, maybe_unescape (Borrowed v) = Ret c /\ deref c = ircv3 v.
Proof.
  intros v W P U N.
  assert (E : escape (ircv3 v) = v).
  { apply proper_escape; [exact P|]. eapply Forall_impl; [|exact W]. intros c A K. apply A. cbn in *. tauto. }
  destruct (p_c19_unescape_escape (ircv3 v) U N) as [A B]. rewrite E in A. split; [exact A|].
  apply B. now rewrite E.
Qed.

(** C80. With another character after a backslash it is not: the backslash stays in force. *)
Lemma p_c80_unescape_refuted :
  exists v : str, wf_value v /\ utf8_valid v = true /\ ~ infix comma_mark v /\
    unescape v <> ircv3 v /\ forall c, maybe_unescape (Borrowed v) = Ret c -> deref c <> ircv3 v.
Proof.
  exists (b "C:\users"). split; [repeat (constructor; [vm_compute; intuition discriminate|]); constructor|].
  split; [reflexivity|]. split; [rewrite mark_infix by reflexivity; vm_compute; intuition discriminate|].
  split; [vm_compute; discriminate|]. intros c [= <-]. vm_compute. discriminate.
Qed.

(** Decides what is allowed in a literal. *)
Ltac chars :=
  unfold without; apply Forall_forall; let c := fresh in let I := fresh in
  intros c I; cbn [b list_byte_of_string In] in I; vm_compute in I;
  repeat (destruct I as [I|I]; [subst c; vm_compute; intuition (discriminate || reflexivity)|]); destruct I.

Ltac wf_literal :=
  repeat match goal with
  | |- _ /\ _ => split
  | |- Forall _ (_ :: _) => first [solve [chars] | constructor]
  | |- Forall _ [] => constructor
  | |- True => exact I
  | |- wf_key _ => unfold wf_key; cbn [fst snd]
  | |- wf_value _ => unfold wf_value
  | |- wf_name _ => unfold wf_name
  | |- wf_user _ => unfold wf_user
  | |- wf_middle _ => unfold wf_middle
  | |- wf_command _ => left
  | |- wf_opt _ _ => cbn [wf_opt fst snd]
  | |- wf_origin _ => cbn [wf_origin]
  | |- _ <> [] => discriminate
  | |- ~ starts _ _ => let K := fresh in intros [? K]; discriminate K
  | |- Forall _ _ => chars
  | |- without _ _ => chars
  end.

Definition bare (tags : list (str * option str)) : grammar :=
  mk_grammar tags None (b "PING") [] None.

Lemma bare_wf (tags : list (str * option str)) :
  Forall (fun kv => wf_key (fst kv) /\ wf_opt wf_value (snd kv)) tags -> wf_grammar (bare tags).
Proof.
  intros F. unfold wf_grammar, bare. cbn [g_tags g_origin g_command g_middles g_trailing]. split; [exact F|]. wf_literal.
Qed.

Lemma wf_a : wf_key (b "a").
Proof. wf_literal. Qed.

(** C80. There are lines of the grammar, shorter than the 512 bytes of RFC 1459, that make
    the parser panic, in every build. *)
Lemma p_c80_total_refuted :
  exists g : grammar, wf_grammar g /\ utf8_valid (write single 0 g) = true /\
    length (write single 0 g) <= 510 /\ forall bd : build, ref_parse bd (write single 0 g) = Panic.
Proof.
  exists (bare (repeat (b "a", Some []) 129)).
  assert (W : wf_grammar (bare (repeat (b "a", Some []) 129))).
  { apply bare_wf. apply Forall_forall. intros x I. apply repeat_spec in I as ->. cbn. split; [exact wf_a|constructor]. }
  assert (U : utf8_valid (write single 0 (bare (repeat (b "a", Some []) 129))) = true) by (vm_compute; reflexivity).
  assert (L : (length (write single 0 (bare (repeat (b "a", Some []) 129))) <=? 510) = true) by (vm_compute; reflexivity).
  apply Nat.leb_le in L.
  split; [exact W|]. split; [exact U|]. split; [exact L|].
  intros bd. apply (proj1 (p_c80_outcome bd single 0 _ W U ltac:(unfold sized; lia))).
  apply Nat.ltb_lt. vm_compute. reflexivity.
Qed.

(** C80. More spaces than one are a separator too, but a line may then be rejected, or
    lose its channel. *)
Lemma p_c80_spaces_refuted :
  exists (g : grammar) (gaps : nat -> nat), wf_grammar g /\ (forall i, gaps i <= 1) /\
    utf8_valid (write gaps 0 g) = true /\ forall bd : build, ref_parse bd (write gaps 0 g) = Ret None.
Proof.
  exists (mk_grammar [] (Some (Server (b "tmi.twitch.tv"))) (b "PING") [] None), (fun _ => 1).
  match goal with |- ?A /\ _ => assert (W : A) end.
  { unfold wf_grammar; cbn [g_tags g_origin g_command g_middles g_trailing fst snd]. wf_literal. }
  split; [exact W|]. split; [lia|]. split; [reflexivity|]. intros bd.
  apply (proj1 (proj2 (p_c80_outcome bd (fun _ => 1) 0 _ W ltac:(reflexivity) ltac:(vm_compute; reflexivity)))).
  split; [vm_compute; lia|]. right. split; discriminate.
Qed.

Lemma p_c80_channel_refuted :
  exists (g : grammar) (gaps : nat -> nat) (ch : str), wf_grammar g /\ channel_of (g_middles g) = Some ch /\
    utf8_valid (write gaps 0 g) = true /\
    forall (bd : build) (m : msg_ref), ref_parse bd (write gaps 0 g) = Ret (Some m) -> ref_channel m = Ret None.
Proof.
  exists (mk_grammar [] None (b "JOIN") [b "#chan"] None), (fun _ => 1), (b "#chan").
  split.
  { unfold wf_grammar; cbn [g_tags g_origin g_command g_middles g_trailing fst snd]. wf_literal. }
  split; [reflexivity|]. split; [reflexivity|]. intros bd m E.
  destruct (parse_reads bd (b "JOIN  #chan") m) as (v & V & [_ _ _ R4 _ _]); [reflexivity|reflexivity|exact E|].
  rewrite R4. vm_compute in V. injection V as <-. reflexivity.
Qed.

(** C80. Spaces at the end are not a part of the last parameter, but are read as one. *)
Lemma p_c80_padding_refuted :
  exists (g : grammar) (pad : nat), wf_grammar g /\ utf8_valid (write single pad g) = true /\
    forall (bd : build) (m m' : msg_ref),
      ref_parse bd (write single 0 g) = Ret (Some m) -> ref_parse bd (write single pad g) = Ret (Some m') ->
      ref_params m = Ret (Some (b "nick")) /\ ref_params m' = Ret (Some (b "nick ")).
Proof.
  exists (mk_grammar [] None (b "NICK") [b "nick"] None), 1.
  match goal with |- ?A /\ _ => assert (W : A) end.
  { unfold wf_grammar; cbn [g_tags g_origin g_command g_middles g_trailing fst snd]. wf_literal. }
  split; [exact W|]. split; [reflexivity|]. intros bd m m' E E'. split.
  - destruct (p_c80_spaced bd single 0 _ m W) as (c & _ & _ & _ & P); [reflexivity|vm_compute; reflexivity|exact E|exact P].
  - destruct (p_c80_spaced bd single 1 _ m' W) as (c & _ & _ & _ & P); [reflexivity|vm_compute; reflexivity|exact E'|exact P].
Qed.

(** C80. IRCv3 says that of several tags with one key the last one counts; here it is the
    first. *)
Lemma p_c80_last_tag_refuted :
  exists (g : grammar) (t : tag_name) (x y : str), wf_grammar g /\ utf8_valid (write single 0 g) = true /\
    meant_tags g = [(tag_as_str t, x); (tag_as_str t, y)] /\ x <> y /\
    forall (bd : build) (m : msg_ref), ref_parse bd (write single 0 g) = Ret (Some m) -> ref_tag m t = Ret (Some x).
Proof.
  exists (bare [(b "id", Some (b "1")); (b "id", Some (b "2"))]), TId, (b "1"), (b "2").
  match goal with |- ?A /\ _ => assert (W : A) end.
  { apply bare_wf. cbn [fst snd]. wf_literal. }
  split; [exact W|]. split; [reflexivity|]. split; [reflexivity|]. split; [discriminate|].
  intros bd m E. destruct (accepted_parts bd single 0 _ m W ltac:(reflexivity) ltac:(vm_compute; reflexivity) E) as (T & _ & A).
  eapply p_c16_tag_is_first_match; [| |exact A|exact E|exact T|]; [reflexivity|reflexivity|].
  exists [], [(b "id", b "2")]. split; [reflexivity|intros []].
Qed.

Definition sample_grammar : grammar :=
  mk_grammar [(b "flag", None); (b "twitch.tv/x", Some (b "a\sb")); (b "id", Some []); (b "+end", None)]
    (Some (User (b "nick") (Some (b "~user")) (Some (b "some.host"))))
    (b "PRIVMSG") [b "#chan"; b "x"] (Some (b "hé : llo ")).

Example ex_c80 :
  wf_grammar sample_grammar /\ utf8_valid (write single 0 sample_grammar) = true /\
  sized (write single 0 sample_grammar) /\ with_values sample_grammar = 2 /\
  write single 0 sample_grammar =
    b "@flag;twitch.tv/x=a\sb;id=;+end :nick!~user@some.host PRIVMSG #chan x :hé : llo " /\
  write (fun i => i) 0 sample_grammar =
    b "@flag;twitch.tv/x=a\sb;id=;+end :nick!~user@some.host  PRIVMSG   #chan    x     :hé : llo " /\
  channel_seen single sample_grammar = Some (b "#chan") /\ channel_seen (fun i => i) sample_grammar = None /\
  params_seen (fun i => i - 2) 5 sample_grammar = Some (b " x   :hé : llo ") /\
  write single 2 (mk_grammar [] None (b "NICK") [b "nick"] None) = b "NICK nick  " /\
  merged [] (g_tags sample_grammar) = [(b "flag;twitch.tv/x", b "a\sb"); (b "id", [])] /\
  meant_tags sample_grammar = [(b "flag", []); (b "twitch.tv/x", b "a\sb"); (b "id", []); (b "+end", [])] /\
  well_told (User (b "nick") (Some (b "~user")) (Some (b "some.host"))) /\
  ~ well_told (User (b "nick") (Some (b "a!b")) (Some (b "some.host"))) /\
  too_wide (fun i => i) sample_grammar /\
  wf_value (b "a\sb\\\:é") /\ proper (b "a\sb\\\:é") /\ ircv3 (b "a\sb\\\:é") = b "a b\;é" /\
  ircv3 (b "C:\users\") = b "C:users" /\ unescape (b "C:\users\") = b "C:u ers".
Proof.
  split.
  { unfold wf_grammar, sample_grammar; cbn [g_tags g_origin g_command g_middles g_trailing fst snd]. wf_literal. }
  repeat (split; [vm_compute; reflexivity|]).
  split; [split; [discriminate|cbn; intuition discriminate]|].
  split; [intros [_ K]; apply K; cbn; tauto|].
  split; [right; split; discriminate|].
  split; [wf_literal|].
  split.
  { apply pr_plain; [discriminate|]. apply (pr_escape (b "s") (b " ")); [cbn; tauto|].
    apply pr_plain; [discriminate|]. apply (pr_escape (b "\") (b "\")); [cbn; tauto|].
    apply (pr_escape (b ":") (b ";")); [cbn; tauto|]. repeat (apply pr_plain; [discriminate|]). constructor. }
  repeat split; vm_compute; reflexivity.
Qed.
