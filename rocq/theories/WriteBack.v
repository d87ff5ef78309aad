(** * WriteBack: the typed messages of lines can be written (proofs). *)

From Verif Require Import Base Wide Client Tags Irc Unescape SpecIrc SpecText MsgBase MsgTypes MsgNotice Message SpecMsg SpecWrite Samples.
From Coq Require Import Lia ZifyBool ZifyNat ZifyN.
From Verif Require Import BaseFacts Utf8Facts IrcFacts IrcProofs LineProofs AccessProofs FieldFacts TypedFacts NoticeFacts TypedProofs FieldProofs DbgValues DbgLine WriteFacts.

Open Scope nat_scope.

(** ** Values that a tag can carry *)

Definition val (x : str) : Prop := ~ In ";"%byte x /\ ~ In " "%byte x /\ ok x.

Lemma val_lit (x : str) : negb (existsb (Byte.eqb ";") x) && negb (existsb (Byte.eqb " ") x) && utf8_valid x = true -> val x.
Proof.
  intros H. apply andb_true_iff in H as [H U]. apply andb_true_iff in H as [A B].
  assert (G : forall c, negb (existsb (Byte.eqb c) x) = true -> ~ In c x).
  { intros c E I. apply negb_true_iff in E. rewrite <- not_true_iff_false in E. apply E.
    apply existsb_exists. exists c. split; [exact I|]. now destruct (byte_eqb_spec c c). }
  split; [now apply G|]. split; [now apply G|exact U].
Qed.

Lemma ok_app (x y : str) : ok x -> ok y -> ok (x ++ y).
Proof. intros A B. unfold ok. now rewrite utf8_app. Qed.

Lemma val_app (x y : str) : val x -> val y -> val (x ++ y).
Proof.
  intros (A & B & C) (A' & B' & C'). split; [now apply not_in_app|]. split; [now apply not_in_app|]. now apply ok_app.
Qed.

Lemma val_digits (x : str) : Forall is_digit x -> val x.
Proof.
  intros F. rewrite Forall_forall in F.
  assert (N : forall c, (Byte.to_N c < 48)%N \/ (57 < Byte.to_N c)%N -> ~ In c x).
  { intros c R I. apply F in I. unfold is_digit in I. lia. }
  split; [apply N; cbn; lia|]. split; [apply N; cbn; lia|].
  clear N. induction x as [|c x IH]; [reflexivity|].
  unfold ok. cbn [utf8_valid]. assert (D : is_digit c) by (apply F; now left).
  replace (in_range 0 127 c) with true; [|unfold is_digit in D; unfold in_range; lia].
  apply IH. intros y I. apply F. now right.
Qed.

Lemma val_N (n : N) : val (show_N n).
Proof. destruct (show_N_numeral n) as (_ & F & _). now apply val_digits. Qed.

Lemma val_Z (z : Z) : val (write_Z z).
Proof.
  unfold write_Z. destruct (z <? 0)%Z; [|apply val_N]. apply val_app; [now apply val_lit|apply val_N].
Qed.

Lemma val_flag (f : bool) : val (write_flag f).
Proof. destruct f; now apply val_lit. Qed.

Lemma val_level (l : level) : val (level_word l).
Proof. destruct l; now apply val_lit. Qed.

Lemma val_followers (f : followers_only) : val (write_followers f).
Proof. destruct f as [|[d|]]; [now apply val_lit|apply val_N|now apply val_lit]. Qed.

Lemma val_join (ws : list str) : Forall val ws -> val (join_by "," ws).
Proof.
  induction 1 as [|w ws W F IH]; [now apply val_lit|]. cbn [join_by]. destruct ws as [|w' ws]; [exact W|].
  apply val_app; [exact W|]. apply val_app; [now apply val_lit|exact IH].
Qed.

(** ** Lines written from such values *)

Definition val_row (r : string * option str) : Prop := forall x, snd r = Some x -> val x.

Definition name_ok (n : string) : bool :=
  negb (existsb (Byte.eqb "=") (b n)) && negb (existsb (Byte.eqb " ") (b n)) && utf8_valid (b n).

Lemma written_ok (t : table) : forallb name_ok (map fst t) = true -> Forall val_row t ->
  Forall (fun kv => wf_tag kv /\ ok (fst kv) /\ ok (snd kv)) (written t).
Proof.
  intros K F. induction F as [|[n o] t V F IH]; [constructor|]. cbn [map fst forallb] in K.
  apply andb_true_iff in K as [K1 K2]. unfold written. cbn [flat_map fst snd]. apply Forall_app. split; [|now apply IH].
  destruct o as [x|]; [|constructor]. constructor; [|constructor]. destruct (V x eq_refl) as (A & B & C).
  unfold name_ok in K1. apply andb_true_iff in K1 as [K1 U]. apply andb_true_iff in K1 as [P Q].
  assert (G : forall c, negb (existsb (Byte.eqb c) (b n)) = true -> ~ In c (b n)).
  { intros c E I. apply negb_true_iff in E. rewrite <- not_true_iff_false in E. apply E.
    apply existsb_exists. exists c. split; [exact I|]. now destruct (byte_eqb_spec c c). }
  split; [|now split]. split; [now apply G|]. split; [now apply G|]. now split.
Qed.

Lemma render_tags_ok (l : list (str * str)) : Forall (fun kv => ok (fst kv) /\ ok (snd kv)) l -> ok (render_tags l).
Proof.
  induction 1 as [|[k x] l [K X] F IH]; [reflexivity|]. cbn [render_tags fst snd] in *. destruct l as [|p l].
  - apply ok_app; [exact K|]. now apply ok_app.
  - apply ok_app; [exact K|]. apply ok_app; [reflexivity|]. apply ok_app; [exact X|]. now apply ok_app.
Qed.

(** What [line_with] needs. *)
Definition sound (m : message) : Prop := wf_message m /\ ok (render m).

Definition word_ok (w : str) : bool :=
  match w with
  | [] => false
  | c :: _ => negb (Byte.eqb c ":") && negb (Byte.eqb c "@") && negb (existsb (Byte.eqb " ") w) && utf8_valid w
  end.

Lemma line_sound (t : table) (s : option sender) (w : str) (ch ps : option str) :
  forallb name_ok (map fst t) = true -> word_ok w = true -> Forall val_row t ->
  (forall p, s = Some p -> wf_sender p /\ ok (render_sender p)) ->
  match ch with
  | Some c => starts "#" c /\ ~ In " "%byte c /\ ok c
  | None => forall p, ps = Some p -> ~ starts "#" p
  end ->
  (forall p, ps = Some p -> p <> [] /\ ok p) ->
  sound (line_with t s w ch ps).
Proof.
  intros K W F S C P. pose proof (written_ok t K F) as T. unfold word_ok in W. destruct w as [|c w]; [discriminate|].
  set (cw := c :: w) in *. apply andb_true_iff in W as [W U]. apply andb_true_iff in W as [W N].
  apply andb_true_iff in W as [W1 W2].
  assert (NS : ~ In " "%byte cw).
  { intros I. apply negb_true_iff in N. rewrite <- not_true_iff_false in N. apply N.
    apply existsb_exists. exists " "%byte. split; [exact I|reflexivity]. }
  unfold sound, line_with, wf_message, render. cbn [m_tags m_sender m_command m_channel m_params].
  split; [split; [|split; [|split; [|split; [|split; [|split]]]]]|].
  - eapply Forall_impl; [|exact T]. now intros kv [? _].
  - destruct s as [p|]; [now apply S|]. intros (r & E). unfold cw in E. injection E as -> _. discriminate.
  - intros _ _ (r & E). unfold cw in E. injection E as -> _. discriminate.
  - discriminate.
  - exact NS.
  - destruct ch as [ch|]; [tauto|exact C].
  - intros E. now apply P in E as [E _].
  - assert (OT : ok (render_tags (written t))).
    { apply render_tags_ok. eapply Forall_impl; [|exact T]. now intros kv [_ ?]. }
    apply ok_app.
    { destruct (written t); [reflexivity|]. apply ok_app; [reflexivity|]. apply ok_app; [exact OT|reflexivity]. }
    apply ok_app.
    { destruct s as [p|]; [|reflexivity]. apply ok_app; [reflexivity|]. apply ok_app; [now apply S|reflexivity]. }
    apply ok_app; [exact U|]. apply ok_app.
    { destruct ch as [ch|]; [|reflexivity]. apply ok_app; [reflexivity|]. apply C. }
    destruct ps as [p|]; [|reflexivity]. apply ok_app; [reflexivity|]. now apply P.
Qed.

(** ** What the parts of a line are like *)

Record good (v : view) : Prop :=
  { gd_tags : forall n x, has v n x -> val x;
    gd_channel : forall x, has_channel v x -> starts "#" x /\ ~ In " "%byte x /\ ok x;
    gd_nick : forall x, has_nick v x -> ~ In " "%byte x /\ ok x;
    gd_text : forall x, has_text v x -> ok x;
    gd_params : forall x, v_params v = Some x -> ok x }.

Lemma tag_walk_val (s : str) : ~ In " "%byte s -> forall k v,
  match v with Some x => ~ In ";"%byte x /\ ~ In " "%byte x | None => True end ->
  Forall (fun kv => ~ In ";"%byte (snd kv) /\ ~ In " "%byte (snd kv)) (tag_walk k v s).
Proof.
  induction s as [|c s IH]; intros N k [v|] V; cbn [tag_walk].
  - constructor; [exact V|constructor].
  - constructor.
  - assert (N1 : ~ In " "%byte s) by (intros I; apply N; now right).
    destruct (byte_eqb_spec c ";") as [->|Q].
    + constructor; [exact V|]. now apply IH.
    + apply IH; [exact N1|]. destruct V as [V1 V2]. split; apply not_in_app; auto.
      * intros [E|[]]. congruence.
      * intros [E|[]]. apply N. left. congruence.
  - assert (N1 : ~ In " "%byte s) by (intros I; apply N; now right).
    destruct (byte_eqb_spec c "=") as [->|Q]; apply IH; auto.
Qed.

Lemma cut_no (c : byte) (r t : str) (o : option str) : cut c r = (t, o) -> ~ In c t.
Proof.
  revert t o. induction r as [|x r IH]; intros t o K; cbn [cut] in K; [injection K as <- _; auto|].
  destruct (byte_eqb_spec x c) as [->|Q]; [injection K as <- _; auto|].
  destruct (cut c r) as [l q]. injection K as <- _. intros [E|I]; [congruence|]. now apply (IH l q).
Qed.

Lemma view_good (s : str) (v : view) : spec_view s = Some v -> utf8_valid s = true -> good v.
Proof.
  intros V U. pose proof (view_ok s v V U) as O. split.
  - intros n x H. split; [|split]; [| |apply up_ok; exact (up_has v O n x H)].
    all: apply view_inv in V as (s1 & s2 & rest & ET & _); destruct H as (l1 & l2 & E & _);
      assert (F : Forall (fun kv => ~ In ";"%byte (snd kv) /\ ~ In " "%byte (snd kv)) (v_tags v));
      [|rewrite E in F; apply Forall_app in F as [_ F]; apply Forall_inv in F; now apply F].
    all: unfold spec_tags in ET; destruct s as [|c r]; [injection ET as <- <-; constructor|];
      destruct (byte_eqb_spec c "@") as [->|]; [|injection ET as <- <-; constructor];
      destruct (cut " " r) as [t [rest'|]] eqn:K; [|injection ET as <- <-; constructor];
      injection ET as <- <-; apply tag_walk_val; [now apply cut_no in K|exact I].
  - intros x H. split; [|split]; [| |exact (ov_channel v O x H)].
    all: unfold has_channel in H; apply view_inv in V as (s1 & s2 & rest & _ & _ & _ & _ & R);
      destruct rest as [|y rest]; [destruct R; congruence|];
      destruct (byte_eqb_spec y "#") as [->|Q]; [|destruct R; congruence];
      destruct R as (ch & r & R & [N [E|[E _]]] & _); assert (x = ch) by congruence; subst x.
    + destruct ch as [|z ch]; [injection E as E; discriminate|]. injection E as <- _. now exists ch.
    + destruct ch as [|z ch]; [discriminate|]. injection E as <- _. now exists ch.
    + exact N.
    + exact N.
  - intros x H. split; [|apply up_ok; exact (up_nick v O x H)]. destruct H as (p & E & H).
    apply view_inv in V as (s1 & s2 & rest & _ & EP & _).
    apply split_prefix_cases in EP as [_ [(pt & _ & N & Q)|(Q & _)]]; [|congruence].
    rewrite E in Q. injection Q as ->. unfold spec_prefix in H. cbn [nick] in H.
    destruct (cut_last "!" pt) as [[l r]|] eqn:K.
    + injection H as <-. apply cut_last_app in K. rewrite K in N. intros I. apply N, in_app_iff. now left.
    + destruct (cut_last "@" pt) as [[l r]|] eqn:K2; [|discriminate].
      injection H as <-. apply cut_last_app in K2. rewrite K2 in N. intros I. apply N, in_app_iff. now left.
  - intros x H. apply up_ok. exact (up_text v O x H).
  - exact (ov_params v O).
Qed.

(** ** Badges *)

Lemma parts_in (c : byte) (s : str) (ws : list str) (w : str) : s = join_by c ws -> In w ws -> incl w s.
Proof.
  intros ->. induction ws as [|x ws IH]; intros I; [destruct I|]. cbn [join_by]. destruct ws as [|y ws].
  - destruct I as [->|[]]. apply incl_refl.
  - destruct I as [->|I]; [apply incl_appl, incl_refl|]. apply incl_appr, incl_appr. now apply IH.
Qed.

Lemma slash_in (ws : list str) (l : list (str * str)) (n x : str) : slash_items ws l -> In (n, x) l ->
  ~ In "/"%byte n /\ exists w, In w ws /\ w = n ++ b "/" ++ x.
Proof.
  induction 1 as [|w ws l N I IH|n' x' ws l N I IH]; intros J; [destruct J| |].
  - destruct (IH J) as (A & w' & B & C). split; [exact A|]. exists w'. split; [now right|exact C].
  - destruct J as [J|J].
    + injection J as -> ->. split; [exact N|]. eexists. split; [now left|reflexivity].
    + destruct (IH J) as (A & w' & B & C). split; [exact A|]. exists w'. split; [now right|exact C].
Qed.

Lemma item_val (s : str) (l : list (str * str)) (n x : str) : val s -> comma_items s l -> In (n, x) l ->
  val n /\ val x /\ no_comma n /\ no_comma x /\ ~ In "/"%byte n.
Proof.
  intros (A & B & C) I J. pose proof (items_ok s l C I) as F. rewrite Forall_forall in F. destruct (F _ J) as [On Ox].
  destruct I as (ws & (_ & E & Q) & I). destruct (slash_in _ _ _ _ I J) as (N & w & W & ->).
  pose proof (parts_in _ _ _ _ E W) as S. rewrite Forall_forall in Q. pose proof (Q _ W) as NC. cbn beta in NC.
  assert (S1 : incl n s) by (intros z Z; apply S, in_app_iff; now left).
  assert (S2 : incl x s) by (intros z Z; apply S, in_app_iff; right; now right).
  split; [split; [|split]; auto|]. split; [split; [|split]; auto|].
  split; [intros Z; apply NC, in_app_iff; now left|].
  split; [intros Z; apply NC, in_app_iff; right; now right|exact N].
Qed.

Lemma first_fun (k : str) (l : list (str * str)) (o o' : option str) : first_tag k l o -> first_tag k l o' -> o = o'.
Proof. intros A B. apply lookup_first in A, B. congruence. Qed.

Lemma is_badge_name (n w : str) (e : option str) (x : badge str) : is_badge n w e x -> badge_name x = n.
Proof. destruct x; cbn; try (now intros ->). - now intros (-> & _). - now intros (_ & ->). Qed.

Lemma is_badge_extra (n w w' : str) (e : option str) (x y : badge str) :
  is_badge n w e x -> is_badge n w' e y -> badge_extra x = badge_extra y.
Proof.
  intros A B. pose proof (is_badge_name _ _ _ _ A) as NA. pose proof (is_badge_name _ _ _ _ B) as NB.
  assert (N : badge_name x = badge_name y) by congruence.
  assert (S : forall z d w0, In (badge_name z) special_badges -> badge_name z = n -> is_badge n w0 e (BOther d) -> False).
  { intros z d w0 I E K. destruct K as [K _]. apply K. now rewrite <- E. }
  destruct x as [| | | |s|d], y as [| | | |s'|d']; try reflexivity; try discriminate N;
    try (exfalso; refine (S _ _ _ _ NA B); cbn; tauto); try (exfalso; refine (S _ _ _ _ NB A); cbn; tauto).
  - destruct A as (_ & _ & A), B as (_ & _ & B). cbn [badge_extra]. destruct e as [e|]; destruct A as [-> _], B as [-> _]; reflexivity.
  - destruct A as (_ & ->), B as (_ & ->). reflexivity.
Qed.

Section Good.
Context (v : view) (G : good v).

Lemma badges_back (l : list (badge str)) : has_badges v l ->
  badges_able l /\ Forall val_row (badge_rows l).
Proof.
  intros [(x & y & Hx & Hy & items & ex & Ix & Iy & F)|[_ ->]].
  2: { split; [split; [constructor|intros ? ? []]|]. apply Forall_cons; [|apply Forall_cons; [|apply Forall_nil]]; intros z Z; discriminate. }
  apply (gd_tags v G) in Hx, Hy.
  assert (B : forall g, In g l -> badge_able g /\ val (badge_name g) /\ val (badge_version g) /\
     (forall e, badge_extra g = Some e -> val e) /\
     exists e w, first_tag (badge_name g) ex e /\ is_badge (badge_name g) w e g).
  { intros g I. assert (J : exists nv e, In nv items /\ first_tag (fst nv) ex e /\ is_badge (fst nv) (snd nv) e g).
    { clear -F I. induction F as [|nv h items l (e & E & K) F IH]; [destruct I|]. destruct I as [->|I].
      - exists nv, e. split; [now left|auto].
      - destruct (IH I) as (nv' & e' & A & B). exists nv', e'. split; [now right|exact B]. }
    destruct J as ([n w] & e & I1 & E & K). cbn [fst snd] in *. pose proof (is_badge_name _ _ _ _ K) as N. rewrite N.
    destruct (item_val x items n w Hx Ix I1) as (V1 & V2 & C1 & C2 & SL).
    assert (VE : forall z, e = Some z -> val z /\ no_comma z).
    { intros z ->. destruct E as (l1 & l2 & El & _). destruct (item_val y ex n z Hy Iy) as (_ & ? & _ & ? & _); [|auto].
      rewrite El. apply in_app_iff. right. now left. }
    assert (VV : val (badge_version g) /\ no_comma (badge_version g)).
    { destruct g as [| | | |s|d]; cbn [badge_version];
        try (split; [now apply val_lit|unfold no_comma; cbn; intuition discriminate]).
      - destruct K as (_ & -> & _). auto.
      - destruct K as (_ & ->). auto. }
    assert (VX : forall z, badge_extra g = Some z -> val z /\ no_comma z).
    { intros z Z. destruct g as [| | | |s|d]; cbn [badge_extra] in Z; try discriminate.
      - injection Z as <-. destruct K as (_ & _ & K). destruct e as [e|]; destruct K as [-> _]; [now apply VE|].
        split; [now apply val_lit|unfold no_comma; cbn; intuition discriminate].
      - destruct K as (_ & ->). cbn [bd_extra] in Z. now apply VE. }
    split; [|split; [exact V1|split; [apply VV|split; [intros z Z; now apply VX|exists e, w; auto]]]].
    unfold badge_able. rewrite N. split; [exact C1|]. split; [exact SL|]. split; [apply VV|].
    split; [intros z Z; now apply VX|]. destruct g as [| | | |s|d]; trivial.
    - destruct K as (_ & _ & K). destruct e as [e|]; destruct K as [-> K]; [exact K|]. left. rewrite K.
      apply (show_u64 1). reflexivity.
    - destruct K as (K & ->). exact K. }
  split; [split|].
  - apply Forall_forall. intros g I. now apply B.
  - intros g h I J N. destruct (B g I) as (_ & _ & _ & _ & e & w & E & K), (B h J) as (_ & _ & _ & _ & e' & w' & E' & K').
    rewrite N in *. rewrite (first_fun _ _ _ _ E' E) in K'. exact (is_badge_extra _ _ _ _ _ _ K K').
  - assert (VI : val (join_by "," (map badge_item l))).
    { apply val_join, Forall_forall. intros z Z. apply in_map_iff in Z as (g & <- & I).
      destruct (B g I) as (_ & A & C & _). unfold badge_item. apply val_app; [exact A|]. apply val_app; [now apply val_lit|exact C]. }
    assert (VJ : val (join_by "," (info_items l))).
    { apply val_join, Forall_forall. intros z Z. unfold info_items in Z. apply in_flat_map in Z as (g & I & Z).
      destruct (B g I) as (_ & A & _ & C & _). destruct (badge_extra g) as [e|]; [|destruct Z]. destruct Z as [<-|[]].
      apply val_app; [exact A|]. apply val_app; [now apply val_lit|now apply C]. }
    constructor; [|constructor; [|constructor]]; intros z Z; cbn [snd] in Z.
    + destruct l as [|g l]; [discriminate|]. cbn [map write_list] in Z. injection Z as <-. exact VI.
    + destruct l as [|g l]; [discriminate|]. injection Z as <-. exact VJ.
Qed.

(** ** Rows *)

Lemma r_none (n : string) : val_row (n, None).
Proof. intros x E. discriminate. Qed.
Lemma r_val (n : string) (x : str) : val x -> val_row (n, Some x).
Proof. intros V y E. cbn in E. now injection E as <-. Qed.
Lemma r_has (n k : string) (x : str) : has v k x -> val_row (n, Some x).
Proof. intros H. apply r_val. exact (gd_tags v G k x H). Qed.
Lemma r_opt (n k : string) (o : option str) : opt (has v k) o -> val_row (n, o).
Proof. destruct o as [x|]; cbn [opt]; intros H; [exact (r_has n k x H)|apply r_none]. Qed.
Lemma r_filled (n k : string) (o : option str) : opt (has_filled v k) o -> val_row (n, o).
Proof. destruct o as [x|]; cbn [opt]; intros H; [destruct H as [H _]; exact (r_has n k x H)|apply r_none]. Qed.
Lemma r_or (n k : string) (d x : str) : val d -> has_or v k d x -> val_row (n, Some x).
Proof. intros D [H|[_ ->]]; [exact (r_has n k x H)|now apply r_val]. Qed.
Lemma r_map {A : Type} (n : string) (f : A -> str) (o : option A) : (forall x, val (f x)) -> val_row (n, option_map f o).
Proof. intros H. destruct o; cbn [option_map]; [apply r_val, H|apply r_none]. Qed.
Lemma r_list (n k : string) (ws : list str) : has_list v k ws -> val_row (n, write_list ws).
Proof.
  intros [(x & H & N & -> & _)|[_ ->]]; [|apply r_none]. destruct ws; [congruence|]. exact (r_has n k _ H).
Qed.

Lemma list_back (k : string) (ws : list str) : has_list v k ws -> Forall no_comma ws.
Proof. intros [(x & _ & _ & _ & F)|[_ ->]]; [exact F|constructor]. Qed.

Lemma filled_back (k : string) (o : option str) : opt (has_filled v k) o -> filled o.
Proof. destruct o as [x|]; cbn [opt]; intros H; [destruct H as [_ H]; congruence|discriminate]. Qed.

Lemma u64_back (k : string) (n : N) : has_u64 v k n -> u64 n.
Proof. intros (x & _ & ds & _ & _ & L). unfold u64. lia. Qed.

Lemma number_back (k : string) (o : option N) : opt (has_u64 v k) o -> number o.
Proof. destruct o as [n|]; cbn [opt]; intros H m E; [injection E as <-; exact (u64_back k n H)|discriminate]. Qed.

Lemma i64_back (k : string) (z : Z) : has_i64 v k z -> i64 z.
Proof. intros (x & _ & ds & n & _ & _ & L). unfold i64. lia. Qed.

Lemma time_back (z : Z) : has_time v z -> timestamp z.
Proof. intros (x & _ & _ & L). exact L. Qed.

Lemma action_back (x : str) (f : bool) : (exists t, has_text v t /\ action_text t x f) ->
  action_able x f /\ ok (write_action x f).
Proof.
  intros (t & T & A). apply (gd_text v G) in T. destruct f; cbn [action_text write_action] in *.
  - split; [discriminate|]. now rewrite <- A.
  - destruct A as [-> A]. split; [intros _; exact A|exact T].
Qed.

(** ** Parts around the tags *)

Lemma server_sound (p : sender) : server = Some p -> wf_sender p /\ ok (render_sender p).
Proof.
  intros [= <-]. split; [|reflexivity]. cbn. unfold no_delim. repeat split; cbn; intuition discriminate.
Qed.

Lemma none_sound (p : sender) : None = Some p -> wf_sender p /\ ok (render_sender p).
Proof. discriminate. Qed.

Lemma from_sound (x : str) : has_nick v x -> forall p, from x = Some p -> wf_sender p /\ ok (render_sender p).
Proof.
  intros H p [= <-]. apply (gd_nick v G) in H as [A B]. split.
  - cbn [wf_sender]. split; [exact A|]. unfold no_delim. repeat split; cbn; intuition discriminate.
  - cbn [render_sender]. apply ok_app; [exact B|reflexivity].
Qed.

Lemma colon_sound (x : str) : ok x -> forall p, after_colon x = Some p -> p <> [] /\ ok p.
Proof. intros O p [= <-]. split; [discriminate|]. now apply (ok_app (b ":")). Qed.

Lemma colon_opt_sound (o : option str) : opt (has_text v) o ->
  forall p, option_map (fun t => b ":" ++ t) o = Some p -> p <> [] /\ ok p.
Proof.
  destruct o as [x|]; cbn [opt option_map]; intros H p E; [|discriminate]. apply (colon_sound x); [exact (gd_text v G x H)|exact E].
Qed.

Lemma no_hash (o : option str) : forall p, option_map (fun t => b ":" ++ t) o = Some p -> ~ starts "#" p.
Proof. destruct o as [x|]; intros p E; [injection E as <-; intros (r & R); discriminate|discriminate]. Qed.

Lemma no_params (p : str) : None = Some p -> p <> [] /\ ok p.
Proof. discriminate. Qed.

Ltac line_ := cbn [line]; apply line_sound; [reflexivity|reflexivity| | | |].

(** ** Each kind of message *)

Lemma join_back (x : join_msg str) : join_of v x -> sound (line (KJoin x)).
Proof. intros [A B]. line_; [constructor|now apply from_sound|now apply (gd_channel v G)|exact no_params]. Qed.

Lemma part_back (x : part_msg str) : part_of v x -> sound (line (KPart x)).
Proof. intros [A B]. line_; [constructor|now apply from_sound|now apply (gd_channel v G)|exact no_params]. Qed.

Lemma ping_back (x : ping_msg str) : ping_of v x -> sound (line (KPing x)).
Proof. intros A. line_; [constructor|exact none_sound|exact (no_hash _)|now apply colon_opt_sound]. Qed.

Lemma pong_back (x : pong_msg str) : pong_of v x -> sound (line (KPong x)).
Proof. intros A. line_; [constructor|exact none_sound|exact (no_hash _)|now apply colon_opt_sound]. Qed.

Lemma reconnect_back : sound (line KReconnect).
Proof. line_; [constructor|exact server_sound|discriminate|exact no_params]. Qed.

Lemma notice_back (x : notice_msg str) : notice_of v x -> sound (line (KNotice x)).
Proof.
  intros (A & B & C). line_; [|exact server_sound| |apply colon_sound; exact (gd_text v G _ B)].
  - constructor; [exact (r_opt _ _ _ C)|constructor].
  - destruct (n_channel x) as [c|]; [now apply (gd_channel v G)|]. intros p [= <-] (r & R). discriminate.
Qed.

Lemma clear_msg_back (x : clear_msg str) : clear_msg_of v x -> able (KClearMsg x) /\ sound (line (KClearMsg x)).
Proof.
  intros (A & B & C & D & E & F). destruct (action_back _ _ E) as [E1 E2]. split.
  - split; [exact (time_back _ F)|exact E1].
  - line_; [|exact server_sound|now apply (gd_channel v G)|now apply colon_sound].
    repeat (apply Forall_cons); try apply Forall_nil; eauto using r_has, r_val, val_Z.
Qed.

Lemma clear_chat_back (x : clear_chat str) : clear_chat_of v x -> able (KClearChat x) /\ sound (line (KClearChat x)).
Proof.
  destruct x as [ch id a ts]. intros (A & B & C & D). cbn [cc_channel cc_channel_id cc_action cc_timestamp] in *. split.
  - split; [exact (time_back _ D)|]. cbn [cc_action]. intros u i d ->. destruct C as (_ & _ & C). exact (u64_back _ _ C).
  - destruct a as [|u i|u i d]; cbn [action_of] in C;
      (line_; [|exact server_sound|now apply (gd_channel v G)|]); cbn [cc_channel_id cc_timestamp cc_action].
    1,3,5: repeat (apply Forall_cons); try apply Forall_nil; try (decompose [and] C); eauto using r_has, r_val, val_Z, val_N, r_none.
    + exact no_params.
    + apply colon_sound. apply (gd_text v G). tauto.
    + apply colon_sound. apply (gd_text v G). tauto.
Qed.

Lemma rows_app (t t' : table) : Forall val_row t -> Forall val_row t' -> Forall val_row (t ++ t').
Proof. intros A B. apply Forall_app. auto. Qed.

Hint Resolve r_has r_val val_Z val_N r_none r_opt r_filled r_list val_flag val_level val_followers server_sound from_sound : wb.

Ltac rows := repeat (apply Forall_cons); try apply Forall_nil; eauto with wb.

Lemma global_user_state_back (x : global_user_state str) : global_user_state_of v x ->
  able (KGlobalUserState x) /\ sound (line (KGlobalUserState x)).
Proof.
  intros (A & B & C & D & E). destruct (badges_back _ C) as [C1 C2]. split.
  - split; [exact C1|]. split; [exact (list_back _ _ D)|exact (filled_back _ _ E)].
  - line_; [apply rows_app; [exact C2|rows]|exact server_sound|discriminate|exact no_params].
Qed.

Lemma user_state_back (x : user_state str) : user_state_of v x ->
  able (KUserState x) /\ sound (line (KUserState x)).
Proof.
  intros (A & B & C & D & E). destruct (badges_back _ C) as [C1 C2]. split.
  - split; [exact C1|]. split; [exact (list_back _ _ D)|exact (filled_back _ _ E)].
  - line_; [apply rows_app; [exact C2|rows]|exact server_sound|now apply (gd_channel v G)|exact no_params].
Qed.

Lemma whisper_back (x : whisper_msg str) : whisper_of v x -> able (KWhisper x) /\ sound (line (KWhisper x)).
Proof.
  intros ((p & P & A & L) & B & C & D & E & F & H). destruct (badges_back _ E) as [E1 E2]. split.
  - split; [exact E1|]. split; [exact (filled_back _ _ H)|]. intros (l & r & Q).
    assert (K : length (w_recipient x) <= length l).
    { apply (L l (r ++ b " :" ++ w_text x)). rewrite A, Q. now rewrite <- !app_assoc. }
    rewrite Q in K. rewrite !app_length in K. cbn in K. lia.
  - line_; [apply rows_app; [exact E2|]|now apply from_sound| |].
    + rows. refine (r_or _ _ _ _ _ F). now apply val_lit.
    + assert (N : forall c r, w_recipient x = c :: r -> c <> "#"%byte -> forall p, Some (w_recipient x ++ b " :" ++ w_text x) = Some p -> ~ starts "#" p).
      { intros c r -> N q [= <-] (r' & R). injection R as R _. congruence. }
      destruct (w_recipient x) as [|c r] eqn:R; [intros q [= <-] (r & R'); discriminate|].
      destruct (byte_eq_dec c "#"%byte) as [->|Q].
      * split; [now exists []|]. split; [cbn; intuition discriminate|reflexivity].
      * specialize (N c r eq_refl Q). destruct c; try exact N. congruence.
    + intros q [= <-]. split; [destruct (w_recipient x); discriminate|]. pose proof (gd_params v G p P) as O. rewrite A in O. exact O.
Qed.

Lemma room_state_back (x : room_state str) : followers_fit v -> room_state_of v x ->
  able (KRoomState x) /\ sound (line (KRoomState x)).
Proof.
  intros FF (A & B & C & D & E & F & H). split.
  - split; [exact (number_back _ _ F)|]. intros d Q. rewrite Q in D. cbn [opt] in D.
    destruct D as (n & I & [(_ & K)|[(_ & K)|(P & K)]]); try discriminate.
    assert (d = (60 * Z.to_N n)%N) as -> by congruence. apply FF in I.
    change (2 ^ 63 - 1)%Z with 9223372036854775807%Z in I. change (2 ^ 63)%N with 9223372036854775808%N.
    split; [lia|]. now exists (Z.to_N n).
  - line_; [|exact server_sound|now apply (gd_channel v G)|exact no_params]. rows; apply r_map; auto with wb.
Qed.

Lemma reply_back (o : option (reply str)) : opt (reply_of v) o -> Forall val_row (reply_rows o).
Proof.
  destruct o as [r|]; cbn [opt]; intros H; unfold reply_rows; cbn [option_map].
  - destruct H as (A & B & C & (D & E & F) & H). rows.
  - rows.
Qed.

Lemma pinned_back (o : option (pinned_chat str)) : opt (pinned_of v) o -> Forall val_row (pinned_rows o).
Proof.
  destruct o as [r|]; cbn [opt]; intros H; unfold pinned_rows; cbn [option_map].
  - destruct H as (A & B & C & D & E). rows.
  - rows.
Qed.

Lemma privmsg_back (x : privmsg str) : privmsg_of v x -> able (KPrivmsg x) /\ sound (line (KPrivmsg x)).
Proof.
  intros (H1 & H2 & H3 & H4 & H5 & H6 & H7 & H8 & H9 & H10 & H11 & H12 & H13 & H14 & H15 & H16).
  destruct (badges_back _ H11) as [B1 B2]. destruct (action_back _ _ H10) as [A1 A2]. split.
  - split; [exact B1|]. split; [exact (number_back _ _ H14)|]. split; [exact (filled_back _ _ H12)|].
    split; [exact (filled_back _ _ H13)|]. split; [exact (time_back _ H16)|]. split; [exact A1|].
    intros p E. rewrite E in H9. destruct H9 as (I1 & _ & I2 & _). split; [exact (i64_back _ _ I1)|exact (i64_back _ _ I2)].
  - line_; [|now apply from_sound|now apply (gd_channel v G)|now apply colon_sound].
    apply rows_app; [exact B2|]. apply rows_app; [|apply rows_app; [now apply reply_back|now apply pinned_back]].
    rows; [apply r_map; auto with wb|]. refine (r_or _ _ _ _ _ H15). now apply val_lit.
Qed.

Lemma promo_back (o : option (promo str)) : opt (promo_of v) o -> promo_able o /\ Forall val_row (promo_rows o).
Proof.
  destruct o as [p|]; cbn [opt]; intros H; unfold promo_rows; cbn [option_map].
  - destruct H as (A & B). split; [|rows]. intros q [= <-]. exact (u64_back _ _ A).
  - split; [discriminate|rows].
Qed.

Lemma event_back (id : str) (f : bool) (e : event str) : event_of v id e ->
  (id = b "submysterygift" -> f = false <-> from_anonymous_account v) ->
  event_able id f e /\ Forall val_row (event_rows e).
Proof.
  intros H A. destruct e as [rs mo sk pl pn|n url|mo u' pl pn gi|n to pl|n pl|lo na pr|pr|na|n|cl|];
    cbn [event_of event_able event_rows] in *.
  - destruct H as (H1 & H2 & H3 & H4 & H5). split.
    + split; [exact H1|]. split; [exact (u64_back _ _ H2)|]. intros k ->. destruct H3 as [H3 P].
      split; [exact (u64_back _ _ H3)|exact P].
    + rows. apply r_map; auto with wb.
  - destruct H as (H1 & H2 & H3). split; [split; [exact H1|exact (u64_back _ _ H2)]|rows].
  - destruct H as (H1 & H2 & (H3 & H4 & H5) & H6 & H7 & H8).
    split; [split; [exact H1|split; [exact (u64_back _ _ H2)|exact (u64_back _ _ H8)]]|rows].
  - destruct H as (H1 & H2 & H3 & H4 & H5). split; [|rows]. split; [exact H1|].
    split; [|split; [exact (u64_back _ _ H3)|exact (u64_back _ _ H4)]].
    destruct f; [reflexivity|]. exfalso. apply H2, (A H1). reflexivity.
  - destruct H as (H1 & H2 & H3). split; [|rows]. split; [|exact (u64_back _ _ H2)].
    destruct H1 as [H1|[H1 K]]; [now left|right]. split; [exact H1|]. now apply (A H1).
  - destruct H as (H1 & H2 & H3 & H4). apply promo_back in H4 as [P1 P2]. split; [now split|].
    apply rows_app; [rows|exact P2].
  - destruct H as (H1 & H4). apply promo_back in H4 as [P1 P2]. split; [now split|exact P2].
  - destruct H as (H1 & H2). split; [exact H1|rows].
  - destruct H as (H1 & H2). split; [split; [exact H1|exact (u64_back _ _ H2)]|rows].
  - destruct H as (H1 & H2). split; [exact H1|]. rows. refine (r_or _ _ _ _ _ H2). now apply val_lit.
  - split; [exact H|constructor].
Qed.

Lemma user_notice_back (x : user_notice str) : user_notice_of v x -> able (KUserNotice x) /\ sound (line (KUserNotice x)).
Proof.
  intros (H1 & H2 & H3 & H4 & H5 & H6 & H7 & H8 & H9 & H10 & H11 & H12).
  destruct (badges_back _ H8) as [B1 B2].
  destruct (event_back (un_event_id x) (match un_sender x with Some _ => true | None => false end) _ H6) as [E1 E2].
  { intros Q. destruct (un_sender x) as [u|].
    - split; [discriminate|]. intros K. destruct H3 as [H3 _]. exfalso. apply H3. right. left.
      split; [rewrite Q; cbn; tauto|exact K].
    - split; [|reflexivity]. intros _. destruct H3 as [K|[[_ K]|K]]; [|exact K|].
      + rewrite Q in K. cbn in K. repeat (destruct K as [K|K]; [discriminate|]). destruct K.
      + exfalso. apply K. rewrite Q. cbn. tauto. }
  split.
  - split; [exact B1|]. split; [exact (filled_back _ _ H10)|]. split; [exact (filled_back _ _ H5)|].
    split; [exact (time_back _ H12)|]. split; [|exact E1]. destruct (un_sender x) as [u|].
    + destruct H3 as [N (U & _)]. split.
      * intros [K|K]; apply N; [now left|right; now right].
      * intros K Q. apply N. right. left. split; [exact K|]. unfold from_anonymous_account. now rewrite <- Q.
    + destruct H3 as [K|[[K _]|K]]; [left; now left|now right|left; now right].
  - cbn [line]. apply line_sound; [|reflexivity| |exact server_sound|now apply (gd_channel v G)|now apply colon_opt_sound].
    { rewrite !map_app, !forallb_app. rewrite !andb_true_iff. split; [reflexivity|].
      split; [now destruct (un_sender x)|]. split; [reflexivity|]. now destruct (un_event x). }
    apply rows_app; [exact B2|]. apply rows_app; [|apply rows_app; [|exact E2]].
    + destruct (un_sender x) as [u|]; cbn [sender_rows]; [destruct H3 as [_ (U1 & U2 & U3)]; rows|].
      rows. apply r_val. now apply val_lit.
    + rows. refine (r_or _ _ _ _ _ H9). now apply val_lit.
Qed.
End Good.
