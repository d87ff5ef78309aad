(** * DbgFacts: the printed form of a tree determines the tree (proofs). *)

From Coq Require Import Lia ZifyBool ZifyNat ZifyN HexadecimalN DecimalN.
From Verif Require Import Base SpecIrc SpecUnicode BaseFacts Utf8Facts UnicodeProofs Dbg SpecDbg.

Open Scope nat_scope.
Ltac Zify.zify_post_hook ::= Z.to_euclidean_division_equations.

(** ** Characters *)

Lemma hex_inj (u : Hexadecimal.uint) : forall w r r',
  show_hex_uint u ++ "}"%byte :: r = show_hex_uint w ++ "}"%byte :: r' -> u = w /\ r = r'.
Proof.
  induction u as [|u IH|u IH|u IH|u IH|u IH|u IH|u IH|u IH|u IH|u IH|u IH|u IH|u IH|u IH|u IH|u IH];
    intros w r r' E; destruct w; cbn in E; try discriminate E; injection E as E;
    try (apply IH in E; destruct E; now subst).
  now subst.
Qed.

Lemma show_hex_inj (n m : N) r r' : show_hex n ++ "}"%byte :: r = show_hex m ++ "}"%byte :: r' -> n = m /\ r = r'.
Proof.
  intros E. apply hex_inj in E as [E ->]. split; [|reflexivity].
  rewrite <- (HexadecimalN.Unsigned.of_to n), <- (HexadecimalN.Unsigned.of_to m). congruence.
Qed.

Lemma show_hex_visible (n : N) : Forall visible (show_hex n).
Proof. unfold show_hex. induction (N.to_hex_uint n); cbn; constructor; auto; unfold visible; cbn; lia. Qed.

Lemma code_point_of (n : N) (c : uchar) : encodes n c -> code_point c = n.
Proof.
  intros [V E]. unfold code_point. rewrite E. unfold encoding, scalar_value in *.
  destruct (N.ltb_spec n 128); [reflexivity|]. destruct (N.ltb_spec n 2048); [lia|].
  destruct (N.ltb_spec n 65536); lia.
Qed.

Definition esc (c : uchar) : option byte :=
  match c with
  | [x00] => Some "0"%byte | [x09] => Some "t"%byte | [x0a] => Some "n"%byte | [x0d] => Some "r"%byte
  | [x22] => Some x22 | [x5c] => Some "\"%byte
  | _ => None
  end.

Lemma esc_debug (shown : uchar -> bool) (c : uchar) : char_debug shown c =
  match esc c with
  | Some e => ["\"%byte; e]
  | None => if (if (code_point c <? 128)%N then (32 <=? code_point c)%N && (code_point c <? 127)%N else shown c) then c
            else b "\u{" ++ show_hex (code_point c) ++ b "}"
  end.
Proof. unfold char_debug, esc. destruct c as [|[] [|? ?]]; reflexivity. Qed.

Lemma esc_some (c : uchar) (e : byte) : esc c = Some e -> e <> "u"%byte /\ visible e /\
  forall c', esc c' = Some e -> c = c'.
Proof.
  unfold esc. destruct c as [|[] [|? ?]]; intros E; try discriminate E; injection E as <-; (split; [discriminate|]);
    (split; [unfold visible; cbn; lia|]);
    intros [|[] [|? ?]] E; try discriminate E; reflexivity.
Qed.

Inductive form (c : uchar) : str -> Prop :=
| form_esc e : esc c = Some e -> form c ["\"%byte; e]
| form_hex n : encodes n c -> form c (b "\u{" ++ show_hex n ++ b "}")
| form_raw x t : c = x :: t -> x <> "\"%byte -> x <> x22 -> Forall visible c -> form c c.

Lemma char_form (shown : uchar -> bool) (c : uchar) : one_char c -> form c (char_debug shown c).
Proof.
  intros O. rewrite esc_debug. destruct (esc c) as [e|] eqn:Ee; [now constructor|].
  destruct (valid_encodes c O) as [n En]. rewrite (code_point_of n c En).
  match goal with |- form c (if ?x then _ else _) => destruct x eqn:Eif end; [|now constructor].
  destruct O as (V & x & t & -> & Hx & Ht).
  assert (N5 : x <> "\"%byte /\ x <> x22).
  { destruct En as [Sv En]. pose proof (f_equal (fun l => nth 0 l 0%N) En) as Ex. unfold encoding in En, Ex. cbn [map] in Ex.
    destruct (N.ltb_spec n 128).
    - destruct t as [|? ?]; [|discriminate En].
      split; intros ->; discriminate Ee.
    - assert (128 <= Byte.to_N x)%N by
        (destruct (N.ltb_spec n 2048); [|destruct (N.ltb_spec n 65536)]; cbn [nth] in Ex; lia).
      split; intros ->; cbn in *; lia. }
  destruct N5. econstructor; eauto.
  destruct En as [Sv En]. pose proof (f_equal (fun l => nth 0 l 0%N) En) as Ex. unfold encoding in En, Ex. cbn [map] in Ex. constructor.
  - unfold visible.
    destruct (N.ltb_spec n 128); [cbn [nth] in Ex; lia|].
    destruct (N.ltb_spec n 2048); [|destruct (N.ltb_spec n 65536)]; cbn [nth] in Ex; lia.
  - eapply Forall_impl; [|exact Ht]. unfold visible, is_cont, in_range. intros y. cbn. lia.
Qed.

Lemma form_prefix (c c' : uchar) (s s' : str) : one_char c -> one_char c' -> form c s -> form c' s' ->
  forall r r', s ++ r = s' ++ r' -> c = c' /\ r = r'.
Proof.
  intros O O' F F' r r' E.
  destruct F as [e Ee|n En|x t Ec X1 X2 _], F' as [e' Ee'|n' En'|x' t' Ec' X1' X2' _].
  - injection E as -> ->. split; [|reflexivity]. now apply (esc_some _ _ Ee).
  - injection E as -> _. now destruct (proj1 (esc_some _ _ Ee)).
  - subst c'. injection E as <- _. now destruct X1'.
  - injection E as <- _. now destruct (proj1 (esc_some _ _ Ee')).
  - rewrite <- !app_assoc in E. apply app_inv_head in E. cbn [b app list_byte_of_string] in E.
    apply show_hex_inj in E as [-> ->]. split; [|reflexivity].
    apply to_N_inj. destruct En as [_ ->], En' as [_ ->]. reflexivity.
  - subst c'. injection E as <- _. now destruct X1'.
  - subst c. injection E as -> _. now destruct X1.
  - subst c. injection E as -> _. now destruct X1.
  - assert (K : forall d q, one_char d -> chars (d ++ q) = d :: chars q).
    { intros d q Od. rewrite chars_app by apply Od.
      change (chars q) with ([] ++ chars q) at 2. rewrite app_comm_cons. f_equal.
      rewrite <- (chars_of_concat [d]); [cbn; now rewrite app_nil_r | auto]. }
    pose proof (f_equal chars E) as Ech. rewrite !K in Ech by assumption. injection Ech as -> _.
    split; [reflexivity|]. now apply app_inv_head in E.
Qed.

Lemma form_quote (c : uchar) (s : str) : form c s -> forall r r', s ++ r = x22 :: r' -> False.
Proof. intros [e E|n E|x t -> X1 X2 _] r r' Er; cbn in Er; try discriminate Er. injection Er as -> _. now destruct X2. Qed.

Lemma form_visible (c : uchar) (s : str) : form c s -> Forall visible s.
Proof.
  intros [e E|n E|x t -> X1 X2 V]; [|repeat (apply Forall_app; split)|exact V].
  - apply esc_some in E as (_ & V & _). repeat constructor; [cbn; lia | discriminate | apply V | apply V].
  - repeat constructor; cbn; lia.
  - apply show_hex_visible.
  - repeat constructor; cbn; lia.
Qed.

(** ** Strings *)

Lemma quoted_inj (shown : uchar -> bool) (l : list uchar) : Forall one_char l -> forall l', Forall one_char l' ->
  forall r r', flat_map (char_debug shown) l ++ x22 :: r = flat_map (char_debug shown) l' ++ x22 :: r' ->
  l = l' /\ r = r'.
Proof.
  induction 1 as [|c l O _ IH]; intros l' [|c' l'' O' OL'] r r' E; cbn in E.
  - injection E as ->. auto.
  - symmetry in E. rewrite <- app_assoc in E. apply form_quote with (c := c') in E; [easy|]. now apply char_form.
  - rewrite <- app_assoc in E. apply form_quote with (c := c) in E; [easy|]. now apply char_form.
  - rewrite <- !app_assoc in E. destruct (form_prefix c c' _ _ O O' (char_form shown c O) (char_form shown c' O') _ _ E) as [-> E']. apply IH in E' as [-> ->]; auto.
Qed.

Lemma str_debug_inj (shown : uchar -> bool) (s s' r r' : str) : utf8_valid s = true -> utf8_valid s' = true ->
  str_debug shown s ++ r = str_debug shown s' ++ r' -> s = s' /\ r = r'.
Proof.
  intros V V' E. unfold str_debug in E. cbn [app] in E. injection E as E. rewrite <- !app_assoc in E. cbn [app] in E.
  apply quoted_inj in E as [E ->]; auto using chars_one. split; [|reflexivity].
  rewrite <- (concat_chars s), <- (concat_chars s'). congruence.
Qed.

Lemma str_debug_visible (shown : uchar -> bool) (s : str) : utf8_valid s = true -> Forall visible (str_debug shown s).
Proof.
  intros V. unfold str_debug. assert (Q : visible x22) by (unfold visible; cbn; lia).
  constructor; [exact Q|]. apply Forall_app. split; [|auto].
  pose proof (chars_one s V) as O. induction O as [|c l O _ IH]; [constructor|].
  cbn. apply Forall_app. split; [|exact IH]. eapply form_visible, char_form, O.
Qed.

(** ** Trees *)

Lemma dbg_tree_ind (P : dbg -> Prop) :
  (forall s, P (DText s)) -> (forall s, P (DPlain s)) ->
  (forall name fields all, Forall (fun f => P (snd f)) fields -> P (DStruct name fields all)) ->
  (forall name items, Forall P items -> P (DTuple name items)) ->
  (forall items, Forall P items -> P (DList items)) ->
  forall d, P d.
Proof.
  intros Ht Hp Hs Hu Hl. fix IH 1. intros [s|s|name fields all|name items|items].
  - apply Ht.
  - apply Hp.
  - apply Hs. induction fields as [|f fields IHf]; constructor; [apply IH|exact IHf].
  - apply Hu. induction items as [|f items IHf]; constructor; [apply IH|exact IHf].
  - apply Hl. induction items as [|f items IHf]; constructor; [apply IH|exact IHf].
Qed.

(** Bytes of the words between the punctuation; [dots] are allowed inside only. *)
Definition delims : str := b " ,()[]{}" ++ [x22].
Definition plain_byte (c : byte) : bool :=
  (32 <=? Byte.to_N c)%N && negb (Byte.to_N c =? 127)%N && negb (existsb (Byte.eqb c) delims).
Definition name_byte (c : byte) : bool := plain_byte c && negb (Byte.eqb c ":").
Definition word (s : str) : bool :=
  match s with [] => false | c :: _ => negb (Byte.eqb c ".") && forallb plain_byte s end.
Definition name (s : str) : bool := word s && forallb name_byte s.

Inductive wf : dbg -> Prop :=
| wf_text s : utf8_valid s = true -> wf (DText s)
| wf_plain s : word s = true -> wf (DPlain s)
| wf_struct n fields all : word n = true -> fields <> [] ->
    Forall (fun f => name (fst f) = true /\ wf (snd f)) fields -> wf (DStruct n fields all)
| wf_tuple n items : word n = true -> items <> [] -> Forall wf items -> wf (DTuple n items)
| wf_pair x y l : Forall wf (x :: y :: l) -> wf (DTuple [] (x :: y :: l))
| wf_list items : Forall wf items -> wf (DList items).

Lemma plain_delim (c : byte) : plain_byte c = true -> forall e, In e delims -> c <> e.
Proof.
  unfold plain_byte. intros P e I ->. apply andb_prop in P as [_ P]. apply negb_true_iff in P.
  assert (existsb (Byte.eqb e) delims = true); [|congruence].
  apply existsb_exists. exists e. split; [exact I|]. now apply Byte.byte_dec_lb.
Qed.

(** Two words, each followed by nothing or by a byte that is not of a word. *)
Definition ends (f : byte -> bool) (r : str) : Prop := match r with [] => True | c :: _ => f c = false end.

Lemma span (f : byte -> bool) (s : str) : forallb f s = true -> forall t, forallb f t = true ->
  forall r r', ends f r -> ends f r' -> s ++ r = t ++ r' -> s = t /\ r = r'.
Proof.
  induction s as [|c s IH]; intros P [|d t] Q r r' R R' E; cbn in *.
  - auto.
  - apply andb_prop in Q as [Q _]. subst r. cbn in R. congruence.
  - apply andb_prop in P as [P _]. subst r'. cbn in R'. congruence.
  - apply andb_prop in P as [_ P], Q as [_ Q]. injection E as -> E. apply IH in E as [-> ->]; auto.
Qed.

(** ** Layout *)

Fixpoint ind (n : nat) : str := match n with O => [] | S n' => b "    " ++ ind n' end.

Lemma ind_S (n : nat) : ind (S n) = ind n ++ b "    ".
Proof. induction n as [|n IH]; [reflexivity|]. change (b "    " ++ ind (S n) = (b "    " ++ ind n) ++ b "    ").
  now rewrite IH, app_assoc. Qed.

Definition gap (alt : bool) (n : nat) (sp : str) : str := if alt then x0a :: ind n else sp.

Fixpoint tails (sep cl : str) (l : list str) : str :=
  match l with [] => cl | x :: l' => sep ++ x ++ tails sep cl l' end.

Definition close (alt all : bool) (n : nat) (sp : str) (br : byte) : str :=
  if all then (if alt then ","%byte :: x0a :: ind n else sp) ++ [br]
  else b "," ++ gap alt (S n) (b " ") ++ b ".." ++ (gap alt n (b " ")) ++ [br].

Definition body (alt all : bool) (n : nat) (sp : str) (br : byte) (xs : list str) : str :=
  match xs with
  | [] => []
  | x :: xs' => gap alt (S n) sp ++ x ++ tails (b "," ++ gap alt (S n) (b " ")) (close alt all n sp br) xs'
  end.

Definition lead (d : dbg) : str :=
  match d with DPlain s => s | DStruct n _ _ => n | DTuple n _ => n | _ => [] end.

Section Lay.
Context (shown : uchar -> bool) (alt : bool).

Fixpoint lay (n : nat) (d : dbg) : str :=
  lead d ++
  match d with
  | DText s => str_debug shown s
  | DPlain s => []
  | DStruct _ fields all =>
    b " {" ++ body alt all n (b " ") "}" (map (fun f => fst f ++ b ": " ++ lay (S n) (snd f)) fields)
  | DTuple _ items => b "(" ++ body alt true n [] ")" (map (lay (S n)) items)
  | DList [] => b "[]"
  | DList items => b "[" ++ body alt true n [] "]" (map (lay (S n)) items)
  end.

Definition item (n : nat) (f : str * dbg) : str := fst f ++ b ": " ++ lay n (snd f).

(** What may follow a value. *)
Definition stop (r : str) : bool :=
  match r with
  | [] | x2c :: _ | x29 :: _ | x5d :: _ => true
  | x20 :: x7d :: _ => true
  | _ => false
  end.

Lemma stop_ends (r : str) : stop r = true -> ends plain_byte r.
Proof. destruct r as [|[] r]; cbn; intros E; try discriminate E; auto. Qed.

Lemma word_cons (s : str) : word s = true -> exists c t, s = c :: t /\ c <> "."%byte /\ forallb plain_byte s = true.
Proof.
  destruct s as [|c t]; [discriminate|]. cbn -[forallb]. intros W. apply andb_prop in W as [W1 W2].
  exists c, t. split; [reflexivity|]. split; [|exact W2]. intros ->. discriminate W1.
Qed.

Lemma lead_plain (d : dbg) : wf d -> forallb plain_byte (lead d) = true.
Proof.
  destruct 1; cbn [lead]; try reflexivity;
    match goal with W : word _ = true |- _ => apply word_cons in W as (? & ? & _ & _ & W); exact W end.
Qed.

(** How a value begins. *)
Definition begins (c : byte) : Prop := c <> "."%byte /\ ~ In c (b " )]},").

Lemma word_begins (s : str) : word s = true -> exists c t, s = c :: t /\ begins c.
Proof.
  intros W. apply word_cons in W as (c & t & -> & D & W). exists c, t. split; [reflexivity|]. split; [exact D|].
  cbn in W. apply andb_prop in W as [W _]. intros I. apply (plain_delim c W c); [|reflexivity].
  cbn in *. intuition.
Qed.

Lemma lay_begins (n : nat) (d : dbg) : wf d -> exists c t, lay n d = c :: t /\ begins c.
Proof.
  assert (B : forall c, In c (b "([" ++ [x22]) -> begins c).
  { intros c I. cbn in I. repeat destruct I as [<-|I]; try easy; (split; [discriminate|]); cbn; intuition discriminate. }
  destruct 1 as [s V|s W|nm fields all W _ _|nm items W _ _|x y l _|items _].
  - exists x22. eexists. split; [reflexivity|]. apply B. cbn. auto.
  - apply word_begins in W as (c & t & -> & H). exists c. eexists. split; [reflexivity|exact H].
  - apply word_begins in W as (c & t & -> & H). exists c. eexists. split; [reflexivity|exact H].
  - apply word_begins in W as (c & t & -> & H). exists c. eexists. split; [reflexivity|exact H].
  - exists "("%byte. eexists. split; [reflexivity|]. apply B. cbn. auto.
  - exists "["%byte. destruct items; eexists; (split; [reflexivity|]); apply B; cbn; auto.
Qed.

Lemma name_word (s : str) : name s = true -> word s = true.
Proof. unfold name. intros H. now apply andb_prop in H. Qed.

Lemma item_begins (n : nat) (f : str * dbg) : name (fst f) = true -> exists c t, item n f = c :: t /\ begins c.
Proof.
  intros W. apply name_word, word_begins in W as (c & t & E & H). exists c. unfold item. rewrite E.
  eexists. split; [reflexivity|exact H].
Qed.

(** The separator and a value are not the end. *)
Lemma clash (all : bool) (n : nat) (sp x r r' : str) (br : byte) (c : byte) (t : str) :
  In br (b ")]}") -> sp = [] \/ sp = b " " -> (sp = [] -> all = true) -> x = c :: t -> begins c ->
  b "," ++ gap alt (S n) (b " ") ++ x ++ r <> close alt all n sp br ++ r'.
Proof.
  intros Ibr Hsp Hall -> [B1 B2] E. rewrite app_assoc in E. unfold close, gap in E. destruct alt, all.
  - rewrite ind_S in E. cbn in E. rewrite <- !app_assoc in E. injection E as E. apply app_inv_head in E.
    injection E as E _. cbn in Ibr. repeat destruct Ibr as [<-|Ibr]; easy.
  - do 2 apply (f_equal (@tl byte)) in E. cbn -[ind] in E. rewrite <- !app_assoc in E.
    apply app_inv_head in E. injection E as -> _. now apply B1.
  - destruct Hsp as [->| ->]; cbn in E; try discriminate E. injection E as <- _. cbn in Ibr. intuition discriminate.
  - cbn in E. injection E as -> _. now apply B1.
Qed.

Lemma close_inj (all all' : bool) (n : nat) (sp r r' : str) (br : byte) :
  In br (b ")]}") -> sp = b " " \/ all = all' ->
  close alt all n sp br ++ r = close alt all' n sp br ++ r' -> all = all' /\ r = r'.
Proof.
  intros Ibr Hsp E.
  assert (D : all = all').
  { destruct Hsp as [->|D]; [|exact D]. unfold close, gap in E. destruct all, all', alt; try reflexivity; exfalso.
    - rewrite ind_S in E. cbn in E. rewrite <- !app_assoc in E. injection E as E. apply app_inv_head in E.
      injection E as E _. cbn in Ibr. repeat destruct Ibr as [<-|Ibr]; easy.
    - cbn in E. discriminate E.
    - rewrite ind_S in E. cbn in E. rewrite <- !app_assoc in E. injection E as E. apply app_inv_head in E.
      injection E as E _. cbn in Ibr. repeat destruct Ibr as [<-|Ibr]; easy.
    - cbn in E. discriminate E. }
  subst all'. split; [reflexivity|]. now apply app_inv_head in E.
Qed.

Lemma stop_close (all : bool) (n : nat) (sp r : str) (br : byte) :
  (sp = [] /\ (br = ")"%byte \/ br = "]"%byte)) \/ (sp = b " " /\ br = "}"%byte) ->
  stop (close alt all n sp br ++ r) = true.
Proof. intros [[-> [-> | ->]]|[-> ->]]; destruct all, alt; reflexivity. Qed.

Lemma stop_sep (n : nat) (r : str) : stop ((b "," ++ gap alt (S n) (b " ")) ++ r) = true.
Proof. reflexivity. Qed.

(** The values after the first. *)
Lemma tails_inj {A : Type} (g : A -> str) (n : nat) (all all' : bool) (sp : str) (br : byte) (l : list A) :
  (sp = [] /\ (br = ")"%byte \/ br = "]"%byte) /\ all = true /\ all' = true) \/ (sp = b " " /\ br = "}"%byte) ->
  forall l',
  Forall (fun x => exists c t, g x = c :: t /\ begins c) l -> Forall (fun x => exists c t, g x = c :: t /\ begins c) l' ->
  Forall (fun x => Forall (fun y => forall r r', stop r = true -> stop r' = true -> g x ++ r = g y ++ r' -> x = y /\ r = r') l') l ->
  forall r r', stop r = true -> stop r' = true ->
  tails (b "," ++ gap alt (S n) (b " ")) (close alt all n sp br) (map g l) ++ r =
  tails (b "," ++ gap alt (S n) (b " ")) (close alt all' n sp br) (map g l') ++ r' ->
  l = l' /\ all = all' /\ r = r'.
Proof.
  intros K. assert (Ibr : In br (b ")]}")) by (destruct K as [(_ & [-> | ->] & _)|[_ ->]]; cbn; auto).
  assert (Isp : sp = [] \/ sp = b " ") by (destruct K as [[-> _]|[-> _]]; auto).
  assert (Ial : sp = [] -> all = true) by (destruct K as [(_ & _ & ? & ?)|[-> _]]; easy).
  assert (Ial' : sp = [] -> all' = true) by (destruct K as [(_ & _ & ? & ?)|[-> _]]; easy).
  assert (Icl : forall a r, stop (close alt a n sp br ++ r) = true)
    by (intros a r; apply stop_close; destruct K as [(? & ? & _)|?]; auto).
  assert (It : forall a q r, stop (tails (b "," ++ gap alt (S n) (b " ")) (close alt a n sp br) q ++ r) = true)
    by (intros a [|x q] r; [apply Icl | reflexivity]).
  induction l as [|x l IH]; intros [|y l'] BL BL' IN r r' R R' E.
  - cbn [map tails] in E. apply close_inj in E; [|exact Ibr|destruct K as [(_ & _ & -> & ->)|[-> _]]; auto]. tauto.
  - cbn [map tails] in E. symmetry in E. rewrite <- !app_assoc in E. apply Forall_inv in BL' as (c & t & Ey & B).
    now apply (clash all n sp (g y) _ r br c t) in E.
  - cbn [map tails] in E. rewrite <- !app_assoc in E. apply Forall_inv in BL as (c & t & Ey & B).
    now apply (clash all' n sp (g x) _ r' br c t) in E.
  - cbn [map tails] in E. rewrite <- !app_assoc in E. do 2 apply app_inv_head in E.
    apply Forall_cons_iff in IN as [INx IN]. apply Forall_cons_iff in INx as [INxy INx].
    apply INxy in E as [-> E]; [|apply It|apply It].
    apply IH in E as (-> & -> & ->); auto.
    + now apply Forall_cons_iff in BL.
    + now apply Forall_cons_iff in BL'.
    + eapply Forall_impl; [|exact IN]. intros z Hz. now apply Forall_cons_iff in Hz.
Qed.

(** The values between brackets. *)
Lemma body_inj {A : Type} (g : A -> str) (n : nat) (all all' : bool) (sp : str) (br : byte) (l l' : list A) :
  (sp = [] /\ (br = ")"%byte \/ br = "]"%byte) /\ all = true /\ all' = true) \/ (sp = b " " /\ br = "}"%byte) ->
  l <> [] -> l' <> [] ->
  Forall (fun x => exists c t, g x = c :: t /\ begins c) l -> Forall (fun x => exists c t, g x = c :: t /\ begins c) l' ->
  Forall (fun x => Forall (fun y => forall r r', stop r = true -> stop r' = true -> g x ++ r = g y ++ r' -> x = y /\ r = r') l') l ->
  forall r r', stop r = true -> stop r' = true ->
  body alt all n sp br (map g l) ++ r = body alt all' n sp br (map g l') ++ r' ->
  l = l' /\ all = all' /\ r = r'.
Proof.
  intros K NE NE' BL BL' IN r r' R R' E. destruct l as [|x l]; [easy|]. destruct l' as [|y l']; [easy|].
  cbn [map body] in E. rewrite <- !app_assoc in E. apply app_inv_head in E.
  assert (It : forall a q r, stop (tails (b "," ++ gap alt (S n) (b " ")) (close alt a n sp br) q ++ r) = true).
  { intros a [|z q] r0; [|reflexivity]. apply stop_close. destruct K as [(? & ? & _)|?]; auto. }
  apply Forall_cons_iff in IN as [INx IN]. apply Forall_cons_iff in INx as [INxy INx].
  apply INxy in E as [-> E]; [|apply It|apply It].
  apply tails_inj in E as (-> & -> & ->); auto.
  + now apply Forall_cons_iff in BL.
  + now apply Forall_cons_iff in BL'.
  + eapply Forall_impl; [|exact IN]. intros z Hz. now apply Forall_cons_iff in Hz.
Qed.

Definition rest (n : nat) (d : dbg) : str :=
  match d with
  | DText s => str_debug shown s
  | DPlain s => []
  | DStruct _ fields all => b " {" ++ body alt all n (b " ") "}" (map (item (S n)) fields)
  | DTuple _ items => b "(" ++ body alt true n [] ")" (map (lay (S n)) items)
  | DList [] => b "[]"
  | DList items => b "[" ++ body alt true n [] "]" (map (lay (S n)) items)
  end.

Lemma lay_rest (n : nat) (d : dbg) : lay n d = lead d ++ rest n d.
Proof. destruct d; reflexivity. Qed.

Lemma rest_ends (n : nat) (d : dbg) (r : str) : stop r = true -> ends plain_byte (rest n d ++ r).
Proof. intros R. destruct d as [s|s|nm fields all|nm items|[|x items]]; cbn; auto using stop_ends. Qed.

Lemma items_begin (n : nat) (l : list dbg) : Forall wf l -> Forall (fun x => exists c t, lay n x = c :: t /\ begins c) l.
Proof. apply Forall_impl. intros d. apply lay_begins. Qed.

Theorem lay_inj (d : dbg) : wf d -> forall d' n r r', wf d' -> stop r = true -> stop r' = true ->
  lay n d ++ r = lay n d' ++ r' -> d = d' /\ r = r'.
Proof.
  induction d as [s|s|nm fields all IH|nm items IH|items IH] using dbg_tree_ind;
    intros W d' n r r' W' R R' E; rewrite !lay_rest, <- !app_assoc in E;
    (apply (span plain_byte) in E as [EL E]; [| | | |]; auto using lead_plain, rest_ends).
  - destruct d' as [s'|s'|nm' fields' all'|nm' items'|[|x' items']]; cbn in E; try discriminate E.
    + inversion W; inversion W'; subst. apply str_debug_inj in E as [-> ->]; auto.
    + subst r'. discriminate R'.
  - destruct d' as [s'|s'|nm' fields' all'|nm' items'|[|x' items']]; cbn in E; try (subst r; discriminate R).
    cbn in EL. subst. auto.
  - destruct d' as [s'|s'|nm' fields' all'|nm' items'|[|x' items']]; cbn in E; try discriminate E;
      try (subst r'; discriminate R').
    injection E as E. cbn in EL. subst nm'.
    inversion W as [| |? ? ? _ NE FF| | |]; subst. inversion W' as [| |? ? ? _ NE' FF'| | |]; subst.
    apply body_inj in E as (-> & -> & ->); auto.
    + eapply Forall_impl; [|exact FF]. intros f [H _]. now apply item_begins.
    + eapply Forall_impl; [|exact FF']. intros f [H _]. now apply item_begins.
    + rewrite Forall_forall in *. intros [x dx] Ix. apply Forall_forall. intros [y dy] Iy q q' Q Q' Exy.
      destruct (FF _ Ix) as [Nx Wx]. destruct (FF' _ Iy) as [Ny Wy]. unfold item in Exy. cbn [fst snd] in *.
      rewrite <- !app_assoc in Exy. unfold name in Nx, Ny. apply andb_prop in Nx as [_ Nx], Ny as [_ Ny].
      apply (span name_byte) in Exy as [-> Exy]; auto; try reflexivity.
      apply app_inv_head in Exy. apply (IH _ Ix) in Exy as [H ->]; auto. cbn in H. now subst.
  - destruct d' as [s'|s'|nm' fields' all'|nm' items'|[|x' items']]; cbn in E; try discriminate E;
      try (subst r'; discriminate R').
    injection E as E. cbn in EL. subst nm'.
    assert (K : forall m l, wf (DTuple m l) -> l <> [] /\ Forall wf l) by (intros m l Wl; inversion Wl; subst; auto; easy).
    apply K in W as [NE FF], W' as [NE' FF'].
    apply body_inj in E as (-> & _ & ->); auto 7 using items_begin.
    rewrite Forall_forall in *. intros x Ix. apply Forall_forall. intros y Iy q q' Q Q' Exy.
    apply (IH _ Ix) in Exy; auto.
  - inversion W as [| | | | |? FF]; subst.
    assert (It : forall a x xs q, body alt true n [] "]" (map (lay (S n)) (x :: xs)) ++ a = "]"%byte :: q ->
      Forall wf (x :: xs) -> False).
    { intros a x xs q Ea Wx. cbn [map body] in Ea. apply Forall_inv, (lay_begins (S n)) in Wx as (c & t & Ex & _ & B).
      rewrite Ex in Ea. clear - Ea B. unfold gap in Ea. destruct alt; cbn in Ea; [discriminate Ea|].
      injection Ea as -> _. apply B. cbn. auto. }
    destruct d' as [s'|s'|nm' fields' all'|nm' items'|items'];
      try (destruct items; cbn in E; try discriminate E; subst r'; discriminate R').
    inversion W' as [| | | | |? FF']; subst.
    destruct items as [|x items], items' as [|x' items'].
    + cbn in E. injection E as ->. auto.
    + symmetry in E. injection E as E. now apply It in E.
    + injection E as E. now apply It in E.
    + apply (f_equal (@tl byte)) in E. cbn [rest tl app b list_byte_of_string] in E.
      apply (body_inj (lay (S n)) n true true [] "]" (x :: items) (x' :: items')) in E as (-> & _ & ->); auto 7 using items_begin; try easy.
      rewrite Forall_forall in *. intros y Iy. apply Forall_forall. intros z Iz q q' Q Q' Exy.
      apply (IH _ Iy) in Exy; auto.
Qed.
End Lay.

(** ** The builders print the layout *)

Lemma one_line_tails (sep cl : str) (l : list str) : one_line sep sep l ++ cl = tails sep cl l.
Proof. induction l as [|x l IH]; [reflexivity|]. cbn [one_line tails]. now rewrite <- IH, <- !app_assoc. Qed.

Lemma show_line (shown : uchar -> bool) (d : dbg) : wf d -> forall n, show shown false d = lay shown false n d.
Proof.
  induction d as [s|s|nm fields all IH|nm items IH|items IH] using dbg_tree_ind; intros W n.
  - reflexivity.
  - cbn. now rewrite app_nil_r.
  - inversion W as [| |? ? ? _ NE FF| | |]; subst. cbn [show lay lead]. f_equal.
    assert (E : map (fun f => fst f ++ b ": " ++ show shown false (snd f)) fields =
                map (fun f => fst f ++ b ": " ++ lay shown false (S n) (snd f)) fields).
    { apply map_ext_in. intros f I. do 2 f_equal. rewrite Forall_forall in IH, FF. apply IH; [exact I|now apply FF]. }
    rewrite E. clear E IH. destruct fields as [|f fields]; [easy|]. cbn [map one_line body nonempty gap].
    rewrite <- !app_assoc. change (b " { ") with (b " {" ++ b " "). rewrite <- app_assoc. do 3 f_equal.
    unfold close. destruct all; rewrite one_line_tails; reflexivity.
  - assert (K : items <> [] /\ Forall wf items /\ (nm <> [] \/ 2 <= length items)).
    { inversion W; subst; (split; [easy|]); (split; [assumption|]); [left|right; cbn; lia].
      intros ->. discriminate. }
    destruct K as (NE & FF & L). cbn [show lay lead]. f_equal.
    assert (E : map (show shown false) items = map (lay shown false (S n)) items).
    { apply map_ext_in. intros f I. rewrite Forall_forall in IH, FF. apply IH; [exact I|now apply FF]. }
    rewrite E. clear E IH. destruct items as [|f items]; [easy|]. cbn [map one_line body nonempty gap].
    rewrite <- !app_assoc. apply (f_equal (fun z => b "(" ++ lay shown false (S n) f ++ z)).
    destruct nm as [|? ?]; destruct items as [|f' items]; try (rewrite one_line_tails; reflexivity).
    cbn in L. destruct L as [L|L]; [easy|lia].
  - inversion W as [| | | | |? FF]; subst.
    assert (E : map (show shown false) items = map (lay shown false (S n)) items).
    { apply map_ext_in. intros f I. rewrite Forall_forall in IH, FF. apply IH; [exact I|now apply FF]. }
    cbn [show]. rewrite E. clear E IH. destruct items as [|f items]; [reflexivity|].
    cbn [map one_line body lay lead gap]. cbn [app]. rewrite <- !app_assoc. do 2 f_equal. apply one_line_tails.
Qed.

(** [PadAdapter] turns [x] into [y], in the middle of a line before and after. *)
Definition pads (x y : str) : Prop := forall t, pad false (x ++ t) = y ++ pad false t.

Lemma pads_app (x y x' y' : str) : pads x y -> pads x' y' -> pads (x ++ x') (y ++ y').
Proof. intros H H' t. now rewrite <- !app_assoc, H, H'. Qed.

Definition flat (s : str) : Prop := ~ In x0a s.

Lemma pads_flat (s : str) : flat s -> pads s s.
Proof.
  intros F t. induction s as [|c s IH]; [reflexivity|]. cbn [app pad].
  assert (E : Byte.eqb c x0a = false).
  { apply Bool.not_true_iff_false. intros E. apply Byte.byte_dec_bl in E. subst. apply F. cbn. auto. }
  rewrite E. f_equal. apply IH. intros I. apply F. cbn. auto.
Qed.

Lemma pads_ind (n : nat) (c : byte) : c <> x0a -> pads (x0a :: ind n ++ [c]) (x0a :: ind (S n) ++ [c]).
Proof.
  intros NE t.
  assert (F : pads (ind n ++ [c]) (ind n ++ [c])).
  { apply pads_flat. intros I. apply in_app_or in I as [I|[I|[]]]; [|easy]. clear - I. induction n as [|n IH]; [easy|].
    cbn in I. intuition discriminate. }
  cbn [app pad]. change (Byte.eqb x0a x0a) with true. f_equal.
  assert (P : forall s, s <> [] -> pad true s = b "    " ++ pad false s) by (intros [|x s] H; easy).
  rewrite P, F; [reflexivity|]. destruct n; discriminate.
Qed.

Lemma pads_gap (n : nat) : pads (x0a :: ind (S n)) (x0a :: ind (S (S n))).
Proof.
  assert (E : forall k, x0a :: ind (S k) = x0a :: (ind k ++ b "   ") ++ [" "%byte]).
  { intros k. rewrite ind_S, <- app_assoc. reflexivity. }
  intros t. rewrite E.
  assert (F : pads ((ind n ++ b "   ") ++ [" "%byte]) ((ind n ++ b "   ") ++ [" "%byte])).
  { apply pads_flat. intros I. rewrite !in_app_iff in I. destruct I as [[I|I]|I]; [|cbn in I; intuition discriminate..].
    clear - I. induction n as [|n IH]; [easy|]. cbn in I. intuition discriminate. }
  cbn [app pad]. change (Byte.eqb x0a x0a) with true.
  assert (P : forall s, s <> [] -> pad true s = b "    " ++ pad false s) by (intros [|x s] H; easy).
  rewrite P, F; [|destruct n; discriminate].
  change (ind (S (S n))) with (b "    " ++ ind (S n)). rewrite ind_S, <- !app_assoc. reflexivity.
Qed.

Lemma visible_flat (s : str) : Forall visible s -> flat s.
Proof. intros V I. rewrite Forall_forall in V. apply V in I. unfold visible in I. cbn in I. lia. Qed.

Lemma plain_visible (s : str) : forallb plain_byte s = true -> Forall visible s.
Proof.
  intros P. rewrite forallb_forall in P. apply Forall_forall. intros c I. apply P in I.
  unfold plain_byte in I. unfold visible. lia.
Qed.

Lemma word_visible (s : str) : word s = true -> Forall visible s.
Proof. intros W. apply word_cons in W as (? & ? & _ & _ & W). now apply plain_visible. Qed.

Lemma word_flat (s : str) : word s = true -> flat s.
Proof. intros W. now apply visible_flat, word_visible. Qed.

Ltac flat_lit := let I := fresh in intros I; cbn in I; intuition discriminate.

Lemma pads_close (all : bool) (n : nat) (sp : str) (br : byte) : br <> x0a ->
  pads (close true all n sp br) (close true all (S n) sp br).
Proof.
  intros NE. destruct all; unfold close, gap.
  - apply (pads_app (b ",") (b ",") (x0a :: ind n ++ [br]) (x0a :: ind (S n) ++ [br])); [apply pads_flat; flat_lit|].
    now apply pads_ind.
  - apply pads_app; [apply pads_flat; flat_lit|]. apply pads_app; [apply pads_gap|].
    apply pads_app; [apply pads_flat; flat_lit|]. now apply pads_ind.
Qed.

Lemma pads_tails (sep sep' cl cl' : str) (l l' : list str) : pads sep sep' -> pads cl cl' -> Forall2 pads l l' ->
  pads (tails sep cl l) (tails sep' cl' l').
Proof. intros HS HC. induction 1; cbn [tails]; [exact HC|]. repeat (apply pads_app; auto). Qed.

Lemma pads_body (all : bool) (n : nat) (sp : str) (br : byte) (l l' : list str) : br <> x0a -> Forall2 pads l l' ->
  pads (body true all n sp br l) (body true all (S n) sp br l').
Proof.
  intros NE [|x x' q q' H HF]; [intros t; reflexivity|]. cbn [body].
  apply pads_app; [apply pads_gap|]. apply pads_app; [exact H|].
  apply pads_tails; auto using pads_close.
  apply pads_app; [apply pads_flat; flat_lit|apply pads_gap].
Qed.

Lemma pads_lay (shown : uchar -> bool) (d : dbg) : wf d -> forall n,
  pads (lay shown true n d) (lay shown true (S n) d).
Proof.
  assert (M : forall {A} (f g : A -> str) l, (forall x, In x l -> pads (f x) (g x)) -> Forall2 pads (map f l) (map g l)).
  { intros A f g l. induction l as [|x l IH]; intros H; cbn; constructor; [apply H; cbn; auto|].
    apply IH. intros y I. apply H. cbn. auto. }
  induction d as [s|s|nm fields all IH|nm items IH|items IH] using dbg_tree_ind; intros W n; rewrite !lay_rest;
    (apply pads_app; [apply pads_flat, visible_flat, plain_visible, lead_plain, W|]).
  - inversion W; subst. apply pads_flat, visible_flat. cbn. now apply str_debug_visible.
  - intros t. reflexivity.
  - inversion W as [| |? ? ? _ NE FF| | |]; subst. cbn [rest].
    apply pads_app; [apply pads_flat; flat_lit|]. apply pads_body; [easy|].
    apply M. intros f I. rewrite Forall_forall in IH, FF. destruct (FF _ I) as [N1 W1].
    unfold item. apply pads_app; [apply pads_flat, word_flat, name_word, N1|].
    apply pads_app; [apply pads_flat; flat_lit|]. now apply IH.
  - assert (FF : Forall wf items) by (inversion W; subst; auto). cbn [rest].
    apply pads_app; [apply pads_flat; flat_lit|]. apply pads_body; [easy|].
    apply M. intros f I. rewrite Forall_forall in IH, FF. auto.
  - assert (FF : Forall wf items) by (inversion W; subst; auto). destruct items as [|x items]; [apply pads_flat; flat_lit|].
    cbn [rest]. apply pads_app; [apply pads_flat; flat_lit|]. apply pads_body; [easy|].
    apply M. intros f I. rewrite Forall_forall in IH, FF. auto.
Qed.

(** One line of the struct, tuple or list. *)
Lemma pad_line (x y : str) : x <> [] -> pads x y -> pad true (x ++ b "," ++ [x0a]) = b "    " ++ y ++ b "," ++ [x0a].
Proof.
  intros NE P. assert (Q : forall s, s <> [] -> pad true s = b "    " ++ pad false s) by (intros [|c s] H; easy).
  rewrite Q by (destruct x; easy). now rewrite P.
Qed.

Lemma lines_body (l l' : list str) : Forall2 (fun x y => x <> [] /\ pads x y) l l' -> forall sp br, l <> [] ->
  [x0a] ++ concat (map (fun x => pad true (x ++ b "," ++ [x0a])) l) ++ [br] = body true true 0 sp br l'.
Proof.
  intros [|x y q q' [NE P] HF] sp br NN; [easy|]. clear NN. cbn [map concat body gap app ind].
  rewrite (pad_line x y NE P). rewrite <- !app_assoc.
  match goal with |- x0a :: b _ ++ y ++ ?u = x0a :: b _ ++ [] ++ y ++ ?w => apply (f_equal (fun z => x0a :: b "    " ++ y ++ z) (x := u) (y := w)) end.
  induction HF as [|x1 y1 q q' [NE1 P1] HF IH]; [reflexivity|].
  cbn [map concat tails]. rewrite (pad_line x1 y1 NE1 P1). rewrite <- IH. cbn. now rewrite <- !app_assoc.
Qed.

Lemma lines_open (l l' : list str) : Forall2 (fun x y => x <> [] /\ pads x y) l l' -> forall sp br, l <> [] ->
  [x0a] ++ concat (map (fun x => pad true (x ++ b "," ++ [x0a])) l) ++ pad true (b ".." ++ [x0a]) ++ [br] =
  body true false 0 sp br l'.
Proof.
  intros [|x y q q' [NE P] HF] sp br NN; [easy|]. clear NN. cbn [map concat body gap app ind].
  rewrite (pad_line x y NE P). rewrite <- !app_assoc.
  match goal with |- x0a :: b _ ++ y ++ ?u = x0a :: b _ ++ [] ++ y ++ ?w => apply (f_equal (fun z => x0a :: b "    " ++ y ++ z) (x := u) (y := w)) end.
  induction HF as [|x1 y1 q q' [NE1 P1] HF IH]; [reflexivity|].
  cbn [map concat tails]. rewrite (pad_line x1 y1 NE1 P1). rewrite <- IH. cbn. now rewrite <- !app_assoc.
Qed.

Lemma show_lines (shown : uchar -> bool) (d : dbg) : wf d -> show shown true d = lay shown true 0 d.
Proof.
  assert (M : forall {A} (f g : A -> str) l, (forall x, In x l -> f x <> [] /\ pads (f x) (g x)) ->
    Forall2 (fun x y => x <> [] /\ pads x y) (map f l) (map g l)).
  { intros A f g l. induction l as [|x l IH]; intros H; cbn; constructor; [apply H; cbn; auto|].
    apply IH. intros y I. apply H. cbn. auto. }
  assert (B : forall d n, wf d -> lay shown true n d <> []).
  { intros d' n W. apply (lay_begins shown true n) in W as (c & t & -> & _). discriminate. }
  induction d as [s|s|nm fields all IH|nm items IH|items IH] using dbg_tree_ind; intros W.
  - reflexivity.
  - cbn. now rewrite app_nil_r.
  - inversion W as [| |? ? ? _ NE FF| | |]; subst. cbn [show]. rewrite lay_rest. cbn [lead rest]. f_equal.
    assert (E : map (fun f => fst f ++ b ": " ++ show shown true (snd f)) fields = map (item shown true 0) fields).
    { apply map_ext_in. intros f I. unfold item. do 2 f_equal. rewrite Forall_forall in IH, FF. apply IH; [exact I|now apply FF]. }
    rewrite E. clear E IH.
    assert (F2 : Forall2 (fun x y => x <> [] /\ pads x y) (map (item shown true 0) fields) (map (item shown true 1) fields)).
    { apply M. intros f I. rewrite Forall_forall in FF. destruct (FF _ I) as [N1 W1]. unfold item. split.
      - apply name_word, word_cons in N1 as (c & t & -> & _). discriminate.
      - apply pads_app; [apply pads_flat, word_flat, name_word, N1|].
        apply pads_app; [apply pads_flat; flat_lit|]. now apply pads_lay. }
    assert (NE' : map (item shown true 0) fields <> []) by (destruct fields; easy).
    unfold lines. destruct all.
    + rewrite <- (lines_body _ _ F2 (b " ") "}"%byte NE'). destruct fields as [|f fields]; [easy|].
      cbn [map nonempty]. now rewrite <- !app_assoc.
    + rewrite <- (lines_open _ _ F2 (b " ") "}"%byte NE'). destruct fields as [|f fields]; [easy|].
      cbn [map nonempty]. now rewrite <- !app_assoc.
  - assert (FF : items <> [] /\ Forall wf items) by (inversion W; subst; auto; easy). destruct FF as [NE FF].
    cbn [show]. rewrite lay_rest. cbn [lead rest]. f_equal.
    assert (E : map (show shown true) items = map (lay shown true 0) items).
    { apply map_ext_in. intros f I. rewrite Forall_forall in IH, FF. apply IH; [exact I|now apply FF]. }
    rewrite E. clear E IH.
    assert (F2 : Forall2 (fun x y => x <> [] /\ pads x y) (map (lay shown true 0) items) (map (lay shown true 1) items)).
    { apply M. intros f I. rewrite Forall_forall in FF. split; [apply B | apply pads_lay]; now apply FF. }
    assert (NE' : map (lay shown true 0) items <> []) by (destruct items; easy).
    rewrite <- (lines_body _ _ F2 [] ")"%byte NE'). destruct items as [|f items]; [easy|]. unfold lines.
    cbn [map nonempty]. rewrite <- !app_assoc. destruct (map (lay shown true 0) items), nm; reflexivity.
  - inversion W as [| | | | |? FF]; subst. cbn [show].
    assert (E : map (show shown true) items = map (lay shown true 0) items).
    { apply map_ext_in. intros f I. rewrite Forall_forall in IH, FF. apply IH; [exact I|now apply FF]. }
    rewrite E. clear E IH. destruct items as [|x items]; [reflexivity|]. rewrite lay_rest. cbn [lead rest app].
    assert (F2 : Forall2 (fun x y => x <> [] /\ pads x y) (map (lay shown true 0) (x :: items)) (map (lay shown true 1) (x :: items))).
    { apply M. intros f I. rewrite Forall_forall in FF. split; [apply B | apply pads_lay]; now apply FF. }
    rewrite <- (lines_body _ _ F2 [] "]"%byte) by easy. unfold lines. cbn [map app]. cbn. rewrite <- ?app_assoc. reflexivity.
Qed.

Theorem show_lay (shown : uchar -> bool) (alt : bool) (d : dbg) : wf d -> show shown alt d = lay shown alt 0 d.
Proof. intros W. destruct alt; [now apply show_lines | now apply show_line]. Qed.

(** The printed form determines the tree. *)
Theorem show_inj (shown : uchar -> bool) (alt : bool) (d d' : dbg) : wf d -> wf d' ->
  show shown alt d = show shown alt d' -> d = d'.
Proof.
  intros W W' E. rewrite !show_lay in E by assumption.
  apply (lay_inj shown alt d W d' 0 [] []); auto. now rewrite !app_nil_r.
Qed.

(** One line is one line. *)
Theorem show_visible (shown : uchar -> bool) (d : dbg) : wf d -> Forall visible (show shown false d).
Proof.
  assert (T : forall sep cl l, Forall visible sep -> Forall visible cl -> Forall (Forall visible) l ->
    Forall visible (tails sep cl l)).
  { intros sep cl l HS HC. induction 1; cbn [tails]; [exact HC|]. repeat (apply Forall_app; split; auto). }
  assert (Lit : forall s, forallb (fun c => (32 <=? Byte.to_N c)%N && negb (Byte.to_N c =? 127)%N) s = true -> Forall visible s).
  { intros s P. rewrite forallb_forall in P. apply Forall_forall. intros c I. apply P in I. unfold visible. lia. }
  assert (Bo : forall all n sp br l, Forall visible sp -> visible br -> Forall (Forall visible) l ->
    Forall visible (body false all n sp br l)).
  { intros all n sp br l Hsp Hbr. destruct 1 as [|x l Hx Hl]; [constructor|]. cbn [body gap].
    apply Forall_app; split; [exact Hsp|]. apply Forall_app; split; [exact Hx|]. apply T; [now apply Lit| |exact Hl].
    unfold close, gap. destruct all; repeat (apply Forall_app; split; auto); now apply Lit. }
  intros W. rewrite (show_line shown d W 0). revert W. generalize 0 as n.
  induction d as [s|s|nm fields all IH|nm items IH|items IH] using dbg_tree_ind; intros n W; rewrite lay_rest;
    (apply Forall_app; split; [apply plain_visible, lead_plain, W|]).
  - inversion W; subst. cbn. now apply str_debug_visible.
  - constructor.
  - inversion W as [| |? ? ? _ NE FF| | |]; subst. cbn [rest]. apply Forall_app; split; [now apply Lit|].
    apply Bo; [now apply Lit|unfold visible; cbn; lia|]. apply Forall_map. rewrite Forall_forall in *.
    intros f I. destruct (FF _ I) as [N1 W1]. unfold item.
    apply Forall_app; split; [apply word_visible, name_word, N1|]. apply Forall_app; split; [now apply Lit|]. now apply IH.
  - assert (FF : Forall wf items) by (inversion W; subst; auto). cbn [rest]. apply Forall_app; split; [now apply Lit|].
    apply Bo; [now apply Lit|unfold visible; cbn; lia|]. apply Forall_map. rewrite Forall_forall in *. auto.
  - assert (FF : Forall wf items) by (inversion W; subst; auto). destruct items as [|x items]; [now apply Lit|].
    cbn [rest]. apply Forall_app; split; [now apply Lit|].
    apply Bo; [now apply Lit|unfold visible; cbn; lia|]. apply Forall_map. rewrite Forall_forall in *. auto.
Qed.
