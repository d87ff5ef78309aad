(** * CostProofs: how many names are compared to find the badge info (C97). *)

From Verif Require Import Base MsgBase Cost.
From Verif Require Import BaseFacts.
From Coq Require Import Lia.

Lemma find_counted_same {A : Type} (p : A -> bool) (l : list A) : fst (find_counted p l) = find p l.
Proof.
  induction l as [|x l IH]; cbn [find_counted find]; [reflexivity|]. destruct (p x); [reflexivity|].
  destruct (find_counted p l). exact IH.
Qed.

Lemma find_counted_most {A : Type} (p : A -> bool) (l : list A) : snd (find_counted p l) <= length l.
Proof.
  induction l as [|x l IH]; cbn [find_counted length snd]; [lia|]. destruct (p x); cbn [snd]; [lia|].
  destruct (find_counted p l). cbn [snd] in *. lia.
Qed.

Lemma find_counted_none {A : Type} (p : A -> bool) (l : list A) :
  (forall x, In x l -> p x = false) -> snd (find_counted p l) = length l.
Proof.
  induction l as [|x l IH]; intros N; cbn [find_counted length]; [reflexivity|]. rewrite N by now left.
  specialize (IH (fun y Y => N y (or_intror Y))). destruct (find_counted p l). cbn [snd] in *. lia.
Qed.

(** C97. The badges are those of [parse_badges]. *)
Lemma p_c97_same :
  forall badges info : str, fst (parse_badges_counted badges info) = parse_badges badges info.
Proof.
  intros x y. unfold parse_badges_counted, parse_badges. destruct x as [|c x]; [reflexivity|].
  cbn [fst]. rewrite map_map. apply map_ext. intros nv.
  rewrite <- find_counted_same. now destruct (find_counted _ _).
Qed.

Fixpoint weight (ws : list str) : nat := match ws with [] => 0 | w :: ws' => S (length w) + weight ws' end.

Lemma split_weight (c : byte) (s : str) : weight (split c s) = S (length s).
Proof.
  induction s as [|x s IH]; cbn [split]; [reflexivity|]. destruct (Byte.eqb x c).
  - cbn [weight length]. lia.
  - destruct (split c s) as [|w ws]; cbn [weight length] in *; lia.
Qed.

Lemma slash_long (w : str) (kv : str * str) : split_once (b "/") w = Some kv -> 1 <= length w.
Proof. destruct w; [discriminate|cbn; lia]. Qed.

Lemma items_weight (ws : list str) : 2 * length (split_slash ws) <= weight ws.
Proof.
  induction ws as [|w ws IH]; cbn [split_slash weight]; [cbn; lia|].
  destruct (split_once (b "/") w) as [kv|] eqn:E; cbn [length]; [apply slash_long in E; lia|lia].
Qed.

Lemma items_few (s : str) : 2 * length (split_slash (split "," s)) <= S (length s).
Proof. rewrite <- (split_weight "," s). apply items_weight. Qed.

(** C97. Every badge is compared with every info at most: the number of comparisons is at
    most a quarter of the product of the lengths of the two tags (and a little). *)
Lemma p_c97_at_most :
  forall badges info : str,
    4 * snd (parse_badges_counted badges info) <= S (length badges) * S (length info).
Proof.
  intros x y. unfold parse_badges_counted. destruct x as [|c x]; [cbn; lia|].
  cbn [snd]. rewrite map_map. set (info := split_slash (split "," y)).
  pose proof (items_few (c :: x)) as X. pose proof (items_few y) as Y. fold info in Y.
  assert (G : forall l : list (str * str), list_sum (map (fun nv : str * str =>
     snd (let '(r, n) := find_counted (fun kv : str * str => str_eqb (fst kv) (fst nv)) info in
             (badge_from (mk_badge_data (Borrowed (fst nv)) (Borrowed (snd nv))
                (option_map Borrowed (option_map snd r))), n))) l) <= length l * length info).
  { induction l as [|nv l IH]; cbn [map length]; [cbn; lia|].
    change (list_sum (?a :: ?l)) with (a + list_sum l).
    pose proof (find_counted_most (fun kv : str * str => str_eqb (fst kv) (fst nv)) info).
    destruct (find_counted _ info) as [r n]. cbn [snd] in *. cbn [list_sum fold_right]. unfold list_sum in IH |- *. nia. }
  specialize (G (split_slash (split "," (c :: x)))). nia.
Qed.

Fixpoint again (w : str) (n : nat) : str := match n with 0 => w | S n' => w ++ b "," ++ again w n' end.

Lemma again_split (x : byte) (n : nat) : x <> ","%byte -> split "," (again [x; "/"%byte] n) = repeat [x; "/"%byte] (S n).
Proof.
  intros X. assert (E : Byte.eqb x "," = false) by (destruct (Byte.eqb x ",") eqn:K; [apply Byte.byte_dec_bl in K; congruence|reflexivity]).
  induction n as [|n IH]; cbn [again repeat].
  - cbn [split]. rewrite E. reflexivity.
  - cbn [app split b]. rewrite E. cbn. rewrite IH. reflexivity.
Qed.

Lemma again_length (w : str) (n : nat) : length (again w n) = length w + n * S (length w).
Proof. induction n as [|n IH]; cbn [again]; [lia|]. rewrite !app_length, IH. cbn. lia. Qed.

Lemma slash_again (x : byte) (n : nat) : x <> "/"%byte -> split_slash (repeat [x; "/"%byte] n) = repeat ([x], []) n.
Proof.
  intros X.
  assert (S1 : split_once (b "/") [x; "/"%byte] = Some ([x], [])) by (destruct x; try reflexivity; now contradiction X).
  induction n as [|n IH]; cbn [repeat split_slash]; [reflexivity|].
  rewrite S1, IH. reflexivity.
Qed.

(** C97. That many are reached, up to a factor: n badges and n infos, with n * n comparisons. *)
Lemma p_c97_reached :
  forall n : nat, exists badges info : str,
    length badges = 3 * n + 2 /\ length info = 3 * n + 2 /\
    snd (parse_badges_counted badges info) = S n * S n.
Proof.
  intros n. exists (again (b "a/") n), (again (b "b/") n). split; [rewrite again_length; cbn; lia|].
  split; [rewrite again_length; cbn; lia|].
  unfold parse_badges_counted. destruct (again (b "a/") n) as [|c x] eqn:E.
  { apply (f_equal (@length byte)) in E. rewrite again_length in E. discriminate. }
  rewrite <- E. cbn [snd]. rewrite map_map.
  change (b "a/") with ["a"%byte; "/"%byte]. change (b "b/") with ["b"%byte; "/"%byte].
  rewrite !again_split by discriminate. rewrite !slash_again by discriminate.
  assert (G : forall k, list_sum (map (fun nv : str * str =>
     snd (let '(r, n) := find_counted (fun kv : str * str => str_eqb (fst kv) (fst nv)) (repeat (["b"%byte], []) (S n)) in
             (badge_from (mk_badge_data (Borrowed (fst nv)) (Borrowed (snd nv))
                (option_map Borrowed (option_map snd r))), n))) (repeat (["a"%byte], []) k)) = k * S n).
  { induction k as [|k IH]; [reflexivity|]. cbn [repeat map] in IH |- *.
    change (list_sum (?a :: ?l)) with (a + list_sum l). rewrite IH.
    pose proof (find_counted_none (fun kv : str * str => str_eqb (fst kv) ["a"%byte]) (repeat (["b"%byte], []) (S n))) as K.
    rewrite repeat_length in K. cbn [fst repeat] in *. destruct (find_counted _ _) as [r m]. cbn [snd] in *.
    rewrite K; [lia|]. intros kv [<-|I]; [reflexivity|]. apply repeat_spec in I. now subst. }
  apply G.
Qed.

(** C97. For one badge the infos are looked at one after the other, up to the first with its
    name. *)
Lemma p_c97_one :
  forall name version info : str,
    ~ In "/"%byte name -> ~ In ","%byte name -> ~ In ","%byte version ->
    let infos := map fst (split_slash (split "," info)) in
    let n := snd (parse_badges_counted (name ++ b "/" ++ version) info) in
    (exists before after, infos = before ++ name :: after /\ ~ In name before /\ n = S (length before)) \/
    (~ In name infos /\ n = length infos).
Proof.
  intros name v y N1 N2 V infos n. subst n infos.
  assert (SP : forall w, ~ In ","%byte w -> split "," w = [w]).
  { induction w as [|c w IH]; intros W; [reflexivity|]. cbn [split].
    destruct (Byte.eqb c ",") eqn:E; [apply Byte.byte_dec_bl in E; subst; exfalso; apply W; now left|].
    rewrite IH; [reflexivity|]. intros I. apply W. now right. }
  assert (SO : split_once (b "/") (name ++ b "/" ++ v) = Some (name, v)).
  { clear N2 SP. induction name as [|c w IH]; [reflexivity|].
    rewrite <- app_comm_cons. cbn [split_once].
    assert (Q : strip_prefix (b "/") (c :: (w ++ b "/" ++ v)) = None).
    { destruct c; try reflexivity. exfalso. apply N1. now left. }
    rewrite Q, IH; [reflexivity|]. intros I. apply N1. now right. }
  unfold parse_badges_counted. destruct (name ++ b "/" ++ v) as [|c x] eqn:E.
  { destruct name; discriminate. }
  rewrite <- E in *. rewrite (SP (name ++ b "/" ++ v)).
  2:{ rewrite !in_app_iff. cbn. intros [I|[[I|[]]|I]]; [now apply N2|discriminate|now apply V]. }
  cbn [split_slash]. rewrite SO. cbn [snd map list_sum fold_right].
  generalize (split_slash (split "," y)). intros l.
  assert (G : let m := snd (find_counted (fun kv : str * str => str_eqb (fst kv) (fst (name, v))) l) in
    (exists before after, map fst l = before ++ name :: after /\ ~ In name before /\ m = S (length before)) \/
    (~ In name (map fst l) /\ m = length (map fst l))).
  { cbn [fst]. induction l as [|[k w] l IH]; cbn zeta in *; [right; split; [intros []|reflexivity]|].
    cbn [find_counted map fst]. destruct (str_eqb_spec k name) as [->|KN].
    - left. exists [], (map fst l). repeat split. intros [].
    - destruct (find_counted _ l) as [r m]. cbn [snd] in *.
      destruct IH as [(p & q & -> & P & ->)|[A ->]].
      + left. exists (k :: p), q. repeat split. intros [I|I]; [now apply KN|now apply P].
      + right. split; [|reflexivity]. intros [I|I]; [now apply KN|now apply A]. }
  cbn zeta in G. destruct (find_counted _ l) as [r m]. cbn [snd] in *. rewrite Nat.add_0_r. exact G.
Qed.

(** C97. The comparisons of several badges add up. *)
Lemma p_c97_adds :
  forall one others info : str,
    snd (parse_badges_counted (one ++ b "," ++ others) info) =
    snd (parse_badges_counted one info) + snd (parse_badges_counted others info).
Proof.
  intros x z y.
  assert (U : forall w, snd (parse_badges_counted w y) =
    list_sum (map (fun nv : str * str => snd (find_counted (fun kv : str * str => str_eqb (fst kv) (fst nv)) (split_slash (split "," y)))) (split_slash (split "," w)))).
  { intros w. unfold parse_badges_counted. destruct w as [|c w]; [reflexivity|]. cbn [snd]. rewrite map_map. f_equal.
    apply map_ext. intros nv. now destruct (find_counted _ _). }
  rewrite !U.
  assert (SP : forall w, split "," (w ++ b "," ++ z) = split "," w ++ split "," z).
  { induction w as [|c w IH]; [reflexivity|]. rewrite <- app_comm_cons. cbn [split]. rewrite IH.
    destruct (Byte.eqb c ","); [reflexivity|]. destruct (split "," w) eqn:E; [|reflexivity].
    exfalso. pose proof (split_weight "," w) as K. rewrite E in K. discriminate. }
  assert (SS : forall l m, split_slash (l ++ m) = split_slash l ++ split_slash m).
  { induction l as [|w l IH]; intros m; [reflexivity|]. cbn [app split_slash]. rewrite IH.
    now destruct (split_once (b "/") w). }
  rewrite SP, SS, map_app, list_sum_app. reflexivity.
Qed.

(** C97. So the work is not linear in the length of the tags. *)
Lemma p_c97_linear_refuted :
  forall k : nat, exists badges info : str,
    k * (length badges + length info) < snd (parse_badges_counted badges info).
Proof.
  intros k. destruct (p_c97_reached (6 * k)) as (x & y & X & Y & C). exists x, y. rewrite X, Y, C. nia.
Qed.

Example ex_c97 :
  parse_badges_counted (b "subscriber/12,bits/100,vip/1") (b "subscriber/13,bits/7") =
  (parse_badges (b "subscriber/12,bits/100,vip/1") (b "subscriber/13,bits/7"), 5).
Proof. vm_compute. reflexivity. Qed.
