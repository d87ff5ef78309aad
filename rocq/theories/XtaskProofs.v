(** * XtaskProofs: the tasks of the repository (C74, C75). *)

From Coq Require Import Lia ZifyBool ZifyNat ZifyN ZArith.
From Verif Require Import Base SpecIrc SpecMsg SpecUnicode Xtask SpecXtask.
From Verif Require Import BaseFacts Utf8Facts FieldFacts UnicodeProofs.

Open Scope nat_scope.
(* props-preamble
From Coq Require Import ZArith.
Open Scope nat_scope.
*)

Lemma str_eqb_eq (x y : str) : str_eqb x y = true <-> x = y.
Proof. destruct (str_eqb_spec x y); split; congruence. Qed.

(** ** White space *)

Lemma drop_white_all (ps cs : list uchar) :
  Forall (fun c => is_whitespace c = true) ps -> drop_white (ps ++ cs) = drop_white cs.
Proof. induction 1 as [|c ps W _ IH]; [reflexivity|]. cbn [app drop_white]. now rewrite W. Qed.

Lemma drop_white_head (cs : list uchar) :
  (cs <> [] -> is_whitespace (hd [] cs) = false) -> drop_white cs = cs.
Proof. destruct cs as [|c cs]; [reflexivity|]. intros H. cbn [drop_white]. cbn [hd] in H. now rewrite H. Qed.

Lemma drop_white_split (cs : list uchar) :
  exists ps, cs = ps ++ drop_white cs /\ Forall (fun c => is_whitespace c = true) ps /\
    (drop_white cs <> [] -> is_whitespace (hd [] (drop_white cs)) = false).
Proof.
  induction cs as [|c cs (ps & E & F & H)]; [exists []; now split; [|split]|]. cbn [drop_white].
  destruct (is_whitespace c) eqn:W.
  - exists (c :: ps). split; [cbn; congruence|]. split; [now constructor|exact H].
  - exists []. split; [reflexivity|]. split; [constructor|]. intros _. exact W.
Qed.

Lemma hd_rev {A : Type} (d : A) (l : list A) : hd d (rev l) = last l d.
Proof.
  destruct l as [|x l] using rev_ind; [reflexivity|]. rewrite rev_unit. cbn [hd]. now rewrite last_last.
Qed.

Definition mid (cs : list uchar) : list uchar := rev (drop_white (rev (drop_white cs))).

Lemma mid_split (cs : list uchar) :
  exists ps qs, cs = ps ++ mid cs ++ qs /\ Forall (fun c => is_whitespace c = true) ps /\
    Forall (fun c => is_whitespace c = true) qs /\
    (mid cs <> [] -> is_whitespace (hd [] (mid cs)) = false /\ is_whitespace (last (mid cs) []) = false).
Proof.
  unfold mid. destruct (drop_white_split cs) as (ps & E & F & H).
  destruct (drop_white_split (rev (drop_white cs))) as (qs & E' & F' & H').
  set (k := drop_white (rev (drop_white cs))) in *.
  assert (D : drop_white cs = rev k ++ rev qs).
  { rewrite <- rev_app_distr, <- E'. now rewrite rev_involutive. }
  exists ps, (rev qs). split; [now rewrite <- D|]. split; [exact F|]. split; [now apply Forall_rev|].
  intros N. split.
  - rewrite D in H. destruct (rev k) as [|c l]; [contradiction|]. apply H. discriminate.
  - rewrite <- hd_rev, rev_involutive. apply H'. intros K. rewrite K in N. now apply N.
Qed.

Lemma mid_unique (ps ms qs : list uchar) :
  Forall (fun c => is_whitespace c = true) ps -> Forall (fun c => is_whitespace c = true) qs ->
  (ms <> [] -> is_whitespace (hd [] ms) = false /\ is_whitespace (last ms []) = false) ->
  mid (ps ++ ms ++ qs) = ms.
Proof.
  intros P Q M. unfold mid. rewrite drop_white_all by exact P. destruct ms as [|m ms].
  - cbn [app]. rewrite <- (app_nil_r qs), drop_white_all by exact Q. reflexivity.
  - destruct M as [M1 M2]; [discriminate|]. rewrite (drop_white_head ((m :: ms) ++ qs)) by (intros _; exact M1).
    rewrite rev_app_distr, drop_white_all by now apply Forall_rev.
    rewrite drop_white_head by (intros _; rewrite hd_rev; exact M2). apply rev_involutive.
Qed.

Lemma encodes_ends (ns : list N) (cs : list uchar) :
  Forall2 encodes ns cs -> ns <> [] ->
  cs <> [] /\ encodes (hd 0%N ns) (hd [] cs) /\ encodes (last ns 0%N) (last cs []).
Proof.
  intros F. induction F as [|n c ns cs E F IH]; [congruence|]. intros _. split; [discriminate|]. split; [exact E|].
  destruct F as [|n' c' ns cs E' F]; [exact E|]. apply IH. discriminate.
Qed.

Lemma white_encodes (ns : list N) (cs : list uchar) :
  Forall2 encodes ns cs -> (Forall (fun c => is_whitespace c = true) cs <-> Forall white_space ns).
Proof.
  induction 1 as [|n c ns cs E F IH]; [split; constructor|].
  pose proof (p_c68_white_space c n E) as W. split; intros K; inversion K; subst; constructor; tauto.
Qed.

Lemma not_white (n : N) (c : uchar) : encodes n c -> (is_whitespace c = false <-> ~ white_space n).
Proof.
  intros E. pose proof (p_c68_white_space c n E) as W. destruct (is_whitespace c); split; intros K; try congruence.
  - exfalso. apply K. now apply W.
  - intros X. apply W in X. discriminate.
Qed.

Lemma solid_iff (ns : list N) (cs : list uchar) :
  Forall2 encodes ns cs ->
  ((cs <> [] -> is_whitespace (hd [] cs) = false /\ is_whitespace (last cs []) = false) <->
   (ns <> [] -> ~ white_space (hd 0%N ns) /\ ~ white_space (last ns 0%N))).
Proof.
  intros F. split; intros H N.
  - destruct (encodes_ends ns cs F N) as (C & A & B). destruct (H C) as [H1 H2].
    split; [now apply (not_white _ _ A)|now apply (not_white _ _ B)].
  - assert (N' : ns <> []). { intros ->. inversion F. now subst. }
    destruct (encodes_ends ns cs F N') as (C & A & B). destruct (H N') as [H1 H2].
    split; [now apply (not_white _ _ A)|now apply (not_white _ _ B)].
Qed.

Lemma trim_iff (s t : str) : is_text s -> (trims s t <-> trim s = t).
Proof.
  intros (ns & T). change (trim s) with (concat (mid (chars s))).
  destruct (p_c68_characters s ns T) as (F & C & U). split.
  - intros (ps & ms & qs & T' & TM & P & Q & K). apply U in T' as <-.
    destruct (p_c68_characters t ms TM) as (FM & CM & _).
    apply Forall2_app_inv_l in F as (cp & c1 & FP & F1 & E). apply Forall2_app_inv_l in F1 as (cm & cq & FM' & FQ & ->).
    rewrite E, mid_unique.
    + assert (TM' : text_of ms (concat cm)) by now apply encodes_text.
      destruct TM as [_ TM], TM' as [_ TM']. apply to_N_inj. congruence.
    + now apply (white_encodes ps).
    + now apply (white_encodes qs).
    + now apply (solid_iff ms cm FM').
  - intros <-. destruct (mid_split (chars s)) as (cp & cq & E & P & Q & K). rewrite E in F.
    apply Forall2_app_inv_r in F as (ps & n1 & FP & F1 & EN). apply Forall2_app_inv_r in F1 as (ms & qs & FM & FQ & ->).
    subst ns. exists ps, ms, qs. split; [exact T|]. split; [now apply encodes_text|].
    split; [now apply (white_encodes ps cp)|]. split; [now apply (white_encodes qs cq)|]. now apply (solid_iff ms (mid (chars s))).
Qed.

Lemma trim_text (s : str) : is_text s -> is_text (trim s).
Proof.
  intros T. destruct (proj2 (trim_iff s (trim s) T) eq_refl) as (ps & ms & qs & _ & M & _). now exists ms.
Qed.

Lemma text_valid (s : str) : utf8_valid s = true <-> is_text s.
Proof. apply p_c68_utf8. Qed.

(** ** Running *)

Lemma check_none (code : option Z) : check code = None <-> code = Some 0%Z.
Proof. destruct code as [[|p|p]|]; cbn; split; congruence. Qed.

Lemma run_cases (w : world) (c : command) (tr : list command) :
  (succeeds w tr c /\ run w c tr = (tr ++ [c], Value tt)) \/
  (exists e, fails w tr c e /\ run w c tr = (tr ++ [c], Failed e)).
Proof.
  unfold run, succeeds, prints. destruct (w tr c) as [|code out] eqn:E; [right; exists EIo; split; [now constructor|reflexivity]|].
  destruct code as [[|p|p]|]; cbn [check]; [left; eauto|right..]; eexists; (split; [|reflexivity]).
  - eapply fl_code; [exact E|discriminate].
  - eapply fl_code; [exact E|discriminate].
  - eapply fl_killed; exact E.
Qed.

Lemma output_cases (w : world) (c : command) (tr : list command) :
  (exists out, prints w tr c out /\ is_text out /\ run_with_output w c tr = (tr ++ [c], Value out)) \/
  (exists out, prints w tr c out /\ ~ is_text out /\ run_with_output w c tr = (tr ++ [c], Failed EUtf8)) \/
  (exists e, fails w tr c e /\ run_with_output w c tr = (tr ++ [c], Failed e)).
Proof.
  unfold run_with_output, prints. destruct (w tr c) as [|code out] eqn:E; [right; right; exists EIo; split; [now constructor|reflexivity]|].
  destruct code as [[|p|p]|]; cbn [check]; [|right; right; eexists; (split; [|reflexivity])..].
  - destruct (utf8_valid out) eqn:U.
    + left. exists out. rewrite <- text_valid. auto.
    + right. left. exists out. rewrite <- text_valid. split; [reflexivity|]. split; [congruence|reflexivity].
  - eapply fl_code; [exact E|discriminate].
  - eapply fl_code; [exact E|discriminate].
  - eapply fl_killed; exact E.
Qed.

Lemma prints_fails (w : world) (tr : list command) (c : command) (out : str) (e : task_error) :
  prints w tr c out -> fails w tr c e -> False.
Proof. unfold prints. intros P F. inversion F; congruence. Qed.

Lemma prints_unique (w : world) (tr : list command) (c : command) (o o' : str) : prints w tr c o -> prints w tr c o' -> o = o'.
Proof. unfold prints. congruence. Qed.

Lemma output_iff (w : world) (c : command) (tr tr' : list command) (out : str) :
  run_with_output w c tr = (tr', Value out) <-> tr' = tr ++ [c] /\ prints w tr c out /\ is_text out.
Proof.
  destruct (output_cases w c tr) as [(o & P & T & ->)|[(o & P & T & ->)|(e & F & ->)]].
  - split; [intros [= <- <-]; auto|]. intros (-> & P' & _). rewrite (prints_unique _ _ _ _ _ P P'). reflexivity.
  - split; [discriminate|]. intros (_ & P' & T'). rewrite (prints_unique _ _ _ _ _ P P') in T. contradiction.
  - split; [discriminate|]. intros (_ & P' & _). exfalso. eapply prints_fails; eassumption.
Qed.

Lemma run_iff (w : world) (c : command) (tr tr' : list command) :
  run w c tr = (tr', Value tt) <-> tr' = tr ++ [c] /\ succeeds w tr c.
Proof.
  destruct (run_cases w c tr) as [(P & ->)|(e & F & ->)].
  - split; [intros [= <-]; auto|]. now intros [-> _].
  - split; [discriminate|]. intros (_ & o & P). exfalso. eapply prints_fails; eassumption.
Qed.

Lemma andthen_value {A B : Type} (m : task A) (k : A -> task B) (tr tr' : list command) (y : B) :
  andthen m k tr = (tr', Value y) <-> exists tr1 x, m tr = (tr1, Value x) /\ k x tr1 = (tr', Value y).
Proof.
  unfold andthen. destruct (m tr) as [tr1 [x|e|]] eqn:E; split; try discriminate.
  - eauto.
  - now intros (? & ? & [= <- <-] & ?).
  - now intros (? & ? & ? & ?).
  - now intros (? & ? & ? & ?).
Qed.

(** Pieces of tasks that go on only after success. *)
Definition steady {A : Type} (w : world) (m : task A) : Prop :=
  forall tr tr' r, m tr = (tr', r) -> exists new, tr' = tr ++ new /\
    (forall before c after, new = before ++ c :: after -> after <> [] -> succeeds w (tr ++ before) c) /\
    (forall x, r = Value x -> forall before c after, new = before ++ c :: after -> succeeds w (tr ++ before) c).

Lemma steady_ret {A : Type} (w : world) (x : A) : steady w (ret x).
Proof.
  intros tr tr' r [= <- <-]. exists []. rewrite app_nil_r. split; [reflexivity|].
  split; [intros [|? ?] ? ? E; discriminate E|intros ? _ [|? ?] ? ? E; discriminate E].
Qed.

Lemma single {A : Type} (x y : A) (l r : list A) : [x] = l ++ y :: r -> l = [] /\ y = x /\ r = [].
Proof. destruct l as [|z [|? ?]]; cbn; intros [=]; auto. Qed.

Lemma steady_run (w : world) (c : command) : steady w (run w c).
Proof.
  intros tr tr' r E. exists [c].
  destruct (run_cases w c tr) as [(P & R)|(e & F & R)]; rewrite R in E; injection E as <- <-; (split; [reflexivity|]); split.
  - intros ? ? ? S N. apply single in S as (_ & _ & ->). contradiction.
  - intros ? _ ? ? ? S. apply single in S as (-> & -> & ->). now rewrite app_nil_r.
  - intros ? ? ? S N. apply single in S as (_ & _ & ->). contradiction.
  - discriminate.
Qed.

Lemma steady_output (w : world) (c : command) : steady w (run_with_output w c).
Proof.
  intros tr tr' r E. exists [c].
  destruct (output_cases w c tr) as [(o & P & T & R)|[(o & P & T & R)|(e & F & R)]]; rewrite R in E; injection E as <- <-;
    (split; [reflexivity|]); split; try discriminate;
    try (intros ? ? ? S N; apply single in S as (_ & _ & ->); contradiction).
  intros ? _ ? ? ? S. apply single in S as (-> & -> & ->). rewrite app_nil_r. now exists o.
Qed.

Lemma app_cut {A : Type} (l1 l2 pre post : list A) (x : A) :
  l1 ++ l2 = pre ++ x :: post ->
  (exists post1, l1 = pre ++ x :: post1 /\ post = post1 ++ l2) \/ (exists pre2, pre = l1 ++ pre2 /\ l2 = pre2 ++ x :: post).
Proof.
  revert pre. induction l1 as [|y l1 IH]; intros pre E; [right; exists pre; auto|].
  destruct pre as [|z pre]; cbn in E; injection E as -> E.
  - left. exists l1. auto.
  - destruct (IH pre E) as [(p & -> & ->)|(p & -> & ->)]; [left; exists p; auto|right; exists p; auto].
Qed.

Lemma steady_andthen {A B : Type} (w : world) (m : task A) (k : A -> task B) :
  steady w m -> (forall x, steady w (k x)) -> steady w (andthen m k).
Proof.
  intros M K tr tr' r E. unfold andthen in E. destruct (m tr) as [tr1 r1] eqn:E1.
  destruct (M _ _ _ E1) as (n1 & -> & S1 & V1).
  destruct r1 as [x|e|]; [|injection E as <- <-; exists n1; split; [reflexivity|]; split; [exact S1|discriminate]..].
  destruct (K x _ _ _ E) as (n2 & -> & S2 & V2). exists (n1 ++ n2). split; [now rewrite app_assoc|].
  assert (G : forall before c after, n1 ++ n2 = before ++ c :: after ->
    (after <> [] \/ exists y, r = Value y) -> succeeds w (tr ++ before) c).
  { intros before c after Q N. apply app_cut in Q as [(p & -> & ->)|(p & -> & ->)].
    - eapply V1; [reflexivity|reflexivity].
    - rewrite app_assoc. destruct N as [N|[y N]]; [eapply S2; eauto|eapply V2; eauto]. }
  split; [intros; eapply G; eauto|intros; eapply G; eauto].
Qed.

Lemma steady_lines (w : world) (commits : list str) : steady w (changelog_lines w commits).
Proof.
  induction commits as [|c cs IH]; [apply steady_ret|]. cbn [changelog_lines].
  apply steady_andthen; [apply steady_output|]. intros m.
  destruct (match split_once [x0a] m with Some p => p | None => (m, []) end) as [l r].
  apply steady_andthen; [exact IH|]. intros ls. apply steady_ret.
Qed.

Lemma steady_text (w : world) (since : str) (upto : option str) : steady w (changelog_text w since upto).
Proof.
  unfold changelog_text. apply steady_andthen; [apply steady_output|]. intros log.
  apply steady_andthen; [apply steady_lines|]. intros ls. apply steady_andthen; [apply steady_output|]. intros l. apply steady_ret.
Qed.

Lemma steady_has (w : world) (path cmd : str) : steady w (has_cargo_subcmd w path cmd).
Proof.
  apply steady_andthen; [apply steady_output|]. intros out tr tr' r [= <- <-]. exists []. rewrite app_nil_r. split; [reflexivity|].
  split; [intros [|? ?] ? ? E; discriminate E|intros ? _ [|? ?] ? ? E; discriminate E].
Qed.

Lemma steady_setup (w : world) (path : str) (binary : bool) : steady w (setup_run w path binary).
Proof.
  unfold setup_run. apply steady_andthen; [|intros _; apply steady_run]. destruct binary; [|apply steady_run].
  apply steady_andthen; [apply steady_has|]. intros has. apply steady_andthen; [|intros _; apply steady_run].
  destruct has; [apply steady_ret|apply steady_run].
Qed.

(** ** C74 *)

Lemma entry_unique (c m e e' : str) : entry c m e -> entry c m e' -> e = e'.
Proof.
  intros A B. destruct A as [N|l r -> N]; inversion B as [N' E|l' r' E N' E']; subst.
  - reflexivity.
  - exfalso. apply N. apply in_or_app. right. now left.
  - exfalso. apply N'. apply in_or_app. right. now left.
  - destruct (first_split_unique _ _ _ _ _ E N N') as [-> ->]. reflexivity.
Qed.

Lemma one_byte_infix (x : byte) (s : str) : infix [x] s <-> In x s.
Proof.
  unfold infix. split.
  - intros (l & r & ->). apply in_or_app. right. now left.
  - intros I. apply in_split in I as (l & r & ->). now exists l, r.
Qed.

Lemma entry_split (c m : str) :
  let '(l, r) := match split_once [x0a] m with Some p => p | None => (m, []) end in
  entry c m (l ++ commit_link c ++ [x0a] ++ r).
Proof.
  destruct (split_once [x0a] m) as [[l r]|] eqn:E.
  - apply split_once_around in E as [E F]. apply en_more; [exact E|].
    intros I. apply in_split in I as (l1 & l2 & ->). specialize (F l1 (l2 ++ [x0a] ++ r)).
    rewrite E in F. rewrite <- app_assoc in F. specialize (F eq_refl). rewrite app_length in F. cbn in F. lia.
  - rewrite split_once_none, one_byte_infix in E. now apply en_line.
Qed.

Lemma lines_iff (w : world) (commits : list str) : forall (tr tr' : list command) (ls : list str),
  changelog_lines w commits tr = (tr', Value ls) ->
  tr' = tr ++ map ask_message commits /\ exists es, entries w tr commits es /\
    join_by x0a es = join_lines ls /\ (es = [] <-> ls = []).
Proof.
  induction commits as [|c cs IH]; intros tr tr' ls.
  - intros [= <- <-]. split; [symmetry; apply app_nil_r|]. exists []. split; [constructor|]. split; [reflexivity|tauto].
  - cbn [changelog_lines]. intros H. apply andthen_value in H as (tr1 & m & R & H). apply output_iff in R as (-> & P & T).
    pose proof (entry_split c m) as EN.
    destruct (match split_once [x0a] m with Some p => p | None => (m, []) end) as [l r].
    apply andthen_value in H as (tr2 & ls' & R & H). apply IH in R as (-> & es & ES & J & Z).
    assert (tr' = (tr ++ [ask_message c]) ++ map ask_message cs) as -> by (symmetry; exact (f_equal fst H)).
    assert (LS : Value ls = Value ((l ++ commit_link c) :: r :: ls')).
    { symmetry. etransitivity; [|exact (f_equal snd H)]. cbn [snd]. unfold commit_link, commit_base. now rewrite <- !app_assoc. }
    injection LS as ->. clear H. split; [cbn [map]; rewrite <- app_assoc; reflexivity|].
    exists ((l ++ commit_link c ++ [x0a] ++ r) :: es). split; [econstructor; eassumption|]. split; [|split; discriminate].
    destruct es as [|e es].
    + rewrite (proj1 Z eq_refl). cbn [join_by join_lines]. now rewrite <- !app_assoc.
    + destruct ls' as [|x ls']; [discriminate (proj2 Z eq_refl)|].
      change (join_by x0a ((l ++ commit_link c ++ [x0a] ++ r) :: e :: es)) with ((l ++ commit_link c ++ [x0a] ++ r) ++ [x0a] ++ join_by x0a (e :: es)).
      change (join_lines ((l ++ commit_link c) :: r :: x :: ls')) with ((l ++ commit_link c) ++ [x0a] ++ r ++ [x0a] ++ join_lines (x :: ls')).
      rewrite J. now rewrite <- !app_assoc.
Qed.

Lemma entries_unique (w : world) (commits : list str) : forall (tr : list command) (es es' : list str),
  entries w tr commits es -> entries w tr commits es' -> es = es'.
Proof.
  induction commits as [|c cs IH]; intros tr es es' A B; inversion A; inversion B; subst; [reflexivity|].
  f_equal; [|eapply IH; eassumption]. eapply entry_unique; [eassumption|].
  match goal with H : prints w tr _ m, H' : prints w tr _ m0 |- _ => rewrite (prints_unique _ _ _ _ _ H H') end. assumption.
Qed.

Lemma lines_run (w : world) (commits : list str) : forall (tr : list command) (es : list str),
  entries w tr commits es -> exists tr' ls, changelog_lines w commits tr = (tr', Value ls).
Proof.
  induction commits as [|c cs IH]; intros tr es A; [eexists _, _; reflexivity|].
  inversion A as [|? ? ? m e es' P T EN A']; subst. cbn [changelog_lines].
  destruct (IH _ _ A') as (tr' & ls & E). unfold andthen at 1.
  change (with_args (git (b "show")) [b "--quiet"; b "--pretty=format:%B"; c]) with (ask_message c).
  rewrite (proj2 (output_iff w (ask_message c) tr _ m) (conj eq_refl (conj P T))).
  destruct (match split_once [x0a] m with Some p => p | None => (m, []) end) as [l r].
  unfold andthen. rewrite E. eexists _, _. reflexivity.
Qed.

Definition range_end (upto : option str) : str := match upto with Some u => u | None => b "HEAD" end.

Lemma text_iff (w : world) (since : str) (upto : option str) (tr : list command) (text : str) :
  changelog_text w since upto [] = (tr, Value text) <->
  exists log t commits es latest,
    let first := ask_log since (range_end upto) in
    let asked := first :: map ask_message commits in
    prints w [] first log /\ is_text log /\ trims log t /\ parts_by x0a t commits /\
    entries w [first] commits es /\ prints w asked ask_latest latest /\ is_text latest /\
    tr = asked ++ [ask_latest] /\
    text = range_line since latest ++ [x0a] ++ join_by x0a es ++ [x0a; x0a].
Proof.
  assert (RL : forall latest x, b "[" ++ since ++ b ".." ++ latest ++ b "](" ++ compare_base ++ since ++ b "..." ++ latest ++ b ")" ++ [x0a] ++ x =
                                range_line since latest ++ x).
  { intros latest x. unfold range_line, compare_base. rewrite <- !app_assoc. reflexivity. }
  split.
  - unfold changelog_text. intros H. apply andthen_value in H as (tr1 & log & R & H).
    apply output_iff in R as (-> & P & T). apply andthen_value in H as (tr2 & ls & R & H).
    apply lines_iff in R as (-> & es & ES & J & _). apply andthen_value in H as (tr3 & latest & R & H).
    apply output_iff in R as (-> & PL & TL).
    exists log, (trim log), (split x0a (trim log)), es, latest. cbv zeta.
    split; [exact P|]. split; [exact T|]. split; [now apply trim_iff|]. split; [apply split_parts|].
    split; [exact ES|]. split; [exact PL|]. split; [exact TL|]. split; [symmetry; exact (f_equal fst H)|].
    assert (E : Value text = Value (range_line since latest ++ [x0a] ++ join_lines ls ++ [x0a; x0a])).
    { symmetry. etransitivity; [|exact (f_equal snd H)]. cbn [snd]. rewrite <- RL, <- !app_assoc. reflexivity. }
    rewrite J. exact (f_equal (fun r => match r with Value x => x | _ => [] end) E).
  - intros (log & t & commits & es & latest & P & T & TR & PB & ES & PL & TL & -> & ->).
    apply trim_iff in TR as <-; [|exact T]. apply parts_by_split in PB as <-.
    unfold changelog_text. apply andthen_value. exists [ask_log since (range_end upto)], log.
    split; [now apply output_iff|].
    destruct (lines_run w _ _ _ ES) as (tr' & ls & E). apply andthen_value. exists tr', ls. split; [exact E|].
    apply lines_iff in E as (-> & es' & ES' & J & _). rewrite (entries_unique _ _ _ _ _ ES ES'), J.
    apply andthen_value. eexists _, latest. split; [apply output_iff; split; [reflexivity|]; split; [exact PL|exact TL]|].
    unfold ret. apply f_equal2; [reflexivity|]. apply f_equal. rewrite <- RL, <- !app_assoc. reflexivity.
Qed.

(** C74. When the task succeeds, which processes it started, and what is in the file
    then. *)
Lemma p_c74_writes :
  forall (w : world) (since : str) (upto : option str) (file : option str) (left : option (option str))
         (tr : list command) (new : option str),
    changelog_run w since upto file left = (tr, new, Value tt) <->
    exists log t commits es latest old,
      let first := ask_log since (match upto with Some u => u | None => b "HEAD" end) in
      let asked := first :: map ask_message commits in
      prints w [] first log /\ is_text log /\ trims log t /\ parts_by x0a t commits /\
      entries w [first] commits es /\ prints w asked ask_latest latest /\ is_text latest /\
      file = Some old /\ is_text old /\ left = None /\
      tr = asked ++ [ask_latest] /\
      new = Some (range_line since latest ++ [x0a] ++ join_by x0a es ++ [x0a; x0a] ++ old).
Proof.
  intros w since upto file left tr new. fold (range_end upto).
  unfold changelog_run. pose proof (text_iff w since upto) as TI.
  destruct (changelog_text w since upto []) as [tr' [text|e|]] eqn:E.
  - destruct (proj1 (TI tr' text) eq_refl) as (log & t & commits & es & latest & P & T & TR & PB & ES & PL & TL & -> & ->).
    split.
    + destruct file as [old|]; [|discriminate]. destruct (utf8_valid old) eqn:U; [|discriminate].
      destruct left; [discriminate|]. intros K. exists log, t, commits, es, latest, old. cbv zeta.
      do 7 (split; [assumption|]). split; [reflexivity|]. split; [now apply text_valid|]. split; [reflexivity|].
      split; [symmetry; exact (f_equal (fun x => fst (fst x)) K)|].
      symmetry. etransitivity; [|exact (f_equal (fun x => snd (fst x)) K)]. cbn [fst snd]. now rewrite <- !app_assoc.
    + intros (log' & t' & commits' & es' & latest' & old & P' & T' & TR' & PB' & ES' & PL' & TL' & -> & TO & -> & -> & ->).
      rewrite (proj2 (text_valid old) TO).
      assert (K : Value (A := str) (range_line since latest ++ [x0a] ++ join_by x0a es ++ [x0a; x0a]) =
                  Value (range_line since latest' ++ [x0a] ++ join_by x0a es' ++ [x0a; x0a]) /\
                  (ask_log since (range_end upto) :: map ask_message commits) ++ [ask_latest] =
                  (ask_log since (range_end upto) :: map ask_message commits') ++ [ask_latest]).
      { assert (X := proj2 (TI ((ask_log since (range_end upto) :: map ask_message commits') ++ [ask_latest]) (range_line since latest' ++ [x0a] ++ join_by x0a es' ++ [x0a; x0a]))).
        specialize (X (ex_intro _ log' (ex_intro _ t' (ex_intro _ commits' (ex_intro _ es' (ex_intro _ latest'
          (conj P' (conj T' (conj TR' (conj PB' (conj ES' (conj PL' (conj TL' (conj eq_refl eq_refl)))))))))))))).
        split; [exact (f_equal snd X)|exact (f_equal fst X)]. }
      destruct K as [K1 ->]. apply (f_equal (fun r => match r with Value x => x | _ => [] end)) in K1.
      apply f_equal2; [apply f_equal2; [reflexivity|]|reflexivity]. apply f_equal.
      transitivity ((range_line since latest' ++ [x0a] ++ join_by x0a es' ++ [x0a; x0a]) ++ old); [|now rewrite <- !app_assoc].
      f_equal. exact K1.
  - split; [discriminate|].
    intros (log' & t' & commits' & es' & latest' & old & P' & T' & TR' & PB' & ES' & PL' & TL' & _).
    assert (X := proj2 (TI _ _) (ex_intro _ log' (ex_intro _ t' (ex_intro _ commits' (ex_intro _ es' (ex_intro _ latest'
          (conj P' (conj T' (conj TR' (conj PB' (conj ES' (conj PL' (conj TL' (conj eq_refl eq_refl)))))))))))))). discriminate X.
  - split; [discriminate|].
    intros (log' & t' & commits' & es' & latest' & old & P' & T' & TR' & PB' & ES' & PL' & TL' & _).
    assert (X := proj2 (TI _ _) (ex_intro _ log' (ex_intro _ t' (ex_intro _ commits' (ex_intro _ es' (ex_intro _ latest'
          (conj P' (conj T' (conj TR' (conj PB' (conj ES' (conj PL' (conj TL' (conj eq_refl eq_refl)))))))))))))). discriminate X.
Qed.

(** C74. What was in the file is still there, at the end; and if the task does not
    succeed, and not because of the writing, the file is as it was. *)
Lemma p_c74_keeps :
  forall (w : world) (since : str) (upto : option str) (file : option str) (left : option (option str))
         (tr : list command) (new : option str) (r : ending unit),
    changelog_run w since upto file left = (tr, new, r) ->
    match r with
    | Value _ => exists old added, file = Some old /\ new = Some (added ++ old)
    | _ => left = None -> new = file
    end.
Proof.
  intros w since upto file left tr new r. unfold changelog_run.
  destruct (changelog_text w since upto []) as [tr' [text|e|]]; [|now intros [= <- <- <-]..].
  destruct file as [old|]; [|now intros [= <- <- <-]]. destruct (utf8_valid old); [|now intros [= <- <- <-]].
  destruct left as [rest|]; intros [= <- <- <-]; [discriminate|]. eauto.
Qed.

(** C74. After a process that fails no other is started. *)
Lemma p_c74_stops :
  forall (w : world) (since : str) (upto : option str) (file : option str) (left : option (option str))
         (tr : list command) (new : option str) (r : ending unit),
    changelog_run w since upto file left = (tr, new, r) -> stops_at_failure w tr.
Proof.
  intros w since upto file left tr new r. unfold changelog_run.
  destruct (changelog_text w since upto []) as [tr' r'] eqn:E.
  intros H. assert (tr = tr') as ->.
  { destruct r' as [text|e|]; [destruct file as [old|]; [destruct (utf8_valid old); [destruct left|]|]|..]; now injection H. }
  destruct (steady_text w since upto [] tr' r' E) as (new' & -> & S & _). exact S.
Qed.

Definition sample_world (tr : list command) (c : command) : process :=
  match tr, nth 1 c [] with
  | [], _ => Exited (Some 0%Z) (b "abc" ++ [x0a] ++ b "def" ++ [x0a])
  | [_], _ => Exited (Some 0%Z) (b "fix: a" ++ [x0a; x0a] ++ b "more" ++ [x0a])
  | [_; _], _ => Exited (Some 0%Z) (b "feat: b")
  | _, _ => Exited (Some 0%Z) (b "fed")
  end.

Example ex_c74 :
  changelog_run sample_world (b "0.6.1") (Some (b "0.7.0")) (Some (b "old")) None =
  ([ask_log (b "0.6.1") (b "0.7.0"); ask_message (b "abc"); ask_message (b "def"); ask_latest],
   Some (b "[0.6.1..fed](https://github.com/jprochazk/tmi-rs/compare/0.6.1...fed)" ++ [x0a; x0a] ++
         b "fix: a [abc](https://github.com/jprochazk/tmi-rs/commit/abc)" ++ [x0a; x0a] ++ b "more" ++ [x0a; x0a] ++
         b "feat: b [def](https://github.com/jprochazk/tmi-rs/commit/def)" ++ [x0a; x0a; x0a] ++ b "old"),
   Value tt).
Proof. vm_compute. reflexivity. Qed.

(** C74. The link to the whole range does not depend on [--until]: it goes up to the
    latest commit whatever was asked for. *)
Lemma p_c74_link_ends_at_until_refuted :
  exists (w : world) (since until : str) (tr : list command) (text : str),
    changelog_run w since (Some until) (Some []) None = (tr, Some text, Value tt) /\
    ~ (exists r, text = b "[" ++ since ++ b ".." ++ until ++ r).
Proof.
  exists sample_world, (b "0.6.1"), (b "0.7.0"). eexists _, _. split; [vm_compute; reflexivity|].
  intros (r & E). discriminate E.
Qed.

(** C74. If there are no commits, a commit with an empty name is asked for. *)
Lemma p_c74_no_commits :
  forall (w : world) (since : str) (upto : option str) (file : option str) (left : option (option str))
         (tr : list command) (new : option str) (r : ending unit) (log : str),
    let first := ask_log since (match upto with Some u => u | None => b "HEAD" end) in
    prints w [] first log -> trims log [] ->
    changelog_run w since upto file left = (tr, new, r) -> exists more, tr = first :: ask_message [] :: more.
Proof.
  intros w since upto file left tr new r log first P T. fold (range_end upto) in first. unfold changelog_run.
  destruct (changelog_text w since upto []) as [tr' r'] eqn:E. intros H. assert (tr = tr') as ->.
  { destruct r' as [text|e|]; [destruct file as [old|]; [destruct (utf8_valid old); [destruct left|]|]|..]; now injection H. }
  clear H. assert (TX : is_text log). { destruct T as (ps & ms & qs & T & _). eexists. exact T. }
  unfold changelog_text in E. unfold andthen at 1 in E.
  change (with_args (git (b "log")) [since ++ b ".." ++ match upto with Some u => u | None => b "HEAD" end; b "--pretty=format:%h"]) with first in E.
  rewrite (proj2 (output_iff w first [] _ log) (conj eq_refl (conj P TX))) in E.
  rewrite (proj1 (trim_iff log [] TX) T) in E. cbn [split changelog_lines] in E.
  change (with_args (git (b "show")) [b "--quiet"; b "--pretty=format:%B"; []]) with (ask_message []) in E.
  unfold andthen at 1 2 in E.
  destruct (output_cases w (ask_message []) ([] ++ [first])) as [(o & _ & _ & R)|[(o & _ & _ & R)|(e & _ & R)]]; rewrite R in E.
  - destruct (match split_once [x0a] o with Some p => p | None => (o, []) end) as [l rr].
    unfold andthen at 1 in E. unfold ret at 1 2 in E. match type of E with context [join_lines ?x] => set (ls := x) in E end.
    assert (ST := steady_andthen w (run_with_output w (with_args (git (b "log")) [b "-1"; b "--pretty=format:%h"]))
      (fun latest => let range := b "[" ++ since ++ b ".." ++ latest ++ b "](" ++ compare_base ++ since ++ b "..." ++ latest ++ b ")" in
         ret (range ++ [x0a; x0a] ++ join_lines ls ++ [x0a; x0a])) (steady_output _ _) (fun x => steady_ret _ _)).
    destruct (ST _ _ _ E) as (n & -> & _). exists n. reflexivity.
  - injection E as <- _. now exists [].
  - injection E as <- _. now exists [].
Qed.

(** ** C75 *)

Lemma one_ascii (c : uchar) (x : byte) : one_char c -> ascii x = true -> (In x c <-> c = [x]).
Proof.
  intros (V & y & t & -> & C & T) A. split; [|intros ->; now left]. intros I.
  assert (NC : forall z, In z t -> z <> x).
  { intros z Z ->. rewrite Forall_forall in T. specialize (T x Z). unfold ascii, is_cont, in_range in *. lia. }
  destruct I as [->|I]; [|exfalso; now apply (NC x I)].
  destruct t as [|z t]; [reflexivity|]. exfalso. inversion T as [|? ? K]; subst.
  assert (U : utf8_valid (z :: t) = true).
  { change (x :: z :: t) with ([] ++ x :: z :: t) in V. rewrite utf8_split in V by exact A. exact V. }
  apply utf8_head in U. congruence.
Qed.

Lemma space_ascii (x : byte) : ascii_space x -> ascii x = true.
Proof. unfold ascii_space. cbn [In]. intros [<-|[<-|[<-|[<-|[<-|[]]]]]]; reflexivity. Qed.

Lemma space_char (c : uchar) : ascii_whitespace c = true <-> exists x, c = [x] /\ ascii_space x.
Proof.
  unfold ascii_whitespace, ascii_space. rewrite existsb_exists. split.
  - intros (y & I & E). apply str_eqb_eq in E as ->. cbn [In] in *.
    destruct I as [<-|[<-|[<-|[<-|[<-|[]]]]]]; eexists; (split; [reflexivity|auto 10]).
  - intros (x & -> & I). exists [x]. split; [|now apply str_eqb_eq]. cbn [In] in *.
    destruct I as [<-|[<-|[<-|[<-|[<-|[]]]]]]; auto 10.
Qed.

Lemma space_white (c : uchar) : ascii_whitespace c = true -> is_whitespace c = true.
Proof.
  rewrite space_char. unfold ascii_space. intros (x & -> & I). cbn [In] in I.
  destruct I as [<-|[<-|[<-|[<-|[<-|[]]]]]]; reflexivity.
Qed.

Lemma not_space_bytes (cs : list uchar) : Forall one_char cs -> Forall (fun c => ascii_whitespace c = false) cs ->
  Forall (fun x => ~ ascii_space x) (concat cs).
Proof.
  intros O W. apply Forall_concat. rewrite Forall_forall in *. intros c I. apply Forall_forall. intros x X S.
  apply (one_ascii c x (O c I) (space_ascii x S)) in X. specialize (W c I).
  rewrite (proj2 (space_char c)) in W; [discriminate|]. eauto.
Qed.

Lemma begins_chars (s : str) : utf8_valid s = true ->
  (begins_with_space s <-> exists c cs, chars s = c :: cs /\ ascii_whitespace c = true).
Proof.
  intros U. unfold begins_with_space. split.
  - intros (x & r & -> & S). exists [x], (chars r). cbn [chars]. pose proof (space_ascii x S) as A.
    assert (in_range 0 127 x = true) as -> by (unfold ascii, in_range in *; lia).
    split; [reflexivity|]. apply space_char. eauto.
  - intros (c & cs & E & W). apply space_char in W as (x & -> & S). exists x, (concat cs). split; [|exact S].
    rewrite <- (concat_chars s), E. reflexivity.
Qed.

Lemma indented_iff (s : str) : utf8_valid s = true -> (indented s = true <-> begins_with_space s).
Proof.
  intros U. rewrite (begins_chars s U). unfold indented. destruct (chars s) as [|c cs]; split.
  - discriminate.
  - now intros (? & ? & ? & _).
  - eauto.
  - now intros (? & ? & [= <- <-] & ?).
Qed.

Lemma split_first (p : uchar -> bool) (cs : list uchar) :
  exists a r ws, cs = a ++ r /\ Forall (fun c => p c = false) a /\ split_chars p cs = concat a :: ws /\
    (r = [] \/ exists c r', r = c :: r' /\ p c = true).
Proof.
  induction cs as [|c cs (a & r & ws & E & F & S & T)].
  - exists [], [], []. auto using Forall_nil.
  - cbn [split_chars]. destruct (p c) eqn:P.
    + exists [], (c :: cs), (split_chars p cs). split; [reflexivity|]. split; [constructor|]. split; [reflexivity|]. right. eauto.
    + rewrite S. exists (c :: a), r, ws. split; [now rewrite E|]. split; [now constructor|]. split; [reflexivity|exact T].
Qed.

Lemma word_unique (u v r r' : str) :
  u ++ r = v ++ r' -> Forall (fun x => ~ ascii_space x) u -> Forall (fun x => ~ ascii_space x) v ->
  (r = [] \/ begins_with_space r) -> (r' = [] \/ begins_with_space r') -> u = v.
Proof.
  assert (N : forall x l, l = [] \/ begins_with_space l -> forall m, l = x :: m -> ascii_space x).
  { intros x l [->|(y & q & -> & S)] m E; [discriminate|]. now injection E as -> _. }
  revert v. induction u as [|x u IH]; intros [|y v] E U V R R'; cbn in E.
  - reflexivity.
  - exfalso. inversion V as [|? ? K]; subst. apply K. eapply N; [exact R|]. reflexivity.
  - exfalso. inversion U as [|? ? K]; subst. apply K. eapply N; [exact R'|]. reflexivity.
  - injection E as -> E. inversion U; inversion V; subst. f_equal. now apply IH.
Qed.

(** The first word of an indented line: there is none, or it is this one. *)
Lemma line_cases (s : str) : is_text s -> indented s = true ->
  (split_ascii_whitespace (trim s) = [] /\ blank_line s /\ forall cmd, ~ offers s cmd) \/
  (exists v ws, split_ascii_whitespace (trim s) = v :: ws /\ ~ blank_line s /\ forall cmd, offers s cmd <-> cmd = v).
Proof.
  intros T I. pose proof (proj2 (text_valid s) T) as U. pose proof (proj1 (indented_iff s U) I) as B.
  pose proof (fun t => trim_iff s t T) as TI. pose proof (trim_text s T) as TT.
  pose proof (proj2 (text_valid _) TT) as UT.
  destruct (list_eq_dec byte_eq_dec (trim s) []) as [E|E].
  - left. rewrite E. split; [reflexivity|]. split; [split; [exact B|now apply TI]|].
    intros cmd (_ & t & r & K & -> & N & _). apply TI in K. rewrite E in K. destruct cmd; [contradiction|discriminate].
  - right. destruct (proj2 (TI (trim s)) eq_refl) as (ps & ms & qs & _ & TM & _ & _ & K).
    destruct (p_c68_characters _ _ TM) as (F & C & _).
    destruct ms as [|m ms]; [exfalso; apply E; destruct TM as [_ TM]; cbn in TM; destruct (trim s); [reflexivity|discriminate]|].
    destruct (K ltac:(discriminate)) as [K1 _]. cbn [hd] in K1.
    inversion F as [|? c ? cs EN F' EQ1 EQ2]; subst.
    assert (NW : ascii_whitespace c = false).
    { destruct (ascii_whitespace c) eqn:A; [|reflexivity]. apply space_white in A. exfalso. apply K1.
      now apply (p_c68_white_space c m EN). }
    destruct (split_first ascii_whitespace (c :: cs)) as (a & r & ws & EA & FA & SA & RA).
    assert (a <> []) as NA.
    { intros ->. cbn in EA. subst r. destruct RA as [RA|(c' & r' & RA & W)]; [discriminate|]. injection RA as -> _. congruence. }
    pose proof (chars_one _ UT) as O. rewrite <- EQ2, EA in O. apply Forall_app in O as [OA OR].
    assert (NE : concat a <> []).
    { destruct a as [|c0 a]; [contradiction|]. inversion OA as [|? ? O1]; subst. apply one_char_nonempty in O1. destruct c0; [cbn in O1; lia|discriminate]. }
    assert (TS : trim s = concat a ++ concat r) by now rewrite <- C, <- EQ2, EA, concat_app.
    assert (RS : concat r = [] \/ begins_with_space (concat r)).
    { destruct RA as [->|(c' & r' & -> & W)]; [now left|]. right. apply space_char in W as (x & -> & S). exists x, (concat r'). auto. }
    assert (FS : Forall (fun x => ~ ascii_space x) (concat a)) by now apply not_space_bytes.
    exists (concat a), (filter (fun w => match w with [] => false | _ => true end) ws).
    split; [|split].
    + unfold split_ascii_whitespace. rewrite <- EQ2, SA. cbn [filter]. destruct (concat a); [contradiction|reflexivity].
    + intros [_ X]. apply TI in X. contradiction.
    + intros cmd. split.
      * intros (_ & t & q & X & -> & N & FC & Q). apply TI in X. rewrite TS in X. symmetry. eapply word_unique; [exact X|auto..].
      * intros ->. split; [exact B|]. exists (trim s), (concat r). split; [now apply TI|]. auto.
Qed.

Lemma not_indented (s cmd : str) : is_text s -> indented s = false -> ~ blank_line s /\ ~ offers s cmd.
Proof.
  intros T I. assert (N : ~ begins_with_space s).
  { intros B. apply indented_iff in B; [congruence|]. now apply text_valid. }
  split; [intros [B _]|intros [B _]]; contradiction.
Qed.

Lemma any_step (s cmd : str) (lines : list str) :
  ~ blank_line s -> ~ offers s cmd ->
  (any_subcmd cmd lines = Value true /\ finds lines cmd /\ ~ trips lines cmd) \/
  (any_subcmd cmd lines = Crashed /\ trips lines cmd /\ ~ finds lines cmd) \/
  (any_subcmd cmd lines = Value false /\ ~ finds lines cmd /\ ~ trips lines cmd) ->
  (any_subcmd cmd lines = Value true /\ finds (s :: lines) cmd /\ ~ trips (s :: lines) cmd) \/
  (any_subcmd cmd lines = Crashed /\ trips (s :: lines) cmd /\ ~ finds (s :: lines) cmd) \/
  (any_subcmd cmd lines = Value false /\ ~ finds (s :: lines) cmd /\ ~ trips (s :: lines) cmd).
Proof.
  intros B NO.
  assert (FI : finds (s :: lines) cmd <-> finds lines cmd).
  { split.
    - intros ([|s' l1] & l & l2 & E & O & K); injection E as -> E; [contradiction|].
      inversion K; subst. exists l1, l, l2. auto.
    - intros (l1 & l & l2 & -> & O & K). exists (s :: l1), l, l2. split; [reflexivity|]. auto using Forall_cons. }
  assert (TR : trips (s :: lines) cmd <-> trips lines cmd).
  { split.
    - intros ([|s' l1] & l & l2 & E & O & K); injection E as -> E; [contradiction|].
      inversion K; subst. exists l1, l, l2. auto.
    - intros (l1 & l & l2 & -> & O & K). exists (s :: l1), l, l2. split; [reflexivity|]. auto using Forall_cons. }
  now rewrite FI, TR.
Qed.

Lemma lines_text (s : str) : is_text s -> Forall is_text (split x0a s).
Proof.
  intros T. apply text_valid in T. destruct (split_parts x0a s) as (_ & E & _).
  set (ws := split x0a s) in *. clearbody ws. subst s.
  induction ws as [|w ws IH]; [constructor|]. destruct ws as [|w' ws].
  - constructor; [now apply text_valid|constructor].
  - change (join_by x0a (w :: w' :: ws)) with (w ++ x0a :: join_by x0a (w' :: ws)) in T.
    rewrite utf8_split in T by reflexivity. apply andb_prop in T as [T1 T2].
    constructor; [now apply text_valid|]. now apply IH.
Qed.

Lemma any_iff (cmd : str) (lines : list str) : Forall is_text lines ->
  (any_subcmd cmd lines = Value true <-> finds lines cmd) /\
  (any_subcmd cmd lines = Crashed <-> trips lines cmd) /\
  (any_subcmd cmd lines = Value false <-> ~ finds lines cmd /\ ~ trips lines cmd).
Proof.
  intros F. assert (G : (any_subcmd cmd lines = Value true /\ finds lines cmd /\ ~ trips lines cmd) \/
    (any_subcmd cmd lines = Crashed /\ trips lines cmd /\ ~ finds lines cmd) \/
    (any_subcmd cmd lines = Value false /\ ~ finds lines cmd /\ ~ trips lines cmd)).
  { induction F as [|s lines T F IH].
    - right. right. split; [reflexivity|]. split; intros ([|? ?] & ? & ? & E & _); discriminate E.
    - cbn [any_subcmd]. destruct (indented s) eqn:I.
      + destruct (line_cases s T I) as [(S & B & N)|(v & ws & S & B & V)]; rewrite S.
        * right. left. split; [reflexivity|]. split; [exists [], s, lines; auto|].
          intros ([|s' l1] & l & l2 & E & O & K); injection E as -> E; [now apply (N cmd)|].
          inversion K; subst. contradiction.
        * destruct (str_eqb v cmd) eqn:Q.
          -- apply str_eqb_eq in Q as ->. left. split; [reflexivity|]. split; [exists [], s, lines; split; [reflexivity|]; split; [now apply V|constructor]|].
             intros ([|s' l1] & l & l2 & E & O & K); injection E as -> E; [contradiction|].
             inversion K as [|? ? K1]; subst. apply K1. now apply V.
          -- assert (NO : ~ offers s cmd). { intros O. apply V in O. subst v. now rewrite (proj2 (str_eqb_eq cmd cmd) eq_refl) in Q. }
             now apply (any_step s cmd lines B NO).
      + destruct (not_indented s cmd T I) as [B NO]. now apply (any_step s cmd lines B NO). }
  destruct G as [(E & A & B)|[(E & A & B)|(E & A & B)]]; rewrite E;
    (split; [|split]); split; try discriminate; try tauto.
Qed.

(** C75. A subcommand is found exactly if an indented line begins with it, after no blank
    one; a blank indented line before it makes the task panic. *)
Lemma p_c75_subcommand :
  forall (w : world) (path cmd out : str) (tr : list command) (lines : list str),
    prints w tr (list_subcommands path) out -> is_text out -> parts_by x0a out lines ->
    (has_cargo_subcmd w path cmd tr = (tr ++ [list_subcommands path], Value true) <-> finds lines cmd) /\
    (has_cargo_subcmd w path cmd tr = (tr ++ [list_subcommands path], Crashed) <-> trips lines cmd) /\
    (has_cargo_subcmd w path cmd tr = (tr ++ [list_subcommands path], Value false) <->
     ~ finds lines cmd /\ ~ trips lines cmd).
Proof.
  intros w path cmd out tr lines P T L. apply parts_by_split in L as <-.
  assert (E : has_cargo_subcmd w path cmd tr = (tr ++ [list_subcommands path], any_subcmd cmd (split x0a out))).
  { unfold has_cargo_subcmd, andthen. change (cargo path (b "--list")) with (list_subcommands path).
    now rewrite (proj2 (output_iff w (list_subcommands path) tr _ out) (conj eq_refl (conj P T))). }
  rewrite E. destruct (any_iff cmd (split x0a out) (lines_text out T)) as (A & B & C).
  rewrite <- A, <- B. rewrite <- A, <- B in C.
  split; [|split]; split.
  - intros K. now injection K.
  - intros K. now rewrite K.
  - intros K. now injection K.
  - intros K. now rewrite K.
  - intros K. apply C. now injection K.
  - intros K. apply C in K. now rewrite K.
Qed.

Lemma has_cases (w : world) (path cmd : str) :
  (exists out, prints w [] (list_subcommands path) out /\ is_text out /\
    has_cargo_subcmd w path cmd [] = ([list_subcommands path], any_subcmd cmd (split x0a out)) /\
    Forall is_text (split x0a out) /\ parts_by x0a out (split x0a out)) \/
  (exists e, has_cargo_subcmd w path cmd [] = ([list_subcommands path], Failed e) /\
    ~ exists out, prints w [] (list_subcommands path) out /\ is_text out).
Proof.
  unfold has_cargo_subcmd, andthen. change (cargo path (b "--list")) with (list_subcommands path).
  destruct (output_cases w (list_subcommands path) []) as [(o & P & T & ->)|[(o & P & T & ->)|(e & F & ->)]].
  - left. exists o. split; [exact P|]. split; [exact T|]. split; [reflexivity|]. split; [now apply lines_text|apply split_parts].
  - right. exists EUtf8. split; [reflexivity|]. intros (o' & P' & T'). now rewrite (prints_unique _ _ _ _ _ P P') in T.
  - right. exists e. split; [reflexivity|]. intros (o' & P' & _). eapply prints_fails; eassumption.
Qed.

Lemma all_cons (w : world) (pre tr : list command) (c : command) :
  (forall before x after, c :: tr = before ++ x :: after -> succeeds w (pre ++ before) x) <->
  succeeds w pre c /\ (forall before x after, tr = before ++ x :: after -> succeeds w ((pre ++ [c]) ++ before) x).
Proof.
  split.
  - intros H. split; [rewrite <- (app_nil_r pre); now apply (H [] c tr)|].
    intros before x after ->. rewrite <- app_assoc. now apply (H (c :: before) x after).
  - intros [H1 H2] before x after E. destruct before as [|y before]; injection E as <- E.
    + now rewrite app_nil_r.
    + specialize (H2 before x after E). now rewrite <- app_assoc in H2.
Qed.

Lemma all_nil (w : world) (pre : list command) :
  forall before x after, [] = before ++ x :: after -> succeeds w (pre ++ before) x.
Proof. intros [|? ?] ? ? E; discriminate E. Qed.

Lemma all_iff (w : world) (pre tr : list command) :
  (forall before x after, tr = before ++ x :: after -> succeeds w (pre ++ before) x) <->
  (fix go (pre tr : list command) : Prop :=
     match tr with [] => True | c :: tr' => succeeds w pre c /\ go (pre ++ [c]) tr' end) pre tr.
Proof.
  revert pre. induction tr as [|c tr IH]; intros pre; [split; [trivial|intros _; apply all_nil]|].
  rewrite all_cons. rewrite IH. reflexivity.
Qed.

(** C75. When [setup] succeeds, and what it has started then, in this order. *)
Lemma p_c75_setup :
  forall (w : world) (path : str) (binary : bool) (tr : list command),
    setup_run w path binary [] = (tr, Value tt) <-> setup_steps w path binary tr /\ all_succeed w tr.
Proof.
  intros w path binary tr. unfold all_succeed. rewrite (all_iff w [] tr). unfold setup_run. rewrite andthen_value.
  change (with_args (with_arg (rustup (b "component")) (b "add")) components) with add_components.
  destruct binary.
  - change (with_arg (cargo path (b "install")) (b "cargo-binstall")) with (install_binstall path).
    change (with_args (with_args (cargo path (b "binstall")) [b "--no-confirm"; b "--locked"]) tools) with (binstall_tools path).
    destruct (has_cases w path (b "binstall")) as [(out & P & T & E & F & L)|(e & E & N)].
    + pose proof (any_iff (b "binstall") _ F) as (A1 & A2 & A3). split.
      * intros (tr1 & [] & H & R). apply andthen_value in H as (tr2 & has & H & K). rewrite E in H. injection H as <- H.
        apply andthen_value in K as (tr3 & [] & K1 & K2). apply run_iff in K2 as [-> S2]. apply run_iff in R as [-> S3].
        destruct has.
        -- injection K1 as <-. split; [apply (ss_binary w path out _ P T L); now apply A1|].
           cbn [app]. split; [now exists out|]. split; [exact S2|]. split; [exact S3|exact I].
        -- apply run_iff in K1 as [-> S1]. split; [apply (ss_install w path out _ P T L); now apply A3|].
           cbn [app]. split; [now exists out|]. split; [exact S1|]. split; [exact S2|]. split; [exact S3|exact I].
      * intros [S K]. inversion S as [|out' ls P' T' L' FI|out' ls P' T' L' NF NT]; subst; cbn [app] in K;
          rewrite (prints_unique _ _ _ _ _ P' P) in L'; apply parts_by_split in L' as <-.
        -- destruct K as (_ & K1 & K2 & _). exists [list_subcommands path; binstall_tools path], tt.
           split; [|apply run_iff; auto]. apply andthen_value. exists [list_subcommands path], true.
           split; [rewrite E; now rewrite (proj2 A1 FI)|]. apply andthen_value. exists [list_subcommands path], tt.
           split; [reflexivity|]. apply run_iff. auto.
        -- destruct K as (_ & K1 & K2 & K3 & _). exists [list_subcommands path; install_binstall path; binstall_tools path], tt.
           split; [|apply run_iff; auto]. apply andthen_value. exists [list_subcommands path], false.
           split; [rewrite E; now rewrite (proj2 A3 (conj NF NT))|]. apply andthen_value.
           exists [list_subcommands path; install_binstall path], tt.
           split; apply run_iff; auto.
    + split.
      * intros (tr1 & [] & H & R). apply andthen_value in H as (tr2 & has & H & K). congruence.
      * intros [S _]. exfalso. apply N. inversion S; subst; eauto.
  - change (with_args (with_args (cargo path (b "install")) [b "--locked"]) tools) with (install_tools path). split.
    + intros (tr1 & [] & R & R'). apply run_iff in R as [-> S1]. apply run_iff in R' as [-> S2].
      split; [constructor|]. cbn [app]. auto.
    + intros [S K]. inversion S; subst. destruct K as (K1 & K2 & _). exists [install_tools path], tt. split; apply run_iff; auto.
Qed.

(** C75. And when it panics. *)
Lemma p_c75_setup_panics :
  forall (w : world) (path : str) (binary : bool) (tr : list command),
    setup_run w path binary [] = (tr, Crashed) <->
    binary = true /\ tr = [list_subcommands path] /\
    exists out lines, prints w [] (list_subcommands path) out /\ is_text out /\ parts_by x0a out lines /\
      trips lines (b "binstall").
Proof.
  assert (RC : forall w c tr tr', run w c tr <> (tr', Crashed)).
  { intros w c tr tr'. destruct (run_cases w c tr) as [(_ & ->)|(e & _ & ->)]; discriminate. }
  intros w path binary tr. unfold setup_run. split.
  - intros H. unfold andthen at 1 in H.
    match type of H with (let '(_, _) := ?m in _) = _ => destruct m as [tr1 r1] eqn:E end.
    destruct r1 as [u|e|]; [now apply RC in H|discriminate|]. injection H as ->.
    destruct binary; [|now apply RC in E]. split; [reflexivity|].
    unfold andthen at 1 in E. destruct (has_cases w path (b "binstall")) as [(out & P & T & K & F & L)|(e & K & N)]; rewrite K in E.
    + pose proof (any_iff (b "binstall") _ F) as (A1 & A2 & A3).
      destruct (any_subcmd (b "binstall") (split x0a out)) as [has|e|] eqn:A.
      * unfold andthen in E. destruct has.
        -- cbn [ret] in E. now apply RC in E.
        -- match type of E with (let '(_, _) := run w ?c ?t in _) = _ =>
             destruct (run_cases w c t) as [(_ & Q)|(e & _ & Q)]; rewrite Q in E; [now apply RC in E|discriminate] end.
      * discriminate.
      * injection E as <-. split; [reflexivity|]. exists out, (split x0a out). split; [exact P|]. split; [exact T|]. split; [exact L|]. now apply A2.
    + discriminate.
  - intros (-> & -> & out & lines & P & T & L & TR). destruct (p_c75_subcommand w path (b "binstall") out [] lines P T L) as (_ & K & _).
    apply K in TR. unfold andthen. rewrite TR. reflexivity.
Qed.

(** C75. After a process that fails no other is started. *)
Lemma p_c75_setup_stops :
  forall (w : world) (path : str) (binary : bool) (tr : list command) (r : ending unit),
    setup_run w path binary [] = (tr, r) -> stops_at_failure w tr.
Proof.
  intros w path binary tr r E. destruct (steady_setup w path binary [] tr r E) as (new & -> & S & _). exact S.
Qed.

(** C75. [test] starts one process, with the arguments given to it at the end, and ends
    as that process does. *)
Lemma p_c75_test :
  forall (w : world) (path : str) (rest : list str),
    let c := [path; b "insta"; b "test"; b "--all-features"; b "--lib"; b "--review"] ++ rest in
    exists r, test_run w path rest [] = ([c], r) /\ (r = Value tt <-> succeeds w [] c) /\
      (forall e, r = Failed e <-> fails w [] c e) /\ r <> Crashed.
Proof.
  intros w path rest c. unfold test_run. change (tests path rest) with c.
  assert (FU : forall e e', fails w [] c e -> fails w [] c e' -> e = e').
  { intros e e' A B. inversion A; inversion B; subst; congruence. }
  destruct (run_cases w c []) as [(P & ->)|(e & F & ->)]; eexists; (split; [reflexivity|]); split.
  - tauto.
  - split; [|discriminate]. intros e. split; [discriminate|]. intros F. destruct P as [o P]. exfalso. eapply prints_fails; eassumption.
  - split; [discriminate|]. intros [o P]. exfalso. eapply prints_fails; eassumption.
  - split; [|discriminate]. intros e'. split; [intros [= <-]; exact F|]. intros F'. now rewrite (FU _ _ F F').
Qed.

(** C75. The exit code of [setup] is 0 exactly if each of its steps succeeds, 101 exactly
    if it trips over a blank line, and 1 otherwise; that of [test] is 0 if the tests
    succeed and 1 otherwise, whatever their own code. *)
Lemma p_c75_exit_code :
  forall (w : world) (path : str),
    (forall binary, let code := main_code (snd (setup_run w path binary [])) in
       (code = 0%Z <-> exists tr, setup_steps w path binary tr /\ all_succeed w tr) /\
       (code = 101%Z <->
        binary = true /\ exists out lines, prints w [] (list_subcommands path) out /\ is_text out /\
          parts_by x0a out lines /\ trips lines (b "binstall")) /\
       (code = 0 \/ code = 1 \/ code = 101)%Z) /\
    (forall rest, let code := main_code (snd (test_run w path rest [])) in
       let c := [path; b "insta"; b "test"; b "--all-features"; b "--lib"; b "--review"] ++ rest in
       (code = 0%Z <-> succeeds w [] c) /\ (code = 0 \/ code = 1)%Z).
Proof.
  intros w path. split.
  - intros binary code. unfold code. clear code. destruct (setup_run w path binary []) as [tr r] eqn:E. cbn [snd].
    split; [|split].
    + split.
      * destruct r as [[]|e|]; [|discriminate..]. intros _. exists tr. now apply p_c75_setup.
      * intros (tr' & K). apply p_c75_setup in K. rewrite E in K. injection K as _ ->. reflexivity.
    + split.
      * destruct r as [[]|e|]; [discriminate..|]. intros _. apply p_c75_setup_panics in E as (B & _ & K). split; [exact B|exact K].
      * intros (B & K). assert (Q : setup_run w path binary [] = ([list_subcommands path], Crashed)).
        { apply p_c75_setup_panics. split; [exact B|]. split; [reflexivity|exact K]. }
        rewrite E in Q. injection Q as _ ->. reflexivity.
    + destruct r; cbn [main_code]; auto.
  - intros rest code c. unfold code. clear code. destruct (p_c75_test w path rest) as (r & E & V & _ & N). rewrite E. cbn [snd].
    split.
    + unfold c. rewrite <- V. destruct r as [[]|e|]; cbn [main_code]; split; congruence.
    + destruct r; cbn [main_code]; auto. now destruct N.
Qed.

Definition cargo_list (extra : str) : str :=
  b "Installed Commands:" ++ [x0a] ++ b "    add    Add dependencies" ++ [x0a] ++ extra ++ [x0a] ++ b "    binstall" ++ [x0a].

Definition listing (extra : str) (tr : list command) (c : command) : process :=
  match tr with [] => Exited (Some 0%Z) (cargo_list extra) | _ => Exited (Some 0%Z) [] end.

Example ex_c75 :
  setup_run (listing []) (b "cargo") true [] =
    ([list_subcommands (b "cargo"); binstall_tools (b "cargo"); add_components], Value tt) /\
  setup_run (listing (b "    ")) (b "cargo") true [] = ([list_subcommands (b "cargo")], Crashed) /\
  setup_run (fun _ c => if str_eqb (hd [] c) (b "rustup") then Exited (Some 1%Z) [] else Exited (Some 0%Z) []) (b "cargo") true [] =
    ([list_subcommands (b "cargo"); install_binstall (b "cargo"); binstall_tools (b "cargo"); add_components], Failed (EExit 1)) /\
  main_code (snd (setup_run (listing []) (b "cargo") true [])) = 0%Z /\
  main_code (snd (setup_run (listing (b "    ")) (b "cargo") true [])) = 101%Z /\
  main_code (snd (test_run (fun _ _ => Exited (Some 7%Z) []) (b "cargo") [] [])) = 1%Z.
Proof. repeat split; vm_compute; reflexivity. Qed.

(** C75. It is not so that looking for a subcommand never panics. *)
Lemma p_c75_never_panics_refuted :
  exists (w : world) (path cmd out : str),
    w [] (list_subcommands path) = Exited (Some 0%Z) out /\ is_text out /\
    snd (has_cargo_subcmd w path cmd []) = Crashed.
Proof.
  exists (listing (b "    ")), (b "cargo"), (b "binstall"), (cargo_list (b "    ")).
  split; [reflexivity|]. split; [apply text_valid; vm_compute; reflexivity|]. vm_compute. reflexivity.
Qed.
