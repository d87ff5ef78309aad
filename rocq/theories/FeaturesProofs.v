(** * FeaturesProofs: features and targets (C79). *)

From Verif Require Import Features SpecFeatures.
From Coq Require Import String List Bool.
Import ListNotations.
Open Scope string_scope.
Open Scope list_scope.

(* props-preamble
From Coq Require Import String List Bool.
Import ListNotations.
Open Scope string_scope.
Open Scope list_scope.
*)

Definition accelerated_b (s : setup) : bool :=
  match target_arch s with X86_64 => sse2 s || avx2 s | Aarch64 => neon s | OtherArch _ => false end.

Lemma accelerated_spec (s : setup) : accelerated_b s = true <-> accelerated s.
Proof.
  unfold accelerated_b, accelerated. destruct (target_arch s) as [| |n]; rewrite ?orb_true_iff; intuition congruence.
Qed.

Lemma builds_spec (s : setup) :
  builds s = implb (client s) (message_types s) && implb (simd s) (accelerated_b s).
Proof. destruct s as [[] [] [] [] [| |n] [] [] [] [] []]; vm_compute; reflexivity. Qed.

(** C79.  The crate builds exactly if the client comes with the message types and SIMD is asked
    for on a target that has it; [serde] makes no difference. *)
Lemma p_c79_builds : forall (s : setup),
  builds s = true <->
  (client s = true -> message_types s = true) /\ (simd s = true -> accelerated s).
Proof. intros s.
  rewrite builds_spec, andb_true_iff, <- accelerated_spec, !implb_true_iff. reflexivity.
Qed.

Definition in_files (n : string) (l : list string) : bool := existsb (String.eqb n) l.

Lemma in_files_spec (n : string) (l : list string) : in_files n l = true <-> In n l.
Proof.
  unfold in_files. rewrite existsb_exists. split.
  - intros (x & I & E). now rewrite (proj1 (String.eqb_eq _ _) E).
  - intros I. exists n. split; [exact I|apply String.eqb_refl].
Qed.

Definition parser_b (s : setup) (n : string) : bool :=
  String.eqb n "src/irc/tags/scalar.rs" && negb (simd s)
  || simd s && match target_arch s with
               | X86_64 => if avx2 s then String.eqb n "src/irc/wide/x86_64/avx2.rs"
                           else String.eqb n "src/irc/wide/x86_64/sse2.rs"
               | Aarch64 => String.eqb n "src/irc/wide/aarch64/neon.rs"
               | OtherArch _ => false
               end.

Lemma parser_spec (s : setup) (n : string) : parser_b s n = true <-> parser_file s n.
Proof.
  unfold parser_b. rewrite orb_true_iff, !andb_true_iff, negb_true_iff. split.
  - intros [[E S]|[S E]].
    + apply String.eqb_eq in E. subst. now apply pf_scalar.
    + destruct (target_arch s) eqn:A; try discriminate; [destruct (avx2 s) eqn:V|]; apply String.eqb_eq in E; subst.
      * now apply pf_avx2.
      * now apply pf_sse2.
      * now apply pf_neon.
  - destruct 1 as [S|S A V|S A V|S A]; rewrite ?S, ?A, ?V; auto.
Qed.

Definition compiled_b (s : setup) (n : string) : bool :=
  negb (in_files n orphans)
  && implb (belongs_to Client n) (client s) && implb (belongs_to MessageTypes n) (message_types s)
  && implb (belongs_to Simd n) (simd s)
  && implb (String.prefix "src/irc/wide/x86_64" n) (match target_arch s with X86_64 => true | _ => false end)
  && implb (String.prefix "src/irc/wide/aarch64" n) (match target_arch s with Aarch64 => true | _ => false end)
  && implb (in_files n parser_files) (parser_b s n).

(** Compared file by file. *)
Definition agrees (s : setup) : bool :=
  forallb (fun n => eqb (in_files n (files s)) (compiled_b s n)) source_files
  && forallb (fun n => in_files n source_files) (files s).

Lemma all_agree (s : setup) : builds s = true -> agrees s = true.
Proof.
  rewrite builds_spec.
  destruct s as [[] [] [] [] [| |n] [] [] [] [] []]; cbn [client message_types simd accelerated_b target_arch
    sse2 avx2 neon implb andb orb]; intros B; try discriminate B; vm_compute; reflexivity.
Qed.

(** C79.  Which files are compiled: all but two, those of a feature with it, those of an
    architecture on it, and of the parser's inner loops the one. *)
Lemma p_c79_files : forall (s : setup) (n : string),
  builds s = true ->
  (In n (files s) <->
   In n source_files /\ ~ In n orphans /\ (forall f, belongs_to f n = true -> selected s f = true) /\
   arch_fits s n /\ (In n parser_files -> parser_file s n)).
Proof. intros s n.
  intros B. assert (G := all_agree s B). unfold agrees in G. rewrite andb_true_iff, !forallb_forall in G.
  destruct G as (G1 & G2). unfold arch_fits. rewrite <- parser_spec, <- !in_files_spec.
  assert (Q : compiled_b s n = true <->
    in_files n orphans <> true /\ (forall f, belongs_to f n = true -> selected s f = true) /\
    ((prefix "src/irc/wide/x86_64" n = true -> target_arch s = X86_64) /\
     (prefix "src/irc/wide/aarch64" n = true -> target_arch s = Aarch64)) /\
    (in_files n parser_files = true -> parser_b s n = true)).
  { unfold compiled_b. rewrite !andb_true_iff, negb_true_iff, !implb_true_iff, not_true_iff_false.
    split.
    - intros ((((((H1 & H2) & H3) & H4) & H5) & H6) & H7). split; [exact H1|]. split.
      + intros []; cbn [selected]; auto. discriminate.
      + split; [|exact H7]. split; intros K; [specialize (H5 K)|specialize (H6 K)]; now destruct (target_arch s).
    - intros (H1 & H2 & (H5 & H6) & H7). repeat split; auto.
      + apply (H2 Client).
      + apply (H2 MessageTypes).
      + apply (H2 Simd).
      + intros K. now rewrite (H5 K).
      + intros K. now rewrite (H6 K). }
  rewrite <- Q. split.
  - intros I. assert (J := G2 n (proj1 (in_files_spec _ _) I)). split; [exact J|].
    assert (E := G1 n (proj1 (in_files_spec _ _) J)). apply eqb_prop in E. now rewrite <- E.
  - intros (J & C). assert (E := G1 n (proj1 (in_files_spec _ _) J)). apply eqb_prop in E. now rewrite E.
Qed.

Lemma parser_listed (s : setup) (n : string) : parser_file s n -> In n parser_files.
Proof. destruct 1; cbn; auto 10. Qed.

(** C79.  Every build has exactly one of the parser's inner loops: the scalar one exactly without
    SIMD, otherwise the one for the target. *)
Lemma p_c79_parser : forall (s : setup),
  builds s = true ->
  exists n, parser_file s n /\ forall m, In m parser_files -> (In m (files s) <-> m = n).
Proof. intros s.
  intros B.
  assert (P : exists n, parser_file s n /\ forall m, parser_file s m -> m = n).
  { assert (U : forall n, parser_file s n -> forall m, parser_file s m -> m = n)
      by (intros n [] m []; congruence).
    apply p_c79_builds in B. destruct B as (_ & B). destruct (simd s) eqn:S.
    - destruct (B eq_refl) as [(A & V)|(A & V)]; [destruct (avx2 s) eqn:W|].
      + eexists. split; [now apply pf_avx2|]. apply U. now apply pf_avx2.
      + eexists. split; [now apply pf_sse2|]. apply U. now apply pf_sse2.
      + eexists. split; [now apply pf_neon|]. apply U. now apply pf_neon.
    - eexists. split; [now apply pf_scalar|]. apply U. now apply pf_scalar. }
  destruct P as (n & N & U). exists n. split; [exact N|]. intros m M. split.
  - intros I. apply (p_c79_files s m B) in I. apply U, I, M.
  - intros ->. assert (G := all_agree s B). unfold agrees in G. rewrite andb_true_iff, !forallb_forall in G.
    destruct G as (G & _).
    assert (B' := proj1 (p_c79_builds s) B). destruct B' as (_ & B'). clear B M U.
    apply in_files_spec. rewrite (eqb_prop _ _ (G n ltac:(destruct N; cbn; auto 50))). unfold compiled_b.
    destruct N as [S|S A V|S A V|S A]; unfold parser_b; rewrite ?S, ?A, ?V; vm_compute; destruct s; reflexivity.
Qed.

(** C79.  Without SIMD the target does not matter. *)
Lemma p_c79_scalar_everywhere : forall (s : setup) (a : arch) (t1 t2 t3 t4 t5 : bool),
  simd s = false -> builds s = true ->
  let s' := mk_setup false (client s) (message_types s) (serde s) a t1 t2 t3 t4 t5 in
  builds s' = true /\ files s' = files s.
Proof. intros s a t1 t2 t3 t4 t5.
  intros S B s'. split.
  - apply p_c79_builds. apply p_c79_builds in B. split; [apply B|discriminate].
  - subst s'. destruct s as [sd [] [] [] ar u1 u2 u3 u4 u5]; cbn in S; subst sd; reflexivity.
Qed.

(** C79, refuted: README.md promises a scalar fallback "for every other architecture".  With the
    default features there is none. *)
Lemma p_c79_fallback_refuted :
  exists name : string, forall t1 t2 t3 t4 t5 : bool, builds (default_features (OtherArch name) t1 t2 t3 t4 t5) = false.
Proof. exists "riscv64". intros. rewrite builds_spec. reflexivity. Qed.

(** C79.  The default features build exactly on the accelerated targets. *)
Lemma p_c79_default : forall (a : arch) (t1 t2 t3 t4 t5 : bool),
  let s := default_features a t1 t2 t3 t4 t5 in builds s = true <-> accelerated s.
Proof. intros a t1 t2 t3 t4 t5. cbn zeta. rewrite p_c79_builds. cbn. intuition. Qed.

(** C79, refuted: every selection of features without SIMD builds. *)
Lemma p_c79_features_refuted : exists s : setup, simd s = false /\ builds s = false.
Proof.
  exists (mk_setup false true false false X86_64 true false false false false).
  split; [reflexivity|]. rewrite builds_spec. reflexivity.
Qed.

(** C79.  The client without the message types does not build on any target, and all that is
    missing is [crate::Ping] in [pong]. *)
Lemma p_c79_client_alone : forall (s : setup),
  client s = true -> message_types s = false ->
  builds s = false /\
  (simd s = false \/ accelerated s ->
   forall x, In x (parts s lib) -> part_ok s (paths (parts s lib) []) x = false -> x = Used ["Ping"]).
Proof. intros s.
  intros C M. split; [rewrite builds_spec, C, M; reflexivity|].
  rewrite <- accelerated_spec. intros A.
  assert (G : forallb (fun x => part_ok s (paths (parts s lib) []) x ||
     match x with Used p => path_eqb p ["Ping"] | _ => false end) (parts s lib) = true).
  { destruct s as [sd cl mt sr ar u1 u2 u3 u4 u5]; cbn in C, M; subst cl mt.
    destruct sd, sr, ar, u1, u2, u3, u4, u5; try (destruct A as [A|A]; discriminate A); vm_compute; reflexivity. }
  rewrite forallb_forall in G. intros x I F. specialize (G x I). rewrite F in G. cbn [orb] in G.
  destruct x; try discriminate.
  assert (E : forall p q, path_eqb p q = true -> p = q).
  { induction p0 as [|y p0 IH]; destruct q; cbn; try discriminate; auto. rewrite andb_true_iff, String.eqb_eq.
    intros (-> & K). f_equal. now apply IH. }
  f_equal. now apply E.
Qed.

(** C79.  Two files are in no build, every other one is in some. *)
Lemma p_c79_orphans : forall (n : string),
  In n source_files -> (In n orphans <-> forall s, builds s = true -> ~ In n (files s)).
Proof. intros n.
  intros I. split.
  - intros O s B J. apply (p_c79_files s n B) in J. now apply J.
  - intros K.
    assert (Q : in_files n orphans
      || existsb (fun s => builds s && in_files n (files s))
           [mk_setup true true true false X86_64 true true false false false;
            mk_setup true true true false X86_64 true false false false false;
            mk_setup true true true false Aarch64 false false false false true;
            mk_setup false true true false Aarch64 false false false false true] = true).
    { revert n I K. assert (G : forallb (fun n => in_files n orphans
      || existsb (fun s => builds s && in_files n (files s))
           [mk_setup true true true false X86_64 true true false false false;
            mk_setup true true true false X86_64 true false false false false;
            mk_setup true true true false Aarch64 false false false false true;
            mk_setup false true true false Aarch64 false false false false true]) source_files = true)
        by (vm_compute; reflexivity).
      rewrite forallb_forall in G. intros n I _. exact (G n I). }
    apply orb_true_iff in Q. destruct Q as [Q|Q]; [now apply in_files_spec|].
    apply existsb_exists in Q. destruct Q as (s & _ & Q). apply andb_true_iff in Q. destruct Q as (B & J).
    destruct (K s B). now apply in_files_spec.
Qed.

Definition uses_crate_b (s : setup) (n : string) : bool :=
  existsb (fun x => match x with CrateUsed m => String.eqb n m | _ => false end) (parts s lib).

Lemma uses_crate_spec (s : setup) (n : string) : uses_crate_b s n = true <-> uses_crate s n.
Proof.
  unfold uses_crate_b, uses_crate. rewrite existsb_exists. split.
  - intros (x & I & E). destruct x; try discriminate. apply String.eqb_eq in E. now subst.
  - intros I. eexists. split; [exact I|apply String.eqb_refl].
Qed.

Definition spare_b (s : setup) (n : string) : bool :=
  serde s && negb (message_types s) && in_files n ["serde"; "chrono"].

(** Compared crate by crate. *)
Lemma crates_agree (s : setup) :
  forallb (fun n => uses_crate_b s n || spare_b s n) (crates s)
  && forallb (fun x => match x with CrateUsed n => in_files n (crates s) | _ => true end) (parts s lib)
  && implb (serde s) (in_files "serde" (crates s) && in_files "chrono" (crates s)) = true.
Proof.
  destruct s as [[] [] [] [] [| |n] [] [] [] [] []]; vm_compute; reflexivity.
Qed.

(** C79.  The other crates in a build are exactly those its files use, but for [serde] and
    [chrono] when [serde] is selected without the message types. *)
Lemma p_c79_crates : forall (s : setup) (n : string),
  In n (crates s) <->
  uses_crate s n \/ serde s = true /\ message_types s = false /\ (n = "serde" \/ n = "chrono").
Proof. intros s n. pose proof (crates_agree s) as G.
  rewrite !andb_true_iff, !forallb_forall in G. destruct G as ((G1 & G2) & G3). split.
  - intros I. specialize (G1 n I). apply orb_true_iff in G1. destruct G1 as [G1|G1]; [left; now apply uses_crate_spec|right].
    unfold spare_b in G1. rewrite !andb_true_iff, negb_true_iff in G1. destruct G1 as ((S & M) & J).
    split; [exact S|]. split; [exact M|]. apply in_files_spec in J. destruct J as [<-|[<-|[]]]; auto.
  - intros [U|(S & M & E)].
    + specialize (G2 _ U). now apply in_files_spec.
    + rewrite S in G3. cbn [implb] in G3. apply andb_true_iff in G3. destruct G3 as (G3 & G4).
      destruct E as [->| ->]; now apply in_files_spec.
Qed.

(** C79, refuted: a build has only crates that it uses. *)
Lemma p_c79_no_spare_crates_refuted : exists (s : setup) (n : string),
  builds s = true /\ In n (crates s) /\ ~ uses_crate s n.
Proof.
  exists (mk_setup true false false true X86_64 true false false false false), "chrono".
  split; [reflexivity|]. split; [cbn; auto|]. rewrite <- uses_crate_spec. vm_compute. discriminate.
Qed.

(** A default build for a plain x86_64 has the SSE2 vectors; the same with AVX2, and for ARM;
    no features on RISC-V; the default features there, and the client alone, fail. *)
Example ex_c79 :
  builds (default_features X86_64 true false false false false) = true /\
  In "src/irc/wide/x86_64/sse2.rs" (files (default_features X86_64 true false false false false)) /\
  parser_file (default_features X86_64 true true false false false) "src/irc/wide/x86_64/avx2.rs" /\
  accelerated (default_features Aarch64 false false false false true) /\
  files (mk_setup false false false false (OtherArch "riscv64") false false false false false) =
    ["src/lib.rs"; "src/irc.rs"; "src/irc/channel.rs"; "src/irc/command.rs"; "src/irc/params.rs"; "src/irc/prefix.rs";
     "src/irc/tags.rs"; "src/irc/tags/scalar.rs"; "src/common.rs"] /\
  builds (mk_setup false false false false (OtherArch "riscv64") false false false false false) = true /\
  builds (default_features (OtherArch "riscv64") false false false false false) = false /\
  builds (mk_setup true true false false X86_64 true true false false false) = false /\
  builds (default_features X86_64 false false true true false) = false /\
  uses_crate (default_features X86_64 true false false false false) "rand" /\
  ~ In "chrono" (crates (mk_setup true false false false X86_64 true false false false false)).
Proof.
  split; [reflexivity|]. split; [vm_compute; auto 50|]. split; [now apply pf_avx2|].
  split; [right; split; reflexivity|]. repeat (split; [reflexivity|]).
  split; [rewrite <- uses_crate_spec; reflexivity|]. cbn. intuition discriminate.
Qed.
