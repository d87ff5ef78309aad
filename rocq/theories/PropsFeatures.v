(** * PropsFeatures: property theorems (generated from FeaturesProofs.v by tools/gen_props.py).

    Only statements; each is closed by the lemma of the same name. *)

From Verif Require Import Features SpecFeatures FeaturesProofs.

From Coq Require Import String List Bool.
Import ListNotations.
Open Scope string_scope.
Open Scope list_scope.

(** C79.  The crate builds exactly if the client comes with the message types and SIMD is asked
    for on a target that has it; [serde] makes no difference. *)
Theorem c79_builds : forall (s : setup),
  builds s = true <->
  (client s = true -> message_types s = true) /\ (simd s = true -> accelerated s).
Proof. exact p_c79_builds. Qed.
Print Assumptions c79_builds.

(** C79.  Which files are compiled: all but two, those of a feature with it, those of an
    architecture on it, and of the parser's inner loops the one. *)
Theorem c79_files : forall (s : setup) (n : string),
  builds s = true ->
  (In n (files s) <->
   In n source_files /\ ~ In n orphans /\ (forall f, belongs_to f n = true -> selected s f = true) /\
   arch_fits s n /\ (In n parser_files -> parser_file s n)).
Proof. exact p_c79_files. Qed.
Print Assumptions c79_files.

(** C79.  Every build has exactly one of the parser's inner loops: the scalar one exactly without
    SIMD, otherwise the one for the target. *)
Theorem c79_parser : forall (s : setup),
  builds s = true ->
  exists n, parser_file s n /\ forall m, In m parser_files -> (In m (files s) <-> m = n).
Proof. exact p_c79_parser. Qed.
Print Assumptions c79_parser.

(** C79.  Without SIMD the target does not matter. *)
Theorem c79_scalar_everywhere : forall (s : setup) (a : arch) (t1 t2 t3 t4 t5 : bool),
  simd s = false -> builds s = true ->
  let s' := mk_setup false (client s) (message_types s) (serde s) a t1 t2 t3 t4 t5 in
  builds s' = true /\ files s' = files s.
Proof. exact p_c79_scalar_everywhere. Qed.
Print Assumptions c79_scalar_everywhere.

(** C79, refuted: README.md promises a scalar fallback "for every other architecture".  With the
    default features there is none. *)
Theorem c79_fallback_refuted :
  exists name : string, forall t1 t2 t3 t4 t5 : bool, builds (default_features (OtherArch name) t1 t2 t3 t4 t5) = false.
Proof. exact p_c79_fallback_refuted. Qed.
Print Assumptions c79_fallback_refuted.

(** C79.  The default features build exactly on the accelerated targets. *)
Theorem c79_default : forall (a : arch) (t1 t2 t3 t4 t5 : bool),
  let s := default_features a t1 t2 t3 t4 t5 in builds s = true <-> accelerated s.
Proof. exact p_c79_default. Qed.
Print Assumptions c79_default.

(** C79, refuted: every selection of features without SIMD builds. *)
Theorem c79_features_refuted : exists s : setup, simd s = false /\ builds s = false.
Proof. exact p_c79_features_refuted. Qed.
Print Assumptions c79_features_refuted.

(** C79.  The client without the message types does not build on any target, and all that is
    missing is [crate::Ping] in [pong]. *)
Theorem c79_client_alone : forall (s : setup),
  client s = true -> message_types s = false ->
  builds s = false /\
  (simd s = false \/ accelerated s ->
   forall x, In x (parts s lib) -> part_ok s (paths (parts s lib) []) x = false -> x = Used ["Ping"]).
Proof. exact p_c79_client_alone. Qed.
Print Assumptions c79_client_alone.

(** C79.  Two files are in no build, every other one is in some. *)
Theorem c79_orphans : forall (n : string),
  In n source_files -> (In n orphans <-> forall s, builds s = true -> ~ In n (files s)).
Proof. exact p_c79_orphans. Qed.
Print Assumptions c79_orphans.

(** C79.  The other crates in a build are exactly those its files use, but for [serde] and
    [chrono] when [serde] is selected without the message types. *)
Theorem c79_crates : forall (s : setup) (n : string),
  In n (crates s) <->
  uses_crate s n \/ serde s = true /\ message_types s = false /\ (n = "serde" \/ n = "chrono").
Proof. exact p_c79_crates. Qed.
Print Assumptions c79_crates.

(** C79, refuted: a build has only crates that it uses. *)
Theorem c79_no_spare_crates_refuted : exists (s : setup) (n : string),
  builds s = true /\ In n (crates s) /\ ~ uses_crate s n.
Proof. exact p_c79_no_spare_crates_refuted. Qed.
Print Assumptions c79_no_spare_crates_refuted.

(** A default build for a plain x86_64 has the SSE2 vectors; the same with AVX2, and for ARM;
    no features on RISC-V; the default features there, and the client alone, fail. *)
Example example_c79 :
  builds (default_features X86_64 true false false false false) = true /\
  In "src/irc/wide/x86_64/sse2.rs" (files (default_features X86_64 true false false false false)) /\
  parser_file (default_features X86_64 true true false false false) "src/irc/wide/x86_64/avx2.rs" /\
  accelerated (default_features Aarch64 false false false false true) /\
  files (mk_setup false false false false (OtherArch "riscv64") false false false false false) =
    ["src/lib.rs"; "src/irc.rs"; "src/irc/channel.rs"; "src/irc/command.rs"; "src/irc/params.rs"; "src/irc/prefix.rs";
     "src/irc/tags.rs"; "src/irc/tags/scalar.rs"; "src/common.rs"] /\
  builds (mk_setup false false false false (OtherArch "riscv64") false false false false false) = true /\
  builds (default_features (OtherArch "riscv64") false false false false false) = false /\
  builds (mk_setup true true false false X86_64 true true false false false) = false /\
  builds (default_features X86_64 false false true true false) = false /\
  uses_crate (default_features X86_64 true false false false false) "rand" /\
  ~ In "chrono" (crates (mk_setup true false false false X86_64 true false false false false)).
Proof. exact ex_c79. Qed.
