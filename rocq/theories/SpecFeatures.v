(** * SpecFeatures: what the manifest and README promise about features and targets. *)

From Coq Require Import String List Bool.
From Verif Require Import Features.
Import ListNotations.
Open Scope string_scope.
Open Scope list_scope.

(** Targets with an accelerated parser. *)
Definition accelerated (s : setup) : Prop :=
  target_arch s = X86_64 /\ (sse2 s = true \/ avx2 s = true) \/ target_arch s = Aarch64 /\ neon s = true.

(** The file with the parser's inner loop: vectors as wide as the target has, or none. *)
Inductive parser_file (s : setup) : string -> Prop :=
| pf_scalar : simd s = false -> parser_file s "src/irc/tags/scalar.rs"
| pf_avx2 : simd s = true -> target_arch s = X86_64 -> avx2 s = true ->
    parser_file s "src/irc/wide/x86_64/avx2.rs"
| pf_sse2 : simd s = true -> target_arch s = X86_64 -> avx2 s = false ->
    parser_file s "src/irc/wide/x86_64/sse2.rs"
| pf_neon : simd s = true -> target_arch s = Aarch64 -> parser_file s "src/irc/wide/aarch64/neon.rs".

Definition parser_files : list string :=
  ["src/irc/tags/scalar.rs"; "src/irc/wide/x86_64/avx2.rs"; "src/irc/wide/x86_64/sse2.rs";
   "src/irc/wide/x86_64/avx512.rs"; "src/irc/wide/aarch64/neon.rs"].

(** The files under src/. *)
Definition source_files : list string :=
  ["src/client.rs"; "src/client/conn.rs"; "src/client/macros.rs"; "src/client/read.rs"; "src/client/util.rs";
   "src/client/write.rs"; "src/common.rs"; "src/common/channel.rs"; "src/irc.rs"; "src/irc/channel.rs";
   "src/irc/command.rs"; "src/irc/params.rs"; "src/irc/prefix.rs"; "src/irc/tags.rs"; "src/irc/tags/scalar.rs";
   "src/irc/tags/simd.rs"; "src/irc/wide.rs"; "src/irc/wide/aarch64.rs"; "src/irc/wide/aarch64/neon.rs";
   "src/irc/wide/x86_64.rs"; "src/irc/wide/x86_64/avx2.rs"; "src/irc/wide/x86_64/avx512.rs";
   "src/irc/wide/x86_64/sse2.rs"; "src/lib.rs"; "src/msg.rs"; "src/msg/clear_chat.rs"; "src/msg/clear_msg.rs";
   "src/msg/global_user_state.rs"; "src/msg/join.rs"; "src/msg/macros.rs"; "src/msg/notice.rs"; "src/msg/part.rs";
   "src/msg/ping.rs"; "src/msg/pong.rs"; "src/msg/privmsg.rs"; "src/msg/room_state.rs"; "src/msg/user_notice.rs";
   "src/msg/user_state.rs"; "src/msg/whisper.rs"].

(** The files a feature adds, beyond the parser's. *)
Definition belongs_to (f : feature) (n : string) : bool :=
  match f with
  | Client => String.eqb n "src/client.rs" || String.prefix "src/client/" n
  | MessageTypes => String.eqb n "src/msg.rs" || String.prefix "src/msg/" n
  | Simd => String.eqb n "src/irc/tags/simd.rs" || String.eqb n "src/irc/wide.rs" || String.prefix "src/irc/wide/" n
  | Serde => false
  end.

(** Files for one architecture only. *)
Definition arch_fits (s : setup) (n : string) : Prop :=
  (String.prefix "src/irc/wide/x86_64" n = true -> target_arch s = X86_64) /\
  (String.prefix "src/irc/wide/aarch64" n = true -> target_arch s = Aarch64).

(** Files that no [mod] declaration names. *)
Definition orphans : list string := ["src/common/channel.rs"; "src/irc/wide/x86_64/avx512.rs"].

(** A compiled file uses an item or macro of another crate. *)
Definition uses_crate (s : setup) (n : string) : Prop := In (CrateUsed n) (parts s lib).
