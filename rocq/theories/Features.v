(** * Features: which files are compiled, and what they need (model, no proofs).

    The crate as a tree: for every file its [mod] declarations with their conditions, the
    items of other files and of other crates which it uses, and the items it defines
    that other files use.  Left out: items used inside their own file only, the standard
    library, and everything under [cfg(test)].  Missing items and crates are the only
    reasons not to build that are modelled, beside [compile_error!]. *)

From Coq Require Import String List Bool.
Import ListNotations.
Open Scope string_scope.
Open Scope list_scope.

(** Cargo.toml:11-34. *)
Inductive feature := Simd | Client | MessageTypes | Serde.

(** The target's architecture and instruction sets, as seen by [cfg]. *)
Inductive arch := X86_64 | Aarch64 | OtherArch (name : string).
Inductive target_feature := Sse2 | Avx2 | Avx512f | Avx512bw | Neon.

(** A selection of features and a target. *)
Record setup := mk_setup
  { simd : bool; client : bool; message_types : bool; serde : bool;
    target_arch : arch; sse2 : bool; avx2 : bool; avx512f : bool; avx512bw : bool; neon : bool }.

Definition selected (s : setup) (f : feature) : bool :=
  match f with Simd => simd s | Client => client s | MessageTypes => message_types s | Serde => serde s end.

Definition has_target_feature (s : setup) (f : target_feature) : bool :=
  match f with Sse2 => sse2 s | Avx2 => avx2 s | Avx512f => avx512f s | Avx512bw => avx512bw s | Neon => neon s end.

Definition arch_eqb (x y : arch) : bool :=
  match x, y with
  | X86_64, X86_64 | Aarch64, Aarch64 => true
  | OtherArch a, OtherArch c => String.eqb a c
  | _, _ => false
  end.

(** [#[cfg(...)]]. *)
Inductive cfg :=
| Feature (f : feature)
| TargetArch (a : arch)
| TargetFeature (f : target_feature)
| All (l : list cfg)
| Any (l : list cfg).

Fixpoint holds (s : setup) (c : cfg) : bool :=
  match c with
  | Feature f => selected s f
  | TargetArch a => arch_eqb (target_arch s) a
  | TargetFeature f => has_target_feature s f
  | All l => forallb (holds s) l
  | Any l => existsb (holds s) l
  end.

(** A path below [crate::]. *)
Definition path := list string.

Inductive item :=
| Mod (file : string) (items : list item)         (* [mod x;], with the contents of the file *)
| Def (p : path)                                  (* an item that other files use *)
| Glob (into from : path)                         (* [pub use from::*;] in module [into] *)
| Uses (p : path)                                 (* an item of another file *)
| Crate (name : string)                           (* an item or macro of another crate *)
| Fail                                            (* [compile_error!] *)
| When (c : cfg) (items : list item)              (* [#[cfg(c)]] *)
| CfgIf (branches : list (cfg * list item)) (otherwise : list item).

(** What is left of an item when the conditions are evaluated, in order. *)
Inductive part :=
| File (name : string) | Defined (p : path) | Globbed (into from : path) | Used (p : path)
| CrateUsed (name : string) | Failed.

Fixpoint parts (s : setup) (i : item) : list part :=
  match i with
  | Mod file items => File file :: flat_map (parts s) items
  | Def p => [Defined p]
  | Glob p q => [Globbed p q]
  | Uses p => [Used p]
  | Crate n => [CrateUsed n]
  | Fail => [Failed]
  | When c items => if holds s c then flat_map (parts s) items else []
  | CfgIf branches otherwise =>
    (fix go l := match l with
                 | [] => flat_map (parts s) otherwise
                 | (c, items) :: l' => if holds s c then flat_map (parts s) items else go l'
                 end) branches
  end.

(** The vectors: src/irc/wide.rs:1-21, src/irc/wide/x86_64.rs:1-18 and aarch64.rs:1-10. *)
Definition wide : item :=
  Mod "src/irc/wide.rs"
   [Crate "cfg-if";
    CfgIf
     [(All [TargetArch X86_64;
            Any [TargetFeature Sse2; TargetFeature Avx2; All [TargetFeature Avx512f; TargetFeature Avx512bw]]],
       [Mod "src/irc/wide/x86_64.rs"
         [Crate "cfg-if";
          CfgIf
           [(TargetFeature Avx2, [Mod "src/irc/wide/x86_64/avx2.rs" [Def ["irc"; "wide"; "Vector"]]]);
            (TargetFeature Sse2, [Mod "src/irc/wide/x86_64/sse2.rs" [Def ["irc"; "wide"; "Vector"]]])]
           [Fail]]]);
      (All [TargetArch Aarch64; TargetFeature Neon],
       [Mod "src/irc/wide/aarch64.rs"
         [Crate "cfg-if";
          CfgIf
           [(TargetFeature Neon, [Mod "src/irc/wide/aarch64/neon.rs" [Def ["irc"; "wide"; "Vector"]]])]
           [Fail]]])]
     [Fail]].

(** src/irc.rs:16-34, src/irc/tags.rs:1-4, 295-303, src/irc/tags/simd.rs:1-2, and the [use]
    lines of the other files there. *)
Definition irc : item :=
  Mod "src/irc.rs"
   [Mod "src/irc/channel.rs" [Uses ["common"; "Span"]];
    Mod "src/irc/command.rs" [Uses ["common"; "Span"]; Def ["irc"; "Command"]];
    Mod "src/irc/params.rs" [Uses ["common"; "Span"]];
    Mod "src/irc/prefix.rs" [Uses ["common"; "Span"]; Def ["irc"; "Prefix"]];
    Mod "src/irc/tags.rs"
     [Uses ["common"; "Span"]; Def ["irc"; "Tag"]; Crate "cfg-if";
      CfgIf [(Feature Simd,
              [Mod "src/irc/tags/simd.rs" [Uses ["irc"; "wide"; "Vector"]; Def ["irc"; "tags"; "parse"]]])]
       [Mod "src/irc/tags/scalar.rs" [Def ["irc"; "tags"; "parse"]]]];
    When (Feature Simd) [wide];
    Uses ["common"; "Span"]; Uses ["irc"; "tags"; "parse"];
    Def ["irc"; "IrcMessage"]; Def ["irc"; "IrcMessageRef"]].

(** src/msg.rs:8-14, 112-116, 332-334, 363, 393-418, 441-446, and the [use] lines and derives
    of the files there. *)
Definition msg : item :=
  Mod "src/msg.rs"
   [Mod "src/msg/macros.rs" [];
    Uses ["maybe_unescape"]; Def ["msg"; "maybe_unescape"];
    Uses ["irc"; "IrcMessage"]; Uses ["irc"; "IrcMessageRef"]; Uses ["irc"; "Command"];
    Crate "smallvec"; Crate "chrono"; When (Feature Serde) [Crate "serde"];
    Def ["msg"; "Message"]; Def ["msg"; "MessageParseError"];
    Mod "src/msg/clear_chat.rs" [Uses ["irc"; "Command"]; Uses ["irc"; "IrcMessageRef"]; Uses ["irc"; "Tag"]; Uses ["msg"; "MessageParseError"]; Crate "chrono"; When (Feature Serde) [Crate "serde"]; Def ["msg"; "clear_chat"; "ClearChat"]];
    Glob ["msg"] ["msg"; "clear_chat"];
    Mod "src/msg/clear_msg.rs" [Uses ["irc"; "Command"]; Uses ["irc"; "IrcMessageRef"]; Uses ["irc"; "Tag"]; Uses ["msg"; "MessageParseError"]; Crate "chrono"; When (Feature Serde) [Crate "serde"]; Def ["msg"; "clear_msg"; "ClearMsg"]];
    Glob ["msg"] ["msg"; "clear_msg"];
    Mod "src/msg/global_user_state.rs" [Uses ["irc"; "Command"]; Uses ["irc"; "IrcMessageRef"]; Uses ["irc"; "Tag"]; Uses ["msg"; "MessageParseError"]; Uses ["msg"; "maybe_unescape"]; When (Feature Serde) [Crate "serde"]; Def ["msg"; "global_user_state"; "GlobalUserState"]];
    Glob ["msg"] ["msg"; "global_user_state"];
    Mod "src/msg/join.rs" [Uses ["irc"; "Command"]; Uses ["irc"; "IrcMessageRef"]; Uses ["msg"; "MessageParseError"]; When (Feature Serde) [Crate "serde"]; Def ["msg"; "join"; "Join"]];
    Glob ["msg"] ["msg"; "join"];
    Mod "src/msg/notice.rs" [Uses ["irc"; "Command"]; Uses ["irc"; "IrcMessageRef"]; Uses ["irc"; "Tag"]; Uses ["msg"; "MessageParseError"]; When (Feature Serde) [Crate "serde"]; Def ["msg"; "notice"; "Notice"]];
    Glob ["msg"] ["msg"; "notice"];
    Mod "src/msg/part.rs" [Uses ["irc"; "Command"]; Uses ["irc"; "IrcMessageRef"]; Uses ["msg"; "MessageParseError"]; When (Feature Serde) [Crate "serde"]; Def ["msg"; "part"; "Part"]];
    Glob ["msg"] ["msg"; "part"];
    Mod "src/msg/ping.rs" [Uses ["irc"; "Command"]; Uses ["irc"; "IrcMessageRef"]; Uses ["msg"; "MessageParseError"]; When (Feature Serde) [Crate "serde"]; Def ["msg"; "ping"; "Ping"]];
    Glob ["msg"] ["msg"; "ping"];
    Mod "src/msg/pong.rs" [Uses ["irc"; "Command"]; Uses ["irc"; "IrcMessageRef"]; Uses ["msg"; "MessageParseError"]; When (Feature Serde) [Crate "serde"]; Def ["msg"; "pong"; "Pong"]];
    Glob ["msg"] ["msg"; "pong"];
    Mod "src/msg/privmsg.rs" [Uses ["irc"; "Command"]; Uses ["irc"; "IrcMessageRef"]; Uses ["irc"; "Tag"]; Uses ["msg"; "MessageParseError"]; Uses ["msg"; "maybe_unescape"]; Crate "chrono"; When (Feature Serde) [Crate "serde"]; Def ["msg"; "privmsg"; "Privmsg"]];
    Glob ["msg"] ["msg"; "privmsg"];
    Mod "src/msg/room_state.rs" [Uses ["irc"; "Command"]; Uses ["irc"; "IrcMessageRef"]; Uses ["irc"; "Tag"]; Uses ["msg"; "MessageParseError"]; When (Feature Serde) [Crate "serde"]; Def ["msg"; "room_state"; "RoomState"]];
    Glob ["msg"] ["msg"; "room_state"];
    Mod "src/msg/user_notice.rs" [Uses ["Command"]; Uses ["IrcMessageRef"]; Uses ["Tag"]; Uses ["msg"; "MessageParseError"]; Uses ["msg"; "maybe_unescape"]; Crate "chrono"; When (Feature Serde) [Crate "serde"]; Def ["msg"; "user_notice"; "UserNotice"]];
    Glob ["msg"] ["msg"; "user_notice"];
    Mod "src/msg/user_state.rs" [Uses ["irc"; "Command"]; Uses ["irc"; "IrcMessageRef"]; Uses ["irc"; "Tag"]; Uses ["msg"; "MessageParseError"]; When (Feature Serde) [Crate "serde"]; Def ["msg"; "user_state"; "UserState"]];
    Glob ["msg"] ["msg"; "user_state"];
    Mod "src/msg/whisper.rs" [Uses ["irc"; "Command"]; Uses ["irc"; "IrcMessageRef"]; Uses ["irc"; "Tag"]; Uses ["msg"; "MessageParseError"]; When (Feature Serde) [Crate "serde"]; Def ["msg"; "whisper"; "Whisper"]];
    Glob ["msg"] ["msg"; "whisper"]].

(** src/client.rs:47-70, src/client/conn.rs:1-7, 59, read.rs:1-8, util.rs:5-13, write.rs:1-6, 128;
    the macros of [tracing] are used in client.rs, conn.rs and write.rs. *)
Definition client_mod : item :=
  Mod "src/client.rs"
   [Mod "src/client/macros.rs" [];
    Mod "src/client/conn.rs"
     [Crate "tokio"; Crate "tokio-rustls"; Crate "rustls-native-certs"; Crate "tracing"; Def ["client"; "conn"]];
    Mod "src/client/read.rs"
     [Uses ["client"; "conn"]; Uses ["client"; "Client"]; Uses ["irc"; "IrcMessage"];
      Crate "futures-util"; Crate "tokio"; Crate "tokio-stream"];
    Mod "src/client/util.rs" [Crate "tokio"];
    Mod "src/client/write.rs"
     [Uses ["client"; "conn"]; Uses ["client"; "Client"]; Uses ["common"; "JoinIter"]; Uses ["Ping"];
      Crate "tokio"; Crate "tracing"];
    Uses ["irc"; "Command"]; Uses ["IrcMessage"];
    Crate "futures-util"; Crate "rand"; Crate "tokio"; Crate "tokio-rustls"; Crate "tokio-stream"; Crate "tracing";
    Def ["client"; "Client"]; Def ["client"; "Credentials"]].

(** src/common.rs: it declares no module. *)
Definition common : item :=
  Mod "src/common.rs" [Def ["common"; "Span"]; Def ["common"; "JoinIter"]].

(** src/lib.rs:4-42. *)
Definition lib : item :=
  Mod "src/lib.rs"
   [When (Feature Client) [Crate "tracing"];
    When (Feature Client) [client_mod];
    When (Feature Client) [Uses ["client"; "Client"]; Uses ["client"; "Credentials"]];
    When (Feature MessageTypes) [msg];
    When (Feature MessageTypes) [Glob [] ["msg"]];
    irc; Glob [] ["irc"]; common; Def ["maybe_unescape"]].

(** The crates there are: Cargo.toml:11-62.  A feature of an optional crate
    ([chrono/serde]) switches that crate on. *)
Definition crates_of (f : feature) : list string :=
  match f with
  | Simd => []
  | MessageTypes => ["chrono"; "smallvec"]
  | Client =>
    ["futures-util"; "rand"; "rustls-native-certs"; "tokio"; "tokio-rustls"; "tokio-stream"; "tracing"]
  | Serde => ["serde"; "chrono"]
  end.

Definition crates (s : setup) : list string :=
  "cfg-if" :: flat_map (fun f => if selected s f then crates_of f else []) [Simd; Client; MessageTypes; Serde].

Fixpoint path_eqb (p q : path) : bool :=
  match p, q with
  | [], [] => true
  | x :: p', y :: q' => String.eqb x y && path_eqb p' q'
  | _, _ => false
  end.

(** [p] without the leading [q], if one name is left. *)
Fixpoint below (q p : path) : option string :=
  match q, p with
  | [], [x] => Some x
  | y :: q', x :: p' => if String.eqb x y then below q' p' else None
  | _, _ => None
  end.

(** The paths there are: those defined, and those by glob imports (the inner ones come
    first). *)
Fixpoint paths (l : list part) (acc : list path) : list path :=
  match l with
  | [] => acc
  | Defined p :: l' => paths l' (p :: acc)
  | Globbed into from :: l' =>
    paths l' (flat_map (fun p => match below from p with Some x => [into ++ [x]] | None => [] end) acc ++ acc)
  | _ :: l' => paths l' acc
  end.

(** No [compile_error!], and everything used is there. *)
Definition part_ok (s : setup) (known : list path) (x : part) : bool :=
  match x with
  | Failed => false
  | Used p => existsb (path_eqb p) known
  | CrateUsed n => existsb (String.eqb n) (crates s)
  | _ => true
  end.

Definition builds (s : setup) : bool :=
  let l := parts s lib in forallb (part_ok s (paths l [])) l.

(** The files that are compiled. *)
Definition files (s : setup) : list string :=
  flat_map (fun x => match x with File n => [n] | _ => [] end) (parts s lib).

(** [default]: Cargo.toml:12. *)
Definition default_features (a : arch) (t1 t2 t3 t4 t5 : bool) : setup :=
  mk_setup true true true false a t1 t2 t3 t4 t5.
