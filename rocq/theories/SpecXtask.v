(** * SpecXtask: what the tasks of the repository should start and write.

    The types of commands and of what happens to them come from the model, its functions
    do not. *)

From Coq Require Import ZArith.
From Verif Require Import Base SpecMsg SpecUnicode Xtask.

Open Scope nat_scope.

(** A sequence of code points in UTF-8. *)
Definition is_text (s : str) : Prop := exists ns, text_of ns s.

(** [t] is [s] without the white space around it. *)
Definition trims (s t : str) : Prop :=
  exists before kept after,
    text_of (before ++ kept ++ after) s /\ text_of kept t /\ Forall white_space before /\ Forall white_space after /\
    (kept <> [] -> ~ white_space (hd 0%N kept) /\ ~ white_space (last kept 0%N)).

(** The command succeeds, given those before it, and prints [out]. *)
Definition prints (w : world) (before : list command) (c : command) (out : str) : Prop :=
  w before c = Exited (Some 0%Z) out.

Definition succeeds (w : world) (before : list command) (c : command) : Prop := exists out, prints w before c out.

(** What its result is otherwise. *)
Inductive fails (w : world) (before : list command) (c : command) : task_error -> Prop :=
| fl_not_run : w before c = NotRun -> fails w before c EIo
| fl_code n out : w before c = Exited (Some n) out -> n <> 0%Z -> fails w before c (EExit n)
| fl_killed out : w before c = Exited None out -> fails w before c (EExit (-1)).

(** Only the last command may have failed. *)
Definition stops_at_failure (w : world) (tr : list command) : Prop :=
  forall before c after, tr = before ++ c :: after -> after <> [] -> succeeds w before c.

(** ** The changelog *)

Definition ask_log (since upto : str) : command :=
  [b "git"; b "log"; since ++ b ".." ++ upto; b "--pretty=format:%h"].
Definition ask_message (commit : str) : command :=
  [b "git"; b "show"; b "--quiet"; b "--pretty=format:%B"; commit].
Definition ask_latest : command := [b "git"; b "log"; b "-1"; b "--pretty=format:%h"].

Definition commit_link (commit : str) : str :=
  b " [" ++ commit ++ b "](https://github.com/jprochazk/tmi-rs/commit/" ++ commit ++ b ")".

(** The link goes at the end of the first line of the message; a line feed follows. *)
Inductive entry (commit message : str) : str -> Prop :=
| en_line : ~ In x0a message -> entry commit message (message ++ commit_link commit ++ [x0a])
| en_more l r :
    message = l ++ [x0a] ++ r -> ~ In x0a l -> entry commit message (l ++ commit_link commit ++ [x0a] ++ r).

(** The entries of some commits, asked for after the commands [before]. *)
Inductive entries (w : world) : list command -> list str -> list str -> Prop :=
| es_none before : entries w before [] []
| es_next before c cs m e es :
    prints w before (ask_message c) m -> is_text m -> entry c m e ->
    entries w (before ++ [ask_message c]) cs es -> entries w before (c :: cs) (e :: es).

Definition range_line (since latest : str) : str :=
  b "[" ++ since ++ b ".." ++ latest ++ b "](https://github.com/jprochazk/tmi-rs/compare/" ++
  since ++ b "..." ++ latest ++ b ")" ++ [x0a].

(** ** The subcommands of cargo *)

Definition ascii_space (x : byte) : Prop := In x [x09; x0a; x0c; x0d; x20].

Definition begins_with_space (s : str) : Prop := exists x r, s = x :: r /\ ascii_space x.

Definition blank_line (s : str) : Prop := begins_with_space s /\ trims s [].

(** The line is indented and its first word is [cmd]. *)
Definition offers (line cmd : str) : Prop :=
  begins_with_space line /\
  exists t r, trims line t /\ t = cmd ++ r /\ cmd <> [] /\ Forall (fun x => ~ ascii_space x) cmd /\
    (r = [] \/ begins_with_space r).

(** [cmd] is among the subcommands listed, found before any blank line. *)
Definition finds (lines : list str) (cmd : str) : Prop :=
  exists l1 l l2, lines = l1 ++ l :: l2 /\ offers l cmd /\ Forall (fun x => ~ blank_line x) l1.

Definition trips (lines : list str) (cmd : str) : Prop :=
  exists l1 l l2, lines = l1 ++ l :: l2 /\ blank_line l /\ Forall (fun x => ~ offers x cmd) l1.

(** ** Setting up *)

Definition list_subcommands (path : str) : command := [path; b "--list"].
Definition install_binstall (path : str) : command := [path; b "install"; b "cargo-binstall"].
Definition binstall_tools (path : str) : command :=
  [path; b "binstall"; b "--no-confirm"; b "--locked"; b "cargo-insta"].
Definition install_tools (path : str) : command := [path; b "install"; b "--locked"; b "cargo-insta"].
Definition add_components : command := [b "rustup"; b "component"; b "add"; b "rustfmt"; b "clippy"].

(** What [setup] starts, if nothing fails. *)
Inductive setup_steps (w : world) (path : str) : bool -> list command -> Prop :=
| ss_source : setup_steps w path false [install_tools path; add_components]
| ss_binary out lines :
    prints w [] (list_subcommands path) out -> is_text out -> parts_by x0a out lines -> finds lines (b "binstall") ->
    setup_steps w path true [list_subcommands path; binstall_tools path; add_components]
| ss_install out lines :
    prints w [] (list_subcommands path) out -> is_text out -> parts_by x0a out lines ->
    ~ finds lines (b "binstall") -> ~ trips lines (b "binstall") ->
    setup_steps w path true
      [list_subcommands path; install_binstall path; binstall_tools path; add_components].

Definition all_succeed (w : world) (tr : list command) : Prop :=
  forall before c after, tr = before ++ c :: after -> succeeds w before c.
