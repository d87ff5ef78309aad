(** * Xtask: the task runner of the repository (xtask/src).

    A task starts processes, and [changelog] rewrites one file. What a process does is
    given by a function of the processes started before and of its own arguments.

    Not modelled: the parsing of the command line by [argp], what the processes print
    while they run, and the texts of errors that come from the operating system. *)

From Coq Require Import ZArith.
From Verif Require Import Base.

(** [Command]: the program and its arguments. *)
Definition command := list str.

(** What happens to a process: it is not started, or waiting for it fails; or it ends,
    with a code unless it was killed, having written something to its output. *)
Inductive process := NotRun | Exited (code : option Z) (output : str).

Definition world := list command -> command -> process.

Inductive task_error := EIo | EExit (code : Z) | EUtf8.

(** The end of a piece of a task: [Ok], [Err] or a panic. *)
Inductive ending (A : Type) := Value (x : A) | Failed (e : task_error) | Crashed.
Arguments Value {A} x.
Arguments Failed {A} e.
Arguments Crashed {A}.

(** A piece of a task: from the processes started so far to those started at its end. *)
Definition task (A : Type) := list command -> list command * ending A.

Definition ret {A : Type} (x : A) : task A := fun tr => (tr, Value x).

Definition andthen {A B : Type} (m : task A) (k : A -> task B) : task B :=
  fun tr =>
    let '(tr, r) := m tr in
    match r with
    | Value x => k x tr
    | Failed e => (tr, Failed e)
    | Crashed => (tr, Crashed)
    end.

Notation "'do' x <- m 'in' k" := (andthen m (fun x => k))
  (at level 200, x name, m at level 100, k at level 200, right associativity).

(** ** util.rs *)

(** [git], [rustup], [cargo]: xtask/src/util.rs:10-20; [path]: [env!("CARGO")]. *)
Definition git (cmd : str) : command := [b "git"; cmd].
Definition rustup (cmd : str) : command := [b "rustup"; cmd].
Definition cargo (path cmd : str) : command := [path; cmd].

(** [with_arg] and [with_args]: xtask/src/util.rs:55-70. *)
Definition with_arg (c : command) (arg : str) : command := c ++ [arg].
Definition with_args (c : command) (args : list str) : command := c ++ args.

(** [ExitStatus::check] and [Output::check]: xtask/src/util.rs:100-116. *)
Definition check (code : option Z) : option task_error :=
  match code with
  | Some 0%Z => None
  | Some n => Some (EExit n)
  | None => Some (EExit (-1))
  end.

(** [run]: xtask/src/util.rs:81-83. *)
Definition run (w : world) (c : command) : task unit := fun tr =>
  (tr ++ [c],
   match w tr c with
   | NotRun => Failed EIo
   | Exited code _ => match check code with Some e => Failed e | None => Value tt end
   end).

(** [run_with_output]: xtask/src/util.rs:85-93. *)
Definition run_with_output (w : world) (c : command) : task str := fun tr =>
  (tr ++ [c],
   match w tr c with
   | NotRun => Failed EIo
   | Exited code out =>
     match check code with
     | Some e => Failed e
     | None => if utf8_valid out then Value out else Failed EUtf8
     end
   end).

(** [char::is_ascii_whitespace]. *)
Definition ascii_whitespace (c : uchar) : bool :=
  existsb (str_eqb c) [[x09]; [x0a]; [x0c]; [x0d]; [x20]].

(** [str::trim]. *)
Fixpoint drop_white (cs : list uchar) : list uchar :=
  match cs with
  | c :: cs' => if is_whitespace c then drop_white cs' else cs
  | [] => []
  end.

Definition trim (s : str) : str := concat (rev (drop_white (rev (drop_white (chars s))))).

(** [str::split_ascii_whitespace]. *)
Definition split_ascii_whitespace (s : str) : list str :=
  filter (fun w => match w with [] => false | _ => true end) (split_chars ascii_whitespace (chars s)).

(** The closures of [has_cargo_subcmd]: xtask/src/util.rs:27-30. *)
Definition indented (line : str) : bool :=
  match chars line with c :: _ => ascii_whitespace c | [] => false end.

Fixpoint any_subcmd (cmd : str) (lines : list str) : ending bool :=
  match lines with
  | [] => Value false
  | line :: lines' =>
    if indented line then
      match split_ascii_whitespace (trim line) with
      | [] => Crashed
      | v :: _ => if str_eqb v cmd then Value true else any_subcmd cmd lines'
      end
    else any_subcmd cmd lines'
  end.

(** [has_cargo_subcmd]: xtask/src/util.rs:22-32. *)
Definition has_cargo_subcmd (w : world) (path cmd : str) : task bool :=
  do out <- run_with_output w (cargo path (b "--list")) in
  fun tr => (tr, any_subcmd cmd (split x0a out)).

(** ** task/setup.rs *)

(** [COMPONENTS], [TOOLS]: xtask/src/task/setup.rs:5-6. *)
Definition components : list str := [b "rustfmt"; b "clippy"].
Definition tools : list str := [b "cargo-insta"].

(** [Setup::run]: xtask/src/task/setup.rs:17-40. *)
Definition setup_run (w : world) (path : str) (binary : bool) : task unit :=
  do _ <-
    (if binary then
       do has <- has_cargo_subcmd w path (b "binstall") in
       do _ <- (if has then ret tt else run w (with_arg (cargo path (b "install")) (b "cargo-binstall"))) in
       run w (with_args (with_args (cargo path (b "binstall")) [b "--no-confirm"; b "--locked"]) tools)
     else
       run w (with_args (with_args (cargo path (b "install")) [b "--locked"]) tools)) in
  run w (with_args (with_arg (rustup (b "component")) (b "add")) components).

(** ** task/test.rs *)

(** [tests] and [Test::run]: xtask/src/task/test.rs:14-26. *)
Definition tests (path : str) (args : list str) : command :=
  with_args (with_args (cargo path (b "insta")) [b "test"; b "--all-features"; b "--lib"; b "--review"]) args.

Definition test_run (w : world) (path : str) (rest : list str) : task unit := run w (tests path rest).

(** ** task/changelog.rs *)

Definition commit_base : str := b "https://github.com/jprochazk/tmi-rs/commit/".
Definition compare_base : str := b "https://github.com/jprochazk/tmi-rs/compare/".

(** [lines.join("\n")] *)
Fixpoint join_lines (lines : list str) : str :=
  match lines with
  | [] => []
  | [l] => l
  | l :: lines' => l ++ [x0a] ++ join_lines lines'
  end.

(** The loop over the commits: xtask/src/task/changelog.rs:31-40. *)
Fixpoint changelog_lines (w : world) (commits : list str) : task (list str) :=
  match commits with
  | [] => ret []
  | commit :: commits' =>
    do message <- run_with_output w (with_args (git (b "show")) [b "--quiet"; b "--pretty=format:%B"; commit]) in
    let '(first_line, remainder) :=
      match split_once [x0a] message with Some p => p | None => (message, []) end in
    let url := commit_base ++ commit in
    do lines <- changelog_lines w commits' in
    ret ((first_line ++ b " [" ++ commit ++ b "](" ++ url ++ b ")") :: remainder :: lines)
  end.

(** Everything before the file is touched: xtask/src/task/changelog.rs:18-48. *)
Definition changelog_text (w : world) (since : str) (upto : option str) : task str :=
  do git_log <- run_with_output w
    (with_args (git (b "log"))
       [since ++ b ".." ++ match upto with Some u => u | None => b "HEAD" end; b "--pretty=format:%h"]) in
  let commits := split x0a (trim git_log) in
  do lines <- changelog_lines w commits in
  do latest <- run_with_output w (with_args (git (b "log")) [b "-1"; b "--pretty=format:%h"]) in
  let range := b "[" ++ since ++ b ".." ++ latest ++ b "](" ++ compare_base ++ since ++ b "..." ++ latest ++ b ")" in
  ret (range ++ [x0a; x0a] ++ join_lines lines ++ [x0a; x0a]).

(** [Changelog::run]: xtask/src/task/changelog.rs:17-62. [file]: the bytes of
    CHANGELOG.md, if it can be read; [left]: what it is left with if writing fails. *)
Definition changelog_run (w : world) (since : str) (upto : option str) (file : option str) (left : option (option str))
  : list command * option str * ending unit :=
  match changelog_text w since upto [] with
  | (tr, Failed e) => (tr, file, Failed e)
  | (tr, Crashed) => (tr, file, Crashed)
  | (tr, Value text) =>
    match file with
    | None => (tr, file, Crashed)
    | Some old =>
      if utf8_valid old then
        match left with
        | None => (tr, Some (text ++ old), Value tt)
        | Some rest => (tr, rest, Failed EIo)
        end
      else (tr, file, Crashed)
    end
  end.

(** ** main.rs *)

(** [main]: xtask/src/main.rs:23-31; 101 is the code after a panic. *)
Definition main_code {A : Type} (r : ending A) : Z :=
  match r with Value _ => 0 | Failed _ => 1 | Crashed => 101 end.
