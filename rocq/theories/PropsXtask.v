(** * PropsXtask: property theorems (generated from XtaskProofs.v by tools/gen_props.py).

    Only statements; each is closed by the lemma of the same name. *)

From Verif Require Import Base SpecIrc SpecMsg SpecUnicode Xtask SpecXtask XtaskProofs.

From Coq Require Import ZArith.
Open Scope nat_scope.

(** C74. When the task succeeds, which processes it started, and what is in the file
    then. *)
Theorem c74_writes :
  forall (w : world) (since : str) (upto : option str) (file : option str) (left : option (option str))
         (tr : list command) (new : option str),
    changelog_run w since upto file left = (tr, new, Value tt) <->
    exists log t commits es latest old,
      let first := ask_log since (match upto with Some u => u | None => b "HEAD" end) in
      let asked := first :: map ask_message commits in
      prints w [] first log /\ is_text log /\ trims log t /\ parts_by x0a t commits /\
      entries w [first] commits es /\ prints w asked ask_latest latest /\ is_text latest /\
      file = Some old /\ is_text old /\ left = None /\
      tr = asked ++ [ask_latest] /\
      new = Some (range_line since latest ++ [x0a] ++ join_by x0a es ++ [x0a; x0a] ++ old).
Proof. exact p_c74_writes. Qed.
Print Assumptions c74_writes.

(** C74. What was in the file is still there, at the end; and if the task does not
    succeed, and not because of the writing, the file is as it was. *)
Theorem c74_keeps :
  forall (w : world) (since : str) (upto : option str) (file : option str) (left : option (option str))
         (tr : list command) (new : option str) (r : ending unit),
    changelog_run w since upto file left = (tr, new, r) ->
    match r with
    | Value _ => exists old added, file = Some old /\ new = Some (added ++ old)
    | _ => left = None -> new = file
    end.
Proof. exact p_c74_keeps. Qed.
Print Assumptions c74_keeps.

(** C74. After a process that fails no other is started. *)
Theorem c74_stops :
  forall (w : world) (since : str) (upto : option str) (file : option str) (left : option (option str))
         (tr : list command) (new : option str) (r : ending unit),
    changelog_run w since upto file left = (tr, new, r) -> stops_at_failure w tr.
Proof. exact p_c74_stops. Qed.
Print Assumptions c74_stops.

Example example_c74 :
  changelog_run sample_world (b "0.6.1") (Some (b "0.7.0")) (Some (b "old")) None =
  ([ask_log (b "0.6.1") (b "0.7.0"); ask_message (b "abc"); ask_message (b "def"); ask_latest],
   Some (b "[0.6.1..fed](https://github.com/jprochazk/tmi-rs/compare/0.6.1...fed)" ++ [x0a; x0a] ++
         b "fix: a [abc](https://github.com/jprochazk/tmi-rs/commit/abc)" ++ [x0a; x0a] ++ b "more" ++ [x0a; x0a] ++
         b "feat: b [def](https://github.com/jprochazk/tmi-rs/commit/def)" ++ [x0a; x0a; x0a] ++ b "old"),
   Value tt).
Proof. exact ex_c74. Qed.

(** C74. The link to the whole range does not depend on [--until]: it goes up to the
    latest commit whatever was asked for. *)
Theorem c74_link_ends_at_until_refuted :
  exists (w : world) (since until : str) (tr : list command) (text : str),
    changelog_run w since (Some until) (Some []) None = (tr, Some text, Value tt) /\
    ~ (exists r, text = b "[" ++ since ++ b ".." ++ until ++ r).
Proof. exact p_c74_link_ends_at_until_refuted. Qed.
Print Assumptions c74_link_ends_at_until_refuted.

(** C74. If there are no commits, a commit with an empty name is asked for. *)
Theorem c74_no_commits :
  forall (w : world) (since : str) (upto : option str) (file : option str) (left : option (option str))
         (tr : list command) (new : option str) (r : ending unit) (log : str),
    let first := ask_log since (match upto with Some u => u | None => b "HEAD" end) in
    prints w [] first log -> trims log [] ->
    changelog_run w since upto file left = (tr, new, r) -> exists more, tr = first :: ask_message [] :: more.
Proof. exact p_c74_no_commits. Qed.
Print Assumptions c74_no_commits.

(** C75. A subcommand is found exactly if an indented line begins with it, after no blank
    one; a blank indented line before it makes the task panic. *)
Theorem c75_subcommand :
  forall (w : world) (path cmd out : str) (tr : list command) (lines : list str),
    prints w tr (list_subcommands path) out -> is_text out -> parts_by x0a out lines ->
    (has_cargo_subcmd w path cmd tr = (tr ++ [list_subcommands path], Value true) <-> finds lines cmd) /\
    (has_cargo_subcmd w path cmd tr = (tr ++ [list_subcommands path], Crashed) <-> trips lines cmd) /\
    (has_cargo_subcmd w path cmd tr = (tr ++ [list_subcommands path], Value false) <->
     ~ finds lines cmd /\ ~ trips lines cmd).
Proof. exact p_c75_subcommand. Qed.
Print Assumptions c75_subcommand.

(** C75. When [setup] succeeds, and what it has started then, in this order. *)
Theorem c75_setup :
  forall (w : world) (path : str) (binary : bool) (tr : list command),
    setup_run w path binary [] = (tr, Value tt) <-> setup_steps w path binary tr /\ all_succeed w tr.
Proof. exact p_c75_setup. Qed.
Print Assumptions c75_setup.

(** C75. And when it panics. *)
Theorem c75_setup_panics :
  forall (w : world) (path : str) (binary : bool) (tr : list command),
    setup_run w path binary [] = (tr, Crashed) <->
    binary = true /\ tr = [list_subcommands path] /\
    exists out lines, prints w [] (list_subcommands path) out /\ is_text out /\ parts_by x0a out lines /\
      trips lines (b "binstall").
Proof. exact p_c75_setup_panics. Qed.
Print Assumptions c75_setup_panics.

(** C75. After a process that fails no other is started. *)
Theorem c75_setup_stops :
  forall (w : world) (path : str) (binary : bool) (tr : list command) (r : ending unit),
    setup_run w path binary [] = (tr, r) -> stops_at_failure w tr.
Proof. exact p_c75_setup_stops. Qed.
Print Assumptions c75_setup_stops.

(** C75. [test] starts one process, with the arguments given to it at the end, and ends
    as that process does. *)
Theorem c75_test :
  forall (w : world) (path : str) (rest : list str),
    let c := [path; b "insta"; b "test"; b "--all-features"; b "--lib"; b "--review"] ++ rest in
    exists r, test_run w path rest [] = ([c], r) /\ (r = Value tt <-> succeeds w [] c) /\
      (forall e, r = Failed e <-> fails w [] c e) /\ r <> Crashed.
Proof. exact p_c75_test. Qed.
Print Assumptions c75_test.

(** C75. The exit code of [setup] is 0 exactly if each of its steps succeeds, 101 exactly
    if it trips over a blank line, and 1 otherwise; that of [test] is 0 if the tests
    succeed and 1 otherwise, whatever their own code. *)
Theorem c75_exit_code :
  forall (w : world) (path : str),
    (forall binary, let code := main_code (snd (setup_run w path binary [])) in
       (code = 0%Z <-> exists tr, setup_steps w path binary tr /\ all_succeed w tr) /\
       (code = 101%Z <->
        binary = true /\ exists out lines, prints w [] (list_subcommands path) out /\ is_text out /\
          parts_by x0a out lines /\ trips lines (b "binstall")) /\
       (code = 0 \/ code = 1 \/ code = 101)%Z) /\
    (forall rest, let code := main_code (snd (test_run w path rest [])) in
       let c := [path; b "insta"; b "test"; b "--all-features"; b "--lib"; b "--review"] ++ rest in
       (code = 0%Z <-> succeeds w [] c) /\ (code = 0 \/ code = 1)%Z).
Proof. exact p_c75_exit_code. Qed.
Print Assumptions c75_exit_code.

Example example_c75 :
  setup_run (listing []) (b "cargo") true [] =
    ([list_subcommands (b "cargo"); binstall_tools (b "cargo"); add_components], Value tt) /\
  setup_run (listing (b "    ")) (b "cargo") true [] = ([list_subcommands (b "cargo")], Crashed) /\
  setup_run (fun _ c => if str_eqb (hd [] c) (b "rustup") then Exited (Some 1%Z) [] else Exited (Some 0%Z) []) (b "cargo") true [] =
    ([list_subcommands (b "cargo"); install_binstall (b "cargo"); binstall_tools (b "cargo"); add_components], Failed (EExit 1)) /\
  main_code (snd (setup_run (listing []) (b "cargo") true [])) = 0%Z /\
  main_code (snd (setup_run (listing (b "    ")) (b "cargo") true [])) = 101%Z /\
  main_code (snd (test_run (fun _ _ => Exited (Some 7%Z) []) (b "cargo") [] [])) = 1%Z.
Proof. exact ex_c75. Qed.

(** C75. It is not so that looking for a subcommand never panics. *)
Theorem c75_never_panics_refuted :
  exists (w : world) (path cmd out : str),
    w [] (list_subcommands path) = Exited (Some 0%Z) out /\ is_text out /\
    snd (has_cargo_subcmd w path cmd []) = Crashed.
Proof. exact p_c75_never_panics_refuted. Qed.
Print Assumptions c75_never_panics_refuted.
