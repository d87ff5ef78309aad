(** * Base: results, bytes, strings and the parts of Rust's [core]/[std] the crate uses.

    Model file: definitions only, no proofs.

    Rust's [str] is a sequence of UTF-8 bytes.  We use [list byte]; that a list
    is the content of a Rust [&str] is the predicate [utf8_valid].  *)

From Coq Require Export String.
From Coq Require Export Strings.Byte.
From Coq Require Export List Arith NArith ZArith Bool.
Export ListNotations.

(** ** Outcomes *)

(** Outcome of running Rust code.
    - [Ret a]: returns [a].
    - [Panic]: a Rust panic (out-of-bounds index, slice off a character
      boundary, arithmetic overflow with overflow checks on, ...).
    - [Ub]: an [unsafe] operation whose contract is violated.
    - [NoFuel]: artefact of the model, loop fuel exhausted. *)
Inductive res (A : Type) : Type :=
| Ret (a : A)
| Panic
| Ub
| NoFuel.
Arguments Ret {A} a.
Arguments Panic {A}.
Arguments Ub {A}.
Arguments NoFuel {A}.

Definition bind {A B : Type} (m : res A) (f : A -> res B) : res B :=
  match m with
  | Ret a => f a
  | Panic => Panic
  | Ub => Ub
  | NoFuel => NoFuel
  end.

Notation "'let!' x := m 'in' k" := (bind m (fun x => k))
  (at level 200, x pattern, m at level 100, k at level 200, right associativity).

(** Rust's [?] on an [Option] inside code that may also panic. *)
Definition bindo {A B : Type} (m : res (option A)) (f : A -> res (option B)) : res (option B) :=
  match m with
  | Ret (Some a) => f a
  | Ret None => Ret None
  | Panic => Panic
  | Ub => Ub
  | NoFuel => NoFuel
  end.

Notation "'let?' x := m 'in' k" := (bindo m (fun x => k))
  (at level 200, x pattern, m at level 100, k at level 200, right associativity).

Definition rmap {A B : Type} (f : A -> B) (m : res A) : res B :=
  let! a := m in Ret (f a).

Definition opt_bind {A B : Type} (m : option A) (f : A -> option B) : option B :=
  match m with Some a => f a | None => None end.

(** ** Strings *)

Definition str := list byte.

(** String literals: the bytes of the literal in this (UTF-8) source file. *)
Definition b (s : string) : str := list_byte_of_string s.

Fixpoint str_eqb (x y : str) : bool :=
  match x, y with
  | [], [] => true
  | a :: x', c :: y' => Byte.eqb a c && str_eqb x' y'
  | _, _ => false
  end.

(** A chain of [match s { "lit" => v, ... }] arms, tried in order. *)
Fixpoint assoc {A : Type} (s : str) (l : list (str * A)) : option A :=
  match l with
  | [] => None
  | (k, v) :: l' => if str_eqb s k then Some v else assoc s l'
  end.

(** *** Casts and machine arithmetic *)

(** [x as u16], [x as u32]: reduction modulo the width (computed on [N]). *)
Definition as_u16 (n : nat) : nat := N.to_nat (N.of_nat n mod 65536)%N.
Definition as_u32 (n : nat) : nat := N.to_nat (N.of_nat n mod 4294967296)%N.

(** [a + b] on [u32]: panics on overflow (overflow checks on).  A release build
    would wrap; no theorem depends on the overflowing case, they all assume
    tag sections shorter than 4 GiB. *)
Definition u32_add (x y : nat) : res nat :=
  if (N.of_nat (x + y) <? 4294967296)%N then Ret (x + y) else Panic.

(** [a - b] on [usize]: panics when negative (overflow checks on). *)
Definition usize_sub (x y : nat) : res nat :=
  if y <=? x then Ret (x - y) else Panic.

(** *** UTF-8 *)

(** Unsigned comparison of a byte with a range. *)
Definition in_range (lo hi : N) (x : byte) : bool :=
  ((lo <=? Byte.to_N x) && (Byte.to_N x <=? hi))%N.

(** Continuation bytes [0x80..=0xBF]. *)
Definition is_cont (x : byte) : bool := in_range 128 191 x.

(** [core::str::from_utf8] acceptance (Unicode table 3-7). *)
Fixpoint utf8_valid (s : str) : bool :=
  match s with
  | [] => true
  | a :: s1 =>
    if in_range 0 127 a then utf8_valid s1
    else if in_range 194 223 a then
      match s1 with
      | c1 :: s2 => is_cont c1 && utf8_valid s2
      | _ => false
      end
    else if in_range 224 239 a then
      match s1 with
      | c1 :: c2 :: s3 =>
        (if in_range 224 224 a then in_range 160 191 c1
         else if in_range 237 237 a then in_range 128 159 c1
         else is_cont c1) && is_cont c2 && utf8_valid s3
      | _ => false
      end
    else if in_range 240 244 a then
      match s1 with
      | c1 :: c2 :: c3 :: s4 =>
        (if in_range 240 240 a then in_range 144 191 c1
         else if in_range 244 244 a then in_range 128 143 c1
         else is_cont c1) && is_cont c2 && is_cont c3 && utf8_valid s4
      | _ => false
      end
    else false
  end.

(** A Rust [char], represented by its UTF-8 encoding. *)
Definition uchar := list byte.

(** [str::chars] (core's [next_code_point]: width from the leading byte). *)
Fixpoint chars (s : str) : list uchar :=
  match s with
  | [] => []
  | a :: s1 =>
    if in_range 0 127 a then [a] :: chars s1
    else if in_range 0 223 a then
      match s1 with
      | c1 :: s2 => [a; c1] :: chars s2
      | _ => [s]
      end
    else if in_range 0 239 a then
      match s1 with
      | c1 :: c2 :: s3 => [a; c1; c2] :: chars s3
      | _ => [s]
      end
    else
      match s1 with
      | c1 :: c2 :: c3 :: s4 => [a; c1; c2; c3] :: chars s4
      | _ => [s]
      end
  end.

(** [str::is_char_boundary]. *)
Definition is_char_boundary (s : str) (i : nat) : bool :=
  (i =? 0) ||
  match nth_error s i with
  | Some x => negb (is_cont x)
  | None => i =? length s
  end.

(** *** Slicing *)

(** Bytes [i..j]. *)
Definition sub (s : list byte) (i j : nat) : list byte := firstn (j - i) (skipn i s).

(** [&s[i..j]] on [str]. *)
Definition slice (s : str) (i j : nat) : res str :=
  if (i <=? j) && (j <=? length s) && is_char_boundary s i && is_char_boundary s j
  then Ret (sub s i j) else Panic.

(** [&s[i..]] on [str]. *)
Definition slice_from (s : str) (i : nat) : res str := slice s i (length s).

(** [&data[..j]] on [[u8]]. *)
Definition bytes_to (s : list byte) (j : nat) : res (list byte) :=
  if j <=? length s then Ret (firstn j s) else Panic.

(** *** Searching *)

(** [str::find(c)] / [iter().position] for an ASCII character. *)
Fixpoint find_byte (c : byte) (s : str) : option nat :=
  match s with
  | [] => None
  | x :: s' => if Byte.eqb x c then Some 0 else option_map S (find_byte c s')
  end.

(** [str::strip_prefix] / [starts_with]. *)
Fixpoint strip_prefix (p s : str) : option str :=
  match p, s with
  | [], _ => Some s
  | x :: p', y :: s' => if Byte.eqb x y then strip_prefix p' s' else None
  | _ :: _, [] => None
  end.

Definition starts_with (p s : str) : bool :=
  match strip_prefix p s with Some _ => true | None => false end.

(** [str::strip_suffix] / [ends_with]. *)
Definition strip_suffix (p s : str) : option str :=
  match strip_prefix (rev p) (rev s) with
  | Some r => Some (rev r)
  | None => None
  end.

Definition ends_with (p s : str) : bool :=
  match strip_suffix p s with Some _ => true | None => false end.

(** [str::split_once(pat)] for a string pattern: split around the first match. *)
Fixpoint split_once (p s : str) : option (str * str) :=
  match strip_prefix p s with
  | Some r => Some ([], r)
  | None =>
    match s with
    | [] => None
    | x :: s' =>
      match split_once p s' with
      | Some (l, r) => Some (x :: l, r)
      | None => None
      end
    end
  end.

(** [str::contains(pat)]. *)
Definition contains (p s : str) : bool :=
  match split_once p s with Some _ => true | None => false end.

(** [str::split(c)] for an ASCII character: always at least one part. *)
Fixpoint split (c : byte) (s : str) : list str :=
  match s with
  | [] => [[]]
  | x :: s' =>
    if Byte.eqb x c then [] :: split c s'
    else match split c s' with
         | w :: ws => (x :: w) :: ws
         | [] => [[x]]
         end
  end.

(** [char::is_whitespace] (Unicode White_Space), by UTF-8 encoding. *)
Definition whitespace_chars : list uchar :=
  [ [x09]; [x0a]; [x0b]; [x0c]; [x0d]; [x20];
    [xc2; x85]; [xc2; xa0];
    [xe1; x9a; x80];
    [xe2; x80; x80]; [xe2; x80; x81]; [xe2; x80; x82]; [xe2; x80; x83];
    [xe2; x80; x84]; [xe2; x80; x85]; [xe2; x80; x86]; [xe2; x80; x87];
    [xe2; x80; x88]; [xe2; x80; x89]; [xe2; x80; x8a];
    [xe2; x80; xa8]; [xe2; x80; xa9]; [xe2; x80; xaf];
    [xe2; x81; x9f];
    [xe3; x80; x80] ].

Definition is_whitespace (c : uchar) : bool :=
  existsb (str_eqb c) whitespace_chars.

(** Split a character sequence at the characters satisfying [p]. *)
Fixpoint split_chars (p : uchar -> bool) (cs : list uchar) : list str :=
  match cs with
  | [] => [[]]
  | c :: cs' =>
    if p c then [] :: split_chars p cs'
    else match split_chars p cs' with
         | w :: ws => (c ++ w) :: ws
         | [] => [c]
         end
  end.

(** [str::split_whitespace]: maximal non-empty runs of non-whitespace. *)
Definition split_whitespace (s : str) : list str :=
  filter (fun w => match w with [] => false | _ => true end)
    (split_chars is_whitespace (chars s)).

(** ** Integer parsing: [FromStr] for the integer types (core::num)

    An optional sign ([-] only for signed types), then at least one decimal
    digit; checked multiplication and addition/subtraction. *)

Definition u8_max : N := 255.
Definition u64_max : N := 18446744073709551615.
Definition i64_max : Z := 9223372036854775807.
Definition i64_min : Z := -9223372036854775808.

(** [(c as char).to_digit(10)]. *)
Definition digit (c : byte) : option N :=
  if in_range 48 57 c then Some (Byte.to_N c - 48)%N else None.

Fixpoint digits_u (max acc : N) (s : str) : option N :=
  match s with
  | [] => Some acc
  | c :: s' =>
    match digit c with
    | None => None
    | Some d =>
      if (max <? acc * 10)%N then None
      else if (max <? acc * 10 + d)%N then None
      else digits_u max (acc * 10 + d)%N s'
    end
  end.

Definition parse_uint (max : N) (s : str) : option N :=
  match s with
  | [] => None
  | c :: r =>
    if Byte.eqb c "+" then
      match r with [] => None | _ => digits_u max 0 r end
    else if Byte.eqb c "-" then None
    else digits_u max 0 s
  end.

Definition parse_u8 : str -> option N := parse_uint u8_max.
Definition parse_u64 : str -> option N := parse_uint u64_max.

(** Negative numbers accumulate downwards with checked subtraction. *)
Fixpoint digits_neg (min acc : Z) (s : str) : option Z :=
  match s with
  | [] => Some acc
  | c :: s' =>
    match digit c with
    | None => None
    | Some d =>
      if (acc * 10 <? min)%Z then None
      else if (acc * 10 - Z.of_N d <? min)%Z then None
      else digits_neg min (acc * 10 - Z.of_N d)%Z s'
    end
  end.

Definition parse_i64 (s : str) : option Z :=
  match s with
  | [] => None
  | c :: r =>
    if Byte.eqb c "+" then
      match r with [] => None | _ => option_map Z.of_N (digits_u (Z.to_N i64_max) 0 r) end
    else if Byte.eqb c "-" then
      match r with [] => None | _ => digits_neg i64_min 0 r end
    else option_map Z.of_N (digits_u (Z.to_N i64_max) 0 s)
  end.

(** ** [Cow<'_, str>] *)

Inductive cow : Type :=
| Borrowed (s : str)
| Owned (s : str).

(** [Cow::as_ref] / [Deref]. *)
Definition deref (c : cow) : str := match c with Borrowed s => s | Owned s => s end.
