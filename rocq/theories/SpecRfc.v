(** * SpecRfc: lines of the IRC grammar.

    The grammar is that of RFC 1459, section 2.3.1, with the tags of the IRCv3
    message-tags extension in front; it is written down here on its own, from those
    documents, and says what a sender may write and what it means by it.  Characters
    inside a nick, user, host or server name are only kept from being delimiters, so
    there are more lines here than in the grammar. *)

From Verif Require Import Base Tags Irc SpecIrc SpecText.

(** [<prefix> ::= <servername> | <nick> [ '!' <user> ] [ '@' <host> ]]. *)
Inductive origin :=
| Server (name : str)
| User (nick : str) (user host : option str).

(** [<message> ::= ['@' <tags> <SPACE>] [':' <prefix> <SPACE>] <command> <params>];
    a tag is a key, and may have ['='] and a value. *)
Record grammar := mk_grammar
  { g_tags : list (str * option str);
    g_origin : option origin;
    g_command : str;
    g_middles : list str;
    g_trailing : option str }.

(** ** What is allowed in the parts *)

Definition letter (c : byte) : Prop := in_range 65 90 c = true \/ in_range 97 122 c = true.
Definition digit (c : byte) : Prop := in_range 48 57 c = true.

(** None of the listed bytes, and none of NUL, CR and LF. *)
Definition without (l : list byte) (s : str) : Prop :=
  Forall (fun c => ~ In c ([x00; x0d; x0a] ++ l)) s.

(** A key: a name of letters, digits and hyphens, maybe with a vendor (a host name) and
    ['/'] or with ['+'] in front. *)
Definition wf_key (k : str) : Prop :=
  k <> [] /\ Forall (fun c => letter c \/ digit c \/ In c (b "-/.+")) k.

Definition wf_value (v : str) : Prop := without (b "; ") v.

Definition wf_name (s : str) : Prop := s <> [] /\ without (b " !@") s.

(** A user may contain ['!']. *)
Definition wf_user (s : str) : Prop := s <> [] /\ without (b " @") s.

Definition wf_opt (P : str -> Prop) (o : option str) : Prop :=
  match o with Some s => P s | None => True end.

Definition wf_origin (o : origin) : Prop :=
  match o with
  | Server s => wf_name s
  | User n u h => wf_name n /\ wf_opt wf_user u /\ wf_opt wf_name h
  end.

(** [<command> ::= <letter> { <letter> } | <number> <number> <number>]. *)
Definition wf_command (w : str) : Prop :=
  (w <> [] /\ Forall letter w) \/ (length w = 3 /\ Forall digit w).

(** [<middle>]: not empty, no space, does not begin with [':']. *)
Definition wf_middle (m : str) : Prop := m <> [] /\ without (b " ") m /\ ~ starts ":" m.

Definition wf_grammar (g : grammar) : Prop :=
  Forall (fun kv => wf_key (fst kv) /\ wf_opt wf_value (snd kv)) (g_tags g) /\
  match g_origin g with Some o => wf_origin o | None => True end /\
  wf_command (g_command g) /\ Forall wf_middle (g_middles g) /\ wf_opt (without []) (g_trailing g).

(** ** How a line is written

    [<SPACE>] is one space or more; [gaps] says how many more: first after the tags, then
    after the prefix, then before each parameter.  [<params> ::= <SPACE> [ ':' <trailing> |
    <middle> <params> ]] also allows spaces at the end, if there is no trailing parameter:
    [pad] says how many. *)
Definition spaces (n : nat) : str := repeat " "%byte n.

Definition gap (more : nat) : str := b " " ++ spaces more.

Definition write_tag (kv : str * option str) : str :=
  match kv with (k, Some v) => k ++ b "=" ++ v | (k, None) => k end.

Fixpoint write_tags (l : list (str * option str)) : str :=
  match l with
  | [] => []
  | [kv] => write_tag kv
  | kv :: l' => write_tag kv ++ b ";" ++ write_tags l'
  end.

Definition write_origin (o : origin) : str :=
  match o with
  | Server s => s
  | User n u h =>
    n ++ match u with Some u => b "!" ++ u | None => [] end ++
    match h with Some h => b "@" ++ h | None => [] end
  end.

(** The parameters; the last one is marked with [':'] if it is a trailing one. *)
Definition parameters (ms : list str) (t : option str) : list str :=
  ms ++ match t with Some t => [b ":" ++ t] | None => [] end.

Fixpoint write_params (gaps : nat -> nat) (ps : list str) : str :=
  match ps with
  | [] => []
  | p :: ps' => gap (gaps 0) ++ p ++ write_params (fun i => gaps (S i)) ps'
  end.

Definition padding (pad : nat) (t : option str) : str := match t with None => spaces pad | Some _ => [] end.

Definition write (gaps : nat -> nat) (pad : nat) (g : grammar) : str :=
  match g_tags g with [] => [] | l => b "@" ++ write_tags l ++ gap (gaps 0) end ++
  match g_origin g with None => [] | Some o => b ":" ++ write_origin o ++ gap (gaps 1) end ++
  g_command g ++
  write_params (fun i => gaps (S (S i))) (parameters (g_middles g) (g_trailing g)) ++
  padding pad (g_trailing g).

(** Single spaces everywhere. *)
Definition single : nat -> nat := fun _ => 0.

(** ** What is meant *)

(** The tags: a missing value is the same as an empty one. *)
Definition meant_tags (g : grammar) : list (str * str) :=
  map (fun kv => (fst kv, or_empty (snd kv))) (g_tags g).

(** The prefix tells who sent the line.  A nick alone is written like a server. *)
Definition tells (p : prefix) (o : origin) : Prop :=
  match o with
  | Server s | User s None None => host p = s /\ nick p = None /\ user p = None
  | User n u (Some h) => host p = h /\ nick p = Some n /\ user p = u
  | User n u None => nick p = Some n /\ user p = u
  end.

(** Unescaping of a value: the five escapes; a backslash before any other character is
    dropped, and so is one at the end. *)
Fixpoint ircv3 (s : str) : str :=
  match s with
  | [] => []
  | c :: s' =>
    if Byte.eqb c "\" then
      match s' with
      | [] => []
      | d :: s'' =>
        match assoc [d] escape_pairs with Some x => x | None => [d] end ++ ircv3 s''
      end
    else c :: ircv3 s'
  end.

(** Every backslash begins one of the five escapes. *)
Inductive proper : str -> Prop :=
| pr_end : proper []
| pr_plain c s : c <> "\"%byte -> proper s -> proper (c :: s)
| pr_escape k v s : In (k, v) escape_pairs -> proper s -> proper (b "\" ++ k ++ s).

(** ** What the parser makes of it *)

(** Tags without ['=']: each is put, with its [';'], in front of the next key; at the end
    they are dropped. *)
Fixpoint merged (before : str) (l : list (str * option str)) : list (str * str) :=
  match l with
  | [] => []
  | (k, None) :: l' => merged (before ++ k ++ b ";") l'
  | (k, Some v) :: l' => (before ++ k, v) :: merged [] l'
  end.

Definition with_values (g : grammar) : nat :=
  length (filter (fun kv => match snd kv with Some _ => true | None => false end) (g_tags g)).

(** The first parameter as the channel, if it looks like one, and the others. *)
Definition channel_of (ms : list str) : option str :=
  match ms with
  | m :: _ => match m with "#"%byte :: _ => Some m | _ => None end
  | [] => None
  end.

Definition after_channel (ms : list str) : list str :=
  match channel_of ms, ms with Some _, _ :: ms' => ms' | _, _ => ms end.

(** With other spaces: a channel is only seen right after a single space. *)
Definition channel_seen (gaps : nat -> nat) (g : grammar) : option str :=
  match gaps 2 with 0 => channel_of (g_middles g) | _ => None end.

Definition middles_left (gaps : nat -> nat) (g : grammar) : list str :=
  match channel_seen gaps g with Some _ => tl (g_middles g) | None => g_middles g end.

(** What is written after the command, or after the channel if one is seen. *)
Definition written_after (gaps : nat -> nat) (pad : nat) (g : grammar) : str :=
  write_params (fun i => gaps (match channel_seen gaps g with Some _ => 3 + i | None => 2 + i end))
    (parameters (middles_left gaps g) (g_trailing g)) ++ padding pad (g_trailing g).

(** It, without its first space; nothing if nothing else is there. *)
Definition params_seen (gaps : nat -> nat) (pad : nat) (g : grammar) : option str :=
  match tl (written_after gaps pad g) with [] => None | p => Some p end.

(** Texts with single spaces in between. *)
Fixpoint spaced (l : list str) : str :=
  match l with
  | [] => []
  | [x] => x
  | x :: l' => x ++ b " " ++ spaced l'
  end.

(** The parameters as one text, if there are any. *)
Definition some_params (l : list str) : option str := match l with [] => None | _ => Some (spaced l) end.

(** The prefixes from which the parser tells who is meant. *)
Definition well_told (o : origin) : Prop :=
  match o with User _ (Some u) h => h <> None /\ ~ In "!"%byte u | _ => True end.

(** Too many spaces where the parser expects one. *)
Definition too_wide (gaps : nat -> nat) (g : grammar) : Prop :=
  (g_tags g <> [] /\ gaps 0 <> 0) \/ (g_origin g <> None /\ gaps 1 <> 0).

(** IRCv3 allows 8191 bytes of tags and 512 for the rest; this is far more. *)
Definition sized (s : str) : Prop := (N.of_nat (length s) < 65536)%N.
