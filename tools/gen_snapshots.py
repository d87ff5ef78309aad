#!/usr/bin/env python3
"""Writes theories/Snapshots.v from the recorded outputs in /repo/src/msg/snapshots.

The input line of each is the literal of the test of that name in /repo/src/msg/*.rs."""
import glob, os, re

HERE = os.path.dirname(os.path.abspath(__file__))
PARSE = {'room_state': '(room_state_parse Debug)'}


def rust_string(text, i):
    """The value of the Rust string literal that starts at text[i], as bytes."""
    assert text[i] == '"'
    out, i = '', i + 1
    while text[i] != '"':
        if text[i] != '\\':
            out, i = out + text[i], i + 1
        elif text[i + 1] == 'u':
            j = text.index('}', i)
            out, i = out + chr(int(text[i + 3:j], 16)), j + 1
        else:
            out, i = out + {'\\': '\\', '"': '"', 'n': '\n', 'r': '\r', 't': '\t'}[text[i + 1]], i + 2
    return out


def coq(s):
    parts = [p for p in re.split('(\x01)', s) if p]
    return ' ++ '.join('[x01]' if p == '\x01' else 'b "%s"' % p.replace('"', '""') for p in parts)


out = r'''(** * Snapshots: the crate's recorded outputs (src/msg/snapshots/*.snap) as tests of the model.

    The model parses the line of each of the crate's snapshot tests and prints the
    message with [{:#?}]; the text is the recorded one.  These are tests of the model
    against recorded runs of the program, not properties.  Generated by
    tools/gen_snapshots.py. *)

From Verif Require Import Base Wide Tags Irc MsgBase MsgTypes MsgNotice Message Dbg.

(** The printed form of a line, with each of the two tag parsers. *)
Definition printed_by (bd : build) {A : Type} (d : A -> dbg) (parse : msg_ref -> res (option A)) (line : str)
  : res (option str) :=
  let? m := ref_parse bd line in
  let? x := parse m in
  Ret (Some (show (fun _ => true) true (d x))).

Definition prints {A : Type} (d : A -> dbg) (parse : msg_ref -> res (option A)) (line text : str) : Prop :=
  printed_by Scalar d parse line = Ret (Some text) /\ printed_by (Simd Sse2 0) d parse line = Ret (Some text).
'''
n = 0
for f in sorted(glob.glob('/repo/src/msg/snapshots/*.snap')):
    mod, test = re.match(r'tmi__msg__(\w+?)__tests__(\w+)\.snap', os.path.basename(f)).groups()
    text = open(f, encoding='utf8').read().split('---\n', 2)[2].rstrip('\n')
    src = open('/repo/src/msg/%s.rs' % mod, encoding='utf8').read()
    i = src.index('fn %s()' % test)
    line = rust_string(src, src.index('"', src.index('assert_irc_snapshot!', i)))
    out += '\nExample snapshot_%s_%s :\n  prints dbg_%s %s\n    (%s)\n    (b "%s").\nProof. split; vm_compute; reflexivity. Qed.\n' % (
        mod, test, mod, PARSE.get(mod, mod + '_parse'), coq(line), text.replace('"', '""'))
    n += 1
open(os.path.join(HERE, '../rocq/theories/Snapshots.v'), 'w', encoding='utf8').write(out)
print(n)
