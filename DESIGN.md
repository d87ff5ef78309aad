# Formal model of tmi-rs: design

Source: `/repo` (jprochazk/tmi-rs, Rust), read as text. Prover: Rocq/Coq 8.16.1, standard library only.
Files: `rocq/theories/*.v`, logical name `Verif`.

## Method

* Every Rust function in scope has one Gallina function with the same control flow, with a comment
  citing file and lines. Strings are `list byte` (UTF-8 bytes, as in Rust); a `&str` is a byte list
  satisfying `utf8_valid`, which appears as a hypothesis where Rust's type system guarantees it.
* Panics are values. `res A := Ret a | Panic | Ub | NoFuel`; `Panic` is a Rust panic, `Ub` is an
  operation whose safety contract is broken (out-of-bounds or misaligned vector load, reading an
  uninitialised slot), `NoFuel` is loop fuel exhaustion (never produced; proved).
* Slicing (`&s[a..b]`) checks order, bounds and character boundaries and panics like Rust.
* `as u16`, `as u32` casts are written as reductions modulo 2^16, 2^32. Where debug and release builds
  differ (overflow checks) the function takes a `profile`; the SIMD parsers take a `backend` and the
  address of the input.
* Async code is modelled as a function of an oracle which gives the outcome of every await point
  (success, I/O error after a partial write, cancellation/timeout), and as a state machine over the
  client's `scratch` buffer, the bytes accepted by the connection and the log.
* Specifications (`Spec*.v`) are written separately, over strings, without spans or positions, and
  do not use the model's parsing helpers.
* Property lemmas `p_cNN_…` are proved in `*Proofs.v`. The theorems themselves are in `Props*.v`, generated
  from them by `tools/gen_props.py`: statements, one-line proofs `exact lemma`, and `Print Assumptions`; a
  concrete `Example` stands beside each group. `MANIFEST.json` is generated by `tools/gen_manifest.py`.
* Claims which are false of the code are proved false (`…_refuted`), and the strongest true variant is
  proved beside them.
* `seeded/LOG.jsonl`: wrong versions of the model that were tried against the theorems, one per line.
  `lemmas_failed` are the lemmas whose proof script stopped with an error, `theorems_failed` the theorems
  whose proof uses one of them. This shows that the proof does not go through for the wrong model. It does
  not show that the theorem's statement became false: a script can break for other reasons, and a theorem
  that merely shares a lemma with a broken one is listed too. The run stops once a theorem of the claim's
  own property is in the list, so the list need not be complete. Lemmas which only ran out of time are under
  `timed_out` and are not counted. An edit that does not type-check tests nothing and is marked so.

## Files

| kind | files | source |
|---|---|---|
| model | `Base` | the parts of `core`/`std` used: slices, find, integer parsing, UTF-8 |
| model | `Wide`, `Tags` | `src/irc/wide/**`, `src/irc/tags.rs`, `src/irc/tags/{simd,scalar}.rs`, `Span` of `src/common.rs` |
| model | `Irc`, `Unescape` | `src/irc.rs`, `src/irc/{prefix,command,channel,params}.rs`, `maybe_unescape`, `unescape` |
| model | `MsgBase`, `MsgTypes`, `MsgNotice`, `Message` | `src/msg.rs`, `src/msg/*.rs` |
| model | `Common`, `Client` | `src/common.rs`, `src/common/channel.rs`, `src/client.rs`, `src/client/*.rs` |
| model | `Serde` | the `Serialize`/`Deserialize` impls (derived and written) |
| model | `Bot` | `examples/basic.rs` (arguments already read; the Ctrl-C arm only as being stopped) |
| model | `Readme` | the program in `README.md` |
| model | `Getters` | the methods made by `generate_getters!` (`src/msg/macros.rs`) in `src/msg.rs` and `src/msg/*.rs` |
| model | `Timed` | `connect`, `handshake`, `reconnect` of `src/client.rs` and `timeout` of `src/client/util.rs`, with a clock |
| model | `Dbg` | `Debug` output: `src/irc.rs`, `src/common/channel.rs`, `src/client.rs` and the derived impls of `src/msg.rs`, `src/msg/*.rs` |
| model | `Errors` | `Display` and `source` of the error types: `src/client.rs`, `src/client/{conn,read,write}.rs` |
| model | `Conn` | `src/client/conn.rs`, and its use in `connect` and `reconnect` of `src/client.rs` |
| model | `Cmp` | derived `==`, `Ord` and `Hash`: `src/msg.rs`, `src/msg/*.rs`, `src/irc/{command,prefix,tags}.rs`, `src/common.rs`, `src/common/channel.rs` |
| model | `Features` | `Cargo.toml`, `src/lib.rs` and all `mod`, `use` and `cfg` of `src/**`: which files are compiled and what they need |
| model | `Xtask` | `xtask/src/**` (the command line already parsed; processes and the file system given) |
| tests | `RepoTests` | the crate's other unit tests (`src/irc.rs`, `src/irc/*`, `src/common/channel.rs`, `src/msg/privmsg.rs`), by computation |
| tests | `Snapshots` | the 48 outputs recorded in `src/**/snapshots/*.snap`, by computation |
| spec | `SpecIrc`, `SpecText`, `SpecMsg`, `SpecClient`, `SpecBot`, `SpecReadme` | what lines, tag texts, typed messages, connections, the example program mean |
| spec | `SpecGetters` | what each method should return, in terms of the parts of the line |
| spec | `SpecConn` | host names (RFC 1123), what counts as a connection to Twitch |
| spec | `SpecSerde` | which maps and sequences mean the same struct, how structs and enums should be read |
| spec | `SpecXtask` | which processes each task should start, what CHANGELOG.md should hold |
| spec | `SpecFeatures` | accelerated targets, which file belongs to which feature |
| spec | `SpecRfc` | lines of the IRC grammar (RFC 1459 with IRCv3 tags): parts, writing, meaning, and what the parser makes of them |
| spec | `SpecWrite` | how each kind of typed message is written as a line, and which values a line can carry |
| spec | `SpecSession` | typed messages that fit on a line, a stream of them, what a server sends on a connection |
| spec | `SpecParts` | which tags and other parts of a line each typed message is made from |
| spec | `SpecSlice` | stretches of a line, and the two strings a typed message can have that are not |
| spec | `SpecQuote` | a typed message with its text left out |
| spec | `SpecCut` | lines and streams that end too early |
| spec | `SpecFree` | tags whose values someone may choose, and typed messages without these values |
| spec | `SpecMore` | lines with more tags, and what this may add to a typed message |
| spec | `SpecBypass` | a program that sends the same text again and again |
| spec | `SpecKeep` | reads of limited size, reads inside a line |
| spec | `SpecBuilds` | the same turns of a program in another build |
| spec | `SpecCrash` | the lines and reconnects on which the programs panic |
| spec | `SpecLong` | tags as they are kept, and the line with them |
| spec | `SpecAlike` | printed and serialised forms that show the same |
| spec | `SpecRounds` | how often a loop goes round |
| model | `Cost` | `parse_badges` with a count of the comparisons of `find` (src/msg.rs:355-380) |
| spec | `SpecDbg` | visible characters, the Gregorian calendar day by day, times as text, equal messages |
| spec | `SpecErrors` | when two errors are the same failure, what an attempt fails with |
| spec | `SpecCmp` | dictionary order, total orders, hashes, maps looked up by text |
| spec | `SpecTimed` | sums of delays, a peer that has taken the greeting |
| spec | `SpecUnicode` | UTF-8 and White_Space by arithmetic on code points |
| facts | `*Facts` | lemmas |
| proofs | `*Proofs` | property lemmas and examples |
| theorems | `Props*` | generated statements |

## Per property

| id | model | proof |
|---|---|---|
| C01 | `find_first`, `simd_parse` generic over lanes; SSE2/AVX2/NEON masks bit by bit | mask lemmas by `N.testbit`, loop invariants over offset |
| C02 | loads return `Ub` when out of bounds/misaligned; `Array` slots | invariant: never `Ub`/`NoFuel` |
| C03 | as C01 + `TagPair` spans | chunk loop = byte-wise fold = declarative relation |
| C04 | `scalar_parse` | both equal the same fold; panic case by computation on arbitrary input |
| C05, C06 | whole `parse_inner`, accessors with slice checks | boundary lemmas from UTF-8 validity |
| C07 | u16 cast | refutation by a generic long value |
| C08-C16 | `parse_inner`, accessors | refinement to a span-free specification parser |
| C17, C18 | `Tag` enum tables | case analysis over the table |
| C19-C21 | `unescape`, `maybe_unescape` on characters | induction over characters |
| C22-C37 | every `msg/*.rs` parse function over the accessors | unfolding under the accessor refinement |
| C38, C39 | `FromStr` for u8/u64/i64, chrono range | induction over digits |
| C40 | `into_owned` field by field, Cow as Borrowed/Owned | case analysis |
| C41, C42 | direct | case analysis |
| C43-C47, C61 | builders in `write.rs` | computation + parser refinement |
| C48-C51 | `Client` state machine with scratch | invariant over histories |
| C52-C54 | `reconnect` loop over an outcome oracle | induction on tries |
| C55, C56 | line splitter over chunks + `recv` | induction over chunks |
| C57-C59 | direct | induction / case analysis |
| C60, C63 | serialisers and deserialisers as functions to/from a data tree | per-type round trip |
| C62 | unescaping getters over the typed parsers | C19 under the typed refinement |
| C64 | `connect`, builder | classification of the outcomes of the handshake |
| C65 | `reconnect`, then `recv` | the reader after the loop is that of the last attempt |
| C66 | sessions of sends, receives, reconnects | two runs in lockstep (noninterference) |
| C67 | the example program's `main`, `run`, `on_msg` | induction over the lines, C22-C28 per line |
| C68 | `utf8_valid`, `chars`, `is_char_boundary`, `is_whitespace` | characters against code points by `lia` |
| C69 | `Timed`: every await has a duration, timers fire at their deadline | erasure to the untimed model by induction, then bounds by `lia` |
| C70 | all getters over the typed parsers, borrowed and owned | typed refinement (C23-C35), C19 for names, C40 for owned copies |
| C71 | `Debug` output as trees printed by core's builders | printing is injective on trees (induction), trees determine values; the calendar by one 400-year era |
| C72 | `Display` of errors over `Debug` of messages | first differing phrase, then C71; C52/C64 for what is returned |
| C73 | derived comparisons field by field, bytes given to a hasher | fields by reflection; UTF-8 keeps the order of code points by `lia` on base-64 digits; maps by induction over insertions |
| C74-C75 | `xtask`: tasks over a function saying what each process does | a task is a sequence that stops at the first failure (compositional); trimming and words over code points, C68 |
| C76 | the deserialisers of C60, on arbitrary data | a field depends on the entries of its name only; rearranging keeps those |
| C77 | `Conn`: certificates, TCP and TLS as outcomes; the events of `reconnect` with those of `open` in their place | shape of the loop's events by induction; prefixes of the event list |
| C78 | the README's program | logged in anonymously its turns are those of the example (C67); invariant over all turns |
| C79 | `Features`: which files a selection of features and target compiles | decision tables over the conditions of the source |
| C80 | the parser on lines of the IRC grammar | refinement (C08-C16) on written lines; counterexamples by computation |
| C81 | the typed parsers on written messages | the per-type equivalences of C23-C35 read in both directions; what tag values, nicks and channels of a line cannot contain |
| C82 | handshake, `recv` and the typed parsers together | C81 for each line, C55 for the chunks; the bytes left after each answer are carried along |
| C83 | the parser on lines of any size | refinement as for C08-C16, with each bound only on the part already read; the last span is computed modulo 2^32 |
| C84 | what typed messages are made from | reading the same parts gives the same result, through `seen` for each command; that no part is too many by computing two lines for each, once and for all builds |
| C85 | where the strings of typed messages come from | each message is the image of one whose strings are proofs of where they are in the line (`LiftFacts`, shared with C71) |
| C86 | what someone writes cannot pass for anything else | the head of a line is read alike whatever its parameters are; the typed messages of two lines that differ in the text are compared field by field |
| C87 | lines cut short | the line and its beginning are read side by side; a stream and its beginning are framed side by side |
| C88 | tag values | a section with another value for one tag is read again; the typed messages of two lines with other such values are compared field by field |
| C89 | more tags | the optional and the required parts of both lines are compared type by type |
| C90 | the same text again | C56 for the calls of a program that appends what the bypass gives |
| C91 | what the reader keeps | one poll of the line stream described completely, and an invariant over all tries |
| C92 | builds | receiving, typing and the two programs are compared step by step in two builds |
| C93 | panics of the programs | C05, C52, C92 and the names shown, for one turn; then induction over the turns |
| C94 | long tag values in typed messages | C07 for every tag a command needs, then C84 |
| C95 | printed and serialised messages compared | field by field; numbers without leading zeros |
| C96 | rounds of the loops of the vector parser | a unit of fuel is one evaluation of the loop's condition |
| C97 | comparisons of names when badges are read | one comparison is one call of the closure given to `find` |

## Trusted base

1. The Coq 8.16.1 kernel (including `vm_compute`, used in examples and table lemmas).
2. Axioms: every property theorem prints "Closed under the global context". The seven `Coq.ssr.ssrunder.Under_rel.*`
   names which `coqchk -o` lists belong to the standard library's `ssr` directory, which `Coq.Setoids.Setoid` (and so
   `String` and `Lia`) requires; no property theorem depends on them.
3. That the model is the code. It was written by hand from the text of `/repo`; nothing was compiled or run. In
   particular the following are summaries of code outside `/repo`, or of hardware:
   * SIMD intrinsics: by lane semantics (`Wide.v`), including the NEON narrowing shift.
   * `core`/`std`: `str` slicing, `find`, `split_once`, `strip_prefix`, `parse::<u8/u64/i64>`, `Duration` arithmetic,
     `String::from_utf8` validity, `Vec`/`SmallVec`/`Array` as lists. Allocation never fails.
   * `chrono`: `DateTime::from_timestamp_millis` by the range of years it supports (C39 proves the bounds used are the
     calendar's); its serde format is a theorem argument (`codec`) with the hypotheses `keeps_times`/`settles`.
   * `serde`: the derive macros' documented data model for self-describing formats: struct = map, unit variant = its name,
     newtype variant = one-key map, unknown keys ignored, duplicate keys refused, missing `Option` = `None`. Formats' own text
     syntax is not modelled. Enums of other shapes, and non-self-describing formats, are out of scope.
   * `tokio`: `write_all` writes some initial part and then fails, is dropped, or writes everything; `flush` (only the handshake calls it) either
     succeeds, fails or is dropped; `Lines`/`Fuse` deliver the lines of the bytes read, keep the partial line over cancellation, and end for
     good at end of file. Not modelled: after an I/O error in the middle of a line, tokio's `Lines` keeps a stale byte
     count, so that a later read on the same stream may give a spurious line (`next_line` after an error). Invalid UTF-8 on the stream is
     an `InvalidData` error of `recv`, as in tokio; C55 includes it (`results`).
   * time: in `Client` a timeout is one of the outcomes of an await. In `Timed` the network is given with times and the
     timers decide: computing takes no time, when a timer fires is an argument (`fire`; theorems say how late or early it may
     be), and a result available at the moment the timer fires is taken, as `Timeout::poll` polls the future first.
   * `Debug` output (C71): core's `DebugStruct`/`DebugTuple`/`DebugList` with `{:?}` and `{:#?}`, `str` escapes, `Duration`, and
     chrono's `DateTime<Utc>` are written from their documentation; the model reproduces the 48 recorded snapshots of the crate
     byte for byte. Which characters beyond ASCII are printed unescaped is an argument (`shown`).
   * `Hash`/`Ord` (C73): `str` is ordered by `memcmp` then length and hashed as its bytes and 0xff; an enum by the position of its
     variant (hashed as 8 bytes, a 64-bit target) and then its payload.
   * `rand`: the digits drawn are an argument.
   * Sizes: positions are unbounded naturals except where the code casts them. Theorems about lines assume less than 4 GiB
     where `u32` spans matter (`small_*` hypotheses); C06/C07 show what happens beyond the 16-bit limit of a tag, C83 what
     happens when the parameters end at 4 GiB or later.
4. The English of `properties.jsonl` against the statements, and the `Spec*.v` definitions.

`src/common/channel.rs` is modelled (`Channel`, `ChannelRef`: C42, parts of C71 and C73) although no `mod` declaration names it at this
commit (C79): it is in the repository but in no build.

Not modelled: TLS, TCP, DNS and certificates themselves (`Conn` has what is asked of them and which outcome leads where), `tracing` output except as the
log of what a client sends, `argp` (the command line of `xtask`), `benches`, `src/irc/wide/x86_64/avx512.rs` (not compiled), Cargo and
the compiler (`Features` has the `cfg` conditions and what each file needs, nothing of types or versions), memory layout and lifetimes (safe Rust's guarantees are assumed; the two unsafe areas,
SIMD loads and the uninitialised tag array, are modelled with `Ub`).
