{
 "C01": {
  "note": "All four parser builds (SSE2, AVX2, NEON at any address, scalar) are modelled; the tag section end is stated as the first space."
 },
 "C02": {
  "note": "Out-of-bounds or misaligned vector loads, reads of uninitialised slots and bad discriminants are an explicit Ub outcome of the model; it never occurs, and neither does running out of fuel."
 },
 "C03": {
  "note": "tag_section is an independent inductive reading of the section, proved to be unique."
 },
 "C04": {
  "note": "Equality of the two builds on every other text, and the two different outcomes on an unterminated section."
 },
 "C05": {
  "note": "The scalar build additionally panics on an unterminated section."
 },
 "C06": {
  "note": "The claim without the 65536-byte limit is refuted (c06_long_value_panics_refuted)."
 },
 "C07": {
  "note": "Holds below 65536 bytes; the unlimited claim is refuted (c07_long_value_refuted); c07_tag_value gives the outcome for every length."
 },
 "C09": {
  "note": "For 353 and 366 channel() is computed from the params instead, see C13."
 },
 "C11": {
  "note": "The general round trip for arbitrary prefix text is refuted (c11_print_any_prefix_refuted)."
 },
 "C14": {
  "note": "The documented reading (last colon) is refuted."
 },
 "C17": {
  "note": "Holds for every name but one, for which it is refuted (c17_canonical_amount_refuted)."
 },
 "C18": {
  "note": "The documentation's claim is refuted; the positive theorem holds for every tag."
 },
 "C19": {
  "note": "escape is an independent specification on characters; the comma mark U+2E1D is excluded because unescape maps it to a comma."
 },
 "C20": {
  "note": "The unrestricted agreement is refuted (c20_agree_refuted); c20_agree_iff says exactly when they agree."
 },
 "C22": {
  "note": "c22_no_panic excludes only the followers-only overflow of debug builds, see C33."
 },
 "C26": {
  "note": "That a timeout is always reported as one is refuted (c26_timeout_reported_refuted)."
 },
 "C31": {
  "note": "That badges are kept is refuted: they need a badge-info tag (c31_badges_kept_refuted)."
 },
 "C33": {
  "note": "Holds up to 2^63-1 seconds; refuted beyond (c33_room_state_refuted), with both builds' behaviour in c33_followers_overflow."
 },
 "C37": {
  "note": "The round trip of parsed badges is proved; for arbitrary values of the types it is refuted, with the exact loss in c37_data_round_trip."
 },
 "C39": {
  "note": "chrono's range is a constant of the model; c39_range_is_calendar derives it from the calendar."
 },
 "C42": {
  "note": "Reading a ChannelRef back from copied text is refuted (c42_ref_from_copy_refuted). No mod declaration names src/common/channel.rs at this commit (c79_orphans): the type is in the repository but in no build."
 },
 "C44": {
  "note": "privmsg adds no # (c44_adds_hash_refuted)."
 },
 "C45": {
  "note": "Exactly the arguments without line feed send one line; injection is refuted/confirmed by c45_injection_refuted and c45_tags_not_escaped_refuted."
 },
 "C46": {
  "note": "join_all of nothing still sends a JOIN (c46_join_nothing_refuted)."
 },
 "C48": {
  "note": "Holds for histories of send calls; that each call arrives as a line of its own is refuted (c48_own_line_refuted), and so is isolation across failed reconnects (C50)."
 },
 "C50": {
  "note": "Isolation across reconnects is refuted (c50_isolation_refuted); what the buffer can hold and what that does is proved."
 },
 "C51": {
  "note": "small_answers: the lines the server sends are below 4 GiB. c51_panics_iff: a line with more than 128 tags makes the handshake panic."
 },
 "C52": {
  "note": "max_tries Some(0) does not mean unlimited (c52_zero_means_unlimited_refuted). small_oracle: the server's lines are below 4 GiB. c52_panics_iff says when it returns at all."
 },
 "C53": {
  "note": "The first delay is not capped (c53_never_above_max_refuted). small_oracle: the server's lines are below 4 GiB."
 },
 "C54": {
  "note": "A connection lost while waiting for the answers is not retried (c54_lost_connection_retried_refuted). small_oracle: lines below 4 GiB."
 },
 "C55": {
  "note": "Every byte stream, including invalid UTF-8, which gives an InvalidData error for its line. tokio's stale count after an I/O error inside a line is not modelled (DESIGN.md)."
 },
 "C59": {
  "note": "A reset connection is not a disconnect (c59_any_lost_connection_refuted)."
 },
 "C60": {
  "note": "keeps_times: chrono reads back the timestamps it wrote; months_are_numbers: exactly the case in which it works, the rest is c60_fails and c60_every_message_refuted."
 },
 "C62": {
  "note": "Two getters do not unescape (c62_all_names_unescaped_refuted)."
 },
 "C63": {
  "note": "settles: chrono reads back what it writes."
 },
 "C64": {
  "note": "Opening the stream is an outcome (TLS name, TLS, I/O error, timeout); small_answers: lines below 4 GiB."
 },
 "C66": {
  "note": "Without whole greetings it is refuted (c66_any_session_refuted), as the old greeting stays in the buffer (C50)."
 },
 "C67": {
  "note": "Lines below 4 GiB with short tags (parsed), one turn of the loop per line; Ctrl-C only as being stopped. Survival of every line is refuted (c67_survives_refuted)."
 },
 "C69": {
  "note": "Computing takes no time; timers fire when a parameter says, with any bound on how late (c69_tokio: whole milliseconds). reconnect_ends and reconnect_default assume answers below 4 GiB. Connecting within the timeout, and waiting the whole timeout for answers, are refuted."
 },
 "C70": {
  "note": "Payload types of enum variants are not types of their own in the model; their getters are functions of the enum. Lists stand for iterators. For ROOMSTATE the followers-only minutes must fit (see C33). Versions of the four plain badges are refuted."
 },
 "C71": {
  "note": "core's builders, str/char escapes, Duration and chrono's DateTime output are modelled from their documentation and checked against all 48 recorded snapshots (Snapshots.v, tests). Which characters beyond ASCII count as printable is an argument. IRC lines below 4 GiB with short tags (parsed)."
 },
 "C72": {
  "note": "Texts of other libraries (io::Error, InvalidDnsNameError, rustls) are arbitrary arguments; c72_tells assumes that they do not look like the crate's own phrases (`ordinary`), c72_one_line that they have no control characters. Quoted messages: lines below 4 GiB with short tags (`readable`)."
 },
 "C73": {
  "note": "Derived impls are modelled by the documented behaviour of the derive macros; c73_hashes assumes UTF-8 texts, c73_printed strings that are UTF-8 (texts). The hash table and the sorted map of c73_lookup are small specifications (SpecCmp.v), not std's data structures. c73_same_text_refuted and c73_alphabetical_refuted state what does not hold."
 },
 "C74": {
  "note": "Git and the file system are functions given to the model; what git itself does is not modelled. Refuted: the range's link names --until (c74_link_ends_at_until_refuted). With no commits in the range, git show is started with an empty name (c74_no_commits)."
 },
 "C75": {
  "note": "Processes are functions of those started before. Refuted: has_cargo_subcmd never panics (c75_never_panics_refuted)."
 },
 "C76": {
  "note": "About the data tree of the model: how a format turns text into it (and so whether a duplicate key reaches the deserialiser) is not modelled. A duration with a fraction of a second has no counterpart in the model."
 },
 "C77": {
  "note": "What rustls and the operating system do is given; that TLS refuses a peer without the name is theirs. no_dns_error assumes that ServerName::try_from accepts RFC 1123 host names and answers below 4 GiB."
 },
 "C78": {
  "note": "As C67: lines below 4 GiB with short tags in answers, stops and rejoins; only_polite and like_example need neither."
 },
 "C79": {
  "note": "Building is modelled as: no compile_error!, and every item of another file and every crate used is there. README's fallback and building every selection of features are refuted."
 },
 "C80": {
  "note": "Grammar of RFC 1459 section 2.3.1 with IRCv3 message-tags, written down in SpecRfc without use of the parser; names are only kept free of delimiters, so more lines are covered than the grammar has. Spaces at the end of a line without trailing parameter are included. For lines shorter than 65536 bytes."
 },
 "C81": {
  "note": "How each of the fourteen kinds of messages is written, and which values a line can carry, is laid down in SpecWrite without use of the parsers. The written line must be valid UTF-8, below 4 GiB, with tag values below 64 KiB. Lines whose followers-only minutes do not fit in seconds are excluded (C33)."
 },
 "C82": {
  "note": "Messages are those of C81, each on a line without line feed. Each of the two answers is complete when the wait for it ends; the rest may arrive at any time. After a reconnect the greeting may be repeated on the wire (C50), so only what is received is claimed."
 },
 "C83": {
  "note": "Lines whose tags, prefix, command or channel themselves reach beyond 4 GiB are not covered. That the parameters of every accepted line can be read, and that what is read was written, are refuted."
 },
 "C84": {
  "note": "For lines within the limits of the parser (C06, C07, C83)."
 },
 "C85": {
  "note": "For lines within the limits of the parser (C06, C07, C83). That no string is made up is refuted."
 },
 "C86": {
  "note": "The text is what follows the first colon of the parameters. That colon is assumed to be there, and for a whisper to follow a space; without the space the text can bring in a recipient, which is refuted. Line breaks in the text are a matter of reading lines (C55)."
 },
 "C87": {
  "note": "That a cut line means what the whole one does is refuted: a ban becomes the clearing of the chat, another user is banned, another channel is joined."
 },
 "C88": {
  "note": "Free tags are display names, the system message, the text replied to, and the names of plans and promotions. That spaces and semicolons need no escapes is refuted."
 },
 "C89": {
  "note": "That a ROOMSTATE stays readable in a debug build is refuted (followers-only overflows), and so is that a ban stays a ban."
 },
 "C90": {
  "note": "Composes the bypass, the sender and the reader. That different texts stay different is refuted: a text may end in the appended bytes."
 },
 "C91": {
  "note": "About the bytes held by BufReader and Lines together. That there is a bound on them is refuted: without a line feed everything is kept."
 },
 "C92": {
  "note": "A build is a parser (SSE2, AVX2, NEON at any address, scalar) and a profile (debug, release). That all builds always do the same is refuted by the two cases in which one panics."
 },
 "C93": {
  "note": "For less than 4 GiB at once and tags below 64 KiB (C07, C83)."
 },
 "C94": {
  "note": "Keys below 64 KiB, lines below 4 GiB. Commands without a typed form keep the line itself (C22)."
 },
 "C95": {
  "note": "How a format writes the serialised data as text, and how chrono serialises a time, are not modelled (C60)."
 },
 "C96": {
  "note": "Only the loops of simd.rs; the scalar parser looks at each byte once by construction. A unit of fuel in the model is one evaluation of the loop's condition."
 },
 "C97": {
  "note": "Counts calls of the closure given to find, not the bytes each comparison looks at. A tag value holds at most 65535 bytes (C06), so on a parsed line n is at most 21844."
 }
}
