{"id": "C01", "title": "Parsing does not depend on where the line sits in memory or which SIMD backend is compiled in", "statement": "With the `simd` feature, IrcMessageRef::parse / IrcMessage::parse give the same result for the same text whatever the address of the text and whichever of the SSE2, AVX2 and NEON backends is used; in particular the tag section is always taken to end at the first space of the line.", "quantifier": "every input string, every base address, every one of the three enabled vector backends", "why_tests_cant": "the scan changes path with length, alignment and distance to the end of the buffer; tests only hit the addresses the allocator happens to give and only the host's backend", "anchors": ["src/irc/tags/simd.rs: find_first, parse", "src/irc/wide/x86_64/sse2.rs", "src/irc/wide/x86_64/avx2.rs", "src/irc/wide/aarch64/neon.rs"]}
{"id": "C02", "title": "The unsafe vector loads never read outside the input", "statement": "Parsing any text with the `simd` feature performs only vector loads that lie completely inside the text (aligned loads only at aligned addresses), terminates, and never reads uninitialised tag slots or transmutes an invalid discriminant.", "quantifier": "every input string (also malformed ones and ones with more than 128 tags), every base address, every vector backend", "why_tests_cant": "an out-of-bounds vector load usually goes unnoticed in a test run; absence of UB is a statement about all lengths and alignments", "anchors": ["src/irc/tags/simd.rs: find_first, parse, parse_chunk", "src/irc/wide/*: load_aligned, load_unaligned, load_unaligned_remainder", "src/irc/tags.rs: Array"]}
{"id": "C03", "title": "tags() yields exactly the key=value pairs of the tag section, in order", "statement": "For a line `@<section> <rest>` with at most 128 pairs and with every key and value shorter than 65536 bytes, tags() yields exactly the pairs obtained by reading the section left to right as key up to the next `=` and value up to the next `;` (or the end), in source order, duplicates included; a trailing piece without `=` yields nothing.", "quantifier": "every input string within the stated size limits, both the SIMD and the scalar build", "why_tests_cant": "the section can be any of infinitely many strings and pairs straddle vector chunks at every possible offset", "anchors": ["src/irc/tags/simd.rs: parse, parse_chunk", "src/irc/tags/scalar.rs: parse", "src/irc/tags.rs: TagPair::get", "src/irc.rs: tags"]}
{"id": "C04", "title": "The SIMD and the scalar build parse alike, except on an unterminated tag section", "statement": "Building with or without the `simd` feature gives the same result for every text, except when the text starts with `@` and contains no space: then the SIMD build returns a message whose command is the whole text, and the scalar build panics.", "quantifier": "every input string, every address and backend", "why_tests_cant": "equivalence of two implementations over all strings; the existing tests run only one of them at a time", "anchors": ["src/irc/tags/simd.rs: parse", "src/irc/tags/scalar.rs: parse", "src/irc.rs: parse_inner"]}
{"id": "C05", "title": "Exactly which lines make parsing panic", "statement": "IrcMessage::parse of a valid string (shorter than 4 GiB) in the SIMD build panics if and only if its tag section holds more than 128 key=value pairs; every other string returns normally with Some or None.", "quantifier": "every valid UTF-8 string shorter than 2^32 bytes", "why_tests_cant": "panic freedom is a statement about all inputs; the network peer chooses the input", "anchors": ["src/irc.rs: parse_inner", "src/irc/tags.rs: Array::push", "src/irc/prefix.rs: parse", "src/irc/command.rs: parse", "src/irc/channel.rs: parse", "src/irc/params.rs: parse"]}
{"id": "C06", "title": "Accessors of a parsed message never panic", "statement": "After a successful parse of a valid string shorter than 4 GiB whose tag keys and values are each shorter than 65536 bytes, raw, tags, tag, prefix, command, channel, params and text all return without panicking. Without the 65536-byte limit this is false: a longer tag value can make tag() and tags() panic.", "quantifier": "every valid UTF-8 string within the limits, every tag looked up", "why_tests_cant": "slicing a str panics off a character boundary, so it depends on every byte of the input", "anchors": ["src/irc.rs: tags, tag, prefix, command, channel, params, text", "src/common.rs: Span", "src/irc/tags.rs: TagPair"]}
{"id": "C07", "title": "Tag values of any length are returned complete", "statement": "A tag value is returned exactly as written whenever it is shorter than 65536 bytes; from 65536 bytes on the length is taken modulo 65536 and a shorter string is silently returned (the unlimited claim is refuted).", "quantifier": "every single-tag line, every value length", "why_tests_cant": "needs every length; tests use realistic short values", "anchors": ["src/irc/tags.rs: TagPair", "src/irc/tags/simd.rs: parse", "src/irc/tags/scalar.rs: parse"]}
{"id": "C08", "title": "A line is rejected exactly when its command is empty", "statement": "IrcMessageRef::parse returns None if and only if, after removing a complete tag section and a complete prefix, the text is empty or starts with a space; it never rejects a line for any other reason.", "quantifier": "every valid UTF-8 string shorter than 2^32 bytes with at most 128 tags", "why_tests_cant": "an if-and-only-if over all strings", "anchors": ["src/irc.rs: parse_inner", "src/irc/command.rs: parse"]}
{"id": "C09", "title": "Writing a message and parsing it gives the same message back", "statement": "For every list of tags, optional prefix, command, optional channel and optional params that are well formed (no delimiter characters inside the parts), parsing `@k=v;.. :nick!user@host COMMAND #channel params` returns exactly those parts through tags(), prefix(), command(), channel() and params().", "quantifier": "every well-formed abstract message within the size limits", "why_tests_cant": "ranges over unbounded lists and strings; a handful of snapshots cannot cover combinations of absent parts", "anchors": ["src/irc.rs: IrcMessageRef::parse and accessors"]}
{"id": "C10", "title": "Nothing of the line is lost or invented", "statement": "When parse succeeds, the raw text equals the concatenation of: the tag section with its `@` and space (if recognised), the prefix text with its `:` and space (if recognised), the command text, the channel, the params, with single spaces between; every string handed out is a contiguous part of the raw text and valid UTF-8, and raw() is the input.", "quantifier": "every valid UTF-8 string shorter than 2^32 bytes", "why_tests_cant": "conservation over all inputs", "anchors": ["src/irc.rs: parse_inner, raw", "src/common.rs: Span"]}
{"id": "C11", "title": "Prefix grammar", "statement": "For a source prefix `host`, `nick@host` or `nick!user@host` (no `!`, `@`, space in the parts) prefix() returns exactly these parts and printing the Prefix gives the source text back; user is never present without nick; a prefix with no following space is not recognised.", "quantifier": "every nick, user, host", "why_tests_cant": "unbounded strings, and all placements of the delimiters", "anchors": ["src/irc/prefix.rs: parse, Prefix, Display", "src/irc.rs: prefix"]}
{"id": "C12", "title": "Command classification is exact", "statement": "command().as_str() is exactly the command word in the text; a named variant is returned if and only if the word is the variant's name; Command::Other never holds the name of a known command, an empty string or a space.", "quantifier": "every parsed line", "why_tests_cant": "all words, including those one byte away from a known command", "anchors": ["src/irc/command.rs: parse, RawCommand::get, Command::as_str"]}
{"id": "C13", "title": "channel() is the channel word", "statement": "For commands other than 353 and 366, channel() is the word directly after the command when it starts with `#`, and None otherwise; for 353 it is the third and for 366 the second Unicode-whitespace separated word of the params.", "quantifier": "every parsed line", "why_tests_cant": "all lines, all whitespace characters", "anchors": ["src/irc/channel.rs: parse", "src/irc.rs: channel"]}
{"id": "C14", "title": "text() of a borrowed message", "statement": "IrcMessageRef::text() is None exactly when there are no params; otherwise it is what follows the first `:` of the params, or all of the params when there is no `:`. (The doc says `after the last :`, which is refuted: text with a colon inside is kept whole.)", "quantifier": "every parsed line", "why_tests_cant": "all params strings", "anchors": ["src/irc.rs: IrcMessageRef::text"]}
{"id": "C15", "title": "Owned and borrowed messages answer alike", "statement": "IrcMessage::parse succeeds exactly when IrcMessageRef::parse does, and raw, tags, tag, prefix, command, channel and params agree; into_owned followed by as_ref gives the same message. text() agrees whenever the params are absent or contain `:`, and differs in every other case (owned None, borrowed all params).", "quantifier": "every input string, every tag looked up", "why_tests_cant": "a relation between two implementations over all inputs", "anchors": ["src/irc.rs: IrcMessage, into_owned, as_ref"]}
{"id": "C16", "title": "tag() returns the first matching tag", "statement": "tag(t) is the value of the first tag, in source order, whose key is the string name of t, and None if no tag has that key; the value is not unescaped.", "quantifier": "every parsed line within the size limits, every tag looked up (named variant, string, Unknown)", "why_tests_cant": "all tag lists, with duplicates", "anchors": ["src/irc.rs: tag", "src/irc/tags.rs: TagPair, Tag::as_str"]}
{"id": "C17", "title": "Looking a tag up by its kebab-case name", "statement": "For every name s other than `pinned-chat-paid-canonical-amount`, tag(s) is the value of the first tag with key s, because Tag::parse(s).as_str() is s. For `pinned-chat-paid-canonical-amount` this is false: the lookup reads `pinned-chat-paid-amount` instead (refuted with a line).", "quantifier": "every string used as tag name, every parsed line", "why_tests_cant": "all names, not only those in the test corpus", "anchors": ["src/irc/tags.rs: tags_def!, Tag::parse, Tag::as_str", "src/irc.rs: tag"]}
{"id": "C18", "title": "Tag::Unknown lookups", "statement": "The documentation says Tag::Unknown(name) will not match the named variant; in fact tag(Tag::Unknown(as_str(t))) equals tag(t) for every message and every t.", "quantifier": "every parsed line, every tag", "why_tests_cant": "all messages and names", "anchors": ["src/irc.rs: tag (doc comment)", "src/irc/tags.rs: Tag::as_str"]}
{"id": "C19", "title": "Unescaping inverts escaping", "statement": "Escaping a text by the Twitch rules (`;`->`\\:`, space->`\\s`, `\\`->`\\\\`, CR->`\\r`, LF->`\\n`) and calling unescape returns the text, for every text without U+2E1D; the escaped text contains no `;`, space, CR or LF, so it survives as a tag value: a line carrying it gives the original back through tag() and unescape. Likewise for maybe_unescape when the text also contains no U+2E1D.", "quantifier": "every string without U+2E1D", "why_tests_cant": "inverse over all strings", "anchors": ["src/irc.rs: unescape", "src/lib.rs: maybe_unescape, actually_unescape"]}
{"id": "C20", "title": "unescape and maybe_unescape", "statement": "maybe_unescape returns its input unchanged exactly when it has no backslash; the two functions agree exactly when no U+2E1D occurs before the first backslash (or in a text without backslash); they are refuted to agree in general.", "quantifier": "every valid UTF-8 string", "why_tests_cant": "agreement of two functions on all strings", "anchors": ["src/irc.rs: unescape", "src/lib.rs: maybe_unescape, actually_unescape"]}
{"id": "C21", "title": "What unescape does to every input", "statement": "unescape never grows the text, always returns valid UTF-8, leaves texts without `\\` and U+2E1D unchanged, drops a lone trailing backslash, and a backslash before a character that is not an escape stays pending for the next escape character (`\\xs` becomes `x `).", "quantifier": "every valid UTF-8 string", "why_tests_cant": "all strings, all positions of the pending flag", "anchors": ["src/irc.rs: unescape", "src/lib.rs: actually_unescape"]}
{"id": "C22", "title": "Typed dispatch", "statement": "as_typed / Message::parse returns the variant named by the command and never a different one; commands without a typed form give Message::Other holding the same message and RECONNECT gives Reconnect, both without any possibility of error; each X::from_irc refuses every message whose command is not X.", "quantifier": "every parsed line", "why_tests_cant": "all commands times all payloads", "anchors": ["src/msg.rs: Message::from_irc, Message::parse, FromIrc", "src/msg/*.rs: parse"]}
{"id": "C23", "title": "Join and Part", "statement": "A JOIN/PART line is accepted exactly when it has a channel and a prefix with nick; channel() and user() are these two.", "quantifier": "every parsed JOIN/PART line", "why_tests_cant": "all lines", "anchors": ["src/msg/join.rs: Join::parse", "src/msg/part.rs: Part::parse"]}
{"id": "C24", "title": "Ping and Pong", "statement": "Every PING/PONG line is accepted and nonce() is the message text.", "quantifier": "every parsed PING/PONG line", "why_tests_cant": "all lines", "anchors": ["src/msg/ping.rs: Ping::parse", "src/msg/pong.rs: Pong::parse"]}
{"id": "C25", "title": "Notice", "statement": "A NOTICE is accepted exactly when it has params; text() is the message text, channel() the channel if any, id() the `msg-id` tag if any.", "quantifier": "every parsed NOTICE line", "why_tests_cant": "all lines", "anchors": ["src/msg/notice.rs: Notice::parse"]}
{"id": "C26", "title": "ClearChat action", "statement": "CLEARCHAT is Clear exactly when there is no text; with text it is a TimeOut exactly when `ban-duration` is present and a valid u64 (an unparsable duration turns a timeout into a permanent Ban), with user = text and id = `target-user-id`; target() is the text. Accepted exactly when channel, room-id, valid tmi-sent-ts, and with a text also target-user-id, are present.", "quantifier": "every parsed CLEARCHAT line", "why_tests_cant": "all combinations of present/absent/invalid tags", "anchors": ["src/msg/clear_chat.rs: ClearChat::parse, target"]}
{"id": "C27", "title": "ClearMsg", "statement": "CLEARMSG is accepted exactly when text, channel, room-id, login, target-msg-id and a valid tmi-sent-ts are present; the getters return exactly these, with the /me wrapper removed and reported.", "quantifier": "every parsed CLEARMSG line", "why_tests_cant": "all combinations", "anchors": ["src/msg/clear_msg.rs: ClearMsg::parse"]}
{"id": "C28", "title": "Privmsg required fields", "statement": "PRIVMSG is accepted exactly when text, channel, prefix nick, room-id, id, user-id, display-name and a valid tmi-sent-ts are present, and the getters return exactly those values (name unescaped); optional fields never cause rejection.", "quantifier": "every parsed PRIVMSG line", "why_tests_cant": "all combinations of present and absent parts", "anchors": ["src/msg/privmsg.rs: Privmsg::parse"]}
{"id": "C29", "title": "Privmsg optional fields", "statement": "reply_to() is present exactly when all seven reply tags are; pinned_chat() exactly when amount and exponent are i64, currency and is-system-message present and level one of ONE..TEN; bits exactly when a valid u64; color and custom_reward_id exactly when non-empty; badges when both badges and badge-info are present; each with the value of its own tag.", "quantifier": "every parsed PRIVMSG line", "why_tests_cant": "exponentially many combinations", "anchors": ["src/msg/privmsg.rs: Privmsg::parse"]}
{"id": "C30", "title": "/me messages", "statement": "A text is an action exactly when it is U+0001 `ACTION ` body U+0001, and then the text is the body; any other text is returned unchanged.", "quantifier": "every text", "why_tests_cant": "all strings incl. half-open wrappers", "anchors": ["src/msg.rs: parse_message_text"]}
{"id": "C31", "title": "Whisper", "statement": "WHISPER is accepted exactly when its params contain ` :` and user-id, display-name and the prefix nick are present; recipient and text are the parts around the first ` :`. Badges are reported only if a `badge-info` tag is also present.", "quantifier": "every parsed WHISPER line", "why_tests_cant": "all lines", "anchors": ["src/msg/whisper.rs: Whisper::parse"]}
{"id": "C32", "title": "GlobalUserState and UserState", "statement": "GLOBALUSERSTATE is accepted exactly with user-id and display-name, USERSTATE exactly with channel and display-name; emote sets are the comma separated parts of emote-sets in order (one empty set for an empty tag, none without the tag); color only when non-empty.", "quantifier": "every parsed line of these commands", "why_tests_cant": "all lists", "anchors": ["src/msg/global_user_state.rs", "src/msg/user_state.rs"]}
{"id": "C33", "title": "RoomState is a partial update", "statement": "ROOMSTATE is accepted exactly with channel and room-id; each setting is reported exactly when its tag is present (and numeric for followers-only and slow); boolean settings are true exactly for decimal values 1..255; followers-only n>0 minutes gives n*60 seconds, 0 gives no minimum, negative gives disabled. For n > i64::MAX/60 the multiplication overflows: a debug build panics and a release build reports a wrapped duration (refuted for all i64).", "quantifier": "every parsed ROOMSTATE line, every i64", "why_tests_cant": "all i64 values; overflow is at the far end", "anchors": ["src/msg/room_state.rs: RoomState::parse", "src/msg.rs: parse_bool"]}
{"id": "C34", "title": "UserNotice event and anonymity", "statement": "For a USERNOTICE the event variant is determined by msg-id (and the anonymous gifter id for submysterygift); sender() is None exactly for anonsubgift, anonsubmysterygift, anongiftpaidupgrade, unknown msg-ids, and subgift/submysterygift from user 274598607; otherwise it is (user-id, login, display-name) and all three are required. event_id() is always the msg-id.", "quantifier": "every parsed USERNOTICE line", "why_tests_cant": "all event ids and tag combinations", "anchors": ["src/msg/user_notice.rs: UserNotice::parse"]}
{"id": "C35", "title": "UserNotice event payload", "statement": "Each event's numbers and strings come from the documented msg-param tag of that event; a missing or non-numeric required number makes the parse fail; streak months 0 is reported as None; promotion is present exactly when both promo tags are.", "quantifier": "every parsed USERNOTICE line", "why_tests_cant": "all combinations", "anchors": ["src/msg/user_notice.rs: UserNotice::parse, parse_promotion"]}
{"id": "C36", "title": "Badges", "statement": "Badges are the `name/version` items of the badges tag in order, items without `/` skipped, each paired with the first badge-info value of the same name; subscriber months are the badge-info number, 1 if absent or not a u64.", "quantifier": "every badges and badge-info string, and every parsed line of the five message types with badges", "why_tests_cant": "all lists", "anchors": ["src/msg.rs: parse_badges, From<BadgeData> for Badge"]}
{"id": "C37", "title": "Badge <-> BadgeData", "statement": "Badge -> BadgeData -> Badge is the identity on every badge that parsing can produce except that a subscriber badge keeps its months; BadgeData -> Badge -> BadgeData preserves the name always, and everything for badges other than staff, turbo, broadcaster, moderator (version and extra lost) and subscriber without extra (extra becomes 1).", "quantifier": "every badge", "why_tests_cant": "all names and versions", "anchors": ["src/msg.rs: From<Badge> for BadgeData, From<BadgeData> for Badge, as_badge_data"]}
{"id": "C38", "title": "Numbers are read exactly", "statement": "Every numeric field is read as the exact decimal value of its tag with an optional `+` (and `-` for i64); out-of-range values, empty strings and any other character are treated as absent/invalid, never wrapped or saturated.", "quantifier": "every string, for u8, u64, i64", "why_tests_cant": "all digit strings, in particular around the type limits", "anchors": ["src/msg.rs: parse_bool, parse_duration, parse_timestamp", "src/msg/*.rs: parse().ok()"]}
{"id": "C39", "title": "Timestamps", "statement": "A tmi-sent-ts value is accepted exactly when it is an i64 number of milliseconds inside chrono's range, and the timestamp is that number of milliseconds.", "quantifier": "every string", "why_tests_cant": "all i64", "anchors": ["src/msg.rs: parse_timestamp"]}
{"id": "C40", "title": "into_owned keeps every field", "statement": "For every typed message type, into_owned returns a message equal to the original (PartialEq, hence all getters agree) whose strings are all owned.", "quantifier": "every value of all 13 typed message types", "why_tests_cant": "every field of every value; a swapped field in a copy is invisible when test data repeats", "anchors": ["src/msg/*.rs: into_owned", "src/msg.rs: maybe_clone"]}
{"id": "C41", "title": "Hype chat level conversions", "statement": "as_str/FromStr and u8/TryFrom<u8> are mutually inverse on the ten levels, every other string or u8 is refused, and the transmute only ever sees valid discriminants.", "quantifier": "every string, every u8", "why_tests_cant": "all strings", "anchors": ["src/msg/privmsg.rs: PinnedChatLevel"]}
{"id": "C42", "title": "Channel names", "statement": "ChannelRef::parse and Channel::parse accept exactly the strings starting with `#` and keep them unchanged; converting between them and (de)serialising keeps the string.", "quantifier": "every string", "why_tests_cant": "all strings", "anchors": ["src/common/channel.rs"]}
{"id": "C43", "title": "send_raw only sends terminated messages", "statement": "send_raw writes its argument, whole and unchanged, exactly when it ends with CRLF; otherwise it returns InvalidMessage and writes nothing.", "quantifier": "every string, every I/O outcome", "why_tests_cant": "all strings", "anchors": ["src/client/write.rs: send_raw, RawMessage"]}
{"id": "C44", "title": "privmsg wire format", "statement": "privmsg(ch, text) with optional reply_to/client_nonce sends one line which a conforming peer (this crate's parser) reads back as PRIVMSG with the same channel, text, and tags, for channels starting with `#` and without spaces, values without `;` and space; whatever the text is as long as it has no CR/LF.", "quantifier": "every channel, text, reply id and nonce within the stated alphabet", "why_tests_cant": "all strings", "anchors": ["src/client/write.rs: Privmsg::send, Tag, Channel", "src/common.rs: Join"]}
{"id": "C45", "title": "One call sends one line", "statement": "privmsg, ping, pong, join and join_all send exactly one line when no argument contains LF. Arguments are not sanitised: an argument with CRLF sends several commands (refuted), and `;` or space in a reply id or nonce corrupts the tags (refuted).", "quantifier": "every argument string", "why_tests_cant": "all strings", "anchors": ["src/client/write.rs"]}
{"id": "C46", "title": "join and join_all", "statement": "join(c) sends `JOIN #c`, never doubling the `#`; join_all sends all channels in order, comma separated; peers reading the line see exactly the given channel list (for names without comma/space/CRLF).", "quantifier": "every list of channels", "why_tests_cant": "all lists", "anchors": ["src/client/write.rs: join, join_all, Channel"]}
{"id": "C47", "title": "pong echoes the ping", "statement": "For every received PING line the PONG sent by pong(&ping) carries exactly the nonce of that line (or none), as read by this crate's parser.", "quantifier": "every PING line", "why_tests_cant": "all nonces", "anchors": ["src/client/write.rs: ping, pong", "src/msg/ping.rs"]}
{"id": "C48", "title": "Sends do not leak into each other", "statement": "Starting from a freshly connected client, after any sequence of sends, each succeeding, failing or being cancelled at any await point, every later send puts exactly its own bytes on the wire.", "quantifier": "every finite history of send calls with every I/O outcome and cancellation point", "why_tests_cant": "histories and cancellation points", "anchors": ["src/client/macros.rs: with_scratch", "src/client/write.rs"]}
{"id": "C49", "title": "Handshake bytes", "statement": "A handshake on a clean client sends exactly CAP REQ for commands, tags and membership, PASS with the token prefixed by `oauth:` exactly once, and NICK login, in this order, and leaves the buffer clean.", "quantifier": "every login and token, anonymous or not", "why_tests_cant": "all tokens", "anchors": ["src/client.rs: handshake"]}
{"id": "C50", "title": "A failed handshake must not pollute later traffic", "statement": "If writing the handshake fails or is cancelled, the handshake text stays in the client's buffer: the next reconnect attempt sends the handshake twice, and the next send is preceded by the old handshake including the token (the isolation claim is refuted for reconnect; it holds from every state whose buffer is empty).", "quantifier": "every history of reconnects and sends with every I/O outcome", "why_tests_cant": "needs an I/O failure at the right await point", "anchors": ["src/client.rs: handshake, reconnect", "src/client/macros.rs"]}
{"id": "C51", "title": "Handshake verdict", "statement": "After the bytes are sent, the handshake succeeds exactly when the first line is a CAP whose params start with `* ACK` and the second is 001; each other answer gives the documented error (Auth, Notice, Welcome, Read, Timeout).", "quantifier": "every pair of server lines, every timeout", "why_tests_cant": "all server answers", "anchors": ["src/client.rs: handshake"]}
{"id": "C52", "title": "reconnect makes at most max_tries attempts", "statement": "reconnect() makes at most max_tries connection attempts, returns after the first success, and gives up only after exactly max_tries retryable failures or at the first non-retryable one; with no limit it never gives up on retryable failures.", "quantifier": "every backoff configuration, every sequence of connection outcomes", "why_tests_cant": "all schedules of failures", "anchors": ["src/client.rs: reconnect, should_retry"]}
{"id": "C53", "title": "Backoff delays", "statement": "The delay before attempt k is initial_delay for k=1 and min(max_delay, previous*multiplier) afterwards; never above max(initial_delay, max_delay). That it never exceeds max_delay is refuted for initial_delay > max_delay, and the multiplication panics when the product overflows a Duration.", "quantifier": "every configuration, every attempt number", "why_tests_cant": "unbounded sequences", "anchors": ["src/client.rs: reconnect, Backoff"]}
{"id": "C54", "title": "Which failures are retried", "statement": "Within reconnect, I/O errors while opening or writing are retried; timeouts, authentication failures, unexpected or unparsable messages, a closed stream and read errors are returned at once; the returned cause is the last failure.", "quantifier": "every sequence of outcomes", "why_tests_cant": "all failure sequences", "anchors": ["src/client.rs: reconnect, should_retry"]}
{"id": "C55", "title": "recv framing", "statement": "The sequence of recv() results depends only on the bytes received, not on how they are split into reads: one result per line, in order, CRLF or LF stripped, a last unterminated line included; unparsable lines give Parse with the line and do not disturb the following lines; after the end StreamClosed forever.", "quantifier": "every byte stream, every chunking", "why_tests_cant": "all ways the network can split the stream", "anchors": ["src/client/read.rs: recv", "src/client.rs: split"]}
{"id": "C56", "title": "What one client sends another receives", "statement": "The lines produced by any sequence of ping/privmsg/join calls (arguments without CR/LF), concatenated and read through recv, come out as exactly that sequence of messages with the same fields.", "quantifier": "every finite sequence of sends", "why_tests_cant": "unbounded sequences", "anchors": ["src/client/write.rs", "src/client/read.rs", "src/irc.rs"]}
{"id": "C57", "title": "Same-message bypass alternates", "statement": "Successive get() calls alternate between the empty string and a space plus an invisible character, so appending it makes every two consecutive messages with the same text differ.", "quantifier": "every number of calls, every text", "why_tests_cant": "unbounded histories", "anchors": ["src/client/write.rs: SameMessageBypass"]}
{"id": "C58", "title": "Credentials", "statement": "Anonymous credentials have login justinfan followed by exactly five digits and no token; is_anon is true exactly without token; the Debug output does not depend on the token.", "quantifier": "every random draw, every login and token", "why_tests_cant": "all draws", "anchors": ["src/client.rs: Credentials"]}
{"id": "C59", "title": "Disconnect classification", "statement": "is_disconnect is true exactly for StreamClosed and I/O errors of kind UnexpectedEof, ConnectionAborted, TimedOut; in particular ConnectionReset and BrokenPipe are not classified as disconnects, and parse errors never are.", "quantifier": "every RecvError", "why_tests_cant": "all error kinds", "anchors": ["src/client/read.rs: is_disconnect"]}
{"id": "C60", "title": "Serialising and deserialising typed messages", "statement": "With the `serde` feature, deserialising the serialised form of a parsed typed message gives an equal message, for messages whose subscriber badges carry a numeric month count; with a non-numeric badge-info the deserialisation fails (the unrestricted claim is refuted).", "quantifier": "every parsed typed message", "why_tests_cant": "all values", "anchors": ["src/msg/*.rs: derive(Serialize, Deserialize)", "src/msg.rs: Deserialize for Subscriber"]}
{"id": "C61", "title": "Joining items for display", "statement": "Displaying an iterator joined with a separator prints the items in order with the separator between (not after) them; a second display fails instead of printing nothing.", "quantifier": "every list of items and every separator", "why_tests_cant": "all lists", "anchors": ["src/common.rs: Join, JoinIter"]}
{"id": "C62", "title": "Unescaping getters", "statement": "Where the tag value is the escaped form of a text t, User::name, GlobalUserState::name, Reply::text, UserNotice::system_message and sub_plan_name return t; for a value of any other form they return its part before the first backslash followed by the rest with its escapes read (the reading of C20). That every getter of a display name does so is refuted: UserState::user_name and GiftPaidUpgrade::gifter_name return the escaped text.", "quantifier": "every parsed line, every tag value, and every text t without the comma mark", "why_tests_cant": "all texts", "anchors": ["src/msg.rs: User::name", "src/msg/global_user_state.rs: name", "src/msg/privmsg.rs: Reply::text", "src/msg/user_notice.rs: system_message, sub_plan_name, gifter_name", "src/msg/user_state.rs: user_name"]}
{"id": "C63", "title": "Deserialised messages are stable", "statement": "A typed message deserialised from any data whatsoever is serialised to data that deserialises to the same message, whichever of its strings are borrowed; the month count of a deserialised subscriber badge is the number its text says.", "quantifier": "every input of the deserialiser, every message type", "why_tests_cant": "all inputs, including ones no serialiser produced", "anchors": ["src/msg/*.rs: derive(Serialize, Deserialize)", "src/msg.rs: Deserialize for Subscriber"]}
{"id": "C64", "title": "Opening the first connection", "statement": "connect succeeds only if the stream opens and the handshake gets its answers, all within the configured time, and then the client has written exactly the greeting built from its credentials, has the configuration it was given and loses nothing the server sent after the answers; in every other case it returns an error naming the first thing that went wrong, and no client. The builder's setters change one setting each and the last call wins; connect_anonymous uses no token and the default timings.", "quantifier": "every configuration, every outcome of opening the stream, every server script, every elapsed time", "why_tests_cant": "all interleavings of failure and time", "anchors": ["src/client.rs: ClientBuilder, Client::connect, connect_anonymous", "src/client/conn.rs: open"]}
{"id": "C65", "title": "After a reconnect only the new connection is used", "statement": "After a successful reconnect what the client receives is what the new connection carries after the two handshake answers: nothing buffered from the old stream is delivered and nothing of the new one is lost. If no attempt opens a stream, the client stays as it was.", "quantifier": "every client state, every sequence of attempts, every later traffic", "why_tests_cant": "all old states", "anchors": ["src/client.rs: Client::reconnect"]}
{"id": "C66", "title": "The token is only ever sent in the greeting", "statement": "Two clients that differ only in their token, run through the same sequence of sends, receives and reconnects in which every greeting is written whole, return the same results and have written the same lines apart from the greetings. Without that restriction the claim is refuted.", "quantifier": "every sequence of operations and outcomes, every two tokens", "why_tests_cant": "unbounded sessions", "anchors": ["src/client.rs: handshake, reconnect", "src/client/write.rs"]}
{"id": "C67", "title": "The example program", "statement": "examples/basic.rs sends, for every line it receives in turn, exactly the answer it should: PONG with the PING's text, a reply `yo` in the same channel to a message that starts with `!yo` (not when logged in anonymously), nothing otherwise; it prints the sender's name and text of each message, and the answer once sent. The first line that cannot be read or has no typed form, and the first answer that cannot be written, ends it with that error and nothing is sent after. After RECONNECT and a successful reconnect it joins its channels behind the new greeting. It uses the given login and token only if both are given. That it survives every IRC line is refuted: an untagged PRIVMSG ends it.", "quantifier": "every sequence of lines, however chunked, every write outcome", "why_tests_cant": "unbounded conversations", "anchors": ["examples/basic.rs: main, run, on_msg"]}
{"id": "C68", "title": "Texts are UTF-8", "statement": "The texts the model accepts as contents of a Rust string are exactly the UTF-8 encodings (RFC 3629, by arithmetic on code points) of sequences of Unicode scalar values; the sequence is determined by the text and is its sequence of characters; positions where slicing does not panic are exactly the ends of leading characters; the characters that separate parameters are exactly those with the Unicode property White_Space.", "quantifier": "every byte string", "why_tests_cant": "all byte strings, all code points", "anchors": ["src/client/read.rs: Lines (String::from_utf8)", "src/irc.rs: slicing", "src/irc.rs:108,342, src/lib.rs:65: chars, split_whitespace"]}
{"id": "C69", "title": "Connecting and reconnecting end in time", "statement": "Whatever the network does and however slowly, connect returns at most twice the configured timeout after the certificates are loaded, and reconnect takes its delays plus at most twice the timeout per attempt: with the default configuration it is over after 553 seconds (plus what the timers fire late, for which any bound may be assumed; tokio's are less than a millisecond late). Results with a clock are among those without (so the other properties apply). A server that answers within 5 seconds of the greeting and within the timeout is heard; one that sends no complete line by then gives Timeout at the moment the timer fires. Both always return, unless an answer is a line on which parsing panics (C05) or a delay is no Duration. That connect returns within the timeout, and that the server has the whole timeout to answer, are refuted.", "quantifier": "every duration of every open, write, flush and read, every configuration", "why_tests_cant": "all timings", "anchors": ["src/client.rs: connect, reconnect, handshake", "src/client/util.rs: timeout"]}
{"id": "C70", "title": "Getters tell what the line says", "statement": "Every getter of every typed message parsed from a line, and of its nested users, replies, pinned chats, badges, moderation actions, notice events and promotions, returns what the line says, also after into_owned: the named tag, the nick of the prefix, the channel, the text, the numbers, in order and number for lists; the name, reply text, system message and plan name getters return the unescaped value; payload getters are those of the event named by msg-id. That badge data always has the version of the badges tag is refuted (moderator/2 reports 1).", "quantifier": "every line with a typed form, every getter", "why_tests_cant": "all lines", "anchors": ["src/msg/macros.rs: generate_getters", "src/msg.rs: User, Badge, BadgeData, Subscriber", "src/msg/*.rs: generate_getters! blocks"]}
{"id": "C71", "title": "Printed messages show their contents", "statement": "The Debug output, {:?} or {:#?}, of two messages of one type is the same exactly if all fields are equal, whether strings are borrowed or owned; Message prints alike exactly for the same variant with the same contents, and IrcMessageRef/IrcMessage exactly if all accessors agree; printing a parsed line never fails. The one-line form of anything parsed from a line has no control characters, whatever the line contained. Times print as their date and time of day in the Gregorian calendar, different times differently. A printed Config shows everything but the token. That the line itself can be told from the output is refuted.", "quantifier": "every two messages, every two lines, every choice of printable characters beyond ASCII, every time, every configuration", "why_tests_cant": "all contents, including quotes and control characters", "anchors": ["src/irc.rs: Debug for IrcMessageRef, IrcMessage, DebugIter", "src/common/channel.rs: Debug for ChannelRef", "src/client.rs: Debug for Credentials, Backoff, Config", "src/msg.rs, src/msg/*.rs: derive(Debug)", "src/msg/snapshots, src/irc/snapshots"]}
{"id": "C72", "title": "Texts of errors", "statement": "The texts of errors say what happened: two errors of connecting, or two of sending, print the same exactly if they are the same failure with the same contents (I/O errors counting by their own text), and every error of connecting has a text, provided the tags of a quoted message can be read. The text is one line without control characters unless it quotes a rejected line. The error of reconnect quotes its source, the error of the last attempt; errors of sending and receiving name the I/O error or quote the rejected line. Refuted: that printing never panics (quoted message with a tag value of 65537 bytes), that a text never carries control characters, that `all reconnect attempts failed` and `last error was` are always true, that `invalid credentials` means the server judged them, and that a server answering first with 001 is not told that 001 was expected.", "quantifier": "every error, every outcome of connect, reconnect, send and recv, every text printed by other libraries", "why_tests_cant": "all server scripts and all quoted contents", "anchors": ["src/client.rs: Display for ConnectError, ReconnectError", "src/client/read.rs: Display for RecvError", "src/client/write.rs: Display for SendError, InvalidMessage", "src/client/conn.rs: Display for OpenStreamError, TlsConfigError"]}
{"id": "C73", "title": "Equality, order and hashing", "statement": "Two values of any message type (and of the types inside messages) are == exactly if all their contents are equal, whoever owns the strings; so into_owned returns an equal value, and two messages are equal exactly if they print alike. Commands of parsed lines are equal exactly if the command words are, tag names are parsed to equal values exactly if they are the same name. The orders of channels, commands and tags are total orders that agree with ==: texts as in a dictionary by code points, variants as declared, unknown ones last. What is hashed is the same exactly for equal values, also with more hashed behind it. Values stored under a Channel in a hash table (with any hash function) or a sorted map are found by the text of the channel. Refuted: that commands or tags with the same text are equal, and that commands or tags are ordered by their texts.", "quantifier": "every two values of every type, every sequence of insertions, every hash function", "why_tests_cant": "all values", "anchors": ["src/msg.rs, src/msg/*.rs: derive(PartialEq, Eq)", "src/irc/command.rs:68, src/irc/tags.rs:12, src/irc/prefix.rs:26: derives", "src/common/channel.rs: derives, Borrow<str>", "src/common.rs: Span"]}
{"id": "C74", "title": "The changelog task", "statement": "xtask changelog succeeds exactly if every git process it starts succeeds with UTF-8 output and CHANGELOG.md can be read and written. Then it has started git log for the range, git show once for each line of the trimmed log in order, and git log -1, and the file is: the link to the range, the entry of each commit in order (first line of its message with a link, then the rest), and the old contents unchanged. If it does not succeed the file is as it was, unless writing failed; after a process that fails no other is started. Refuted: that the range's link ends at --until.", "quantifier": "every behaviour of git, every old file, every outcome of writing", "why_tests_cant": "all git outputs", "anchors": ["xtask/src/task/changelog.rs: Changelog::run", "xtask/src/util.rs: run_with_output, check"]}
{"id": "C75", "title": "The setup and test tasks", "statement": "xtask setup starts exactly the processes it should, in order, and nothing after one that fails; cargo-binstall is installed exactly if no indented line of cargo --list begins with the word binstall. Looking for a subcommand panics exactly if an indented line that is blank comes before (so: that it never panics is refuted). xtask test starts one process, with the arguments given to it last, and ends as that process does. The exit code of setup is 0 exactly if every step succeeds, 101 exactly if it panics and 1 otherwise; that of test is 0 if the tests succeed and 1 otherwise.", "quantifier": "every behaviour of the processes, every list of subcommands, every argument", "why_tests_cant": "all process outputs", "anchors": ["xtask/src/util.rs: has_cargo_subcmd, run", "xtask/src/task/setup.rs: Setup::run", "xtask/src/task/test.rs: Test::run"]}
{"id": "C76", "title": "What the deserialisers accept", "statement": "Every derived deserialiser reads a struct from a map in which each field occurs once, in any order and among entries of other names; exactly the optional fields may be missing, and a missing one means the same as null; a field twice or a required one missing is an error. A sequence is read as the fields in order and only if it has exactly that many elements. An enum is read from the name of a variant (with null, if it carries nothing) or from a map of only that name to what the variant carries. Numbers are accepted exactly when they fit their type.", "quantifier": "every input of the deserialiser, every message type and every part of one", "why_tests_cant": "all inputs, including ones no serialiser produced", "anchors": ["src/msg/*.rs: derive(Deserialize)", "src/msg.rs: Deserialize for Subscriber"]}
{"id": "C77", "title": "Where connections go", "statement": "Every connection, the first and those of reconnect, is opened to irc.chat.twitch.tv port 6697, and TLS on it checks exactly that name against all certificates of the system, the same ones for every later connection. A certificate that cannot be used, or a failure to load them, means no connection at all. TLS starts only on a TCP connection that was established, and bytes are written only after TLS was. Opening succeeds exactly if both steps do, and otherwise fails, times out or is dropped as the first step that does not succeed. The error for an invalid server name never occurs.", "quantifier": "every set of certificates, every outcome of each step, every sequence of attempts", "why_tests_cant": "unbounded sequences of attempts, all certificate stores", "anchors": ["src/client/conn.rs: HOST, PORT, open, TlsConfig::load", "src/client.rs: connect, reconnect"]}
{"id": "C78", "title": "The program on the front page", "statement": "The program in README.md (the crate's documentation) logs in anonymously, joins #forsen behind the greeting, sends exactly the PONG due for each PING and nothing for other lines, prints sender and text of each message, and after RECONNECT and a successful reconnect joins again behind the new greeting. In every run, however it goes and ends, all it sends after the greetings is the JOIN and PONGs. The first line that cannot be read or has no typed form, or whose PONG cannot be written, ends it with that error. It behaves as the example program started without login for that channel, but for the example's two first lines of output.", "quantifier": "every run: every sequence of lines however chunked, every outcome of reads, writes and attempts", "why_tests_cant": "unbounded conversations", "anchors": ["README.md:17-40", "src/lib.rs:1", "src/client.rs: anonymous"]}
{"id": "C79", "title": "Features and targets", "statement": "The crate builds exactly if the client feature comes with message-types and simd is selected only for x86_64 with SSE2 or AVX2 or for aarch64 with NEON; serde makes no difference. A build has exactly one of the parser's inner loops: the scalar one without simd, else that of the widest vectors of the target that are implemented. Which other files it has follows from the features. Without simd the target does not matter. Two source files are in no build (common/channel.rs and the AVX-512 vectors), every other one is in some. The other crates in a build are exactly those that its files use, except that serde without message-types brings serde and chrono for nothing. Refuted: that there is a fallback for other architectures with the default features (README), that every selection of features builds (the client alone lacks crate::Ping), and that no crate is there for nothing.", "quantifier": "every selection of features, every architecture and set of target features", "why_tests_cant": "CI builds three selections on one target", "anchors": ["Cargo.toml: features", "src/lib.rs:4-40", "src/irc/wide.rs, src/irc/wide/*.rs: cfg_if", "src/irc/tags.rs:295-303", "src/client/write.rs:128", "README.md:45"]}
{"id": "C80", "title": "Lines of the IRC grammar", "statement": "A line written by the grammar of RFC 1459 with IRCv3 tags makes parsing panic exactly if more than 128 tags have an `=`, is rejected exactly if more than one space follows the tags or the prefix, and is read otherwise. What is read: the command; the first parameter as channel if it begins with `#` and follows a single space; as parameters all that is written after that, less one space, spaces at the end included. The text is the trailing parameter exactly if no parameter between the channel and it contains a colon. The tags are those meant exactly if each has an `=` (others are merged into the next key), the prefix tells who is meant exactly if it has no user without host and no `!` in the user. Values with only the five escapes unescape as IRCv3 says. Refuted: that the parser takes every line of the grammar, also under 512 bytes; that extra spaces do not matter, also at the end; that the last of equal tags counts; that other escapes lose only their backslash.", "quantifier": "every line of the grammar, every number of spaces, every build", "why_tests_cant": "all lines", "anchors": ["src/irc.rs: parse, text, channel, unescape", "src/irc/tags.rs, src/irc/wide.rs: parse", "src/irc/prefix.rs: parse", "src/lib.rs: maybe_unescape"]}
{"id": "C81", "title": "Typed messages can be written as lines", "statement": "Every typed message whose values a line can carry (numbers in range, lists without commas, an action marked as one, a known event with its id, and so on) can be written as a line that parses to exactly this message, in every build and profile; so different messages have different lines. Every typed message parsed from a line is of that kind, so it can be written again from its fields alone, and parsing that gives the same message: the fields of a message say all that its parser looked at.", "quantifier": "every typed message, every line", "why_tests_cant": "all field values, all lines", "anchors": ["src/msg/*.rs: from_irc", "src/msg.rs: Message, Badge, parse_badges, parse_message_text"]}
{"id": "C82", "title": "A session is received as sent", "statement": "If a server acknowledges the capabilities, welcomes the client and then sends typed messages, one per line, the client connects, having written its greeting, and receives exactly these messages in this order, whatever the chunks in which the bytes arrive (also chunks that hold the end of one answer and the beginning of what follows), whatever follows and in every build and profile. The same holds on the new connection after a reconnect, whatever happened before. Different sequences of messages are never the same bytes.", "quantifier": "every sequence of typed messages, every way to cut the bytes, every build and profile", "why_tests_cant": "unbounded streams, all ways to cut them", "anchors": ["src/client.rs: connect, handshake, reconnect", "src/client/read.rs: recv", "src/msg/*.rs: from_irc", "src/irc.rs: as_typed"]}
{"id": "C83", "title": "Lines of 4 GiB and more", "statement": "If the part of a line in front of the parameters is shorter than 4 GiB, then whatever the size of the line it is accepted and tags, prefix, command and channel are read as written (the channel of the two NAMES replies aside, which is in the parameters). The parameters are taken to end at the length of the line modulo 2^32: if that is in front of their start or inside a character, reading them or the text panics, otherwise they are cut there. So they are read as written exactly if the line is shorter than 4 GiB. Refuted: that the parameters of every accepted line can be read (a line of 4 GiB), and that they are the ones written.", "quantifier": "every line with at most 128 tags, of any size, whose parameters start below 4 GiB; every build", "why_tests_cant": "a test would need lines of 4 GiB", "anchors": ["src/irc.rs: parse, params, text", "src/common.rs:15-40", "src/irc/params.rs: parse"]}
{"id": "C84", "title": "What typed messages are made from", "statement": "For each command with a typed form there is a list of tags, and whether the channel, the nick and the parameters count: two lines with that command that agree in these have the same typed form (or both none), in every build. The order of the tags does not matter if no key is there twice; a tag whose key is not listed, or was there before, makes no difference; neither do user and host of the prefix. No list has a part too many: for each tag, the channel, the nick and the parameters there are two lines that differ only there and have different typed forms.", "quantifier": "every two lines of every typed command, every build and profile", "why_tests_cant": "all pairs of lines", "anchors": ["src/msg/*.rs: from_irc", "src/msg.rs: from_irc", "src/irc.rs: tag"]}
{"id": "C85", "title": "Where the strings of typed messages come from", "statement": "Every string of a typed message parsed from a line is borrowed and is a stretch of that line that begins and ends at character boundaries. There are two exceptions: the months `1` of a subscriber badge that badge-info does not mention, and the colour `PRIMARY` of an announcement without that tag. Refuted: that there are none.", "quantifier": "every line with a typed command, every build and profile, every string of the message however deep", "why_tests_cant": "all lines, all fields", "anchors": ["src/msg/*.rs: from_irc", "src/msg.rs: parse_badges, parse_message_text, from_irc", "src/irc.rs: tag, channel, text, params"]}
{"id": "C86", "title": "What someone writes cannot pass for anything else", "statement": "If a line has a text, then putting any other text in its place gives a line that parses too, whose text is the new one and whose tags, prefix, command and channel are those of the first line. The typed message is of the same kind and equal in every field but the text (and what is told from the text: whether it is an action, the nonce of a ping, the name of a banned user), or both lines have none. So no text can imitate tags, a sender, a command or a channel. Refuted: that this holds for a whisper whose colon does not follow a space.", "quantifier": "every line with a text, every other text, every build and profile", "why_tests_cant": "all pairs of texts, including those that look like tags, prefixes and commands", "anchors": ["src/irc.rs: parse, Prefix::parse, Command::parse, Channel::parse, Params::parse, text", "src/msg/*.rs: from_irc"]}
{"id": "C87", "title": "Lines cut short", "statement": "If the stream ends at any point, the lines before that point are received as in the whole stream, and at most one more result: that of the beginning of the next line (or of the whole line with its carriage return). If the cut line still is a typed message of one of the known commands, it has the tags, the prefix and the command of the whole one, the channel or its beginning, and the parameters or their beginning; its text is the beginning of the text. In the scalar build receiving panics if the stream ends within the tags. Refuted: that the cut line means the same (a ban cut short is the clearing of the whole chat; another user is banned; another channel is joined).", "quantifier": "every stream, every point where it ends, every build and profile", "why_tests_cant": "all cut points of all lines", "anchors": ["src/client/read.rs: recv, ReadStream", "src/irc.rs: parse", "src/irc/tags.rs", "src/msg/clear_chat.rs: from_irc"]}
{"id": "C88", "title": "Tag values cannot pass for anything else", "statement": "In a line with tags the value of any tag can be replaced by any text without space and semicolon: the line still parses, this tag has the new value, and the other tags, the prefix, the command, the channel and the parameters are as before. If the tag is one whose value someone may choose (a display name, the text replied to, the system message, the name of a plan or promotion) and the new value is any text, escaped, then the typed message is the same in all fields but those with these values, and it is a message exactly if it was one before. Refuted: the same without escapes (a semicolon in a display name brings in another user id, a space another sender and channel).", "quantifier": "every line with tags, every tag of it, every new value, every build and profile", "why_tests_cant": "all pairs of lines and values", "anchors": ["src/irc/tags.rs", "src/irc.rs: parse, unescape", "src/msg.rs: from_irc", "src/msg/privmsg.rs", "src/msg/user_notice.rs"]}
{"id": "C89", "title": "More tags do not spoil a message", "statement": "If tags are added to a line of one of the known commands so that every tag found before is still found with its value (new keys anywhere, or anything at the end), a typed message stays a typed message of the same kind: required parts are unchanged, optional parts that were there are unchanged, and only optional parts that were missing can be added (a ban can so become a timeout). The one exception is a ROOMSTATE in a debug build, which can panic. Refuted: that there is no exception, and that a ban stays a ban.", "quantifier": "every two lines of which one has the tags of the other and more, every build and profile", "why_tests_cant": "all lines, all sets of added tags", "anchors": ["src/msg/*.rs: from_irc", "src/irc.rs: tag"]}
{"id": "C90", "title": "The same text sent again arrives as a different text", "statement": "A program that sends the same text to a channel any number of times, each time with what the same-message bypass gives at the end (and any reply and nonce), is read by another client as that many PRIVMSGs for the channel, alternately with the text and with the text, a space and U+2800; so no two neighbours have the same text. Refuted: that the bypass keeps two different texts different.", "quantifier": "every channel, text, number of messages and list of options that can be read back; every client without half-written message; every division of the bytes into chunks", "why_tests_cant": "all texts, all numbers of messages", "anchors": ["src/client/write.rs:236-263", "src/client/write.rs: privmsg", "src/client/read.rs: recv"]}
{"id": "C91", "title": "The reader keeps and reads no more than it needs", "statement": "recv() is not ready exactly if the connection is open and no line feed, end or error has come since the last line; it then keeps all that came. A result uses no read it does not need: none if a complete line is kept, otherwise those up to the first with a line feed, the end or an error. However the bytes come and however often recv() is tried or dropped, what is kept is the end of what was read, and is less than one line or no more than one read brought; after every result it is no more than that. Refuted: that there is a bound on what is kept whatever the server sends.", "quantifier": "every reader, every sequence of reads and tries, every limit on the size of a read", "why_tests_cant": "all byte streams, all ways to split them, all numbers of tries", "anchors": ["src/client/read.rs:14-21", "src/client.rs:411"]}
{"id": "C92", "title": "A program does the same in every build unless it panics", "statement": "What is received, and the whole run of the example program and of the program on the front page (output, bytes sent, end), is the same in a build with other vector instructions, another address of each line, with instead of without the simd feature, or release instead of debug, unless the first build panics. Typing a parsed message panics in a debug build exactly for a ROOMSTATE with channel and room whose followers-only minutes do not fit in seconds, never in a release build, and gives the same otherwise. Refuted: that all builds always do the same.", "quantifier": "every two builds, every sequence of turns, reads, writes and reconnects", "why_tests_cant": "all runs of any length, all builds", "anchors": ["src/irc/tags.rs:295-303", "src/msg/room_state.rs:105-109", "examples/basic.rs", "README.md"]}
{"id": "C93", "title": "Exactly what makes the example program panic", "statement": "A turn of the example program (and of the one on the front page) panics exactly if the line it gets is one on which parsing panics (more than 128 tags, or without the simd feature a tag section without end), or in a debug build a ROOMSTATE whose followers-only minutes do not fit in seconds, or a RECONNECT and an attempt to reconnect panics (a delay that is not a Duration, or such a line in the answer to the greeting). Every other turn ends. A whole run panics exactly if it comes to such a turn, and a whole program (either one) exactly if the answer to its greeting has a line on which parsing panics or if it comes to such a turn after that.", "quantifier": "every program state, every sequence of turns, reads, writes and reconnects, every build; less than 4 GiB at once, tags below 64 KiB", "why_tests_cant": "all lines, all runs of any length", "anchors": ["examples/basic.rs:62-97", "README.md:20-60", "src/msg/room_state.rs:105-109"]}
{"id": "C94", "title": "Long tag values in typed messages", "statement": "A line whose tag values have any length is read as the line in which every value is cut to its length modulo 65536, if no value is thereby cut within a character: that line parses, has the same prefix, command, channel and parameters, and the typed messages are equal. So a typed message need not have the whole name (refuted). If the user id of a GLOBALUSERSTATE is cut within a character, making the typed message panics.", "quantifier": "every line below 4 GiB with tag keys below 64 KiB, every tag value, every command with a typed form, every build", "why_tests_cant": "values longer than any in a test, at every length modulo 65536", "anchors": ["src/irc/tags.rs: TagPair", "src/msg.rs: from_irc", "src/msg/global_user_state.rs:66-90"]}
{"id": "C95", "title": "Printed and serialised messages show the same", "statement": "For every type of message the printed form ({:?}) and the serialised form have the same fields in the same order, under the same names and with the same contents, in all nested parts too: texts, numbers, times, durations, lists, optional values and variants (whose names are in lower case when serialised, except the levels of pinned messages). Only the number of months of a subscriber badge is printed but not serialised. The printed form of the message of a line begins with the name of its type, which in capitals is the command of the line.", "quantifier": "every value of every message type, every line with a typed form", "why_tests_cant": "all contents of all fields; tests compare a few lines", "anchors": ["src/msg/*.rs: derive(Debug), derive(Serialize)", "src/msg.rs: Message"]}
{"id": "C96", "title": "The vector parser takes few steps", "statement": "The loop that searches for the end of the tags four vectors at a time goes round at most once for each four vectors of the line, and only as far as the byte it looks for, however long the line is behind it; at most four vectors are left to the loop over single vectors. The loop over the tag section goes round at most once for each vector of it, and the loop within a vector at most once for each = or ; in it. All these numbers are reached.", "quantifier": "every line, address, vector size and state of the parser", "why_tests_cant": "the number of rounds on every line; tests only see results", "anchors": ["src/irc/tags/simd.rs: find_first, parse, parse_chunk"]}
{"id": "C97", "title": "Reading badges can take quadratically many comparisons", "statement": "For each badge the infos are looked at one after the other, up to the first of its name or to the end, and the comparisons of several badges add up. Together they are at most a quarter of the product of the lengths of the two tags, each plus one. For every n there are tags of 3n+2 bytes each that take (n+1) times (n+1) comparisons, so no linear bound holds. The counted function returns the same badges.", "quantifier": "every value of the badges tag and of the badge-info tag", "why_tests_cant": "bounds on the work for every input; tests only see results", "anchors": ["src/msg.rs: parse_badges"]}
