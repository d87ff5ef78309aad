{
 "claims": [
  {
   "property": "C01",
   "status": "proved",
   "theorems": [
    "c01_section_ends_at_first_space",
    "c01_address_and_backend_independent"
   ],
   "note": "All four parser builds (SSE2, AVX2, NEON at any address, scalar) are modelled; the tag section end is stated as the first space."
  },
  {
   "property": "C02",
   "status": "proved",
   "theorems": [
    "c02_accessors_checked",
    "c02_no_undefined_behaviour",
    "c02_vector_search_exact"
   ],
   "note": "Out-of-bounds or misaligned vector loads, reads of uninitialised slots and bad discriminants are an explicit Ub outcome of the model; it never occurs, and neither does running out of fuel."
  },
  {
   "property": "C03",
   "status": "proved",
   "theorems": [
    "c03_tags_exact",
    "c03_section_reading_unique",
    "c03_no_section_no_tags"
   ],
   "note": "tag_section is an independent inductive reading of the section, proved to be unique."
  },
  {
   "property": "C04",
   "status": "proved",
   "theorems": [
    "c04_simd_equals_scalar",
    "c04_unterminated_section"
   ],
   "note": "Equality of the two builds on every other text, and the two different outcomes on an unterminated section."
  },
  {
   "property": "C05",
   "status": "proved",
   "theorems": [
    "c05_owned_panics_iff",
    "c05_simd_panics_iff",
    "c05_scalar_panics_iff"
   ],
   "note": "The scalar build additionally panics on an unterminated section."
  },
  {
   "property": "C06",
   "status": "proved",
   "theorems": [
    "c06_accessors_return",
    "c06_long_value_panics_refuted"
   ],
   "note": "The claim without the 65536-byte limit is refuted (c06_long_value_panics_refuted)."
  },
  {
   "property": "C07",
   "status": "proved",
   "theorems": [
    "c07_tag_value",
    "c07_short_value_complete",
    "c07_long_value_refuted"
   ],
   "note": "Holds below 65536 bytes; the unlimited claim is refuted (c07_long_value_refuted); c07_tag_value gives the outcome for every length."
  },
  {
   "property": "C08",
   "status": "proved",
   "theorems": [
    "c08_rejected_iff_no_command"
   ],
   "note": ""
  },
  {
   "property": "C09",
   "status": "proved",
   "theorems": [
    "c09_parse_render"
   ],
   "note": "For 353 and 366 channel() is computed from the params instead, see C13."
  },
  {
   "property": "C10",
   "status": "proved",
   "theorems": [
    "c10_accessors_view",
    "c10_recomposition",
    "c10_parts_of_the_line"
   ],
   "note": ""
  },
  {
   "property": "C11",
   "status": "proved",
   "theorems": [
    "c11_prefix_read_and_printed",
    "c11_user_needs_nick",
    "c11_prefix_recognised_iff",
    "c11_print_any_prefix_refuted"
   ],
   "note": "The general round trip for arbitrary prefix text is refuted (c11_print_any_prefix_refuted)."
  },
  {
   "property": "C12",
   "status": "proved",
   "theorems": [
    "c12_command_exact"
   ],
   "note": ""
  },
  {
   "property": "C13",
   "status": "proved",
   "theorems": [
    "c13_channel",
    "c13_words_unique"
   ],
   "note": ""
  },
  {
   "property": "C14",
   "status": "proved",
   "theorems": [
    "c14_text",
    "c14_after_last_colon_refuted"
   ],
   "note": "The documented reading (last colon) is refuted."
  },
  {
   "property": "C15",
   "status": "proved",
   "theorems": [
    "c15_owned_agrees",
    "c15_text"
   ],
   "note": ""
  },
  {
   "property": "C16",
   "status": "proved",
   "theorems": [
    "c16_tag_is_first_match",
    "c16_first_match_unique",
    "c16_tag_names"
   ],
   "note": ""
  },
  {
   "property": "C17",
   "status": "proved",
   "theorems": [
    "c17_lookup_by_name",
    "c17_canonical_amount_refuted",
    "c17_canonical_amount_reads_amount"
   ],
   "note": "Holds for every name but one, for which it is refuted (c17_canonical_amount_refuted)."
  },
  {
   "property": "C18",
   "status": "proved",
   "theorems": [
    "c18_unknown_matches",
    "c18_unknown_never_matches_refuted"
   ],
   "note": "The documentation's claim is refuted; the positive theorem holds for every tag."
  },
  {
   "property": "C19",
   "status": "proved",
   "theorems": [
    "c19_unescape_escape",
    "c19_escaped_text_is_a_tag_value",
    "c19_tag_values_survive"
   ],
   "note": "escape is an independent specification on characters; the comma mark U+2E1D is excluded because unescape maps it to a comma."
  },
  {
   "property": "C20",
   "status": "proved",
   "theorems": [
    "c20_unchanged_iff_no_backslash",
    "c20_shown",
    "c20_shown_escape",
    "c20_agree_iff",
    "c20_agree_refuted"
   ],
   "note": "The unrestricted agreement is refuted (c20_agree_refuted); c20_agree_iff says exactly when they agree."
  },
  {
   "property": "C21",
   "status": "proved",
   "theorems": [
    "c21_valid_and_not_longer",
    "c21_plain_text_unchanged",
    "c21_equations",
    "c21_reading",
    "c21_trailing_backslash_dropped"
   ],
   "note": ""
  },
  {
   "property": "C22",
   "status": "proved",
   "theorems": [
    "c22_variants",
    "c22_variant_is_command",
    "c22_never_fail",
    "c22_refuse_other_commands",
    "c22_entry_points",
    "c22_no_panic"
   ],
   "note": "c22_no_panic excludes only the followers-only overflow of debug builds, see C33."
  },
  {
   "property": "C23",
   "status": "proved",
   "theorems": [
    "c23_join",
    "c23_part",
    "c23_join_accepted",
    "c23_part_accepted"
   ],
   "note": ""
  },
  {
   "property": "C24",
   "status": "proved",
   "theorems": [
    "c24_ping",
    "c24_pong",
    "c24_ping_accepted",
    "c24_pong_accepted"
   ],
   "note": ""
  },
  {
   "property": "C25",
   "status": "proved",
   "theorems": [
    "c25_notice",
    "c25_notice_accepted"
   ],
   "note": ""
  },
  {
   "property": "C26",
   "status": "proved",
   "theorems": [
    "c26_clear_chat",
    "c26_clear_chat_accepted",
    "c26_target",
    "c26_timeout_reported_refuted"
   ],
   "note": "That a timeout is always reported as one is refuted (c26_timeout_reported_refuted)."
  },
  {
   "property": "C27",
   "status": "proved",
   "theorems": [
    "c27_clear_msg",
    "c27_clear_msg_accepted"
   ],
   "note": ""
  },
  {
   "property": "C28",
   "status": "proved",
   "theorems": [
    "c28_privmsg",
    "c28_privmsg_accepted",
    "c28_sender_name"
   ],
   "note": ""
  },
  {
   "property": "C29",
   "status": "proved",
   "theorems": [
    "c29_privmsg_optional",
    "c29_presence"
   ],
   "note": ""
  },
  {
   "property": "C30",
   "status": "proved",
   "theorems": [
    "c30_action_text"
   ],
   "note": ""
  },
  {
   "property": "C31",
   "status": "proved",
   "theorems": [
    "c31_whisper",
    "c31_whisper_accepted",
    "c31_badges_dropped",
    "c31_badges_kept_refuted"
   ],
   "note": "That badges are kept is refuted: they need a badge-info tag (c31_badges_kept_refuted)."
  },
  {
   "property": "C32",
   "status": "proved",
   "theorems": [
    "c32_global_user_state",
    "c32_user_state",
    "c32_global_user_state_accepted",
    "c32_user_state_accepted"
   ],
   "note": ""
  },
  {
   "property": "C33",
   "status": "proved",
   "theorems": [
    "c33_room_state",
    "c33_room_state_accepted",
    "c33_followers_overflow",
    "c33_room_state_refuted"
   ],
   "note": "Holds up to 2^63-1 seconds; refuted beyond (c33_room_state_refuted), with both builds' behaviour in c33_followers_overflow."
  },
  {
   "property": "C34",
   "status": "proved",
   "theorems": [
    "c34_user_notice",
    "c34_anonymity",
    "c34_event_kind"
   ],
   "note": ""
  },
  {
   "property": "C35",
   "status": "proved",
   "theorems": [
    "c35_payload",
    "c35_accepted",
    "c35_bad_number_fails",
    "c35_streak"
   ],
   "note": ""
  },
  {
   "property": "C36",
   "status": "proved",
   "theorems": [
    "c36_badges",
    "c36_subscriber_months",
    "c36_from_tags"
   ],
   "note": ""
  },
  {
   "property": "C37",
   "status": "proved",
   "theorems": [
    "c37_badge_round_trip",
    "c37_any_badge_refuted",
    "c37_data_round_trip",
    "c37_data_round_trip_refuted"
   ],
   "note": "The round trip of parsed badges is proved; for arbitrary values of the types it is refuted, with the exact loss in c37_data_round_trip."
  },
  {
   "property": "C38",
   "status": "proved",
   "theorems": [
    "c38_numbers",
    "c38_numeric_tag"
   ],
   "note": ""
  },
  {
   "property": "C39",
   "status": "proved",
   "theorems": [
    "c39_timestamp",
    "c39_range_is_calendar"
   ],
   "note": "chrono's range is a constant of the model; c39_range_is_calendar derives it from the calendar."
  },
  {
   "property": "C40",
   "status": "proved",
   "theorems": [
    "c40_into_owned"
   ],
   "note": ""
  },
  {
   "property": "C41",
   "status": "proved",
   "theorems": [
    "c41_levels"
   ],
   "note": ""
  },
  {
   "property": "C42",
   "status": "proved",
   "theorems": [
    "c42_parse",
    "c42_conversions",
    "c42_always_hash",
    "c42_serde",
    "c42_ref_from_copy_refuted"
   ],
   "note": "Reading a ChannelRef back from copied text is refuted (c42_ref_from_copy_refuted). No mod declaration names src/common/channel.rs at this commit (c79_orphans): the type is in the repository but in no build."
  },
  {
   "property": "C43",
   "status": "proved",
   "theorems": [
    "c43_send_raw"
   ],
   "note": ""
  },
  {
   "property": "C44",
   "status": "proved",
   "theorems": [
    "c44_privmsg_received",
    "c44_adds_hash_refuted"
   ],
   "note": "privmsg adds no # (c44_adds_hash_refuted)."
  },
  {
   "property": "C45",
   "status": "proved",
   "theorems": [
    "c45_one_line",
    "c45_injection_refuted",
    "c45_tags_not_escaped_refuted"
   ],
   "note": "Exactly the arguments without line feed send one line; injection is refuted/confirmed by c45_injection_refuted and c45_tags_not_escaped_refuted."
  },
  {
   "property": "C46",
   "status": "proved",
   "theorems": [
    "c46_join",
    "c46_join_all",
    "c46_join_nothing_refuted"
   ],
   "note": "join_all of nothing still sends a JOIN (c46_join_nothing_refuted)."
  },
  {
   "property": "C47",
   "status": "proved",
   "theorems": [
    "c47_pong_echoes"
   ],
   "note": ""
  },
  {
   "property": "C48",
   "status": "proved",
   "theorems": [
    "c48_own_bytes_only",
    "c48_wire_is_the_history",
    "c48_own_line_refuted"
   ],
   "note": "Holds for histories of send calls; that each call arrives as a line of its own is refuted (c48_own_line_refuted), and so is isolation across failed reconnects (C50)."
  },
  {
   "property": "C49",
   "status": "proved",
   "theorems": [
    "c49_greeting_sent",
    "c49_greeting_unique",
    "c49_three_lines"
   ],
   "note": ""
  },
  {
   "property": "C50",
   "status": "proved",
   "theorems": [
    "c50_buffer_holds_greetings",
    "c50_next_send",
    "c50_clean_after_success",
    "c50_repeated_greeting",
    "c50_isolation_refuted"
   ],
   "note": "Isolation across reconnects is refuted (c50_isolation_refuted); what the buffer can hold and what that does is proved."
  },
  {
   "property": "C51",
   "status": "proved",
   "theorems": [
    "c51_verdict",
    "c51_verdict_unique",
    "c51_success",
    "c51_two_lines",
    "c51_panics_iff"
   ],
   "note": "small_answers: the lines the server sends are below 4 GiB. c51_panics_iff: a line with more than 128 tags makes the handshake panic."
  },
  {
   "property": "C52",
   "status": "proved",
   "theorems": [
    "c52_at_most",
    "c52_how_it_ends",
    "c52_panics_iff",
    "c52_ends",
    "c52_first_settled",
    "c52_gives_up",
    "c52_unlimited",
    "c52_zero_means_unlimited_refuted"
   ],
   "note": "max_tries Some(0) does not mean unlimited (c52_zero_means_unlimited_refuted). small_oracle: the server's lines are below 4 GiB. c52_panics_iff says when it returns at all."
  },
  {
   "property": "C53",
   "status": "proved",
   "theorems": [
    "c53_delays",
    "c53_bound",
    "c53_never_above_max_refuted",
    "c53_overflow_panics",
    "c53_default_fits"
   ],
   "note": "The first delay is not capped (c53_never_above_max_refuted). small_oracle: the server's lines are below 4 GiB."
  },
  {
   "property": "C54",
   "status": "proved",
   "theorems": [
    "c54_classification",
    "c54_returned_at_once",
    "c54_lost_connection_retried_refuted"
   ],
   "note": "A connection lost while waiting for the answers is not retried (c54_lost_connection_retried_refuted). small_oracle: lines below 4 GiB."
  },
  {
   "property": "C55",
   "status": "proved",
   "theorems": [
    "c55_chunking_irrelevant",
    "c55_lines",
    "c55_stream",
    "c55_framing_unique",
    "c55_read_error",
    "c55_cancel_safe"
   ],
   "note": "Every byte stream, including invalid UTF-8, which gives an InvalidData error for its line. tokio's stale count after an I/O error inside a line is not modelled (DESIGN.md)."
  },
  {
   "property": "C56",
   "status": "proved",
   "theorems": [
    "c56_received_as_sent"
   ],
   "note": ""
  },
  {
   "property": "C57",
   "status": "proved",
   "theorems": [
    "c57_alternates",
    "c57_consecutive_differ"
   ],
   "note": ""
  },
  {
   "property": "C58",
   "status": "proved",
   "theorems": [
    "c58_anon",
    "c58_is_anon",
    "c58_debug_hides_token"
   ],
   "note": ""
  },
  {
   "property": "C59",
   "status": "proved",
   "theorems": [
    "c59_is_disconnect",
    "c59_any_lost_connection_refuted"
   ],
   "note": "A reset connection is not a disconnect (c59_any_lost_connection_refuted)."
  },
  {
   "property": "C60",
   "status": "proved",
   "theorems": [
    "c60_comes_back",
    "c60_fails",
    "c60_every_message_refuted"
   ],
   "note": "keeps_times: chrono reads back the timestamps it wrote; months_are_numbers: exactly the case in which it works, the rest is c60_fails and c60_every_message_refuted."
  },
  {
   "property": "C61",
   "status": "proved",
   "theorems": [
    "c61_display",
    "c61_limited"
   ],
   "note": ""
  },
  {
   "property": "C62",
   "status": "proved",
   "theorems": [
    "c62_unescaping_getters",
    "c62_any_value_shown",
    "c62_all_names_unescaped_refuted"
   ],
   "note": "Two getters do not unescape (c62_all_names_unescaped_refuted)."
  },
  {
   "property": "C63",
   "status": "proved",
   "theorems": [
    "c63_stable",
    "c63_months"
   ],
   "note": "settles: chrono reads back what it writes."
  },
  {
   "property": "C64",
   "status": "proved",
   "theorems": [
    "c64_success",
    "c64_failure",
    "c64_new_client",
    "c64_nothing_lost",
    "c64_builder",
    "c64_anonymous"
   ],
   "note": "Opening the stream is an outcome (TLS name, TLS, I/O error, timeout); small_answers: lines below 4 GiB."
  },
  {
   "property": "C65",
   "status": "proved",
   "theorems": [
    "c65_only_the_new_connection",
    "c65_not_opened"
   ],
   "note": ""
  },
  {
   "property": "C66",
   "status": "proved",
   "theorems": [
    "c66_token_only_in_greeting",
    "c66_any_session_refuted"
   ],
   "note": "Without whole greetings it is refuted (c66_any_session_refuted), as the old greeting stays in the buffer (C50)."
  },
  {
   "property": "C67",
   "status": "proved",
   "theorems": [
    "c67_answers",
    "c67_one_answer",
    "c67_stops",
    "c67_reply",
    "c67_anonymous_only_pongs",
    "c67_rejoins",
    "c67_start",
    "c67_start_fails",
    "c67_survives_refuted"
   ],
   "note": "Lines below 4 GiB with short tags (parsed), one turn of the loop per line; Ctrl-C only as being stopped. Survival of every line is refuted (c67_survives_refuted)."
  },
  {
   "property": "C68",
   "status": "proved",
   "theorems": [
    "c68_utf8",
    "c68_characters",
    "c68_boundaries",
    "c68_white_space"
   ],
   "note": ""
  },
  {
   "property": "C69",
   "status": "proved",
   "theorems": [
    "c69_connect_time",
    "c69_connect_same",
    "c69_connect_returns",
    "c69_reconnect_same",
    "c69_reconnect_returns",
    "c69_reconnect_time",
    "c69_reconnect_ends",
    "c69_reconnect_default",
    "c69_prompt",
    "c69_silent",
    "c69_within_timeout_refuted",
    "c69_answers_within_timeout_refuted",
    "c69_tokio",
    "c69_exact_refuted"
   ],
   "note": "Computing takes no time; timers fire when a parameter says, with any bound on how late (c69_tokio: whole milliseconds). reconnect_ends and reconnect_default assume answers below 4 GiB. Connecting within the timeout, and waiting the whole timeout for answers, are refuted."
  },
  {
   "property": "C70",
   "status": "proved",
   "theorems": [
    "c70_join",
    "c70_part",
    "c70_ping",
    "c70_pong",
    "c70_notice",
    "c70_clear_msg",
    "c70_clear_chat",
    "c70_global_user_state",
    "c70_user_state",
    "c70_whisper",
    "c70_privmsg",
    "c70_user_notice",
    "c70_no_other_event",
    "c70_no_other_action",
    "c70_room_state",
    "c70_badge_version_refuted"
   ],
   "note": "Payload types of enum variants are not types of their own in the model; their getters are functions of the enum. Lists stand for iterators. For ROOMSTATE the followers-only minutes must fit (see C33). Versions of the four plain badges are refuted."
  },
  {
   "property": "C71",
   "status": "proved",
   "theorems": [
    "c71_contents",
    "c71_owned",
    "c71_irc",
    "c71_irc_owned",
    "c71_message",
    "c71_one_line",
    "c71_time",
    "c71_calendar",
    "c71_times_differ",
    "c71_config",
    "c71_text",
    "c71_channel",
    "c71_line_shown_refuted"
   ],
   "note": "core's builders, str/char escapes, Duration and chrono's DateTime output are modelled from their documentation and checked against all 48 recorded snapshots (Snapshots.v, tests). Which characters beyond ASCII count as printable is an argument. IRC lines below 4 GiB with short tags (parsed)."
  },
  {
   "property": "C72",
   "status": "proved",
   "theorems": [
    "c72_text",
    "c72_tells",
    "c72_connect",
    "c72_printing_panics_refuted",
    "c72_one_line",
    "c72_control_characters_refuted",
    "c72_reconnect",
    "c72_last_error_refuted",
    "c72_all_attempts_refuted",
    "c72_credentials_refuted",
    "c72_expected_refuted",
    "c72_send",
    "c72_send_tells",
    "c72_recv"
   ],
   "note": "Texts of other libraries (io::Error, InvalidDnsNameError, rustls) are arbitrary arguments; c72_tells assumes that they do not look like the crate's own phrases (`ordinary`), c72_one_line that they have no control characters. Quoted messages: lines below 4 GiB with short tags (`readable`)."
  },
  {
   "property": "C73",
   "status": "proved",
   "theorems": [
    "c73_messages",
    "c73_parts",
    "c73_owned",
    "c73_printed",
    "c73_parsed_commands",
    "c73_tag_names",
    "c73_same_text_refuted",
    "c73_orders",
    "c73_dictionary",
    "c73_variants",
    "c73_alphabetical_refuted",
    "c73_hashes",
    "c73_lookup"
   ],
   "note": "Derived impls are modelled by the documented behaviour of the derive macros; c73_hashes assumes UTF-8 texts, c73_printed strings that are UTF-8 (texts). The hash table and the sorted map of c73_lookup are small specifications (SpecCmp.v), not std's data structures. c73_same_text_refuted and c73_alphabetical_refuted state what does not hold."
  },
  {
   "property": "C74",
   "status": "proved",
   "theorems": [
    "c74_writes",
    "c74_keeps",
    "c74_stops",
    "c74_link_ends_at_until_refuted",
    "c74_no_commits"
   ],
   "note": "Git and the file system are functions given to the model; what git itself does is not modelled. Refuted: the range's link names --until (c74_link_ends_at_until_refuted). With no commits in the range, git show is started with an empty name (c74_no_commits)."
  },
  {
   "property": "C75",
   "status": "proved",
   "theorems": [
    "c75_subcommand",
    "c75_setup",
    "c75_setup_panics",
    "c75_setup_stops",
    "c75_test",
    "c75_exit_code",
    "c75_never_panics_refuted"
   ],
   "note": "Processes are functions of those started before. Refuted: has_cargo_subcmd never panics (c75_never_panics_refuted)."
  },
  {
   "property": "C76",
   "status": "proved",
   "theorems": [
    "c76_messages",
    "c76_parts",
    "c76_enums",
    "c76_numbers"
   ],
   "note": "About the data tree of the model: how a format turns text into it (and so whether a duplicate key reaches the deserialiser) is not modelled. A duration with a fraction of a second has no counterpart in the model."
  },
  {
   "property": "C77",
   "status": "proved",
   "theorems": [
    "c77_load",
    "c77_open",
    "c77_connect",
    "c77_connect_same",
    "c77_reconnect",
    "c77_reconnect_same",
    "c77_no_dns_error"
   ],
   "note": "What rustls and the operating system do is given; that TLS refuses a peer without the name is theirs. no_dns_error assumes that ServerName::try_from accepts RFC 1123 host names and answers below 4 GiB."
  },
  {
   "property": "C78",
   "status": "proved",
   "theorems": [
    "c78_start",
    "c78_start_fails",
    "c78_answers",
    "c78_stops",
    "c78_rejoins",
    "c78_only_polite",
    "c78_like_example"
   ],
   "note": "As C67: lines below 4 GiB with short tags in answers, stops and rejoins; only_polite and like_example need neither."
  },
  {
   "property": "C79",
   "status": "proved",
   "theorems": [
    "c79_builds",
    "c79_files",
    "c79_parser",
    "c79_scalar_everywhere",
    "c79_fallback_refuted",
    "c79_default",
    "c79_features_refuted",
    "c79_client_alone",
    "c79_orphans",
    "c79_crates",
    "c79_no_spare_crates_refuted"
   ],
   "note": "Building is modelled as: no compile_error!, and every item of another file and every crate used is there. README's fallback and building every selection of features are refuted."
  },
  {
   "property": "C80",
   "status": "proved",
   "theorems": [
    "c80_outcome",
    "c80_read",
    "c80_tags",
    "c80_prefix",
    "c80_spaced",
    "c80_text",
    "c80_unescape",
    "c80_unescape_refuted",
    "c80_total_refuted",
    "c80_spaces_refuted",
    "c80_channel_refuted",
    "c80_padding_refuted",
    "c80_last_tag_refuted"
   ],
   "note": "Grammar of RFC 1459 section 2.3.1 with IRCv3 message-tags, written down in SpecRfc without use of the parser; names are only kept free of delimiters, so more lines are covered than the grammar has. Spaces at the end of a line without trailing parameter are included. For lines shorter than 65536 bytes."
  },
  {
   "property": "C81",
   "status": "proved",
   "theorems": [
    "c81_written_message_is_read",
    "c81_messages_told_apart",
    "c81_parsed_message_is_writable",
    "c81_write_and_parse_again"
   ],
   "note": "How each of the fourteen kinds of messages is written, and which values a line can carry, is laid down in SpecWrite without use of the parsers. The written line must be valid UTF-8, below 4 GiB, with tag values below 64 KiB. Lines whose followers-only minutes do not fit in seconds are excluded (C33)."
  },
  {
   "property": "C82",
   "status": "proved",
   "theorems": [
    "c82_stream_is_received",
    "c82_stream_is_unambiguous",
    "c82_session",
    "c82_session_after_reconnect"
   ],
   "note": "Messages are those of C81, each on a line without line feed. Each of the two answers is complete when the wait for it ends; the rest may arrive at any time. After a reconnect the greeting may be repeated on the wire (C50), so only what is received is claimed."
  },
  {
   "property": "C83",
   "status": "proved",
   "theorems": [
    "c83_lines_of_any_size",
    "c83_parameters_need_4gib",
    "c83_params_panic_refuted",
    "c83_params_lost_refuted"
   ],
   "note": "Lines whose tags, prefix, command or channel themselves reach beyond 4 GiB are not covered. That the parameters of every accepted line can be read, and that what is read was written, are refuted."
  },
  {
   "property": "C84",
   "status": "proved",
   "theorems": [
    "c84_only_these_parts",
    "c84_order_of_tags",
    "c84_other_tags",
    "c84_each_part_matters"
   ],
   "note": "For lines within the limits of the parser (C06, C07, C83)."
  },
  {
   "property": "C85",
   "status": "proved",
   "theorems": [
    "c85_strings_of_the_line",
    "c85_no_made_up_strings_refuted"
   ],
   "note": "For lines within the limits of the parser (C06, C07, C83). That no string is made up is refuted."
  },
  {
   "property": "C86",
   "status": "proved",
   "theorems": [
    "c86_text_is_only_text",
    "c86_any_command",
    "c86_whisper_without_space_refuted"
   ],
   "note": "The text is what follows the first colon of the parameters. That colon is assumed to be there, and for a whisper to follow a space; without the space the text can bring in a recipient, which is refuted. Line breaks in the text are a matter of reading lines (C55)."
  },
  {
   "property": "C87",
   "status": "proved",
   "theorems": [
    "c87_cut_line",
    "c87_cut_stream",
    "c87_cut_text",
    "c87_scalar_panics",
    "c87_ban_clears_chat_refuted",
    "c87_other_user_refuted",
    "c87_other_channel_refuted"
   ],
   "note": "That a cut line means what the whole one does is refuted: a ban becomes the clearing of the chat, another user is banned, another channel is joined."
  },
  {
   "property": "C88",
   "status": "proved",
   "theorems": [
    "c88_value_is_only_value",
    "c88_free_values",
    "c88_any_text_escaped",
    "c88_semicolon_refuted",
    "c88_space_refuted"
   ],
   "note": "Free tags are display names, the system message, the text replied to, and the names of plans and promotions. That spaces and semicolons need no escapes is refuted."
  },
  {
   "property": "C89",
   "status": "proved",
   "theorems": [
    "c89_more_tags",
    "c89_new_keys",
    "c89_room_state_refuted",
    "c89_ban_refuted"
   ],
   "note": "That a ROOMSTATE stays readable in a debug build is refuted (followers-only overflows), and so is that a ban stays a ban."
  },
  {
   "property": "C90",
   "status": "proved",
   "theorems": [
    "c90_received",
    "c90_other_texts_refuted"
   ],
   "note": "Composes the bypass, the sender and the reader. That different texts stay different is refuted: a text may end in the appended bytes."
  },
  {
   "property": "C91",
   "status": "proved",
   "theorems": [
    "c91_waits",
    "c91_reads_no_more",
    "c91_kept",
    "c91_bound_refuted"
   ],
   "note": "About the bytes held by BufReader and Lines together. That there is a bound on them is refuted: without a line feed everything is kept."
  },
  {
   "property": "C92",
   "status": "proved",
   "theorems": [
    "c92_received",
    "c92_programs",
    "c92_profiles",
    "c92_always_the_same_refuted"
   ],
   "note": "A build is a parser (SSE2, AVX2, NEON at any address, scalar) and a profile (debug, release). That all builds always do the same is refuted by the two cases in which one panics."
  },
  {
   "property": "C93",
   "status": "proved",
   "theorems": [
    "c93_turn_panics_iff",
    "c93_run_panics_iff",
    "c93_readme_panics_iff",
    "c93_program_panics_iff",
    "c93_readme_program_panics_iff"
   ],
   "note": "For less than 4 GiB at once and tags below 64 KiB (C07, C83)."
  },
  {
   "property": "C94",
   "status": "proved",
   "theorems": [
    "c94_as_if_shortened",
    "c94_whole_name_refuted",
    "c94_cut_in_character"
   ],
   "note": "Keys below 64 KiB, lines below 4 GiB. Commands without a typed form keep the line itself (C22)."
  },
  {
   "property": "C95",
   "status": "proved",
   "theorems": [
    "c95_same_shown",
    "c95_type_is_command"
   ],
   "note": "How a format writes the serialised data as text, and how chrono serialises a time, are not modelled (C60)."
  },
  {
   "property": "C96",
   "status": "proved",
   "theorems": [
    "c96_search",
    "c96_chunks",
    "c96_separators",
    "c96_stops"
   ],
   "note": "Only the loops of simd.rs; the scalar parser looks at each byte once by construction. A unit of fuel in the model is one evaluation of the loop's condition."
  },
  {
   "property": "C97",
   "status": "proved",
   "theorems": [
    "c97_same",
    "c97_at_most",
    "c97_reached",
    "c97_one",
    "c97_adds",
    "c97_linear_refuted"
   ],
   "note": "Counts calls of the closure given to find, not the bytes each comparison looks at. A tag value holds at most 65535 bytes (C06), so on a parsed line n is at most 21844."
  }
 ]
}