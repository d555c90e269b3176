{
 "claims": [
  {
   "property": "C01",
   "status": "proved",
   "theorems": [
    "C01_cache_refines_spec",
    "C01_small_cache_refines_spec",
    "C01_hash_function_unsigned",
    "C01_lookup_returns_latest",
    "C01_permanent_over_ordinary_refuted"
   ],
   "note": "Holds for histories in which no bucket holds over 32000 entries (automatic when the cache is at most 32000 elements) and no permanent entry is added over an ordinary one; the last theorem shows what happens otherwise."
  },
  {
   "property": "C02",
   "status": "proved",
   "theorems": [
    "C02_size_bound",
    "C02_recently_used_survives"
   ],
   "note": ""
  },
  {
   "property": "C03",
   "status": "proved",
   "theorems": [
    "C03_no_expired_answers",
    "C03_remaining_ttl"
   ],
   "note": ""
  },
  {
   "property": "C04",
   "status": "partial",
   "theorems": [
    "C04_cache_file_round_trip_partial",
    "C04_uninitialised_flag_refuted"
   ],
   "note": "For zero-initialised memory behind the elements read; otherwise refuted (uninitialised immutable flag)."
  },
  {
   "property": "C05",
   "status": "partial",
   "theorems": [
    "C05_reader_total_partial",
    "C05_length_overflow_refuted"
   ],
   "note": "For tables of at most 32000 elements and zero-initialised flags; the length field 0x7fffffff is undefined behaviour (refutation)."
  },
  {
   "property": "C06",
   "status": "proved",
   "theorems": [
    "C06_decompression_safe",
    "C06_decompress_any_strings_safe",
    "C06_decompression_exact",
    "C06_message_determines_records",
    "C06_looping_name_rejected_refuted"
   ],
   "note": "Safety for every packet and every content of fresh memory; exactness for every packet whose records are well-formed within the implementation's limits. C06_looping_name_rejected_refuted: a name that loops is accepted and the record is stored without a name."
  },
  {
   "property": "C07",
   "status": "proved",
   "theorems": [
    "C07_compression_safe",
    "C07_compression_exact",
    "C07_packed_records_are_the_records",
    "C07_client_reads_the_cached_answer",
    "C07_decompression_inverts_compression",
    "C07_repeated_labels_refuted",
    "C07_long_answers_are_exact_or_refused_refuted"
   ],
   "note": "For all answers in the cache that fit the packet and whose names have no run of labels followed by the same run; without these two conditions the property is refuted (self-referring pointer made from uninitialised memory; label silently left out)."
  },
  {
   "property": "C08",
   "status": "proved",
   "theorems": [
    "C08_name_safe",
    "C08_accepted_name_is_well_formed",
    "C08_well_formed_name_is_accepted",
    "C08_name_unique",
    "C08_question_exact",
    "C08_name_end_exact",
    "C08_name_end_safe",
    "C08_compressed_name_end_exact"
   ],
   "note": "dw_get_dname, dw_get_dname_type (ModelDwStr): accepted exactly when well-formed, printable and inside; never reads outside; dw_get_dn_end exact on names and safe"
  },
  {
   "property": "C09",
   "status": "proved",
   "theorems": [
    "C09_name",
    "C09_name_unique",
    "C09_backwards",
    "C09_safe",
    "C09_only_the_packet",
    "C09_reads",
    "C09_only",
    "C09_name_limit_refuted",
    "C09_long_names_refuted"
   ],
   "note": "dns/Decompress.c. For every packet, offset and contents of fresh memory: reading a name succeeds exactly when a name stands there with strictly backward pointers, in at most 255 steps and at most 259 octets (the RFC's limit of 255 is refuted); decompressing any packet into any string never faults and depends only on the packet's octets; it succeeds exactly on the messages that say something, and returns that (names up to 256 octets; refuted for longer ones)."
  },
  {
   "property": "C10",
   "status": "proved",
   "theorems": [
    "C10_says",
    "C10_round_trip",
    "C10_same_ttl",
    "C10_success",
    "C10_header",
    "C10_safe",
    "C10_only_the_message",
    "C10_ttl_refuted",
    "C10_many_labels_refuted",
    "C10_txt_refuted"
   ],
   "note": "For every uncompressed message with at most one question and records of the shape their types ask for: what compress_data returns says the same header, question and records up to letter case, and decompress_data gives them back; the TTL 4294967295 is lowered by one (refuted corner). Never a fault, for any octets up to 2^30. Compression is shown to succeed below 4100 octets and 150 labels; more labels refuted. Malformed TXT data are refuted: compressed but not decompressed."
  },
  {
   "property": "C11",
   "status": "proved",
   "theorems": [
    "C11_programs_do_what_lists_do",
    "C11_failure_changes_nothing",
    "C11_to_c_string",
    "C11_negative_places_are_refused",
    "C11_any_int_refuted"
   ],
   "note": "Every program of library calls within the contract behaves like its description on lists. Refuted for arguments whose sum overflows an int (C11_any_int_refuted)."
  },
  {
   "property": "C12",
   "status": "partial",
   "theorems": [
    "C12_searches_are_exact",
    "C12_searches_for_c_strings",
    "C12_readers_partial",
    "C12_reading_a_byte_refuted",
    "C12_reading_numbers_refuted",
    "C12_decimal_numbers",
    "C12_large_decimal_numbers_refuted"
   ],
   "note": "Searches are exact on all strings. Reading bytes and numbers is exact for strings long enough for one of them and refuted for shorter ones."
  },
  {
   "property": "C13",
   "status": "proved",
   "theorems": [
    "C13_blocklist_exact",
    "C13_last_line_refuted"
   ],
   "note": "Exact for every newline-terminated list; a last line without newline is never blocked (refutation)."
  },
  {
   "property": "C14",
   "status": "partial",
   "theorems": [
    "C14_load_safe",
    "C14_lookup_safe_partial",
    "C14_query_safe_partial",
    "C14_zero_buckets_refuted"
   ],
   "note": "Safe for every file with a non-zero bucket count; a zero count divides by zero (refutation)."
  },
  {
   "property": "C15",
   "status": "proved",
   "theorems": [
    "C15_acl_exact",
    "C15_any_text_safe",
    "C15_slash_without_number_refuted",
    "C15_bad_number_refuted",
    "C15_long_list_refuted",
    "C15_huge_number_refuted"
   ],
   "note": "lists of up to 127 networks: exactly the addresses in one of them may ask; any text: the check never leaves the table; deviations for malformed text are the _refuted theorems. inet_pton of the C library is a parameter"
  },
  {
   "property": "C16",
   "status": "proved",
   "theorems": [
    "C16_entries",
    "C16_prefix",
    "C16_lists",
    "C16_others",
    "C16_safe",
    "C16_short_address_refuted",
    "C16_trailing_text_refuted",
    "C16_empty_mask_refuted",
    "C16_broadcast_refuted",
    "C16_long_number_refuted"
   ],
   "note": "Exact for all lists of well-formed entries and aliases, and safe on all texts without ten digits in a row. The clause that malformed text is rejected is false of the code and is refuted (short addresses, trailing text, empty masks), and so is the clause that a list permits its entry 255.255.255.255."
  },
  {
   "property": "C17",
   "status": "proved",
   "theorems": [
    "C17_ranges",
    "C17_filter_exact",
    "C17_packet_filter_exact",
    "C17_filter_safe",
    "C17_filter_before_dissection_refuted"
   ],
   "note": "The filter is exact over the answer section of any stored answer and from any well-formed packet on; the ranges are the documented ones; safe on any string. An answer taken from the additional section of a referral is not filtered (C17_filter_before_dissection_refuted)."
  },
  {
   "property": "C18",
   "status": "proved",
   "theorems": [
    "C18_acceptance_exact",
    "C18_only_matching_replies_are_used",
    "C18_other_packets_change_nothing",
    "C18_id_was_sent_refuted",
    "C18_class_is_checked_refuted"
   ],
   "note": "Acceptance is exact (ID, name, type), in every history only a packet matching the pending question is used, and other packets change nothing. Refuted beside it: the class and the QR bit are not checked; after a failed send of dwx_glueless_done the awaited ID was never sent."
  },
  {
   "property": "C19",
   "status": "proved",
   "theorems": [
    "C19_every_packet_has_a_header",
    "C19_header_unique",
    "C19_query_check_exact",
    "C19_short_packet",
    "C19_safe",
    "C19_reply_number",
    "C19_set_number_exact"
   ],
   "note": "get_dns_qid and set_dns_qid, over all headers"
  },
  {
   "property": "C20",
   "status": "proved",
   "theorems": [
    "C20_header_is_written",
    "C20_header_is_read",
    "C20_round_trip",
    "C20_read_then_write",
    "C20_short_string_refuted"
   ],
   "note": "Header codec of dns/Queries.c: exact RFC 1035 bits, both round trips; refuted: read_hdr of a string shorter than a header. compress_header/decomp_get_header copy octets (see C10)."
  },
  {
   "property": "C21",
   "status": "proved",
   "theorems": [
    "C21_text_to_wire",
    "C21_malformed_is_rejected",
    "C21_wire_to_text",
    "C21_round_trip",
    "C21_star",
    "C21_malformed_star_refuted",
    "C21_long_name_refuted",
    "C21_email_to_wire",
    "C21_email_malformed_is_rejected",
    "C21_email_round_trip",
    "C21_safe"
   ],
   "note": "hname_2rfc1035(_starwhitis), hname_translate, email_2rfc1035: exact wire form, malformed names rejected, round trips; refuted: names of 256 octets, stars after text."
  },
  {
   "property": "C22",
   "status": "proved",
   "theorems": [
    "C22_is_a_map",
    "C22_is_a_map_below",
    "C22_iteration",
    "C22_strings",
    "C22_tuples",
    "C22_large_table_refuted",
    "C22_zero_bits_refuted",
    "C22_count_refuted"
   ],
   "note": "Refinement of mhash_* to a finite map over every history, iteration lists every key once, js and tuple wrappers; refuted: undefined shift in tables of 2^25 chains, tables made with 0 bits, the element count."
  },
  {
   "property": "C23",
   "status": "proved",
   "theorems": [
    "C23_whole_records_go",
    "C23_ends_with_the_header",
    "C23_safe",
    "C23_fits",
    "C23_what_is_left",
    "C23_any",
    "C23_many_name_servers_refuted",
    "C23_star_refuted"
   ],
   "note": "squeeze_to_fit for every message and packet; the end of udpsuccess and udpany for every reply. Refuted: with more than 19 NS and AR records udpsuccess gives up after 20 squeezes and sends more than 512 octets; udpstar's truncated reply is a bare header that still counts a question and answers."
  },
  {
   "property": "C24",
   "status": "proved",
   "theorems": [
    "C24_stream",
    "C24_range",
    "C24_shift_refuted"
   ],
   "note": "Every key, every number of draws: the numbers are the output of RadioGatun[32] (independent definition; published vectors as examples). Refuted under the strict reading of the C standard for shifts into the sign."
  },
  {
   "property": "C25",
   "status": "proved",
   "theorems": [
    "C25_only_the_message",
    "C25_delivered",
    "C25_reply",
    "C25_upstream",
    "C25_upstream_complete",
    "C25_safe",
    "C25_length_refuted",
    "C25_length_undefined_refuted",
    "C25_edns_id_refuted",
    "C25_cut_off_refuted"
   ],
   "note": "For every way of splitting and every history only the message at the beginning of the stream is handed on, and it is; replies likewise. Refuted where char is signed (lengths), for the ID of EDNS queries, and for replies from upstream not taken at once."
  },
  {
   "property": "C26",
   "status": "proved",
   "theorems": [
    "C26_C27_process_exact",
    "C26_rotation_is_permutation",
    "C26_every_record_takes_its_turn",
    "C26_C27_process_safe"
   ],
   "note": "Over the cache entry as changed by a query. Rotation happens only when there are no NS/AR records (definition rotates)."
  },
  {
   "property": "C27",
   "status": "proved",
   "theorems": [
    "C27_ageing_exact",
    "C26_C27_process_exact",
    "C26_C27_process_safe"
   ],
   "note": "For remaining times of 0..2^31-1 seconds."
  },
  {
   "property": "C28",
   "status": "proved",
   "theorems": [
    "C28_name_comparison_exact",
    "C28_same_name_is_equality_of_labels",
    "C28_zone_is_label_suffix",
    "C28_below_is_proper_label_suffix",
    "C28_bailiwick_exact",
    "C28_cname_bailiwick_exact",
    "C28_C35_chain_leaving_the_zone",
    "C28_C35_referral_exact",
    "C28_referred_zone_in_bailiwick",
    "C28_servers_named_by_accepted_records",
    "C28_referral_in_bailiwick_refuted"
   ],
   "note": "Name comparison and both bailiwick tests are exact; referrals of up to 15 records are in bailiwick. Refuted for referrals of more than 15 records, where the code does not check (C28_referral_in_bailiwick_refuted). Names within the size the code compares (up to 255 bytes and 86 labels, or fewer bytes and more labels)."
  },
  {
   "property": "C29",
   "status": "proved",
   "theorems": [
    "C29_safe",
    "C29_colons",
    "C29_digits",
    "C29_leading_colon_refuted",
    "C29_blanks_refuted",
    "C29_last_group_missing_refuted",
    "C29_seven_groups_refuted",
    "C29_blank_at_end_refuted"
   ],
   "note": "Exact for every string without colons and every string without blanks: accepted iff in the grammar (RFC 4291 forms 1 and 2; 32 digits), with the address it denotes, up to the two deviations stated in C29_colons; the deviations, and what blanks between colons can do, are refuted with witnesses. Strings with both colons and blanks: only C29_safe and the witnesses."
  },
  {
   "property": "C30",
   "status": "proved",
   "theorems": [
    "C30_conversion_exact",
    "C30_name_length_checked_refuted",
    "C30_chop_exact",
    "C30_chop_safe"
   ],
   "note": "dw_dnsname_convert: accepted exactly the names ending in a dot with labels of 1..63 bytes; result is the wire name; total length not checked (refuted theorem)"
  },
  {
   "property": "C31",
   "status": "proved",
   "theorems": [
    "C31_dictionary",
    "C31_dictionary_any_hash",
    "C31_spec_is_a_map"
   ],
   "note": "Dictionaries (DwDict.c over DwHash.c): refinement to a map over all histories, growth, and the key walk. Hypothesis: no chain longer than the implementation's limit of 10000; dropped for up to 10000 insertions."
  },
  {
   "property": "C32",
   "status": "partial",
   "theorems": [
    "C32_loaded_partial",
    "C32_authoritative_partial",
    "C32_glue_partial",
    "C32_kept_partial",
    "C32_replaced_partial",
    "C32_order_free_partial",
    "C32_zone_kept_partial",
    "C32_any_partial",
    "C32_meta_types",
    "C32_any_order_refuted",
    "C32_zero_octets_refuted",
    "C32_long_names_refuted"
   ],
   "note": "For all sequences of up to 116508 records (names up to 253 octets without zero octets in labels) in which a zone's own NS records come before its other records if another zone delegated to it before: every look-up gives exactly the authoritative records if there are any, else the glue; glue after authoritative data changes nothing, authoritative data replace glue, the order of loading does not matter; the ANY list of a name has exactly these sets. In other orders the code uses freed memory (C32_any_order_refuted), so the property is false of them; also refuted for zero octets in labels and names of 254-255 octets."
  },
  {
   "property": "C33",
   "status": "proved",
   "theorems": [
    "C33_fold_case_exact",
    "C33_star_label_exact",
    "C33_parent_exact",
    "C33_star_steps_end",
    "C33_deadwood_lower_case_exact",
    "C33_deadwood_lower_case_safe"
   ],
   "note": "fold_case of MaraDNS and the lower-casing of Deadwood change exactly the letters of the name; star labels and parents are exact; the steps to the root are as many as labels."
  },
  {
   "property": "C34",
   "status": "partial",
   "theorems": [
    "C34_name_safe",
    "C34_query_partial",
    "C34_zeroed_partial",
    "C34_leak_refuted",
    "C34_overrun_refuted",
    "C34_upstream_partial",
    "C34_stale_refuted",
    "C34_upstream_overrun_refuted"
   ],
   "note": "False in general: a query cut short is answered with uninitialised heap memory (C34_leak_refuted) and can be read past the buffer (C34_overrun_refuted); a reply from upstream can be read past the buffer (C34_upstream_overrun_refuted), and an address be taken from stale memory (C34_stale_refuted). Proved: bounds of the name reader for all octets, independence of unwritten memory for complete queries and for replies with an address before octet 450, bounds for all datagrams if the memory after them is zero."
  },
  {
   "property": "C35",
   "status": "proved",
   "theorems": [
    "C35_safe",
    "C35_answer_exact",
    "C35_useless_answer",
    "C35_incomplete_chain",
    "C28_C35_chain_leaving_the_zone",
    "C35_denial_exact",
    "C35_answer_in_additional_section",
    "C28_C35_referral_exact",
    "C35_nothing_invented",
    "C35_chain_after_other_record_refuted",
    "C35_long_cname_target_refuted",
    "C35_late_answer_refuted"
   ],
   "note": "Safe for any strings. Exact content for each kind of reply within the code's limits (answer within the first 7 or 32 records, CNAME records first, targets of up to 251 bytes, up to 15 NS records and 31 servers); beyond them the refutations show what goes wrong. Nothing invented: any well-formed reply."
  },
  {
   "property": "C36",
   "status": "proved",
   "theorems": [
    "C36_every_history_is_possible",
    "C36_no_step_goes_wrong",
    "C36_at_most_one_answer_per_query",
    "C36_waiting_clients_have_asked",
    "C36_new_query_is_sent_on",
    "C36_same_query_joins",
    "C36_reply_reaches_every_client",
    "C36_timeout_tells_first_client",
    "C36_max_inflights_refuted",
    "C36_every_client_gets_servfail_refuted",
    "C36_client_of_glueless_query_is_answered_refuted",
    "C36_slots_become_free_refuted"
   ],
   "note": "Model of the connection table as init/step; sockets, clocks and the answers of the kernel are in the events. What one could also expect and is false of the code is in the _refuted theorems: max_inflights counts one too many, only the first client is told of a failure, the client whose query needs a glueless server is never recorded and the slot never freed."
  },
  {
   "property": "C37",
   "status": "proved",
   "theorems": [
    "C37_reply_packet_exact",
    "C37_truncated_packet_exact",
    "C37_query_is_looked_up",
    "C37_rejected_is_denied",
    "C37_other_packets_are_dropped",
    "C37_client_packets_are_safe",
    "C37_long_answer_is_truncated_refuted",
    "C37_rfc8482_answer_is_safe_refuted",
    "C37_any_with_edns_is_safe_refuted",
    "C37_blocked_name_is_safe_refuted"
   ],
   "note": "Safety holds without block list and RFC 8482 answers; with them it is refuted (the RFC 8482 answer sends memory outside its buffer, a blocked name asked for without class bytes dereferences NULL)."
  },
  {
   "property": "C38",
   "status": "proved",
   "theorems": [
    "C38_question_is_written",
    "C38_question_is_read",
    "C38_question_exact",
    "C38_record_is_read",
    "C38_record_exact",
    "C38_name_length",
    "C38_name_length_exact",
    "C38_make_question_safe",
    "C38_high_ttl_refuted",
    "C38_long_name_refuted"
   ],
   "note": "Codec and exactness; refuted for names over 256 octets (cut) and TTLs of 2^31 or more (shift into the sign bit)."
  },
  {
   "property": "C39",
   "status": "proved",
   "theorems": [
    "C39_idle_closed",
    "C39_closed_by_client_refuted",
    "C39_upstream_leak_refuted"
   ],
   "note": "A client that stalls loses its connection. Refuted for a client that has closed its side, and for the upstream socket."
  },
  {
   "property": "C40",
   "status": "partial",
   "theorems": [
    "C40_asked_first_partial",
    "C40_refuted"
   ],
   "note": "Refuted in general: a slot taken over by another client. Proved when no connection expires while its query is pending; replies obtained over TCP from upstream (Retry) are not part of the slot model."
  },
  {
   "property": "C41",
   "status": "proved",
   "theorems": [
    "C41_script",
    "C41_address",
    "C41_fail",
    "C41_not_there_refuted",
    "C41_any_refuted",
    "C41_count_refuted",
    "C41_root_refuted"
   ],
   "note": "Exact octets of the reply for all complete queries. Refuted: 'not there' and ANY/HINFO replies have a stray octet and the SOA is in the answer section; queries with another number of questions get a reply without the response flag; queries for the root are dropped."
  },
  {
   "property": "C42",
   "status": "proved",
   "theorems": [
    "C42_match",
    "C42_short_refuted",
    "C42_signed_refuted"
   ],
   "note": "For datagrams which are long enough to hold the question. Refuted: shorter ones are compared with stale memory; with signed char, replies for names with octets of 128 or more are never used."
  },
  {
   "property": "C43",
   "status": "proved",
   "theorems": [
    "C43_wire",
    "C43_packet",
    "C43_accepts",
    "C43_empty_label_refuted",
    "C43_long_refuted"
   ],
   "note": "Refuted: texts with empty labels are accepted (and an octet of memory is sent), names of 256 and 257 octets are sent."
  },
  {
   "property": "C44",
   "status": "proved",
   "theorems": [
    "C44_answers",
    "C44_exact_match",
    "C44_cname_match",
    "C44_referral",
    "C44_refused",
    "C44_sound",
    "C44_case_insensitive",
    "C44_responses_dropped",
    "C44_other_operations",
    "C44_all_records",
    "C44_zone_transfer",
    "C44_star_cname_refuted",
    "C44_default_zone_case_refuted",
    "C44_long_names_refuted",
    "C44_class_refuted",
    "C44_echo_refuted",
    "C44_root_refuted"
   ],
   "note": "proc_query of the authoritative build equals a decision over the abstract table, for every query for a name of up to 253 octets other than the root; what each outcome means is stated through the nearest enclosing name. The refuted theorems give the cases where the server does otherwise."
  },
  {
   "property": "C45",
   "status": "proved",
   "theorems": [
    "C45_reply",
    "C45_fits",
    "C45_sets",
    "C45_cname_refuted"
   ],
   "note": "C45_reply: contents of every reply, memory kept in order, no fault. C45_fits: with max_total up to 20 every reply fits and only 1024 octets or more get a server failure. C45_sets: after any list of queries every set is a permutation of itself. C45_cname_refuted: what a CNAME leads to loses records after round robin. The wildcard and ANY loops are not modelled."
  },
  {
   "property": "C46",
   "status": "proved",
   "theorems": [
    "C46_every_packet",
    "C46_every_datagram",
    "C46_dropped",
    "C46_no_echo",
    "C46_queries_answered"
   ],
   "note": "For all octets, zone data, settings and contents of memory. How the records found are put into the packet is C45; the reports on the server are parameters."
  },
  {
   "property": "C47",
   "status": "proved",
   "theorems": [
    "C47_character_read",
    "C47_character_written",
    "C47_name",
    "C47_star",
    "C47_accepted",
    "C47_address",
    "C47_character_written_refuted",
    "C47_root_zone_refuted",
    "C47_last_number_missing_refuted",
    "C47_number_overflow_refuted"
   ],
   "note": "Characters are kept exactly in the ranges of kept (SpecCsv2.v); for all others C47_character_written_refuted. C47_name, C47_star: names of up to 255 octets of text, 254 if relative to the zone, which is not the root (C47_root_zone_refuted). C47_accepted: any file. C47_address; the texts wrongly taken are in C47_last_number_missing_refuted and C47_number_overflow_refuted."
  },
  {
   "property": "C48",
   "status": "proved",
   "theorems": [
    "C48_number",
    "C48_type",
    "C48_type_unknown",
    "C48_type_raw",
    "C48_mx",
    "C48_srv",
    "C48_any_number",
    "C48_any_type",
    "C48_any_mx",
    "C48_any_srv",
    "C48_zeros_refuted",
    "C48_overflow_refuted",
    "C48_null_mx_refuted"
   ],
   "note": "Numbers below 2^31, zero as one digit (C48_zeros_refuted, C48_overflow_refuted for the others). C48_type and C48_type_unknown: the table of types in both directions. C48_mx and C48_srv: hosts other than the root (C48_null_mx_refuted); names that do not fit are rejected. C48_any_*: any file; the one fault left is the overflow of C48_overflow_refuted. For MX and SRV the zone's name has no star."
  },
  {
   "property": "C49",
   "status": "proved",
   "theorems": [
    "C49_txt",
    "C49_raw",
    "C49_fetched_txt",
    "C49_fetched_raw",
    "C49_any_txt",
    "C49_any_raw",
    "C49_accepted",
    "C49_accepted_refuted",
    "C49_freed_twice_refuted",
    "C49_raw_refuted",
    "C49_exit_refuted",
    "C49_fetched_empty_refuted"
   ],
   "note": "Data of at most 1512 octets, texts of at most 10000 octets; characters outside the ranges that are written with an octet less than counted (C49_accepted_refuted shows that these break the lengths). For RAW the length that is never set must not overflow (C49_raw_refuted). C49_any_*: any file; the faults left are a string freed twice (C49_freed_twice_refuted) and, for RAW, the overflow; C49_exit_refuted: a character ends the program. Empty strings written by fetchzone do not read back (C49_fetched_empty_refuted)."
  },
  {
   "property": "C50",
   "status": "proved",
   "theorems": [
    "C50_zone",
    "C50_one_meaning",
    "C50_any",
    "C50_any_mail",
    "C50_many_refuted",
    "C50_opush_refuted",
    "C50_null_refuted",
    "C50_txt_first",
    "C50_root_refuted"
   ],
   "note": "Whole zone files, AAAA data (C51), SOA data and mailboxes (C52) included. The data of the rarer types, and /read, are parameters of the model and not part of the grammar; C50_any supposes that the data of these types keep to memory (C50_any_mail: all but SOA, MG, MR, MINFO and RP), which AAAA data with too many colons do not (C51_outside_refuted)."
  },
  {
   "property": "C51",
   "status": "proved",
   "theorems": [
    "C51_address6",
    "C51_one_meaning",
    "C51_any_text",
    "C51_outside_refuted",
    "C51_too_many_refuted",
    "C51_too_few_refuted"
   ],
   "note": "Both forms of RFC 4291 without embedded IPv4 addresses, which the code does not accept. C51_any_text: any text with at most nine colons is read within memory."
  },
  {
   "property": "C52",
   "status": "proved",
   "theorems": [
    "C52_soa",
    "C52_mailbox",
    "C52_mailboxes",
    "C52_root",
    "C52_any_soa",
    "C52_any_mailbox",
    "C52_accepted",
    "C52_dot_refuted"
   ],
   "note": "Mailboxes with an at sign; those with a dot instead are refused in some cases (C52_dot_refuted). C52_accepted: on any file, accepted SOA data ends with five numbers."
  },
  {
   "property": "C53",
   "status": "proved",
   "theorems": [
    "C53_ports",
    "C53_tilde",
    "C53_last",
    "C53_any",
    "C53_last_refuted",
    "C53_zero_refuted"
   ],
   "note": "Lists in which each port has one blank or comma after it, ended by the line (C53_ports) or by a tilde (C53_tilde). A port right before the end of the line is lost in all cases (C53_last, C53_last_refuted); two blanks or commas add port 0 (C53_zero_refuted). C53_any: any file."
  }
 ]
}
