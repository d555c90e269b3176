{"id": "C01", "title": "Deadwood cache returns the latest value stored for exactly the looked-up key", "statement": "After any sequence of cache operations (add with any key/value/TTL, lookup with or without expiry-ignoring, delete), a lookup of key k returns precisely the value most recently added under k, unless it was deleted, expired or evicted; it never returns a value stored under another key, whatever the hash function does (collisions included).", "quantifier": "all operation histories, all keys/values, all hash functions, all table sizes", "why_tests_cant": "Depends on every interleaving of adds, lookups, deletes, evictions and hash collisions.", "anchors": ["deadwood-github/src/DwHash.c: dwh_add, dwh_get, dwh_zap, dwh_grep, dwh_place_new"]}
{"id": "C02", "title": "Deadwood cache size bound and least-recently-used eviction", "statement": "After any history the number of evictable entries never exceeds the configured maximum, and the entry evicted to make room is always the one that was used (added or read) longest ago.", "quantifier": "all histories and all configured maxima", "why_tests_cant": "Needs the recency order after every possible history, not one.", "anchors": ["deadwood-github/src/DwHash.c: dwh_place_new, dwh_make_fila, dwh_fila_move/dwh_use_fila"]}
{"id": "C03", "title": "Expired cache entries are never served", "statement": "A lookup at time t returns an entry only if its expiry time is later than t (unless the caller asked to ignore expiry), and the reported remaining TTL is exactly expiry - t clamped to the documented range.", "quantifier": "all clock values, all TTLs, all histories", "why_tests_cant": "Quantifies over all clock values and stored TTLs.", "anchors": ["deadwood-github/src/DwHash.c: dwh_get, dwh_get_ttl"]}
{"id": "C04", "title": "Cache file round trip", "statement": "Writing the cache to a file and reading the file back restores exactly the same key/value/expiry set in the same least-recently-used order.", "quantifier": "all cache contents", "why_tests_cant": "Depends on every combination of contents and lengths.", "anchors": ["deadwood-github/src/DwHash.c: dwh_write_hash, dwh_read_hash, dwh_write_u16/u32/i64"]}
{"id": "C05", "title": "The cache-file reader survives any file", "statement": "For every byte sequence given as cache file the reader terminates, never reads past its buffers, and either rejects or yields a well-formed cache.", "quantifier": "all byte strings", "why_tests_cant": "Every corrupt file.", "anchors": ["deadwood-github/src/DwHash.c: dwh_read_hash"]}
{"id": "C06", "title": "Deadwood packet decompression is safe on every packet and exact on well-formed ones", "statement": "For every packet from an upstream server, decompressing it never reads or writes outside the buffers involved, terminates even with looping compression pointers, and returns either failure or a valid string of less than 2048 bytes. When the packet's records are well-formed (within 200 labels and pointers per name and the output size), the result is exactly these records in order, with all names written out, followed by the table of their offsets, the header's counts and the type byte.", "quantifier": "all byte strings as packets; all contents of uninitialised memory; all record lists and all ways of compressing them", "why_tests_cant": "Attackers choose the packet; compression pointers form arbitrary graphs.", "anchors": ["deadwood-github/src/DwCompress.c: dwc_decompress, dwc_decomp_dname, dwc_decomp_rr", "deadwood-github/src/DwStr.c: dw_fetch_u8, dw_fetch_u16, dw_substr_append"]}
{"id": "C07", "title": "Deadwood compression preserves meaning", "statement": "When an answer in the cache is sent to a client, the packet has the question as the client wrote it, and reading the packet as RFC 1035 says gives, section by section, the cached records, ASCII case of names aside; decompressing it with Deadwood's own decompressor gives back the cached answer; compression never makes the answer longer and never touches memory outside its buffers.", "quantifier": "all cached answers, all questions in any case, all contents of fresh memory", "why_tests_cant": "Pointer targets depend on all combinations of shared suffixes.", "anchors": ["deadwood-github/src/DwCompress.c: dwc_compress, dwc_compress_dlabels, dwc_seek_comp_pointer"]}
{"id": "C08", "title": "Query names taken from packets are well-formed", "statement": "Whenever the name parser accepts a name at an offset, the result is exactly the packet's bytes at that offset, is a well-formed sequence of labels of 1..63 bytes (no control characters) ending in the root label, at most 256 bytes long, and lies inside the packet; every such name is accepted; and nothing outside the packet is read. A question is accepted exactly if its name is and its type is not one of the types Deadwood uses internally.", "quantifier": "all packets and offsets", "why_tests_cant": "All byte strings and offsets.", "anchors": ["deadwood-github/src/DwStr.c: dw_get_dname, dw_get_dname_type, dw_get_dn_end"]}
{"id": "C09", "title": "MaraDNS name decompression is memory safe and terminates on every packet", "statement": "For every packet and offset, MaraDNS' decompressor terminates, only reads inside the packet, only follows pointers that go strictly backwards, and yields a bounded-length name.", "quantifier": "all packets, all offsets", "why_tests_cant": "Attackers choose the packet.", "anchors": ["dns/Decompress.c: decomp_get_label, decomp_append_dlabel, decomp_get_rddata, decompress_packet"]}
{"id": "C10", "title": "MaraDNS compression then decompression is the identity up to ASCII case", "statement": "For every DNS message that MaraDNS compresses, decompressing gives back the same records, names compared case-insensitively.", "quantifier": "all messages", "why_tests_cant": "All combinations of shared suffixes and offsets.", "anchors": ["dns/Compress.c: compress_data, compress_dlabel, compress_add_dlabel_points", "dns/Decompress.c: decompress_data"]}
{"id": "C11", "title": "String library operations are bounded and functionally exact", "statement": "Every js_string operation leaves the string's length within its allocated capacity, never writes outside its buffer, and either fails leaving a usable string or performs exactly its documented list operation.", "quantifier": "all strings, capacities and arguments", "why_tests_cant": "All combinations of lengths, capacities, offsets (incl. negative and huge).", "anchors": ["libs/JsStr.c: js_append, js_substr, js_insert, js_copy, js_str2js, js_addbyte, js_adduint16, js_qappend, js_substr_append"]}
{"id": "C12", "title": "String library readers stay inside the string", "statement": "js_readbyte and js_readuint16 and the searching functions read only inside the string for every string.", "quantifier": "all strings including the empty one", "why_tests_cant": "Boundary lengths multiply with offsets.", "anchors": ["libs/JsStr.c: js_readbyte, js_readuint16, js_fgrep_offset, js_match_offset"]}
{"id": "C13", "title": "Block list compilation and lookup are exact", "statement": "After compiling any list of host names into a block-list file and loading it, the resolver reports a name as blocked iff the name was in the list.", "quantifier": "all lists of names, all hash keys, all queried names", "why_tests_cant": "Depends on bucket chains formed by arbitrary sets of names.", "anchors": ["deadwood-github/tools/blockhash/blockHashMake.c: fillHash, makeBlock", "deadwood-github/src/DwBlockHash.c: DBH_BlockHasString, DBH_makeBlockHash"]}
{"id": "C14", "title": "Block list lookup is memory safe for every file", "statement": "For every byte string loaded as block-list file and every queried name, lookup terminates and reads only inside the file image.", "quantifier": "all files, all names", "why_tests_cant": "Corrupt files are unbounded in number.", "anchors": ["deadwood-github/src/DwBlockHash.c: DBH_BlockHasString, DBH_Read32bitNumber"]}
{"id": "C15", "title": "Deadwood access control lists are exact", "statement": "A client address is permitted by an ip/len access list iff its first len bits equal those of some entry; for both 4-byte and 16-byte addresses; an empty list permits nobody (recursive_acl).", "quantifier": "all addresses, all masks, all lists", "why_tests_cant": "2^32/2^128 addresses times all masks.", "anchors": ["deadwood-github/src/DwSocket.c: check_ip_acl, dw_pop_ip_mask", "deadwood-github/src/DwSys.c: make_netmask"]}
{"id": "C16", "title": "MaraDNS access control text parsing and matching are exact", "statement": "Every textual a.b.c.d, a.b.c.d/n and a.b.c.d/m.m.m.m entry is parsed to exactly that address and mask, malformed text is rejected, and an address is permitted iff it matches one of the parsed entries.", "quantifier": "all strings, all addresses", "why_tests_cant": "All strings.", "anchors": ["parse/ParseIpAcl.c: ddip_ip_mask, make_ip_acl", "server/MaraDNS.c: check_ipv4_acl"]}
{"id": "C17", "title": "Private-address answer filter covers exactly the documented ranges", "statement": "With filter_rfc1918 on, a reply is rejected iff its answer section contains an A record in 192.168.0.0/16, 172.16.0.0/12, 10.0.0.0/8, 127.0.0.0/8, 169.254.0.0/16, 224.0.0.0/8 or 0.0.0.0/16 (the documented ranges); with ip_blocklist set, also iff it contains an A or AAAA record whose address is in the list.", "quantifier": "all addresses and all answers", "why_tests_cant": "2^32 addresses and arbitrary numbers of records.", "anchors": ["deadwood-github/src/DwDnsStr.c: dwc_check_ip, dwc_has_bad_ip"]}
{"id": "C18", "title": "Only replies matching a pending query are accepted", "statement": "A UDP packet is accepted as the reply to a pending upstream query iff its 16-bit ID and the name and type of its question equal the awaited ones (the class is not looked at); anything else changes nothing.", "quantifier": "all packets and pending query tables", "why_tests_cant": "Attackers choose packets.", "anchors": ["deadwood-github/src/DwUdpSocket.c: get_rem_udp_packet_core, verify_dns_packet, find_inflight_query"]}
{"id": "C19", "title": "Incoming query validation is exact", "statement": "A datagram is treated as a query iff it has a full header, QR=0, standard opcode, one question and no answers (EDNS aside); its ID is returned unchanged.", "quantifier": "all byte strings", "why_tests_cant": "All headers.", "anchors": ["deadwood-github/src/DwSys.c: get_dns_qid, set_dns_qid"]}
{"id": "C20", "title": "DNS header encode/decode round trip", "statement": "For every header value, decoding the encoded header gives back every field; each field occupies exactly its RFC 1035 bits.", "quantifier": "all 2^96 headers", "why_tests_cant": "All combinations of fields.", "anchors": ["dns/Queries.c: make_hdr, read_hdr", "dns/Compress.c: compress_header", "dns/Decompress.c: decomp_get_header"]}
{"id": "C21", "title": "Text to wire host-name conversion round trip", "statement": "For every textual name with non-empty labels of at most 63 bytes, converting to wire format and back is the identity; malformed names are rejected.", "quantifier": "all byte strings", "why_tests_cant": "All label structures.", "anchors": ["dns/Queries.c: hname_2rfc1035_starwhitis, hname_translate", "deadwood-github/src/DwStr.c: dw_dnsname_convert"]}
{"id": "C22", "title": "MaraDNS hash table is a finite map", "statement": "After any sequence of put/get/undef/resize operations the table behaves as a finite map from keys to values; put on an existing key is refused; iteration by firstkey/nextkey visits each key exactly once.", "quantifier": "all histories, all hash masks", "why_tests_cant": "All histories and collisions.", "anchors": ["libs/MaraHash.c: mhash_put, mhash_get, mhash_undef, mhash_resize, mhash_firstkey, mhash_nextkey"]}
{"id": "C23", "title": "Truncating oversize replies keeps a valid prefix", "statement": "A reply that is too long is shortened: squeeze_to_fit removes whole records from the end, keeps the counts of the header consistent, and ends with the header and the TC bit; the reply that is sent says exactly what is left of the message, and has at most 512 octets, or fewer than 4096 if the client may have long packets, provided that the authority and additional sections have at most 19 records. Replies to ANY queries that are too long are replaced by header and question.", "quantifier": "all answers", "why_tests_cant": "All record-size combinations.", "anchors": ["dns/Queries.c: squeeze_to_fit", "server/udpsuccess.c: udpsuccess", "server/MaraDNS.c: udpany, udpstar"]}
{"id": "C24", "title": "The random number generator is RadioGatun[32] and 16-bit outputs are in range", "statement": "The generator output equals the RadioGatun[32] specification stream for every seed and every number of draws; each draw lies in [0,65535]; no access outside belt and mill.", "quantifier": "all seeds, all numbers of draws", "why_tests_cant": "All seeds.", "anchors": ["deadwood-github/src/DwRadioGatun.c: dwr_beltmill, dwr_init_rg, dwr_rng"]}
{"id": "C25", "title": "DNS-over-TCP framing is independent of segmentation", "statement": "Whatever way the network splits the client's byte stream, the query delivered is exactly the length-prefixed message.", "quantifier": "all messages, all segmentations", "why_tests_cant": "All ways of splitting a stream.", "anchors": ["deadwood-github/src/DwTcpSocket.c: tcp_get_wanted, tcp_process_data, tcp_to_udp"]}
{"id": "C26", "title": "Answer rotation is a permutation", "statement": "Rotating the records of a cached answer never loses, duplicates or alters a record; the CNAME records at the front stay in front; query after query, every other record takes its turn to be the first.", "quantifier": "all answers", "why_tests_cant": "All record layouts.", "anchors": ["deadwood-github/src/DwDnsStr.c: dwc_rr_rotate", "deadwood-github/src/DwStr.c: dw_rotate"]}
{"id": "C27", "title": "TTL ageing changes TTLs only", "statement": "Ageing a cached answer modifies nothing but the TTL fields of the answer section, which all become the remaining TTL of the cache entry (at least 5).", "quantifier": "all answers, all TTLs", "why_tests_cant": "All record layouts.", "anchors": ["deadwood-github/src/DwDnsStr.c: dwc_ttl_age"]}
{"id": "C28", "title": "Bailiwick test is the label-suffix relation", "statement": "Two names are the same exactly if their labels are, without regard to case. A record of a referral is accepted exactly if its owner is strictly below the zone of the server asked (label-suffix, never a mere string suffix) and the name asked for is the owner or below it; a CNAME target is followed within the same reply exactly if it is strictly below that zone. Hence a server can only make the resolver store servers for zones below its own.", "quantifier": "all pairs of names", "why_tests_cant": "All names.", "anchors": ["deadwood-github/src/DwRecurse.c: dwx_dname_issame_2dw, dwx_string_in_bailiwick, dwx_check_bailiwick_ns_section, dwx_find_ns_referral"]}
{"id": "C29", "title": "IPv6 text parsing is exact", "statement": "coLunacyDNS' IPv6 text parser accepts a string only if it denotes an address and yields that address.", "quantifier": "all strings", "why_tests_cant": "All strings.", "anchors": ["coLunacyDNS/coLunacyDNS.c: ip6Parse"]}
{"id": "C30", "title": "Deadwood configuration names convert to the right wire name", "statement": "Converting a configuration host name gives the wire-format name with the same labels exactly if the text is labels of 1..63 bytes, each followed by a dot (or the single dot), and is rejected otherwise.", "quantifier": "all byte strings", "why_tests_cant": "All label structures.", "anchors": ["deadwood-github/src/DwStr.c: dw_dnsname_convert"]}
{"id": "C31", "title": "Configuration dictionary lookups are exact", "statement": "After any sequence of insertions the dictionary returns for each key the value last inserted.", "quantifier": "all histories", "why_tests_cant": "All histories.", "anchors": ["deadwood-github/src/DwDict.c: dwd_add, dwd_fetch"]}
{"id": "C32", "title": "Authoritative data is never replaced by non-authoritative data", "statement": "When loading zones in any order, an authoritative record set for a name/type is never overwritten or extended by glue, while glue is replaced by authoritative data.", "quantifier": "all sequences of records", "why_tests_cant": "All load orders.", "anchors": ["server/MaraBigHash.c: add_rr_to_bighash, mhash_put_rr, mhash_add_rr"]}
{"id": "C33", "title": "Case folding and wildcard label stripping are well-formed", "statement": "Folding case maps exactly ASCII letters; stripping the leftmost label of a well-formed name gives the well-formed parent name, so wildcard search terminates after at most one step per label.", "quantifier": "all wire names", "why_tests_cant": "All names.", "anchors": ["server/MaraDNS.c: fold_case, bobbit_starlabel, make_starlabel"]}
{"id": "C34", "title": "coLunacyDNS packet handling reads only received bytes", "statement": "For every received datagram, coLunacyDNS reads only bytes inside its receive buffer when parsing queries and replies.", "quantifier": "all datagrams", "why_tests_cant": "Attackers choose packets.", "anchors": ["coLunacyDNS/coLunacyDNS.c: humanDNSname, resumeThread, processQueryC"]}
{"id": "C35", "title": "What the resolver keeps of an upstream reply", "statement": "Of the reply of an upstream server Deadwood keeps exactly: the CNAME chain from the name asked for and the records of the type asked for owned by that name or by the end of the chain; or the names on a chain that leads nowhere or out of the bailiwick; or the SOA/NS and address records of a denial; or the single record of the additional section that answers the question; or the zone and the servers of a referral. Nothing that is not in the reply is ever kept, and no reply makes it touch memory outside its buffers.", "quantifier": "all replies (any records in the three sections), all questions, all zones, all contents of uninitialised memory", "why_tests_cant": "The reply is chosen by an attacker; the combinations of owners, types, chains and sections are unbounded.", "anchors": ["deadwood-github/src/DwRecurse.c: dwx_dissect_packet, dwx_check_answer_section, dwx_determine_answer_type, dwx_make_cname_refer, dwx_make_ns_refer, dwx_remake_complete_reply"]}
{"id": "C36", "title": "Pending queries: every client gets at most one answer, and what each event does", "statement": "Over every history of client queries, upstream packets, expiries and follow-up connections the table of pending queries never goes wrong; a client query gets at most one answer and only clients that have asked get one; a new question is sent upstream exactly once and recorded with the client; a client asking the pending question again joins it without a second upstream query; an accepted reply is delivered to every waiting client with the ID and question that client sent, and frees the slot.", "quantifier": "all histories of events, all numbers of slots and clients, all contents of uninitialised memory", "why_tests_cant": "Histories are unbounded and chosen by clients and upstream servers.", "anchors": ["deadwood-github/src/DwUdpSocket.c: forward_local_udp_packet, get_rem_udp_packet_core, forward_remote_reply", "deadwood-github/src/DwSocket.c: handle_expired, kill_expired, find_free_remote, reset_rem", "deadwood-github/src/DwRecurse.c: dwx_glueless_done"]}
{"id": "C37", "title": "Packets for clients", "statement": "The packet made of a cached answer is the client's ID, QR/RD/RA and the response code, the question as the client wrote it in class IN, the counts and the records of the answer; of a truncated answer it is the question with TC. A client's query that is permitted and well formed is looked up in lower case; one the configuration or block list rejects is answered with 'no such data'; anything else is ignored; and no packet makes this touch memory outside its buffers.", "quantifier": "all packets, all lengths, all configurations, all cached answers", "why_tests_cant": "Packets are chosen by clients.", "anchors": ["deadwood-github/src/DwUdpSocket.c: get_local_udp_packet, make_dns_packet, make_dns_header, make_synth_not_there_answer, get_reply_from_cache"]}
{"id": "C38", "title": "Questions, record headers and name lengths in packets", "statement": "A question put into a packet is the name, type and class in wire format, and reading it back gives the same question; a record's owner, type, class, TTL and data length are read as they stand; the length of a name at an offset is the number of octets it takes up. For any packet and any offset nothing outside the packet is read, and what is accepted is a well-formed question (record header, name) at that place.", "quantifier": "all packets, all offsets, all questions and records", "why_tests_cant": "Packets and offsets are chosen by other hosts.", "anchors": ["dns/Queries.c: make_question, read_question, read_rr_h, dlabel_length"]}
{"id": "C39", "title": "Idle TCP connections are closed", "statement": "A client of the resolver over TCP which sends or takes nothing for longer than the timeout loses its connection, and all that belongs to it (the slot, the socket to the upstream server) is released.", "quantifier": "all histories of a connection, whatever has been received before", "why_tests_cant": "It depends on when the network delivers what, over unbounded time; a connection that is never closed takes one of a few slots from everyone.", "anchors": ["deadwood-github/src/DwTcpSocket.c: tcp_get_wanted, kill_tcp_expired, tcp_truncated_retry"]}
{"id": "C40", "title": "Replies over TCP go to the client that asked", "statement": "The resolver sends a client over TCP nothing before that client has asked something; what it sends is the reply to that query.", "quantifier": "all sequences of connections that use one slot after another, with queries, replies and timeouts at any time", "why_tests_cant": "Only certain orders of timeouts, replies and new connections show it.", "anchors": ["deadwood-github/src/DwTcpSocket.c: local_tcp_accept, tcp_return_reply, kill_tcp_expired", "deadwood-github/src/DwUdpSocket.c: forward_remote_reply"]}
{"id": "C41", "title": "coLunacyDNS answers what was asked", "statement": "For every query coLunacyDNS receives whole, the Lua program is given the name and type of the query, and the reply has the query's ID and question, the response flag, and exactly the records the program returned, with the address and TTL (cut to 0..7777777) it returned.", "quantifier": "all complete queries with one question, all values the program returns, all contents of uninitialised memory", "why_tests_cant": "Names are any octets and any lengths; the reply is assembled in place in memory which holds leftovers.", "anchors": ["coLunacyDNS/coLunacyDNS.c: processQueryC, humanDNSname, endThread, runServer"]}
{"id": "C42", "title": "coLunacyDNS uses only replies to its own queries", "statement": "An answer from upstream is used only if the datagram has the ID and the name (in the very case) of the query that was sent.", "quantifier": "all datagrams, all queries, all contents of uninitialised memory", "why_tests_cant": "Attackers choose packets.", "anchors": ["coLunacyDNS/coLunacyDNS.c: resumeThread"]}
{"id": "C43", "title": "coLunacyDNS asks upstream for the name it was given", "statement": "coDNS.solve sends a query whose name is the one given as text, up to the case of letters; texts which are not names (no dot at the end, labels that are empty or over 63 octets, names that are too long) are rejected.", "quantifier": "all texts, all random bits, all contents of uninitialised memory", "why_tests_cant": "All texts and lengths; the buffer is sized by the text.", "anchors": ["coLunacyDNS/coLunacyDNS.c: human2DNS, sendDNSpacket"]}
{"id": "C44", "title": "MaraDNS answers what the zone data determine", "statement": "For every query for a name, the authoritative server answers with the records of that name and type, whatever the case of the letters; otherwise with a CNAME of the name; otherwise, if the closest name servers above are not its own, with a referral to them; otherwise with the closest wildcard that has the type, unless the name exists; otherwise with the SOA of the zone that is closest. Without a zone above the name the query is refused. Responses are never answered; zone transfers and questions for all records get a fixed reply.", "quantifier": "all packets that are queries, all zone data, all settings, all contents of uninitialised memory", "why_tests_cant": "All names, zones and settings; case folding, label stripping and table lookups interact.", "anchors": ["server/MaraDNS.c: proc_query, udperror, udpany, ddip_check, star_collision, hunt_single_query, fold_case", "dns/bobbit.c: bobbit_label, bobbit_starlabel, bobbit_starlabel_end, make_starlabel"]}
{"id": "C45", "title": "A reply says the records found, and round robin never loses one", "statement": "For every set of records in memory, the reply to a query has the records of the set as answers, in their order and as far as the limits allow, with the records CNAMEs lead to, then the name servers after them, and as additional records the addresses these point to, each once; nothing is left out unless a limit is reached. The records in memory stay as they are but for their order: the first answer becomes the last. Whatever queries come in whatever order, every set keeps all its records.", "quantifier": "all zones in memory, all limits, all questions and all histories of questions, all contents of uninitialised memory", "why_tests_cant": "Replies rewrite the links between records; all histories of questions and all shapes of the linked records.", "anchors": ["server/udpsuccess.c: udpsuccess", "server/MaraDNS.c: hunt_single_query, proc_query"]}
{"id": "C46", "title": "No datagram stops MaraDNS, and what it sends concerns the question asked", "statement": "Whatever octets arrive in a datagram, whatever the zone data and the settings are, the authoritative server reads and writes only its own memory, comes to an end and is ready for the next datagram. What it sends concerns the question of that datagram: records are looked up for the question in the packet, and errors and fixed replies are responses with the ID of the packet, of at most 512 octets. Datagrams that are too short and responses are never answered, so two servers cannot keep answering each other. Queries with further records (as EDNS has) or compression get the same answer as plain ones.", "quantifier": "all datagrams, all zone data, all settings, all contents of uninitialised memory", "why_tests_cant": "All octet strings, including malformed names and counts; the absence of out-of-bounds accesses and endless loops cannot be seen from samples.", "anchors": ["server/MaraDNS.c: main, proc_query, udperror, udpany, ddip_check, star_collision, hunt_single_query, fold_case, bobbit_starlabel, bobbit_starlabel_end, make_starlabel", "dns/Decompress.c: decompress_data"]}
{"id": "C47", "title": "Names and addresses in zone files mean what is written", "statement": "In a csv2 zone file a host name written as labels with dots, whether complete or ending in a percent sign for the zone, is put into the database as exactly this name; a star as the first label gives the entry for all names below; characters outside of ASCII are read from UTF-8 and kept, for the ranges of characters which the server encodes rightly (the others are listed). Four decimal numbers up to 255 with dots between them are put into the database as these four octets, whatever blanks stand before them. The file is read up to the delimiter and no further. Whatever octets a file has, reading a name stays within memory, and all that is taken as a name is a well-formed one.", "quantifier": "all names, zones, addresses and separators; for the last part all files; all contents of uninitialised memory", "why_tests_cant": "All names, characters, lengths and files; the limits on lengths and the encoding of characters differ by ranges of values that samples miss.", "anchors": ["parse/Csv2_read.c: csv2_readchar, csv2_error, csv2_justread, csv2_get_unicode", "parse/Csv2_parse.c: csv2_get_utf8, csv2_append_utf8, csv2_get_1st, process_1stchar, process_dname, js_append_dname, csv2_convert_percent, csv2_get_hostname", "parse/Csv2_rr_a.c: csv2_get_a, process_ipv4_ddip", "parse/ParseCsv1.c: ddip_2_ip", "server/MaraBigHash.c: starrecord_to_meta"]}
{"id": "C48", "title": "Numbers, types and the data of MX and SRV records in zone files mean what is written", "statement": "In a csv2 zone file a decimal number up to 2147483647 is read as this number (zero if written with one digit). The name of a record type, in letters of either case and after any number of IN, is read as the number that the RFCs give to this type, and no other word is taken for a type; RAW with a number is read as the type with this number. An MX record is put together of its preference in two octets and its host name, an SRV record of priority, weight and port in two octets each and its host name, if the host name fits; otherwise the record is rejected. The file is read up to the delimiter and no further. Whatever is in the file, nothing outside of memory is read or written and the reading ends; only a number too large for an int is undefined.", "quantifier": "all numbers, words, host names, zones, separators and files; all contents of uninitialised memory", "why_tests_cant": "All numbers, spellings, names and lengths; the limits on lengths and numbers are met by few inputs.", "anchors": ["parse/Csv2_parse.c: csv2_get_num, process_something, csv2_numeric_rtype, csv2_get_rtype, csv2_get_mx, csv2_get_srv", "MaraDns.h: RR_A and the other numbers of types"]}
{"id": "C49", "title": "TXT, HINFO and RAW data in zone files mean what is written, and what fetchzone writes reads back", "statement": "In a csv2 zone file the text of a TXT or HINFO record (bare characters, quoted text, \\', octal and hexadecimal escapes, lines continued with a backslash, chunks separated by a semicolon or by blanks before a quote) is stored as exactly the octets it denotes, each chunk preceded by its length, and reading goes on right after the record; RAW data are stored as the octets alone. Whatever octets (at least one) were received in a TXT string or in data of an unknown type, the text that fetchzone writes for them reads back as the same octets. Whatever is in the file, the parser stays within memory, and what it accepts from an ASCII file is a sequence of character strings of at most 255 octets, as many as demanded.", "quantifier": "every list of chunks and parts within the limits of length, every separator and ending, every position in a file, every list of octets that fetchzone may write; every file for safety", "why_tests_cant": "the texts are an unbounded combination of escapes, quotes, continued lines and chunk separators, and every sequence of octets must survive being written and read", "anchors": ["parse/Csv2_rr_txt.c csv2_get_string, csv2_get_txt, csv2_get_raw", "parse/Csv2_esc_txt.c escape_stdout_csv2", "tcp/fetchzone.c"]}
{"id": "C50", "title": "A zone file means the records that are written in it", "statement": "A csv2 zone file made of comments, blank lines, the commands /ttl, /origin, /opush and /opop, and records (any name, star names, with or without a time to live of their own, with or without a class, the types with addresses (IPv4 and IPv6), hosts, mailboxes, SOA (also with /serial), MX, SRV, TXT, HINFO and RAW data, addresses alone), with or without tildes between them as csv2_tilde_handling demands, gives the server exactly the records that are written, in order: each with the name and the data relative to the origin in force at that line and the time to live in force at that line. A file has one meaning. Whatever a file holds, reading it does not leave memory, apart from the faults reported for C48 and C49, and every name and datum that is added can be read.", "quantifier": "every zone file of that form, of any length, with every value of csv2_tilde_handling, every origin and both places where star names may be allowed; for the last sentence, every sequence of octets", "why_tests_cant": "files are unbounded sequences of lines whose meaning depends on all the commands and tildes before them", "anchors": ["parse/Csv2_parse.c csv2_read_rr", "parse/Csv2_main.c csv2_parse_zone", "parse/Csv2_read.c csv2_open, csv2_allow_tilde, csv2_require_tilde, csv2_forbid_tilde", "parse/Csv2_database.c csv2_init_add_state"]}
{"id": "C51", "title": "An IPv6 address in a zone file means what is written", "statement": "The data of an AAAA record in a csv2 zone file, written in either form of RFC 4291 (eight groups of one to four hexadecimal digits with colons between them, or fewer groups with two colons once in place of groups of zeros), become exactly the sixteen octets of that address, and reading goes on after it; a text has one meaning.", "quantifier": "every address in every spelling of the two forms, with any separators before and any text after it, and any contents of new memory", "why_tests_cant": "2^128 addresses with many spellings each; where the two colons stand decides where each nybble is written", "anchors": ["parse/Csv2_rr_aaaa.c csv2_get_aaaa", "parse/Parse_ipv6.c ip6_to_raw, set_nybble, count_thingys, count_thingys_all"]}
{"id": "C52", "title": "Mailboxes and SOA data in a zone file mean what is written", "statement": "SOA data in a csv2 zone file (a host, a mailbox and five numbers, of which the first may be /serial) gives exactly the octets of RFC 1035: the host, the mailbox as a name whose first label is the part before the at sign (with dots where a backslash and a dot are written), and the five numbers in four octets each; percent signs stand for the zone. The same holds of a mailbox alone (MG, MR), where a dot alone stands for the root, and of two of them (MINFO, RP). On any other file, memory is not left: the record is refused, or accepted with at most 512 octets of data, or a number is too large for an int.", "quantifier": "all hosts and mailboxes of any length that fits, all ways to write them, all blanks between the fields, all numbers, all serial numbers, whatever follows in the file and whatever is in new memory", "why_tests_cant": "There is no bound on the number of hosts, mailboxes, numbers and ways to write them; that the octets are right for each needs an argument over the characters of the file.", "anchors": ["parse/Csv2_rr_soa.c: csv2_b4_at, process_mbox, csv2_get_soa", "parse/Csv2_rr_wks.c: csv2_is_alphanum_ordot, csv2_get_mbox", "dns/Queries.c: email_2rfc1035"]}
{"id": "C53", "title": "WKS data in a zone file has the bits of the ports listed", "statement": "WKS data in a csv2 zone file (an address, a protocol and a list of up to ten ports up to 1024, each with one blank or comma after it, up to the end of the line, or up to a tilde where records end with tildes) gives the octets of RFC 1035: the address, the protocol, and a map in which the bits of the ports listed are set and no others, as long as the highest port requires. On any other file, memory is not left: the record is refused, or accepted with 6 to 134 octets of data, or a number is too large for an int. A port right before the end of the line is always lost, and two separators in a row add port 0.", "quantifier": "all addresses, protocols and lists of ports, all ways to write them, all blanks between the fields, whatever follows in the file and whatever is in new memory; for memory, any file at all", "why_tests_cant": "There is no bound on the files and on the ways to write numbers; that every bit of the map is right for every list needs an argument over the list, and that memory is not left one over all files.", "anchors": ["parse/Csv2_rr_wks.c: csv2_is_wks, csv2_get_wks", "parse/ParseCsv1.c: ddip_2_ip"]}
