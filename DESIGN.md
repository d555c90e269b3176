# Formal model of MaraDNS / Deadwood / coLunacyDNS in Rocq (Coq 8.16.1)

## Layout

    rocq/theories/
      CBase.v          C semantics base: outcome monad, byte lists, wrapped arithmetic
      Model*.v         the model; one file per C source area; definitions only
      Spec*.v          small independent specifications (used by theorem statements)
      Proof*.v         lemmas
      Props*.v         the property theorems, each `exact lemma.` + Print Assumptions,
                       with an Example beside each showing the hypotheses can be met

## Modelling conventions

* C integers are `Z`.  Where a wrap-around, truncation or sign conversion can be
  observed it is written explicitly (`mod 2^32`, `mod 256`, signed-char
  reinterpretation).  A byte is a `Z` in [0,255].
* A C buffer/string object is a list of bytes plus its declared capacity.
  Reading or writing outside is *not* made total silently: it gives the distinct
  outcome `Bad OutOfBounds` (other faults: `Bad UseAfterFree`, `Bad DivByZero`, ...)
  in the outcome monad `res A := Ok a | Fail | Bad fault`.  A C error return (`-1`,
  `NULL`, `goto catch_...`) is `Fail` where every caller gives up and an ordinary
  code otherwise.  `safe r` says that `r` is not `Bad`.
* Loops are structural recursion or have fuel; running out of fuel is the distinct
  outcome `Bad NoFuel` and the safety theorems show it is unreachable.
* Fresh memory from malloc has arbitrary contents: a function `J` from positions to
  bytes, universally quantified in the theorems.
* malloc never fails in the model (allocation failure paths are not modelled);
  files are byte lists; the clock and the hash keys are parameters universally
  quantified in the theorems.
* sockets, select(), threads, Lua, logging, Windows code, and the OS are not modelled.

## Plan per property

| id | model | proof |
|----|-------|-------|
| C01 | DwHash table as array of chains + recency list (DwHash.c), hash function a free parameter | refinement to a finite map by an invariant over op lists |
| C02 | same | invariant (size bookkeeping), eviction order against abstract recency list |
| C03 | same with clock argument | direct from the refinement |
| C04 | serializer/parser of DwHash.c file format | round-trip induction over entries |
| C05 | parser total over any byte list | case analysis, UB unreachable |
| C06 | DwCompress.c decompression over DwStr.c primitives | invariant on offsets; fuel sufficiency |
| C07 | DwCompress.c compression | induction over labels, pointer-table invariant |
| C08 | dw_get_dname over any packet | exact characterisation by induction over labels |
| C09 | Decompress.c | reading a name and a whole packet refined to functions on lists of octets, these proved exact for an inductive description of what a packet says (PropsDecomp.v) |
| C10 | Compress.c + Decompress.c | compression refined to a function on lists of octets; invariant: every entry of the table of pointers is the place of a name in the output; hence the output says the same records, and C09 reads them back (PropsCompress.v) |
| C11 | JsStr.c on (list, capacity) objects | per-operation functional spec |
| C12 | JsStr.c readers | expected to be *refuted* for short strings, with the exact precondition proved |
| C13 | blockHashMake.c writer + DwBlockHash.c reader | layout invariant, round trip |
| C14 | DwBlockHash.c over any image | UB unreachable (except hashSize 0: refuted) |
| C15 | make_netmask, check_ip_acl | bit-prefix specification |
| C16 | ParseIpAcl.c, check_ipv4_acl | entries and lists as inductive grammars with their meaning; exactness by induction on the grammar, safety for all texts |
| C17 | dwc_check_ip | exact range iff |
| C18 | reply matching | iff |
| C19 | get_dns_qid | iff |
| C20 | make_hdr/read_hdr etc. | round trip by bit arithmetic |
| C21 | hname_2rfc1035 / hname_translate | label list round trip |
| C22 | MaraHash.c | refinement to finite map; iteration permutation |
| C23 | squeeze_to_fit; the ends of udpsuccess, udpany and udpstar, which compress, shorten and send | invariant over removed records; induction over the loop of squeezes, with the theorems on compress_data (C10); refuted for more than 19 NS and AR records and for wildcards |
| C24 | RadioGatun | equality with an independently written spec |
| C25 | all of DwTcpSocket.c for one connection; the network is an oracle for every recv and send | invariant over all events (only the message), measure (it is delivered; the reply is sent); refuted for some lengths (signed char), the ID of EDNS queries and replies from upstream that are not taken at once |
| C26 | rotation | permutation |
| C27 | ttl ageing | positionwise characterisation |
| C28 | dwx_string_in_bailiwick, dwx_dname_issame_2dw, referrals | iff label-suffix; refuted from the 16th record of a referral on |
| C29 | ip6Parse | soundness wrt grammar spec |
| C30 | dw_dnsname_convert | iff + result |
| C31 | DwDict | refinement to association map |
| C32 | add_rr_to_bighash and its callees, with records and ANY lists as heap cells | invariant over load sequences; refinement of the memory to the sets of a specification that looks only at the list of records loaded |
| C33 | fold_case, make_starlabel, bobbit_starlabel, bobbit_label; Deadwood's lower-casing | exact on wire names; as many steps as labels |
| C34 | coLunacyDNS parsing | refuted where it over-reads; bounds proved elsewhere |
| C35 | dwx_dissect_packet | exact content for each kind of reply; nothing invented for any reply |
| C36 | connection table of DwUdpSocket.c/DwSocket.c as init/step | invariant over event lists |
| C37 | make_dns_packet, get_local_udp_packet | exact packets and decisions; refuted where memory is over-read |
| C38 | make_question, read_question, read_rr_h, dlabel_length of Queries.c | round trips; exactness for any packet; refuted for names over 256 octets and TTLs from 2^31 on |
| C39 | the same model | positive part for clients that stall; refuted for clients that close and for the upstream socket |
| C40 | a slot used by one client after another | invariant when no client times out; refuted otherwise |
| C41 | coLunacyDNS queries and replies | exact octets for complete queries; refuted for some kinds of reply |
| C42 | coLunacyDNS upstream replies | inversion of the acceptance test; refuted for short datagrams |
| C43 | coLunacyDNS names sent upstream | exact for names; shape of accepted texts; refuted for empty labels |
| C44 | proc_query (authoritative build) | refinement to a decision in terms of names and an abstract table (`SpecServe.v`); consequences in terms of the nearest enclosing name; refutations |
| C45 | udpsuccess: the loop over the linked records, with round robin | induction over the chain with an invariant on links, marks and the packet; relation to the reply in terms of records (`SpecSuccess.v`); induction over histories; refuted for CNAMEs |
| C46 | the way of a datagram: decompress_data, then proc_query, for any octets | every function returns, with an invariant on the strings (length below 256); termination by the length and, for names ending in a star, twice the length plus a flag; the reply keeps its start (`SpecServeSafe.v`); composed with C09 and C44 |
| C47 | reading csv2 zone files: characters, host names, addresses | a file is the list of its octets; UTF-8 by arithmetic for each number of octets; the loops by induction on labels and digits with fuel for the longest name; then C21 for the wire form; any file: an invariant on the string (a star only as the first label) (`SpecCsv2.v`) |
| C48 | reading csv2 zone files: numbers, types of records, MX and SRV data | on top of C47: words and numbers by induction on their characters; the table of types compared with the names and numbers of the RFCs, written apart (`SpecCsv2Rr.v`), in both directions; MX and SRV by C47_name and the lemmas on strings; for arbitrary files, each step leaves no more of the file than there was, which also bounds the loop over IN |
| C49 | reading csv2 zone files: TXT, HINFO and RAW data; what fetchzone writes for them | each part (bare, quoted, \\', octal, hexadecimal), each continued line and each separator of chunks takes the loop of the parser from one state to another with the octets appended (`leads`, by induction on the parts); fetchzone's escapes are shown to be the text of parts with the given octets; for arbitrary files an invariant of the variables of the loop |
| C50 | reading csv2 zone files: whole files, with their commands, tildes and comments | the grammar of files is an inductive definition of its own (`SpecCsv2Zone.v`: gaps, commands, records, the scope of origin and time to live); each gap, command and record takes the parser from one position to the next with the state that agrees with the scope, with C47 to C49 for names and data; then by induction on the derivation; that a file has one meaning follows since the program is a function; `C50_any`: for any octets, each function of the parser keeps its strings within their memory and reads on, so only the faults of C48 and C49 remain (`ProofCsv2ZoneAny.v`) |
| C51 | reading csv2 zone files: IPv6 addresses | the memory of the result is seen as nybbles: those written, then zeros; each group appends four of them, two colons append zeros; by induction on the groups before and after the two colons; the form of the text is a definition of its own (`SpecCsv2Aaaa.v`, RFC 4291); `C51_any_text`: any text with at most nine colons is read within memory, by bounds on the output point and the counts of colons (`ProofCsv2AaaaAny.v`) |
| C52 | reading csv2 zone files: mailboxes and SOA data | the form of a mailbox is a definition of its own (`SpecCsv2Soa.v`); the part before the at sign by induction on its characters, the part after it with the lemmas of C47 about names, then what `ProofEmail.v` proves about e-mail addresses; the numbers as in C48; that memory is not left on any file, as in C50 (`ProofCsv2SoaAny.v`) |
| C53 | reading csv2 zone files: WKS data | the list of ports is a definition of its own (`SpecCsv2Wks.v`), and so is the bit of a port; the list by induction on its ports and their digits, the map by induction on the ports with the bits of `Z`; that the octets after the address stay zero, by an invariant of ddip_2_ip; memory on any file as in C50 |

Later sections (trusted base, what is and is not modelled, findings) are kept
current below as the model grows.

## Trusted base

Coq 8.16.1's kernel (and `vm_compute`, used in examples and witnesses), the
fidelity of the hand-written model to the C text (each definition cites file and
lines), and the axioms printed by `Print Assumptions` under each theorem
(target: "Closed under the global context" everywhere).

The check tool lists `Coq.ssr.ssrunder.*` among the axioms of loaded libraries: these
belong to the standard library, are loaded by the `zify` plugin files and used by no
theorem here; every `Print Assumptions` in the Props files says "Closed under the
global context".

## Seeded faults (seeded/LOG.jsonl)

Each line is one edit of the model in a scratch copy.  `first_failures` / `proofs_failed`
are the proofs that broke; `theorems_failed` are the property theorems that broke
themselves or rest on a proof that broke.

## What is modelled

| C source | model | what is left out |
|----------|-------|------------------|
| deadwood DwBlockHash.c, blockHashMake.c, DwHalfSipHash.c (key schedule and rounds) | ModelBlockHash.v | file I/O and mmap (a file is a byte list); the command line |
| deadwood DwHash.c: cache | ModelDwHash.v | the hash function (free parameter; safety needs nothing of it), allocation failure, autogrow is included |
| deadwood DwHash.c: dwh_write / dwh_read of the cache file | ModelDwHashFile.v | fopen/fread failures |
| deadwood DwDict.c | ModelDwDict.v | hash function a parameter |
| deadwood DwStr.c: creation, append, push, put/fetch of numbers, substr, copy, rotate, packet_to_cache, dn_end, names from packets and from the configuration | ModelDwStr.v | text functions used at start-up, printing |
| deadwood DwCompress.c: decompression, name comparison | ModelDwCompress.v | |
| deadwood DwDnsStr.c | ModelDwDnsStr.v | zap_dns_str (free) |
| deadwood DwSys.c get_dns_qid, set_dns_qid, get_key_n, make_netmask, pop_last_item; DwSocket.c recursive_acl and check_ip_acl; DwStr.c dw_zap_lws | ModelDwSys.v | inet_pton (parameter); atoi and strchr are modelled as the C standard has them |
| deadwood DwRecurse.c 174-1735: dissection of upstream replies | ModelDwRecurse.v | the connection table and sending (the rest of DwRecurse.c) |
| deadwood DwCompress.c: dwc_push_offsets, dwc_seek_comp_pointer, dwc_compress_dlabels, dwc_comp_rddata, dwc_compress_rr, dwc_compress_all_rrs, dwc_compress | ModelDwPack.v | - |
| deadwood DwUdpSocket.c: get_local_udp_packet, make_dns_packet, verify_dns_packet, made-up answers | ModelDwUdp.v | the cache lookup itself (get_reply_from_cache); sockets; TCP |
| deadwood DwUdpSocket.c forward_local_udp_packet, get_rem_udp_packet_core, forward_remote_reply; DwSocket.c handle_expired, kill_expired, reset_rem; DwRecurse.c dwx_glueless_done | ModelDwPend.v | what the kernel answers (socket, send) and whether an upstream address is known are part of the event; the cache; resurrection of expired entries |
| libs/JsStr.c, and js_qstr2js, js_adduint32, js_readuint32 (JsStrOS.c), js_atoi, js_tolower (JsStrCP.c) | ModelJsStr.v | NULL pointers, one string passed twice, js_set_chsize (marked "do not use"), running out of memory, the I/O part of JsStrOS.c; `<< 24` into the sign bit is taken to wrap |
| dns/Queries.c | ModelQueries.v | NULL pointers, one string passed twice, running out of memory, logging; locale-dependent parts of the C library (none are used) |
| libs/MaraHash.c | ModelMaraHash.v | running out of memory (incl. the size of tables from 2^28 chains on), mhash_undef_js, reading the secret constant from a file, the leak of keys in mhash_resize |
| parse/ParseIpAcl.c; server/MaraDNS.c check_ipv4_acl | ModelIpAcl.v | running out of memory, null pointers, the list when an error is reported (the callers then exit); the lookup of aliases is a parameter |
| dns/Decompress.c (built with AUTHONLY, as dns/Makefile does) | ModelDecomp.v | null pointers, one string passed twice, running out of memory, decomp_free |
| dns/Compress.c | ModelCompress.v | null pointers, one string passed twice, running out of memory, messages of more than 2^30 octets |
| deadwood DwTcpSocket.c: all of one connection (one slot of tcp_pend) | ModelDwTcp.v | what forward_local_udp_packet and the code for UDP do with the query, choosing the slot, the ACL check, select(); an upstream connection that cannot be opened is one event |
| deadwood DwRadioGatun.c (32-bit words) | ModelDwRadioGatun.v | running out of memory, NULL generators, dwr_zap |
| coLunacyDNS.c ip6Parse (241-359) with length -1, as it is always called | ModelIp6.v | a given length; the array after an error |
| `coLunacyDNS/coLunacyDNS.c` packets: humanDNSname 936-1000, endThread 1161-1361, sendDNSpacket (the packet), human2DNS 1442-1504, resumeThread 1626-1708, processQueryC 1866-1956, runServer 2096-2134 | `ModelColunacy.v` | C34, C41, C42, C43 | Lua itself, sockets and timeouts are not modelled: what the program returns is quantified over |
| `server/MaraDNS.c` proc_query 2514-3412 as built by Makefile.authonly (no recursion), with udperror 514-605, udpany 897-959 (RFC 8482), ddip_check 2270-2390, hunt_single_query, star_collision, fold_case; `dns/bobbit.c`; get_rtype, change_rtype (MaraBigHash.c) | `ModelServe.v` | C33, C44, C46 | Which records are sent is modelled, not how they are put into a packet (udpsuccess, udpnotfound, udpstar: see C10, C23); the reports on the server (2774-2981) and udpany without RFC 8482 are functions of the question; packets arrive decompressed (C09); the client's address matters only through c_admin. |
| `server/MaraDNS.c` main 4641-4737, what is done with one datagram | `ModelServeMain.v` | C46 | With log_level below 3; the sockets, the address of the client and debug_delay are left out. |
| `parse/Csv2_read.c` csv2_readchar, csv2_error, csv2_justread, csv2_get_unicode; `parse/Csv2_parse.c` 62-599, 645-693, 724-1007 (csv2_utf8_length to process_1stchar, js_append_dname, process_dname, csv2_convert_percent, csv2_get_hostname); `parse/Csv2_rr_a.c` 35-121; `parse/ParseCsv1.c` ddip_2_ip 429-532; `MaraBigHash.c` starrecord_to_meta 80-122 | `ModelCsv2.v` | C47 | Left out: files within files (/read), line numbers and the context for messages, messages; records other than A (MX and SRV: C48). |
| `parse/Csv2_parse.c` 69-74, 608-642, 1014-1359 (process_something, csv2_numeric_rtype, csv2_get_rtype, csv2_get_num, csv2_get_mx, csv2_get_srv) | `ModelCsv2Rr.v` | C48 | Left out as for C47. What csv2_read_rr does with the parts of a record is not modelled. For every file, well-formed or not, reading stays within memory and ends; the only other outcome is the overflow of an int (`PropsCsv2Safe.v`). For MX and SRV the zone's name is taken to have no star, as for C47_accepted. |
| `parse/Csv2_rr_txt.c` 30-689 (csv2_get_txt, csv2_get_raw, csv2_get_string, csv2_txt_append, csv2_finalize_txt); `parse/Csv2_esc_txt.c` 27-75 escape_stdout_csv2 | `ModelCsv2Txt.v` | C49 | Left out as for C47. The value of txt_len that is never set (RAW) is any number; exit is `Fail`. csv2_get_txt with an explicit post-processing flag other than 0 is only covered by the lemmas on arbitrary files. |
| `parse/Csv2_parse.c` 651-657, 685-692, 1366-1856 (csv2_read_rr); `parse/Csv2_main.c` 613-660 csv2_parse_zone; `parse/Csv2_read.c` 36-93 csv2_open; `parse/Csv2_database.c` 99-145 csv2_init_add_state | `ModelCsv2Zone.v` | C50 | Parameters of the model: the file after /read, and the data of the types AAAA, SOA, MG, MR, MINFO and RP (which C50_zone takes from `ModelCsv2Aaaa.v` and `ModelCsv2Soa.v`), WKS, NSAP, LOC, NAPTR and FQDN6. csv2_add_rr is modelled by what it is called with; csv2_close_state and the messages are left out. |
| `parse/Csv2_rr_aaaa.c` (whole); `parse/Parse_ipv6.c` 35-369 | `ModelCsv2Aaaa.v` | C51 | What is printed is left out. The AAAA branch of csv2_read_rr is a part of the parameter `O` of `ModelCsv2Zone.v`; C50_zone supposes that this part is csv2_get_aaaa (`reads_aaaa`). |
| `parse/Csv2_rr_soa.c` (whole); `parse/Csv2_rr_wks.c` 45-47, 230-269 | `ModelCsv2Soa.v` | C52 | What is printed and what is not freed (Csv2_rr_soa.c 152-154) is left out. C50_zone supposes that the SOA branch of csv2_read_rr is csv2_get_soa (`reads_soa`), and that those of MG, MR, MINFO and RP are csv2_get_mbox (`reads_mbox`). |
| `parse/Csv2_rr_wks.c` 40-42, 56-225 | `ModelCsv2Wks.v` | C53 | What is freed is left out. The WKS branch of csv2_read_rr stays as described under C50. |
| `server/MaraBigHash.c` mhash_put_rr 199-271, mhash_add_rr 279-359, mhash_add_ns 537-602, add_rr_to_bighash 1308-1449; `server/MaraAnyChain.c` any_add_rr, any_zap_rr 35-217 | `ModelBigHash.v` | C32 | Not modelled: running out of memory, fields of an rr that are only set to 0, reading the zone files (the theorems are about any list of calls). Pointers are numbers of cells which are never used again, so a use after free is always seen. look_up (SpecBigHash.v) stands for the code that reads a chain to send it. |
| `server/udpsuccess.c` udpsuccess 61-640 (AUTHONLY); `server/MaraDNS.c` the ends of udpany 1119-1176 and udpstar 1621-1656 | `ModelSuccess.v` | C23, C45 | The branches for recursion (expire, ptr, zap, ip of CNAMEs) are left out; strings are kept in the cells of the records; what is sent stands for the send.

## Findings (places where the code does not do what one would expect)

Those with a theorem name are proved in the model.

* DwHash.c: re-adding a permanent entry as ordinary leaves it out of the recency list
  and later frees it twice; field `immutable` is read uninitialised; `len + 1` overflow
  for huge strings when reading a cache file (see the `_refuted` theorems in PropsCache
  and PropsCacheFile).
* blockHashMake.c: the last line without a newline is never blocked; an empty list gives
  a table of size 0 and lookups divide by zero (PropsBlockHash).
* DwCompress.c: a looping compression pointer is not rejected, the record gets an empty
  owner (`C06_looping_name_rejected_refuted`).
* DwCompress.c: header counts are not checked against the number of records found, so
  offsets can be read from record data (harmless for memory: `C26_C27_process_safe`).
* DwDnsStr.c: when a stored answer has NS or AR records, rotation does all the work and
  then reports an error, so nothing is rotated (definition `rotates` in SpecAnswer.v).
* DwDnsStr.c 229: the AR records are printed/walked with the NS count.
* DwUdpSocket.c 829-850: the RFC 8482 answer is sent with 40 bytes more than were
  received although 24 more were allocated: heap memory is sent to the client
  (`C37_rfc8482_answer_is_safe_refuted`, `C37_any_with_edns_is_safe_refuted`); 607: the
  synthesised answer is used unchecked (`C37_blocked_name_is_safe_refuted`).
* DwCompress.c 691-750: the offset of a label is pushed before the label is written, so a
  repeated label (b.b) is compared with uninitialised memory; with a zero byte there the
  name is written as a pointer into itself (C07_repeated_labels_refuted).
* DwCompress.c 735, 716: whether a label fits the output is not checked; a long label is
  left out and the client gets another name (C07_long_answers_are_exact_or_refused_refuted).
* DwUdpSocket.c: an answer that does not fit is not sent at all
  (`C37_long_answer_is_truncated_refuted`).
* DwUdpSocket.c 379-444: max_inflights = N lets N-1 clients wait
  (`C36_max_inflights_refuted`); when the upstream server has no known address the client
  is not recorded and never answered, and the slot has no timer and stays taken
  (`C36_client_of_glueless_query_is_answered_refuted`, `C36_slots_become_free_refuted`).
* server_fail_noreply is always called for the first client: the others are never told
  (`C36_every_client_gets_servfail_refuted`).
* verify_dns_packet: class and QR bit of a reply are not looked at
  (`C18_class_is_checked_refuted`); DwRecurse.c 3131: a failing send leaves an awaited ID
  that was never sent (`C18_id_was_sent_refuted`).
* DwTcpSocket.c 232-241: the length byte is a signed char, queries of 128..255 bytes are
  refused.
* DwRecurse.c 819: only the first 15 records of the authority section are checked for
  bailiwick, but 1175 looks at all of them for the zone of the referral: the server of any
  zone can have Deadwood store servers of its choice for any other name
  (`C28_referral_in_bailiwick_refuted`, from a packet of 284 bytes).
* DwRecurse.c 1525: an address in the additional section of a referral that has the name
  asked for becomes the answer; the filter for private addresses has looked at the answer
  section only (`C17_filter_before_dissection_refuted`).
* DwRecurse.c 468-548: a record that is not used before the CNAME record makes the code
  follow that record's data (`C35_chain_after_other_record_refuted`).
* DwRecurse.c: a CNAME record to a name of over 251 bytes is dropped
  (`C35_long_cname_target_refuted`), as is an answer after seven other records
  (`C35_late_answer_refuted`); names whose labels and length make up over 260 never
  compare equal; over 31 servers make the referral fail; a referral to foreign zones only
  is stored as a referral of the root name without servers (`referral_all_outside`).
* DwSocket.c 359-362: in recursive_acl, an address with a slash but no number after it
  leaves the mask zero: every IPv4 (or IPv6) address is let in
  (`C15_slash_without_number_refuted`); so does a number atoi takes for 0
  (`C15_bad_number_refuted`).  Networks beyond the 127th from the end are dropped, and
  all networks before an item that is no address.
* DwStr.c dw_dnsname_convert: the length of the whole name is not checked
  (`C30_name_length_checked_refuted`).
* JsStr.c 1031-1068, JsStrOS.c 915: on strings shorter than the number to be read the check
  wraps around and any place is read (`C12_reading_a_byte_refuted`,
  `C12_reading_numbers_refuted`); 343/598: negative offsets, documented as counting from
  the end, always fail (`C11_negative_places_are_refused`); 719: the sum of start and count
  may overflow (`C11_any_int_refuted`); JsStrCP.c 96: so may js_atoi
  (`C12_large_decimal_numbers_refuted`).
* Queries.c: read_hdr does not look at the length of the packet (`C20_short_string_refuted`);
  hname_2rfc1035 accepts names of 256 octets (`C21_long_name_refuted`) and, with a star
  allowed, "foo*", of which it makes a label that runs past the end
  (`C21_malformed_star_refuted`); read_question cuts names of over 256 octets and takes the
  octets that follow for type and class (`C38_long_name_refuted`); read_rr_h shifts the first
  octet of the TTL into the sign bit (`C38_high_ttl_refuted`).
* MaraHash.c: in a table of 2^25 chains or more an octet of a key may be shifted into the sign
  bit (`C22_large_table_refuted`); a table made with 0 bits divides by zero
  (`C22_zero_bits_refuted`); mhash_resize does not set the number of elements back before
  counting them again, so that tables grow early (`C22_count_refuted`).
* ParseIpAcl.c accepts much that is no entry: "10.1" is read as 10.1.0.1 and "10/8" as 10.0.0.0/8
  (-2 becomes -1 by the offset++ in line 177, and is not recognised in line 156), text after an
  address is ignored, and "10.1.2.3/" or "10.1.2.3/x" permits every address
  (C16_short_address_refuted, C16_trailing_text_refuted, C16_empty_mask_refuted).  An entry
  255.255.255.255 is the end marker of the list and has no effect (C16_broadcast_refuted); numbers of
  ten digits overflow (C16_long_number_refuted).
* Decompress.c 139: names of up to 259 octets are accepted (C09_name_limit_refuted), and dlabel_length finds a wrong end for those whose labels take 256 octets or more, so that the rest of the packet is misread (C09_long_names_refuted).
* Compress.c, compress_get_type_etc: the TTL 4294967295 is sent as 4294967294 (C10_ttl_refuted).
* Compress.c, compress_add_dlabel_points: the table has 150 places and compression fails when it is full, so a message of fewer than 512 octets may not be compressible (C10_many_labels_refuted).
* Compress.c, compress_rddata: the string of a TXT record is taken to be one octet shorter than it is, so a record whose string ends one octet too late is accepted; the result cannot be decompressed (C10_txt_refuted).
* DwTcpSocket.c 232-234, tcp_process_data: the octets of the length are `char`. Where that is signed, queries over TCP whose length has a lower octet of 128 or more are never answered (C25_length_refuted), and the behaviour is undefined for those of 32768 octets and more (C25_length_undefined_refuted).
* DwTcpSocket.c 262, tcp_to_udp: get_dns_qid returns -2 for queries with an additional record, and only -1 is taken for an error. A query with EDNS over TCP goes on with the ID -2, so the reply has an ID that is not the client's (C25_edns_id_refuted).
* DwTcpSocket.c 519-574, tcp_downstream_forward: if the last part of the reply is not taken at once, the connection is closed and the rest is lost (C25_cut_off_refuted).
* DwTcpSocket.c 206: recv returning 0 puts off the timeout, so a client that has closed its side keeps its slot for ever (C39_closed_by_client_refuted).
* DwTcpSocket.c 590-599, kill_tcp_expired: the socket to the upstream server is not closed (C39_upstream_leak_refuted).
* A reply to a query over TCP is sent to the slot of the query, whoever has it by now (C40_refuted).
* By reading only: tcp_to_udp calls get_reply_from_cache without a client, which then returns at once (DwUdpSocket.c 556-558). Queries over TCP are never answered from the cache, and the blocklist is not applied to them.
* DwRadioGatun.c 171: an octet of 128 or more of the key is shifted into the sign of an int, which the C standard leaves undefined (C24_shift_refuted); with the usual compilers the numbers are right (C24_stream).
* coLunacyDNS.c 241-359: ip6Parse accepts one colon before the groups (C29_leading_colon_refuted), groups of nothing but blanks (C29_blanks_refuted), a last group which is just a blank (C29_last_group_missing_refuted); it rejects `1:2:3:4:5:6:7::` (C29_seven_groups_refuted) and 32 digits followed by a blank (C29_blank_at_end_refuted). All else of the two forms is exact (C29_colons, C29_digits).
* coLunacyDNS.c 1866-1956, 2096-2134: nothing checks that the name of a query ends within the datagram. The buffer is malloc'ed for each query, so a query cut short is answered with what was in the heap (C34_leak_refuted), and with suitable heap contents is read, and the reply written, past the 500 octets (C34_overrun_refuted).
* coLunacyDNS.c 1667-1707: a reply from upstream can make the program read past its 514 octets (C34_upstream_overrun_refuted). The length of the datagram is not used at all: a reply without records makes it take an address of an earlier reply from the stack (C34_stale_refuted), and the name of a short reply is compared with what is there (C42_short_refuted).
* coLunacyDNS.c 1659: with signed char, replies for names with octets of 128 or more are never used (C42_signed_refuted).
* coLunacyDNS.c 534-546, 1265-1275, 1899-1901: the final zero of a string is counted, so the replies "not there" and to ANY and HINFO have an octet too many; the SOA record is in the answer section (C41_not_there_refuted, C41_any_refuted).
* coLunacyDNS.c 1867-1871: the response flag is set only if the number of questions is 1, but others are answered too (C41_count_refuted). Queries for the root are dropped (C41_root_refuted). By reading only: the buffer of a query for ANY or HINFO is not freed.
* coLunacyDNS.c 1442-1504, human2DNS: `.` is sent as two zero octets, `a..b.` as `a.` and an octet of memory (C43_empty_label_refuted); names of 257 octets are sent (C43_long_refuted).
* MaraDNS.c 3260-3291: with bind_star_handling (the default) a wildcard that is a CNAME is found only for names one label below it (C44_star_cname_refuted).
* MaraDNS.c 3299-3342: names in the default zone are compared with regard to case (C44_default_zone_case_refuted).
* MaraDNS.c 2599-2615: names of 254 and 255 octets do not fit into the string with their type; the server failure sent announces a question but has only its class (C44_long_names_refuted).
* MaraDNS.c 2630-2638: the class is compared with `&&`, so classes 0 to 255 and those ending in 1 are answered as IN (C44_class_refuted).
* MaraDNS.c: error replies echo the question as it is being looked up: in lower case, or with the type NS (C44_echo_refuted). A question of 82 octets or more cannot be echoed, and no error is sent (C44_other_operations).
* MaraDNS.c 3112-3222: questions for the root fail for types from 256 to 511, and for all types with bind_star_handling 2 (C44_root_refuted).
* MaraBigHash.c 1415-1439: when authoritative NS records replace those of a delegation, records loaded before are still followed by the freed one (C32_any_order_refuted). This needs a csv1 zone file with a record before the zone's own NS records, loaded after the zone that delegates to it; asking for that record, or loading another one beside it, then reads freed memory.
* MaraBigHash.c 1415-1439: of glue that is replaced only the first record is freed; the others are lost (a leak, seen in the model as cells that stay).
* MaraBigHash.c 1350-1377: the zone is looked for from the left of the name, so with octets of value 0 in the first label it is found too early and authoritative data are taken for glue (C32_zero_octets_refuted).
* MaraAnyChain.c 52-62: records for names of 254 and 255 octets are refused after they have been put into the table, where they stay (C32_long_names_refuted).
* udpsuccess.c 564-586: a reply is shortened at most 20 times, so one with more than 19 NS and AR records (max_total above 20) may be sent with more than 512 octets (C23_many_name_servers_refuted).
* MaraDNS.c 1636-1643: when the answer from a wildcard is too long, the header alone is sent, with the counts of the question and of the records that are not there (C23_star_refuted).
* udpsuccess.c 195-198, 441-490, 508-512: round robin moves the first record of a set to the end and updates the table only; lists of the types of a name (used for CNAMEs and ANY) go on pointing at that record. After one query for a name, a reply for a CNAME leading to it has only one of its addresses (C45_cname_refuted).
* udpsuccess.c: a reply is built in 1024 octets before it is compressed, so one that is longer gets a server failure, also over TCP (C45_reply).
* Csv2_parse.c 261-324: the number of octets of a character is taken from its six-bit groups, so characters from U+0800 to U+0FFF (among them Devanagari and Thai) and from U+10000 to U+3FFFF are put into names as octets that are not UTF-8 (C47_character_written_refuted, C47_character_refuted_ex).
* Csv2_parse.c 944-961: in the root zone no name relative to the zone can be written: com.% is taken for com.. and rejected (C47_root_zone_refuted).
* ParseCsv1.c 496-514: an address without its last number is accepted, 1.2.3. as 1.2.3.0 (C47_last_number_missing_refuted), and a number with ten or more digits overflows (C47_number_overflow_refuted).
* Csv2_parse.c 1209-1218: 00 is not taken for zero but is an error (C48_zeros_refuted); numbers from 2^31 on overflow, so that half of the serial numbers cannot be written (C48_overflow_refuted).
* Csv2_parse.c 1294: the root cannot be the host of an MX record, so a null MX (RFC 7505) cannot be written (C48_null_mx_refuted); hosts of 254 and 255 octets do not fit into an MX record, those of 250 to 255 octets not into an SRV record (C48_mx, C48_srv).
* Csv2_rr_txt.c 166-182: for characters from U+0800 to U+0FFF and from U+10000 to U+3FFFF (Thai, emoji) one octet more is counted than csv2_append_utf8 writes, so the length octet of the chunk is wrong and the TXT record is malformed (C49_accepted_refuted).
* Csv2_rr_txt.c 511-514: when a TXT record is full (1513 octets) and a bare character follows a backslash and a blank, its string is freed twice (C49_freed_twice_refuted).
* Csv2_rr_txt.c 221-272: for RAW data txt_len is used without having been set, so that adding to it may overflow (C49_raw_refuted).
* Csv2_rr_txt.c 166-182: a character from 2097152 on in a zone file ends the program (C49_exit_refuted).
* fetchzone.c 393-399, 443-445: empty strings and empty data are written as nothing, which the parser refuses (C49_fetched_empty_refuted).
* Csv2_parse.c 1558-1583: /opop does not lower the height of the stack of origins, so the ninth /opush of a file is refused although each was undone (C50_opush_refuted).
* Csv2_parse.c 1679-1688: when what stands alone instead of a type is not an address, csv2_add_rr is called with a null pointer for the data (C50_null_refuted).
* Csv2_parse.c 1472-1495: /origin . is refused (C50_root_refuted).
* Csv2_main.c 645: what follows the first 100000 records of a file is ignored without a message (C50_many_refuted).
* Parse_ipv6.c 293-296, 347: with two colons and more than eight further colons, output_point becomes negative, and zeros are written to memory before the result (C51_outside_refuted).  So the hypothesis of C50_any about the other types does not hold of AAAA data with such a text.
* Parse_ipv6.c 277-368: nine groups with two colons, eight groups with two colons at the end, fewer than eight groups without two colons, and a colon alone at either end are accepted (C51_too_many_refuted, C51_too_few_refuted).
* Csv2_rr_soa.c 75-95, 133: in a mailbox with a dot in place of the at sign, js_append_dname begins after the first character of the next label as if a dot had been read; so a label of one character there is refused (a.b.c.), and so is a percent sign (a.%), while a@b.c. and a@% are accepted (C52_dot_refuted).
* Csv2_rr_soa.c 149: host and mailbox of an SOA record must fit in 512 octets together with the numbers, so two names of the greatest length are refused (hypothesis of C52_soa).
* Csv2_rr_wks.c 166-175: the last port of a WKS record is stored but not counted (portindex is not increased), so its bit is not set unless a blank or a comma follows it (C53_last, C53_last_refuted); Csv2_rr_wks.c 134-152: each blank or comma adds a port, so that a comma and a blank add port 0 (C53_zero_refuted).
