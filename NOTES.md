# Working notes (reading log; findings to be modelled)
- DwHash.c:583/495: dwh_add(use_fila=2) over an existing *normal* element zaps chain elt but leaves its fila node -> dangling (UAF later). Check ordering of read_hash / root_servers load.
- DwHash.c:1044 dwh_get_hash_element: out->immutable / ->fila never initialised -> read by dwh_get/dwh_zap = UB after reading cache file.
- DwHash.c:603 evict when size>=max => at most max-1 live elements after add with use_fila=1.
- DwStr.c:416-418 dw_put_u16 offset=len-1 (documented -2): expands by 3 not 1 (doc violated).
- DwStr.c:293 dw_substr bounds check uses > so copies one byte past len.
- DwUdpSocket.c:829-850 rfc8482 synth answer has 21 bytes, malloc(count+24), sendto(len+40) -> heap over-read of >=16 bytes sent to client.
- DwUdpSocket.c:607 make_synth_not_there_answer may return NULL -> deref (get_reply_from_cache blocklist path), if packet lacks class bytes (len < p+5). check get_dns_qid.
- DwUdpSocket.c:1435 server_fail_noreply sends to local 0 rather than local_num.
- DwStr.c:1183.. dw_dnsname_convert etc. are candidates for roundtrip.
- DwDnsStr.c:229 dwc_convert_dns_str loops ar with nscount (but is it used?).

## Reading log 2
- DwTcpSocket.c:232-241 `buffer` is (signed) char*: length octets >=0x80 sign-extend -> queries of length 128..255 (low octet >= 0x80) rejected.
- DwTcpSocket.c:527-573 partial send to client then next call closes -> truncated TCP reply.
- DwTcpSocket.c:261 local_id -2 (EDNS) not handled for TCP (treated as id).
- JsStr.c:1031-1068 js_readbyte/js_readuint16: unit_count is unsigned, `unit_count - 1`/`- 2` wraps for short strings -> OOB read for any offset when len 0 (or <2).
- JsStr.c:343 / 598: negative offset compared to unsigned -> documented negative offsets of js_fgrep_offset/js_insert always fail.
- Decompress.c:139 names up to 258 bytes are accepted (RFC limit 255).
