{"claims": [
 {"property": "C01", "status": "proved", "theorems": ["C01_rfc6052_roundtrip", "C01_rfc6052_injective"], "note": "rfc6052.c and pool6_validate modelled over octets"},
 {"property": "C02", "status": "proved", "theorems": ["C02_rfc6052_layout", "C02_u_octet_zero", "C02_6to4_fails_iff_outside", "C02_6to4_extracts"], "note": "u octet is zero when the prefix was accepted without --force"},
 {"property": "C03", "status": "proved", "theorems": ["C03_prefix4_contains", "C03_prefix6_contains", "C03_prefix4_intersects", "C03_prefix4_validate", "C03_prefix6_validate", "C03_prefix4_interval"], "note": "ipv6_prefix_equal (kernel) taken as bitwise comparison"},
 {"property": "C04", "status": "proved", "theorems": ["C04_eam_4to6", "C04_eam_6to4", "C04_eam_roundtrip", "C04_entry_admission", "C04_table_roundtrip_partial", "C04_table_roundtrip_refuted"], "note": "entry-level claim is complete; the extra table-level round trip holds for histories in which no addition nests with a stored prefix and is false when they nest"},
 {"property": "C05", "status": "partial", "theorems": ["C05_C06_C08_tame_partial", "C05_C06_C08_orderly_partial", "C05_tame_is_orderly", "C05_longest_prefix_refuted"], "note": "false of the code: with nested prefixes a shorter match can be returned (finding); proved, nesting included, for histories that add general prefixes before particular ones and remove chains only"},
 {"property": "C06", "status": "partial", "theorems": ["C05_C06_C08_tame_partial", "C05_C06_C08_orderly_partial", "C06_entry_lost_refuted", "C06_is_empty_refuted"], "note": "false of the code: removals can make other entries unreachable when prefixes nest (finding); proved for histories that add general prefixes before particular ones and remove chains only"},
 {"property": "C07", "status": "partial", "theorems": ["C07_overlap_accepted_refuted", "C07_refuses_nested_partial", "C07_refuses_nested_orderly_partial"], "note": "false of the code: an unforced addition that contains a stored prefix is accepted (finding); additions equal to or inside a stored prefix are refused"},
 {"property": "C08", "status": "partial", "theorems": ["C08_use_after_free_refuted", "C05_C06_C08_tame_partial", "C05_C06_C08_orderly_partial"], "note": "false of the code: swap_nodes leaves a child's parent pointer dangling (finding, no --force needed); safe for histories that add general prefixes before particular ones and remove chains only"},
 {"property": "C09", "status": "partial", "theorems": ["C09_history", "C09_listing_partial", "C09_listing_refuted"], "note": "membership after any history is exact; the paged listing is exact when no prefix was added twice, and false of the code otherwise (duplicates are accepted: finding)"},
 {"property": "C10", "status": "proved", "theorems": ["C10_contents", "C10_contents_empty", "C10_sorted", "C10_ephemeral", "C10_ephemeral_only"], "note": "for histories the model does not stop with a memory error (C14) and in which allocation does not fail; red-black trees are simplified to finite maps"},
 {"property": "C11", "status": "partial", "theorems": ["C11_count_partial", "C11_overlap_refuted", "C11_port_zero_refuted", "C11_hole_refuted", "C11_wrap_refuted"], "note": "false of the code in four ways (findings): overlapping additions, an addition of TCP/UDP port 0 alone, hole-punching removals and 2^32 addresses; proved exact for histories without these"},
 {"property": "C12", "status": "partial", "theorems": ["C12_enumeration_partial", "C12_enumeration_empty", "C12_enumeration_refuted", "C12_matches", "C12_matches_empty", "C12_commit"], "note": "proved whenever the count is exact (conditions of C11) and below 2^32-1; false otherwise (finding)"},
 {"property": "C13", "status": "partial", "theorems": ["C13_marks_partial", "C13_marks_refuted", "C13_mark_order_refuted"], "note": "false of the code for 4-to-6 lookups (finding), proved for the 6-to-4 mask choice; also the mark comparison is cyclic (finding; the model's tree search assumes it is an order)"},
 {"property": "C14", "status": "partial", "theorems": ["C14_memory_partial", "C14_calm_partial", "C14_hole_refuted", "C14_iterations_refuted"], "note": "false of the code when krealloc moves the block (two findings); proved for every other request"},
 {"property": "C15", "status": "proved", "theorems": ["C15_one_to_one", "C15_indexes", "C15_lookup"], "note": "every table reached by any history of packets, joold news, cleanings and operator requests that the model does not stop with a memory error (C23, C57)"},
 {"property": "C16", "status": "proved", "theorems": ["C16_sessions"], "note": "same histories as C15"},
 {"property": "C17", "status": "partial", "theorems": ["C17_dynamic", "C17_static_partial", "C17_static_refuted"], "note": "false of the code: with an empty pool4, a packet from the node of a static entry whose address is not one of the machine's own deletes the entry (finding); proved for everything else"},
 {"property": "C18", "status": "partial", "theorems": ["C18_udp_icmp", "C18_tcp_partial", "C18_tcp_chosen", "C18_masks_from_pool4", "C18_masks_from_node"], "note": "complete for UDP and ICMP; for TCP the case of an address taken from a stored packet is described separately (and depends on C23)"},
 {"property": "C19", "status": "partial", "theorems": ["C19_filtering_partial", "C19_session", "C19_tcp_partial", "C19_tcp_refuted"], "note": "proved for UDP and ICMP; false of the code for TCP with address-dependent filtering: SYNs from hosts the node is in touch with do not get in, other segments from strangers do (finding); proved for TCP SYNs without address-dependent filtering"},
 {"property": "C20", "status": "proved", "theorems": ["C20_transition", "C20_unique", "C20_sequences", "C20_expiration"], "note": "tcp_state_machine and tcp_est_expire_cb against an independently written table of RFC 6146 section 3.5.2"},
 {"property": "C21", "status": "partial", "theorems": ["C21_expiration_partial", "C21_idle_partial", "C21_stored_packets", "C21_refuted"], "note": "C21_idle_partial says what is left between cleanings: nothing that had expired before the last one. False of the code for sessions dated in the future by joold and lifetimes of 2^31 ms or more (finding); proved otherwise"},
 {"property": "C22", "status": "partial", "theorems": ["C22_bound", "C22_counter_partial", "C22_refuted"], "note": "the bound holds; the counter is false of the code: a static entry that evicts a stored packet leaks one unit (finding)"},
 {"property": "C23", "status": "partial", "theorems": ["C23_upgrade_partial", "C23_no_external", "C23_refuted"], "note": "false of the code: a collision while upgrading a stored packet leads to use of a freed entry (finding); proved to be the only way"},
 {"property": "C24", "status": "proved", "theorems": ["C24_icmp_errors"], "note": ""},
 {"property": "C25", "status": "partial", "theorems": ["C25_session_partial", "C25_delivery_partial", "C25_answers_partial", "C25_hairpin_partial", "C25_hairpin_there", "C25_refuted"], "note": "false of the code with a pool6 prefix shorter than /96 and a destination with suffix bits set: the answer comes from another address (finding). Proved for the addresses the translator itself would use; TCP hairpinning only from the sessions on; TCP packets that complete a stored connection left out"},
 {"property": "C26", "status": "proved", "theorems": ["C26_listing", "C26_changing"], "note": ""},
 {"property": "C27", "status": "proved", "theorems": ["C27_listing", "C27_changing"], "note": ""},
 {"property": "C28", "status": "partial", "theorems": ["C28_range_partial", "C28_refuted"], "note": "false of the code when the prefix has host bits set (finding; nothing validates the prefix of a removal); exact otherwise"},
 {"property": "C29", "status": "partial", "theorems": ["C29_order", "C29_packets", "C29_outstanding", "C29_capacity_partial", "C29_capacity_refuted", "C29_deadline", "C29_ack_partial", "C29_ack_refuted", "C29_advertised", "C29_lost_refuted", "C29_zero_refuted"], "note": "order, packet sizes, acks and deadline are proved. False of the code: the capacity does not bind while an advertisement is under way; an ack does not send what waits if it does not fill a packet; sessions get lost if more are allowed per packet than fit in the fixed-size message; 0 sessions per packet is accepted and stops synchronisation (findings)"},
 {"property": "C30", "status": "partial", "theorems": ["C30_round_trip_partial", "C30_any_bytes_partial", "C30_synchronised", "C30_syn_refuted", "C30_long_refuted", "C30_overread_refuted", "C30_state_refuted", "C30_timer_refuted"], "note": "the round trip and the arrival in the peer's BIB are proved except for sessions of the incoming-SYN timer, which live 5994 ms longer at the peer because 6 s is taken for 6 ms (finding), and lifetimes from 2^31 ms. False of the code: 32 to 35 bytes are read as 36; the state and the timer of UDP and ICMP sessions are not validated (findings)"},
 {"property": "C31", "status": "partial", "theorems": ["C31_tcp64", "C31_udp64", "C31_tcp46", "C31_udp46", "C31_udp46_zero", "C31_refuted"], "note": "proved both ways in both directions, with hardware offload and fragmentation; false of the code: a UDP datagram without checksum that the stateful translator fragments gets the checksum of its first fragment (finding)"},
 {"property": "C32", "status": "partial", "theorems": ["C32_udp64", "C32_udp46_partial", "C31_udp46_zero", "C32_refuted"], "note": "proved towards IPv4. False of the code towards IPv6: the updated checksum may be zero, for instance for every datagram with checksum 0xffff and the well-known prefix (finding)"},
 {"property": "C33", "status": "partial", "theorems": ["C33_echo46", "C33_echo64_partial", "C33_refuted", "C33_errors64", "C33_errors46"], "note": "false of the code for an echo reply of zeros only, which gets checksum 0 instead of 0xffff (finding); proved for all others, and for errors"},
 {"property": "C34", "status": "proved", "theorems": ["C34_64", "C34_46", "C34_rules"], "note": ""},
 {"property": "C35", "status": "partial", "theorems": ["C35_partial", "C35_refuted", "C35_fast"], "note": "proved for fragments of legal datagrams; a fragment which reaches past 65535 (ping of death) gets wrapped offsets (finding)"},
 {"property": "C36", "status": "partial", "theorems": ["C36_ptb_partial", "C36_ptb_message_partial", "C36_ptb_refuted", "C36_frag_needed_partial", "C36_frag_needed_message_partial", "C36_frag_needed_refuted", "C36_too_big64_partial", "C36_too_big64_refuted", "C36_too_big46_partial", "C36_too_big46_refuted"], "note": "the formulas are proved where nothing wraps. False of the code: results of 65536 become 0, without an input device every result is 1280, IPv4 MTUs below 1260 black-hole obedient senders, data in pages is not counted, and the fragment header of DF fragments is not taken into account (findings)"},
 {"property": "C37", "status": "partial", "theorems": ["C37_46", "C37_64", "C37_round_trip", "C37_inner46", "C37_inner64_refuted"], "note": "proved for outer packets and for inner ones 4 to 6. False of the code for the packet inside of an ICMPv6 error: its fragment header is not looked at (finding)"},
 {"property": "C38", "status": "partial", "theorems": ["C38_64", "C38_46", "C37_round_trip", "C38_ecn_refuted"], "note": "proved but for the ECN bits on kernels 6.18 and later, which are lost (finding)"},
 {"property": "C39", "status": "proved", "theorems": ["C39_terminates", "C39_parses", "C39_accepts"], "note": "the walk ends, stays in the packet, and summariser and iterator agree; acceptance is characterised exactly"},
 {"property": "C40", "status": "partial", "theorems": ["C40_partial", "C40_refuted"], "note": "proved for well formed options. False of the code: an option of length 0 makes the kernel loop forever, and a malformed length makes it read past the options (findings)"},
 {"property": "C41", "status": "partial", "theorems": ["C41_64_partial", "C41_46_partial", "C41_trim_64", "C41_trim_46", "C41_64_refuted", "C41_46_refuted"], "note": "proved when the length attribute covers the inner IP headers. Otherwise false of the code: the length underflows and the copy overruns the memory (finding)"},
 {"property": "C42", "status": "partial", "theorems": ["C42_names", "C42_find", "C42_add", "C42_add_works", "C42_rm", "C42_flush", "C42_hooks", "C42_packets", "C42_netfilter_partial", "C42_netfilter_refuted", "C42_packets_refuted"], "note": "names, lookups, additions, removals, flushes, hooks: proved for every history. That there is one Netfilter instance of a type per namespace is proved as long as no upload creates an instance; false of the code otherwise (finding). With both types in a namespace, all packets go to one of them (finding)"},
 {"property": "C43", "status": "partial", "theorems": ["C43_unchanged", "C43_message", "C43_failed", "C43_candidates", "C43_apart", "C43_refuted", "C43_bib_refuted"], "note": "proved that instances change only on a successful END message and what every message does to candidates. False of the code: each successful END writes to the freed candidate, and the uploaded BIB is lost because the NAT64 keeps its own (findings)"},
 {"property": "C44", "status": "proved", "theorems": ["C44", "C44_accepted", "C44_rejected", "C44_instances", "C44_update"], "note": "from the creation of the instance through any requests, updates and uploads"},
 {"property": "C45", "status": "partial", "theorems": ["C45_partial", "C45_accepts", "C45_refuted"], "note": "proved for lists that are not empty. The empty list is accepted and becomes the first of the previous values (finding)"},
 {"property": "C46", "status": "proved", "theorems": ["C46"], "note": "and the text is in the documented format and fits in its buffer"},
 {"property": "C47", "status": "partial", "theorems": ["C47_exact", "C47_partial", "C47_refuted", "C47_timeout_partial", "C47_timeout_wraps_refuted", "C47_timeout_refuted"], "note": "values in range and in the documented format are read exactly. False of the code: rubbish after the digits is not noticed, timeouts of 2^32 ms or more wrap, and empty or signed timeouts are accepted (findings)"},
 {"property": "C48", "status": "proved", "theorems": ["C48_rfc6791v4_in_pool", "C48_rfc6791v6_in_pool"], "note": ""},
 {"property": "C49", "status": "partial", "theorems": ["C49_4to6_partial", "C49_6to4_refuted", "C49_6to4_partial"], "note": "false of the code: 6 to 4, the two counters are swapped (finding); apart from that they tell the two cases apart. 4 to 6 proved outside of hairpinning; EAMT from tame histories"},
 {"property": "C50", "status": "proved", "theorems": ["C50_hash_args", "C50_hash_all"], "note": "the digest and the allocation of its descriptor are parameters"},
 {"property": "C51", "status": "proved", "theorems": ["C51_listing"], "note": "table unchanged between pages; allocation does not fail"},
 {"property": "C52", "status": "proved", "theorems": ["C52_limit", "C52_limit_added"], "note": "through additions and through pool4db_update (which no Netlink request calls at present)"},
 {"property": "C53", "status": "proved", "theorems": ["C53_find", "C53_slot", "C53_start", "C53_try_next", "C53_allow"], "note": "rebalancing (rb_insert_color, rb_erase) and rb_next of the kernel are trusted to keep and follow the in-order sequence"},
 {"property": "C54", "status": "proved", "theorems": ["C54_packets", "C54_once"], "note": ""},
 {"property": "C55", "status": "proved", "theorems": ["C55_counters"], "note": ""},
 {"property": "C56", "status": "partial", "theorems": ["C56_syn4", "C56_syn6_partial", "C56_refuted"], "note": "false of the code: any segment from IPv6 towards a host whose SYN is stored creates a session (finding)"},
 {"property": "C57", "status": "partial", "theorems": ["C57_states_partial", "C57_states_refuted"], "note": "false of the code: joold can bring a TCP state that does not exist, and the next segment leads to use of freed memory (finding)"},
 {"property": "C58", "status": "proved", "theorems": ["C58_static", "C58_rm", "C58_flush"], "note": "allocation not failing; the effect on stored packets is in C54 and C22"},
 {"property": "C59", "status": "proved", "theorems": ["C59_errors4", "C59_back", "C59_errors6"], "note": ""},
 {"property": "C60", "status": "partial", "theorems": ["C60_defined_partial", "C60_reachable", "C60_pool4", "C60_refuted"], "note": "false of the code: the use after free of C23, shown with three packets (finding); proved to be the only way"},
 {"property": "C61", "status": "partial", "theorems": ["C61_ipv6_partial", "C61_ipv4_partial", "C61_refuted"], "note": "false of the code: a TCP header with a data offset below 5 is accepted and may stay in pages (finding); proved otherwise"},
 {"property": "C62", "status": "proved", "theorems": ["C62_parses", "C62_accepts"], "note": ""},
 {"property": "C63", "status": "proved", "theorems": ["C63"], "note": ""},
 {"property": "C64", "status": "proved", "theorems": ["C64"], "note": "for every history of additions, removals, flushes, updates, uploads, expired uploads, namespace exits and packets in flight"},
 {"property": "C65", "status": "partial", "theorems": ["C65_partial", "C65_refuted"], "note": "proved if the addresses of the namespaces differ in their low 32 bits, which is all that the client is sent. Otherwise false of the code (finding)"},
 {"property": "C66", "status": "partial", "theorems": ["C66_partial", "C66_refuted"], "note": "proved for every setting, except prefixes that are not set, which are displayed as nothing but have to be written null (finding). inet_pton and inet_ntop are trusted to undo each other"},
 {"property": "C67", "status": "partial", "theorems": ["C67_partial", "C67_refuted"], "note": "well formed arguments are read exactly. False of the code: malformed ones are accepted too (finding). inet_pton is a parameter"},
 {"property": "C68", "status": "partial", "theorems": ["C68_6to4_partial", "C68_4to6_partial", "C68_4to6_refuted", "C68_scope_refuted"], "note": "EAMT from tame histories; 4 to 6 outside of hairpinning. False of the code: denylisted sources of ICMPv4 errors are not exempt; subnet-scoped sources of errors are translated (findings)"},
 {"property": "C69", "status": "partial", "theorems": ["C69_6to4", "C69_4to6_partial", "C69_answer_partial", "C69_4to6_refuted"], "note": "6 to 4 for every instance. 4 to 6 false of the code in simple hairpinning mode, where the query looks up the EAMT but packets do not (finding)"},
 {"property": "C70", "status": "partial", "theorems": ["C70_intrinsic_partial", "C70_simple_partial"], "note": "for pairs of EAM addresses that end in zeroes after the mapping's suffix; EAMT from tame histories; address part of packets only"},
 {"property": "C71", "status": "partial", "theorems": ["C71_roundtrip_partial", "C71_roundtrip_refuted"], "note": "proved for addresses that represent IPv4 ones (RFC 6052 with zero suffix, or mapped with zeroes after the suffix). False for others (finding, inherent in RFC 7757); EAMT from tame histories"},
 {"property": "C72", "status": "partial", "theorems": ["C72_6to4_partial", "C72_4to6_partial", "C72_deterministic"], "note": "address part only; EAMT from tame histories; 4 to 6 outside of hairpinning and of denylisted sources of errors (C68_4to6_refuted); 6 to 4, that translatable packets leave as IPv4 is proved outside of intrinsic hairpinning (C70 covers that)"},
 {"property": "C73", "status": "partial", "theorems": ["C73_listing_resumes_partial", "C73_pages_partial"], "note": "for the histories of C05_C06_C08_orderly_partial; the table is assumed not to change between pages"},
 {"property": "C74", "status": "partial", "theorems": ["C74_partial", "C74_memory_refuted", "C74_length_refuted"], "note": "all packets but ICMP errors (C77). Missing because false (findings): next header 1 (read past the linear area), TCP data offset less than 5, results longer than 65535 octets without a route (total length wraps)"},
 {"property": "C75", "status": "partial", "theorems": ["C75_partial", "C75_memory_refuted"], "note": "all packets but ICMP errors (C77). Missing because false (findings): protocol 58, TCP data offset less than 5, malformed options (C40); missing: GSO packets and fragment lists"},
 {"property": "C76", "status": "partial", "theorems": ["C76_partial", "C76_accepted_partial", "C76_refuted"], "note": "with the exceptions of C74 and C75; false for protocols whose number is that of an IPv6 extension header (finding). Acceptance is proved for packets which cross in one piece"},
 {"property": "C77", "status": "partial", "theorems": ["C77_64_partial", "C77_46_partial", "C77_outer_fragment_refuted", "C77_echo_refuted", "C77_nested_refuted"], "note": "all errors but those the refutations are about. Findings: a fragment header in front of an ICMPv6 error is taken for one of the packet inside; the checksum of a truncated echo inside is translated wrongly; an ICMPv4 error inside of an ICMPv4 error makes Jool write past the end of the outgoing packet. Also left out: the exceptions of C37, C40, C41, C74 and C75, and checksums left to the hardware"},
 {"property": "C78", "status": "partial", "theorems": ["C78_accounting", "C78_release", "C78_flush_partial", "C78_flush_refuted", "C78_failed_allocation_refuted"], "note": "destruction: all histories in which no addition runs out of memory halfway; flush: the histories of C05_C06_C08_orderly_partial. Findings: rtrie_add never frees the leaf when the inode cannot be allocated; rtrie_flush does nothing when the root has been lost (C06), so entries stay listed after a flush"},
 {"property": "C79", "status": "partial", "theorems": ["C79_valid", "C79_unsigned", "C79_safe_partial", "C79_safe_refuted", "C79_rejects_refuted"], "note": "validity: all texts of RFC 8259 whose exponents fit in an int (doubles taken as exact decimals). Safety: all texts, valid or not, whose escapes are complete and whose exponents have at most nine digits. Findings: an incomplete \\u before the closing quote makes parse_string write past the end of the string it allocated; a backslash at the end of the text makes it read past the end; a long exponent overflows an int; texts that are not JSON are accepted. Stack depth is not modelled"},
 {"property": "C80", "status": "partial", "theorems": ["C80_accepts", "C80_success_partial", "C80_order", "C80_name", "C80_read", "C80_mark_refuted", "C80_fraction_refuted", "C80_option_refuted", "C80_room_refuted", "C80_name_refuted", "C80_read_refuted"], "note": "all texts, all kernels, all message sizes (strings are parsed as in C46, C47 and C67; doubles as in C79). Findings: marks from 2^31 on are sent as zero; fractions are dropped; a file without the tag instance, its name given as an option, begins an upload and then fails; if the control attribute does not fit, success is reported with nothing sent; an instance tag that is no string makes joolnl_file_get_iname dereference NULL, and an error of the parser makes it print freed memory; file_to_string never ends on a file that has shrunk and overflows its buffer on one that has grown after a short read"},
 {"property": "C81", "status": "partial", "theorems": ["C81_success_partial", "C81_success", "C81_unchanged", "C81_works"], "note": "C80's client and C43's kernel together; the databases are arbitrary, and anything may happen between the messages. Partial as C80 is (fractions and marks), and because of C43_bib_refuted: the BIB of an upload that replaces a NAT64 is lost, so the contents are stated of the databases which the instance has from the upload. The client is taken to be one process that has not begun another upload; a request is served as a whole"},
 {"property": "C82", "status": "partial", "theorems": ["C82_entry_to_module", "C82_left_out", "C82_entry_to_client", "C82_session_to_client", "C82_prefix6_to_module", "C82_prefix4_to_module", "C82_prefix6_to_client", "C82_prefix4_to_client", "C82_plateaus_to_module", "C82_plateaus_to_client", "C82_plateaus_empty_refuted", "C82_module_safe", "C82_module_safe_prefixes", "C82_module_safe_plateaus_partial", "C82_module_safe_plateaus_refuted", "C82_client_safe_partial", "C82_client_safe_refuted"], "note": "all values, messages, byte orders; Netlink's own functions (Linux's and libnl's) are modelled by their documentation. Findings: the client writes an empty list of plateaus as nothing and reports success; the client's check for missing attributes leaves out the last one and all addresses, so a response that lacks one makes it use a null pointer; before Linux 5.2, an attribute of an unknown type among the plateaus is read without its length being checked."},
 {"property": "C83", "status": "partial", "theorems": ["C83_request_partial", "C83_names", "C83_eamt_rm_one_prefix", "C83_eamt_rm_one_prefix_refuted", "C83_pool4_rm_drops_bib_refuted", "C83_pool4_rm_long_prefix_refuted", "C83_only_proper", "C83_any_octets_partial", "C83_no_stray_partial", "C83_bib_rm_uninitialized_refuted"], "note": "all arguments, names, databases and octets. Findings: removing from the EAMT by one prefix is always refused (the client writes an attribute for the other, which the module takes for a malformed prefix); a removal from pool4 that fails drops the BIB entries of the range nevertheless, and searches the BIB with prefixes that were refused, even longer than 32 bits; a removal from the BIB without a protocol uses an uninitialized variable. Partial for these, and for settings before Linux 5.2 (C82). The texts of errors are a parameter; the databases' functions are those of other properties; requests that list are not included"},
 {"property": "C84", "status": "partial", "theorems": ["C84_listing", "C84_unreadable", "C84_steady", "C84_settings", "C84_eamt", "C84_denylist_partial", "C84_pool4", "C84_bib", "C84_sessions", "C84_removed_refuted", "C84_removed_eamt_refuted", "C84_repeated_refuted"], "note": "all tables and their states at each request, names, sizes, byte orders. Findings: if the entry to resume from is removed meanwhile, a listing of the denylist or the EAMT is refused (ESRCH) without having shown what was there all along; a denylist that has a prefix many times is listed forever. Partial for the latter (C84_denylist_partial supposes no prefix twice). The EAMT's histories are those of C05; the tie to each database is an explicit hypothesis, met by the examples. The user's callback does not fail"},
 {"property": "C85", "status": "partial", "theorems": ["C85_owned", "C85_refused", "C85_sent", "C85_hairpin", "C85_one_fate", "C85_hairpin_told_refuted", "C85_hairpin_counted_refuted", "C85_bystanders_refuted", "C85_handed_back_refuted", "C85_owned_torn_refuted", "C85_owned_null_refuted"], "note": "What each step decides is an argument here (other properties are about that). False of the code, with witnesses: a refusal in the second pass of a hairpin tells the sender nothing; a hairpin without memory for its second pass is dropped uncounted; if the hook has no memory, it drops packets that are nobody's; a hairpin whose second pass is untranslatable hands the original IPv6 packet back to the kernel; fix_ie leaks its sk_buff if a copy fails, and packets with a null page are leaked on purpose. C85_owned therefore assumes that neither of the last two happens."},
 {"property": "C86", "status": "partial", "theorems": ["C86_there_partial", "C86_back_partial", "C86_answers_partial", "C86_hairpin_partial", "C86_defined6_partial", "C86_defined4_partial", "C86_pool4", "C86_defined_refuted"], "note": "composes the parser (C39, C62), the tuple's fields, filtering and updating (C18, C25), compute_out_tuple and the octets (C74, C75). Partial: first fragments of TCP, UDP and echo only (ICMP errors: C59 and C77); the outgoing way of TCP is for SYNs that answer no stored one, hairpinning leaves out TCP; GSO and fragment lists are left out on the way in from IPv4; typed_db (addresses and ports in the tables are of their C types) is what C88_life shows of every life of a translator. C86_defined_refuted: a TCP header whose data offset is 0 makes the ports be read outside of the linear area"},
 {"property": "C87", "status": "partial", "theorems": ["C87_error4_partial", "C87_error6_partial", "C87_sent_partial"], "note": "composes the parser (C39, C62), the inner tuple, filtering (C59), compute_out_tuple and the octets (C77). Partial for C77's exclusions: packets with a fragment header outside or inside, checksums the kernel left partial, errors about errors, inner TCP headers whose data offset is less than 5, and ICMP extensions whose length covers the inner header; also for errors about hairpinned packets. typed_db as in C86"},
 {"property": "C88", "status": "proved", "theorems": ["C88_origin", "C88_life"], "note": "what happens to a translator is a list of packets (any octets), operators' and joold's operations with values of their C types (joold's states are TCP's: C57 shows that others are let in and what they do), and cleanings; pool4 must be able to offer what it offers (usable4: C86_pool4). What is undefined (C60, C86_defined_refuted) ends the life"},
 {"property": "C89", "status": "partial", "theorems": ["C89_kept_partial", "C89_conversation_partial", "C89_errors_partial"], "note": "the conversation theorems begin with an empty translator and assume nothing about its tables. Partial: for the exclusions of C86 and C87, for TCP the packet is the first SYN of a connection, and the promised time is the lesser of the established and the transitory timeout (an established connection's should be the former)"},
 {"property": "C90", "status": "partial", "theorems": ["C90_6to4_partial", "C90_4to6_partial", "C90_hairpin_partial", "C90_there_partial", "C90_back_partial"], "note": "composes the parsers (C39, C62), the addresses (C49, C68) and the octets (C74, C75). Partial for the exclusions of C74 and C75 (ICMP errors, which are C91's, generic segmentation offload, TCP headers whose data offset is less than 5, packets whose fragments exceed 64 KB, malformed IPv4 options), for mapping tables which are not tame (C49), and, in C90_back, for simple mode with a mapped peer (C70)"},
 {"property": "C91", "status": "partial", "theorems": ["C91_error4_partial", "C91_error6_partial"], "note": "composes the parsers, the addresses of errors (C68, C71) and the octets (C77). Partial for the exclusions of C77 (see C87's note), for mapping tables which are not tame, for hairpinned packets, and in simple mode for errors about packets to a mapped peer (C70)"},
 {"property": "C92", "status": "partial", "theorems": ["C92_4_partial", "C92_6_partial", "C92_hairpin_partial"], "note": "composes the parsers (C39, C62), the tables (C16, C20) and the rules (C20). Partial: fragments that are not the first, segments whose data offset is less than 5, allocation failures, the sender's own connection when a segment is hairpinned (C92_hairpin_partial is about the receiver's), and, from the IPv6 side with an empty pool4, segments of connections whose IPv4 address is not the one the route has now (issue 216: the entry is replaced)"},
 {"property": "C93", "status": "proved", "theorems": ["C93_kept", "C93_once", "C93_step"], "note": "composes the tables' accounting (C22) with the packets' path; what is kept of a hairpinned packet is its IPv4 form, named by the second environment"},
 {"property": "C94", "status": "partial", "theorems": ["C94_stays", "C94_renewed4_partial", "C94_renewed6_partial", "C94_delivered_partial"], "note": "C94_stays is whole, for all octets; of the other side of a hairpin it asks a little more than needed (no FIN or RST of any node behind the translator to S4). The others are partial for what C92 and C86 leave out (fragments that are not the first, data offsets less than 5, allocation failures)"},
 {"property": "C95", "status": "partial", "theorems": ["C95_arrive_partial", "C95_have_partial", "C95_any_partial", "C95_order_refuted", "C95_short_refuted", "C95_absent_refuted"], "note": "machines of the same byte order; refuted for different ones (the attributes' headers travel in the sender's order and the receiver silently finds no sessions). Any datagram is handled well unless it has an attribute of 36 to 39 octets, which is read beyond its end. A request without container dereferences a null pointer (the daemon never sends one)"},
 {"property": "C96", "status": "partial", "theorems": ["C96_listed_partial", "C96_counted_partial", "C96_unknown_refuted"], "note": "machines that want numbers of 64 bits aligned: each counter is preceded by a line about an unknown one (JSTAT_PADDING) and a warning. Names, order and values are right on all machines"},
 {"property": "C97", "status": "partial", "theorems": ["C97_told_partial", "C97_cut", "C97_race_refuted", "C97_foreign_refuted"], "note": "while nobody else logs. target_checkentry logs too, for a rule of iptables that is not valid, without the mutex that requests hold: between the allocation and the copy that makes the text longer than the buffer (C97_race_refuted), before it the text is told to someone else (C97_foreign_refuted). Sizes are not bounded; torn accesses to the list are not modelled"}
]}
