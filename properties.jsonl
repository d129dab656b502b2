{"id": "C01", "title": "RFC 6052 translation round trip", "statement": "Translating any IPv4 address to IPv6 with a pool6 prefix of any supported length (32/40/48/56/64/96) succeeds, the result belongs to that prefix, and translating it back with the same prefix yields the original IPv4 address. Distinct IPv4 addresses yield distinct IPv6 addresses.", "quantifier": "every prefix accepted as pool6, every IPv4 address", "why_tests_cant": "2^32 addresses times 2^96 prefixes; tests sample a handful", "anchors": ["src/mod/common/rfc6052.c:__rfc6052_4to6", "src/mod/common/rfc6052.c:__rfc6052_6to4", "src/mod/common/db/global.c:pool6_validate"]}
{"id": "C02", "title": "RFC 6052 address layout", "statement": "The IPv6 address produced for an IPv4 address has exactly the octet layout of RFC 6052 section 2.2: prefix octets first, IPv4 octets next skipping octet 8, octet 8 (the 'u' octet) zero whenever the pool6 prefix was accepted by validation, and all suffix octets zero. 6-to-4 translation fails exactly when the address is outside the prefix.", "quantifier": "every accepted prefix, every IPv4 and IPv6 address", "why_tests_cant": "layout must hold for all octet values, not just sampled vectors", "anchors": ["src/mod/common/rfc6052.c:__rfc6052_4to6", "src/mod/common/rfc6052.c:__rfc6052_6to4", "src/mod/common/db/global.c:pool6_validate"]}
{"id": "C03", "title": "Prefix arithmetic is sound", "statement": "A prefix contains an address iff the top len bits are equal; two prefixes are reported to intersect iff some address is in both; prefix validation accepts exactly the prefixes with a legal length and an all-zero suffix; the address count and 'next' address of a validated prefix delimit exactly the contained addresses.", "quantifier": "every IPv4/IPv6 prefix (len 0..32 / 0..128) and address", "why_tests_cant": "boundary lengths 0 and 32 (shift by 32) and all bit patterns", "anchors": ["src/mod/common/address.c:prefix4_contains", "src/mod/common/address.c:prefix4_intersects", "src/mod/common/address.c:prefix4_validate", "src/mod/common/address.c:prefix6_validate", "src/mod/common/address.c:prefix4_get_addr_count", "src/mod/common/address.c:prefix4_next"]}
{"id": "C04", "title": "EAM address translation round trip", "statement": "For any valid explicit address mapping entry, an address inside its IPv4 prefix translates to an IPv6 address inside its IPv6 prefix, and translating that with the same entry returns the original IPv4 address; suffix bits are copied verbatim (RFC 7757 section 3.3).", "quantifier": "every valid EAM entry, every address inside it", "why_tests_cant": "all prefix length pairs (33*129) and all addresses", "anchors": ["src/mod/common/db/eam.c:eamt_xlat_6to4", "src/mod/common/db/eam.c:eamt_xlat_4to6", "src/mod/common/db/eam.c:validate_prefixes"]}
{"id": "C05", "title": "EAMT lookups return the longest matching prefix", "statement": "After any history of EAMT additions, removals and flushes, translating an address uses the entry with the longest prefix containing it, and fails iff no stored entry contains it.", "quantifier": "every history of add/remove/flush operations, every queried address", "why_tests_cant": "depends on the insertion/removal order and the resulting trie shape; unbounded histories", "anchors": ["src/mod/common/rtrie.c:rtrie_add", "src/mod/common/rtrie.c:rtrie_rm", "src/mod/common/rtrie.c:rtrie_find", "src/mod/common/rtrie.c:find_longest_common_prefix", "src/mod/common/db/eam.c:eamt_xlat_6to4"]}
{"id": "C06", "title": "EAMT add/remove behave as a set", "statement": "After any history, the EAMT contains exactly the entries that were successfully added and not removed since; adding an existing prefix fails with EEXIST and changes nothing; removing an existing entry succeeds and removes only it.", "quantifier": "every history of operations", "why_tests_cant": "unbounded histories, trie restructuring on removal", "anchors": ["src/mod/common/rtrie.c:rtrie_add", "src/mod/common/rtrie.c:rtrie_rm", "src/mod/common/db/eam.c:eamt_add", "src/mod/common/db/eam.c:eamt_rm"]}
{"id": "C07", "title": "EAMT refuses overlapping entries unless forced", "statement": "Without --force, an addition that would make two EAMT entries overlap (in IPv4 or IPv6) is refused, so an EAMT built without --force never contains overlapping entries (as documented in usr-flags-eamt.md).", "quantifier": "every history of unforced additions", "why_tests_cant": "orders of insertion (big-then-small versus small-then-big)", "anchors": ["src/mod/common/db/eam.c:validate_overlapping", "src/mod/common/db/eam.c:eamt_add", "docs/en/usr-flags-eamt.md"]}
{"id": "C08", "title": "EAMT trie memory safety", "statement": "No sequence of EAMT operations dereferences a freed trie node.", "quantifier": "every history of operations", "why_tests_cant": "dangling pointers do not necessarily crash a test; histories unbounded", "anchors": ["src/mod/common/rtrie.c:swap_nodes", "src/mod/common/rtrie.c:rtrie_rm", "src/mod/common/rtrie.c:rtrie_add"]}
{"id": "C09", "title": "denylist4 membership", "statement": "An address is denylisted by the pool iff it lies in a prefix added and not removed since; flush empties the pool; a removal removes exactly one equal prefix; listing the pool in any page sizes reports every entry exactly once.", "quantifier": "every history, every address, every page size", "why_tests_cant": "unbounded histories and page boundaries; duplicates", "anchors": ["src/mod/common/db/denylist4.c:denylist4_add", "src/mod/common/db/denylist4.c:denylist4_rm", "src/mod/common/db/denylist4.c:denylist4_contains", "src/mod/common/db/denylist4.c:denylist4_foreach"]}
{"id": "C10", "title": "pool4 contains exactly what was added and not removed", "statement": "After any history of additions and removals of (address, port range) under one mark, an IPv4 transport address is in pool4 iff some addition covers it and no later removal covers it; the stored ranges stay sorted and disjoint.", "quantifier": "every history of add/rm ranges; every transport address", "why_tests_cant": "range fusion/splitting depends on all relative positions of ranges", "anchors": ["src/mod/common/db/pool4/db.c:pool4_add_range", "src/mod/common/db/pool4/db.c:fix_collisions", "src/mod/common/db/pool4/db.c:slip_in", "src/mod/common/db/pool4/db.c:remove_range", "src/mod/common/db/pool4/db.c:pool4db_contains", "src/mod/common/db/pool4/db.c:find_port_range"]}
{"id": "C11", "title": "pool4 transport address count is exact", "statement": "The size that pool4 keeps for a mark (used to choose a random mask offset) always equals the number of transport addresses the mark holds, in particular it is never zero while the mark has entries, so choosing a mask never divides by zero.", "quantifier": "every history of pool4 additions/removals", "why_tests_cant": "needs an overlapping add followed by particular removals", "anchors": ["src/mod/common/db/pool4/db.c:pool4_add_range", "src/mod/common/db/pool4/db.c:remove_range", "src/mod/common/db/pool4/db.c:mask_domain_find"]}
{"id": "C12", "title": "Mask enumeration visits every pool4 address exactly once", "statement": "Starting from any offset, the candidate-mask iterator yields only transport addresses in pool4 and, with iterations unlimited, yields each of them exactly once before reporting exhaustion; with a max-iterations limit k it yields the first min(k, total).", "quantifier": "every pool4 table, every start offset, every limit", "why_tests_cant": "cartesian product of range layouts and offsets", "anchors": ["src/mod/common/db/pool4/db.c:mask_domain_find", "src/mod/common/db/pool4/db.c:mask_domain_next", "src/mod/common/db/pool4/db.c:find_offset"]}
{"id": "C13", "title": "pool4 entries of different marks are independent", "statement": "Removing a range under one mark does not make transport addresses that another mark holds disappear from pool4 (as observed by 4-to-6 traffic).", "quantifier": "every history, every pair of marks", "why_tests_cant": "requires multi-mark histories", "anchors": ["src/mod/common/db/pool4/db.c:pool4db_rm", "src/mod/common/db/pool4/db.c:rm_from_addr_tree", "src/mod/common/db/pool4/db.c:rm_from_mark_tree", "src/mod/common/db/pool4/db.c:cmp_mark"]}
{"id": "C14", "title": "pool4 memory safety on reallocation", "statement": "No sequence of pool4 operations uses a table after krealloc moved it.", "quantifier": "every history and every allocator behaviour", "why_tests_cant": "depends on the allocator moving the block", "anchors": ["src/mod/common/db/pool4/db.c:slip_in", "src/mod/common/db/pool4/db.c:remove_range", "src/mod/common/db/pool4/db.c:add_to_mark_tree"]}
{"id": "C15", "title": "BIB is a one-to-one mapping", "statement": "After any interleaving of packets, static additions, removals, flushes, expirations and joold synchronisations, no two BIB entries of a protocol share an IPv6 transport address or an IPv4 transport address, and the IPv6 and IPv4 indexes hold the same entries.", "quantifier": "every history of BIB operations", "why_tests_cant": "global invariant over unbounded histories", "anchors": ["src/mod/common/db/bib/db.c:bib_add6", "src/mod/common/db/bib/db.c:bib_add4", "src/mod/common/db/bib/db.c:bib_add_static", "src/mod/common/db/bib/db.c:bib_rm", "src/mod/common/db/bib/db.c:bib_add_session", "src/mod/common/db/bib/db.c:commit_add"]}
{"id": "C16", "title": "Sessions are unique and consistent with their BIB entry", "statement": "Every session belongs to exactly one BIB entry and has that entry's IPv6 and IPv4 source addresses; one entry never has two sessions towards the same IPv4 destination.", "quantifier": "every history of BIB operations", "why_tests_cant": "global invariant over unbounded histories", "anchors": ["src/mod/common/db/bib/db.c:find_session_slot", "src/mod/common/db/bib/db.c:commit_session_add", "src/mod/common/db/bib/db.c:bib_add_session"]}
{"id": "C17", "title": "BIB entry lifetime", "statement": "A dynamic BIB entry exists exactly as long as it has at least one session: removing the last session removes the entry, and no dynamic entry without sessions is ever observable. Static entries persist until explicitly removed, with or without sessions.", "quantifier": "every history of BIB operations", "why_tests_cant": "global invariant over unbounded histories", "anchors": ["src/mod/common/db/bib/db.c:rm", "src/mod/common/db/bib/db.c:detach_bib", "src/mod/common/db/bib/db.c:__clean", "src/mod/common/db/bib/db.c:bib_add_static", "src/mod/common/db/bib/db.c:bib_rm"]}
{"id": "C18", "title": "Dynamic masks come from pool4 and are free", "statement": "When an IPv6 packet creates a dynamic BIB entry, the IPv4 transport address chosen is one the mask domain offers and was not already used by another BIB entry; if some offered address is free and the iteration limit allows reaching it, creation succeeds.", "quantifier": "every BIB state, every mask domain and offset", "why_tests_cant": "depends on the occupancy pattern of the whole BIB", "anchors": ["src/mod/common/db/bib/db.c:find_available_mask", "src/mod/common/db/bib/db.c:try_next", "src/mod/common/db/bib/db.c:bib_add6", "src/mod/common/db/pool4/db.c:mask_domain_next"]}
{"id": "C19", "title": "Address-dependent filtering", "statement": "With drop-by-addr enabled, an IPv4 packet without a session is accepted (creating a session) iff its BIB entry already has a session whose remote address equals the packet's source address; disabled, it is accepted iff the BIB entry exists.", "quantifier": "every BIB state and packet", "why_tests_cant": "depends on tree ordering of all sessions of the entry", "anchors": ["src/mod/common/db/bib/db.c:bib_add4", "src/mod/common/db/bib/db.c:find_bib_session4", "src/mod/common/db/bib/db.c:find_session_slot"]}
{"id": "C20", "title": "TCP state machine follows RFC 6146", "statement": "For every TCP state, packet direction and flag combination, the next session state and lifetime class are those of RFC 6146 section 3.5.2.2 (with RST handling per the handle-rst-during-fin-rcv option).", "quantifier": "every sequence of segments from any state", "why_tests_cant": "RFC behaviours over all sequences, not single transitions", "anchors": ["src/mod/common/steps/filtering_and_updating.c:tcp_state_machine", "src/mod/common/steps/filtering_and_updating.c:tcp_established_state"]}
{"id": "C21", "title": "Session expiration is exact", "statement": "After a cleaning pass at time t, no session whose timeout elapsed remains on its queue, and no session whose timeout has not elapsed was expired, provided updates happen in time order.", "quantifier": "every history of session updates and every clock", "why_tests_cant": "the pass stops at the first unexpired session; completeness needs the ordering invariant over all histories (including joold-imported sessions with arbitrary update times)", "anchors": ["src/mod/common/db/bib/db.c:__clean", "src/mod/common/db/bib/db.c:queue_unsorted_session", "src/mod/common/db/bib/db.c:attach_timer", "src/mod/common/db/bib/db.c:decide_fate"]}
{"id": "C22", "title": "Simultaneous-open packet storage is bounded and slots are recycled", "statement": "The number of stored packets never exceeds maximum-simultaneous-opens, and whenever all stored packets have left, the counter is zero, so storage capacity is never lost.", "quantifier": "every history of TCP packets, static additions, expirations", "why_tests_cant": "counter leak only visible after specific interleavings", "anchors": ["src/mod/common/db/bib/db.c:bib_add_tcp4", "src/mod/common/db/bib/db.c:__bib_add_static", "src/mod/common/db/bib/pkt_queue.c:pktqueue_add", "src/mod/common/db/bib/pkt_queue.c:pktqueue_rm"]}
{"id": "C23", "title": "Simultaneous-open upgrade never uses freed memory", "statement": "Whatever the outcome of upgrading a stored packet into a session (including allocation failure or collision), subsequent processing never touches freed BIB memory.", "quantifier": "every BIB state, allocation outcome", "why_tests_cant": "needs allocation failure or a concurrent mapping at one point", "anchors": ["src/mod/common/db/bib/db.c:upgrade_pktqueue_session", "src/mod/common/db/bib/db.c:find_bib_session6", "src/mod/common/db/bib/db.c:commit_add6"]}
{"id": "C24", "title": "ICMP errors never change the tables", "statement": "Translating an ICMP error message (in either direction) never creates, refreshes or removes a BIB entry or session.", "quantifier": "every state and ICMP error packet", "why_tests_cant": "all states", "anchors": ["src/mod/common/steps/filtering_and_updating.c:filtering_and_updating"]}
{"id": "C25", "title": "Translated replies reach their originator", "statement": "If an IPv6 packet was translated with outgoing IPv4 tuple (S4,D4), then while the session exists, the IPv4 reply (D4,S4) is translated into the exact reverse of the original IPv6 tuple; hairpinned packets likewise.", "quantifier": "every state, every packet pair", "why_tests_cant": "relation between two directions across arbitrary intermediate operations", "anchors": ["src/mod/common/steps/compute_outgoing_tuple.c", "src/mod/common/steps/filtering_and_updating.c", "src/mod/common/db/bib/db.c:bib_add6", "src/mod/common/db/bib/db.c:bib_find"]}
{"id": "C26", "title": "Paged BIB listing is exact", "statement": "Listing a BIB in pages of any size, resuming each page from the last entry of the previous one, with no concurrent modification, reports every entry exactly once in order; if the resume entry was deleted meanwhile, the remaining entries are still all reported.", "quantifier": "every BIB, every page size, every deletion in between", "why_tests_cant": "page-boundary combinatorics", "anchors": ["src/mod/common/db/bib/db.c:bib_foreach", "src/mod/common/db/bib/db.c:find_starting_point"]}
{"id": "C27", "title": "Paged session listing is exact", "statement": "Listing sessions in pages of any size, resuming from the last session, reports every session exactly once, ordered by (src4, dst4).", "quantifier": "every BIB/session database, every page size", "why_tests_cant": "page-boundary combinatorics", "anchors": ["src/mod/common/db/bib/db.c:bib_foreach_session", "src/mod/common/db/bib/db.c:find_session_offset"]}
{"id": "C28", "title": "Removing a pool4 range purges exactly its BIB entries", "statement": "bib range removal deletes every BIB entry whose IPv4 transport address lies in the prefix and port range, and no other entry.", "quantifier": "every BIB and range", "why_tests_cant": "iteration while deleting; skip-ahead logic between addresses", "anchors": ["src/mod/common/db/bib/db.c:bib_rm_range"]}
{"id": "C29", "title": "joold queue discipline", "statement": "Sessions queued for synchronisation are sent in order, each once; no packet carries more sessions than configured; the queue never exceeds its capacity; with flush-asap off and no ack, at most one packet is outstanding; once acknowledged or the deadline passed, pending sessions are sent.", "quantifier": "every history of session events, acks and timer ticks", "why_tests_cant": "all interleavings", "anchors": ["src/mod/common/joold.c:joold_add", "src/mod/common/joold.c:joold_ack", "src/mod/common/joold.c:joold_clean", "src/mod/common/joold.c:send_to_userspace_prepare", "src/mod/common/joold.c:should_send"]}
{"id": "C30", "title": "joold session codec round trip", "statement": "A session serialised by one instance is reconstructed by its peer with the same addresses, ports, state and timer, with remaining lifetime equal to the sender's, and any byte sequence received is either rejected or yields a session with a valid TCP state and timer.", "quantifier": "every session; every received byte string", "why_tests_cant": "all encodings, including malformed", "anchors": ["src/mod/common/nl/attribute.c:jnla_get_session_joold", "src/mod/common/nl/attribute.c:jnla_put_session_joold"]}
{"id": "C31", "title": "TCP/UDP checksum validity is preserved", "statement": "For every TCP or UDP packet with a correct checksum, the incrementally updated checksum of the translated packet (either direction) is correct for the new pseudo-header and ports; an incorrect one stays incorrect.", "quantifier": "every header field value and payload", "why_tests_cant": "one's complement corner cases (0 vs 0xFFFF, carries)", "anchors": ["src/mod/common/rfc7915/6to4.c:update_csum_6to4", "src/mod/common/rfc7915/4to6.c:update_csum_4to6", "src/mod/common/rfc7915/6to4.c:ttp64_tcp", "src/mod/common/rfc7915/4to6.c:ttp46_tcp"]}
{"id": "C32", "title": "No zero UDP checksum is emitted over IPv6", "statement": "A UDP datagram translated to IPv6 never carries checksum 0 (which receivers must drop, RFC 8200 section 8.1); one translated to IPv4 never accidentally says 'no checksum'.", "quantifier": "every datagram", "why_tests_cant": "about 1 in 65536 packets hit it", "anchors": ["src/mod/common/rfc7915/4to6.c:ttp46_udp", "src/mod/common/rfc7915/6to4.c:ttp64_udp"]}
{"id": "C33", "title": "ICMP checksum validity is preserved", "statement": "For ICMP echo messages with correct checksum, the translated checksum is correct for the translated type and identifier, including/excluding the IPv6 pseudo-header as appropriate.", "quantifier": "every echo message", "why_tests_cant": "one's complement corner cases", "anchors": ["src/mod/common/rfc7915/6to4.c:update_icmp4_csum", "src/mod/common/rfc7915/4to6.c:update_icmp6_csum"]}
{"id": "C34", "title": "ICMP type/code translation follows RFC 7915", "statement": "For every ICMPv4 (resp. ICMPv6) type and code, the packet is translated to the type and code of RFC 7915 sections 4.2/4.3 (resp. 5.2/5.3) or dropped exactly when the RFC says so.", "quantifier": "every type and code (65536 combinations) and pointer", "why_tests_cant": "RFC tables with holes", "anchors": ["src/mod/common/rfc7915/6to4.c:ttp64_icmp", "src/mod/common/rfc7915/4to6.c:ttp46_icmp", "src/mod/common/rfc7915/6to4.c:icmp6_to_icmp4_param_prob_ptr", "src/mod/common/rfc7915/4to6.c:icmp4_to_icmp6_param_prob"]}
{"id": "C35", "title": "4-to-6 fragmentation partitions the payload", "statement": "When an IPv4 packet must be fragmented on translation, the IPv6 fragments carry exactly the original payload in order, contiguous offsets that are multiples of 8, More-Fragments set on all but the last (where the original flag is kept), and each fragment fits in the target MTU.", "quantifier": "every payload length, MTU and original fragment offset", "why_tests_cant": "all sizes and off-by-8 boundaries", "anchors": ["src/mod/common/rfc7915/4to6.c:allocate_slow", "src/mod/common/rfc7915/4to6.c:autofill_hdr6", "src/mod/common/rfc7915/4to6.c:fragment_exceeds_mtu46"]}
{"id": "C36", "title": "Reported path MTUs are sufficient and sane", "statement": "MTU values in translated Packet Too Big / Fragmentation Needed messages equal the RFC 7915 formula (adjusted for the 20-byte difference, minimum 1280 for IPv6 where applicable) for every input MTU, and a sender obeying them produces packets that fit.", "quantifier": "every reported MTU, in/out device MTU, plateau table", "why_tests_cant": "wrap-around and truncation at extreme values", "anchors": ["src/mod/common/rfc7915/6to4.c:compute_mtu4", "src/mod/common/rfc7915/4to6.c:compute_mtu6", "src/mod/common/rfc7915/4to6.c:icmp6_minimum_mtu"]}
{"id": "C37", "title": "Fragment fields survive translation", "statement": "Fragment identification (low 16 bits), offset and More-Fragments of an IPv4 fragment survive translation to IPv6 and back; unfragmented DF packets get no fragment header; IPv6 fragments get DF=0.", "quantifier": "every fragment field value", "why_tests_cant": "bit-packing over all values", "anchors": ["src/mod/common/rfc7915/4to6.c:autofill_hdr6", "src/mod/common/rfc7915/4to6.c:build_id_field", "src/mod/common/rfc7915/6to4.c:xlat_frag_off", "src/mod/common/rfc7915/6to4.c:generate_ipv4_id", "src/mod/common/rfc7915/6to4.c:generate_df_flag"]}
{"id": "C38", "title": "TTL and traffic class translation", "statement": "Hop limit / TTL are decremented by exactly one for external packets and a packet with TTL/hop limit 1 or less is never forwarded (it is answered with Time Exceeded); traffic class and TOS are copied unless configured otherwise, and survive a round trip.", "quantifier": "every header value and configuration", "why_tests_cant": "nibble packing of traffic class over all values", "anchors": ["src/mod/common/rfc7915/6to4.c:ttp64_ipv4_external", "src/mod/common/rfc7915/4to6.c:ttp46_ipv6_external", "src/mod/common/rfc7915/6to4.c:xlat_tos"]}
{"id": "C39", "title": "IPv6 header chain parsing agrees and terminates", "statement": "For every packet, walking the extension header chain terminates, never reads outside the packet, and the iterator and the packet summariser agree on the transport header's location and protocol.", "quantifier": "every byte string", "why_tests_cant": "adversarial extension chains", "anchors": ["src/mod/common/ipv6_hdr_iterator.c:hdr_iterator_next", "src/mod/common/packet.c:summarize_skb6"]}
{"id": "C40", "title": "IPv4 option scanning terminates in bounds", "statement": "For every IPv4 header, the source-route option scan terminates and never reads past the options.", "quantifier": "every option byte string", "why_tests_cant": "adversarial option bytes", "anchors": ["src/mod/common/rfc7915/4to6.c:has_unexpired_src_route"]}
{"id": "C41", "title": "ICMP extension handling has no length underflow", "statement": "For every ICMP error with an extension length attribute, all lengths computed while repositioning the extension are non-negative and inside the packet, and for well-formed packets the result is a well-formed RFC 4884 message within the size limit.", "quantifier": "every length field, packet size", "why_tests_cant": "extreme length combinations", "anchors": ["src/mod/common/rfc7915/common.c:handle_icmp_extension", "src/mod/common/rfc7915/common.c:fix_ie"]}
{"id": "C42", "title": "Translator instances are unique per namespace", "statement": "After any history of instance additions, removals, atomic replacements and flushes, a namespace never holds two instances of the same translator type with the same name, nor two Netfilter instances of the same type; packets of a namespace always find the one instance.", "quantifier": "every history of instance operations", "why_tests_cant": "two different insertion paths with different checks", "anchors": ["src/mod/common/xlator.c:xlator_add", "src/mod/common/xlator.c:xlator_replace", "src/mod/common/xlator.c:validate_collision", "src/mod/common/xlator.c:xlator_find"]}
{"id": "C43", "title": "Atomic configuration is all-or-nothing", "statement": "The running configuration of an instance changes only on a successful END message and then becomes exactly the uploaded candidate; a failed or abandoned upload leaves it unchanged; no upload message touches freed memory.", "quantifier": "every sequence of configuration messages, including failures and timeouts", "why_tests_cant": "all interleavings of several uploads", "anchors": ["src/mod/common/atomic_config.c:atomconfig_add", "src/mod/common/atomic_config.c:get_candidate", "src/mod/common/atomic_config.c:commit"]}
{"id": "C44", "title": "Running globals always satisfy their documented ranges", "statement": "After any sequence of global updates the running configuration satisfies the documented constraints (lowest-ipv6-mtu >= 1280, pool6 valid or absent, UDP timeout >= 120 s, TCP established >= 7200 s, TCP transitory >= 240 s, f-args <= 15, plateau list nonempty strictly descending without zero), and a rejected update leaves the configuration unchanged.", "quantifier": "every update value sequence", "why_tests_cant": "unbounded histories; malformed attributes", "anchors": ["src/common/global.c", "src/mod/common/nl/global.c:handle_global_update", "src/mod/common/db/global.c:pool6_validate"]}
{"id": "C45", "title": "MTU plateau lists are normalised", "statement": "Any plateau list accepted by validation is stored as the strictly descending sequence of the distinct nonzero values given, at most 64 long, and lists without a nonzero value are rejected.", "quantifier": "every list", "why_tests_cant": "in-place sort/dedupe over all lists", "anchors": ["src/common/global.c:validate_plateaus"]}
{"id": "C46", "title": "Timeout printing and parsing are inverse", "statement": "For every millisecond count representable in 32 bits, the textual timeout shown to the user parses back to the same value.", "quantifier": "all 2^32 values", "why_tests_cant": "exhaustive domain", "anchors": ["src/usr/util/str_utils.c:timeout2str", "src/usr/util/str_utils.c:str_to_timeout"]}
{"id": "C47", "title": "Numeric arguments are parsed exactly", "statement": "A numeric command-line argument is accepted iff the whole string is a decimal number within the documented range, and the value used is that number.", "quantifier": "every string", "why_tests_cant": "infinite strings", "anchors": ["src/usr/util/str_utils.c:str_to_u8", "src/usr/util/str_utils.c:str_to_u16", "src/usr/util/str_utils.c:str_to_u32", "src/usr/util/str_utils.c:str_to_timeout"]}
{"id": "C48", "title": "ICMP error source addresses come from the RFC 6791 pool", "statement": "When a configured rfc6791 prefix is used to source an otherwise untranslatable ICMP error, the selected address always lies inside the prefix.", "quantifier": "every prefix, every random value", "why_tests_cant": "random selection", "anchors": ["src/mod/common/db/rfc6791v4.c:get_pool_address", "src/mod/common/db/rfc6791v6.c:get_pool_address"]}
{"id": "C49", "title": "Address translation statistics name the failing address", "statement": "When SIIT 6-to-4 translation fails because of the source (resp. destination) address, the source (resp. destination) counter is the one incremented.", "quantifier": "every packet and configuration", "why_tests_cant": "all failure combinations", "anchors": ["src/mod/common/steps/compute_outgoing_tuple_siit.c:translate_addrs64_siit"]}
{"id": "C50", "title": "Mask selection hash depends only on f-args", "statement": "The pool4 starting offset depends only on the tuple fields selected by f-args: two packets agreeing on those fields (with the same secret key) get the same offset.", "quantifier": "every pair of tuples, every f-args value", "why_tests_cant": "pairs of packets", "anchors": ["src/mod/common/db/pool4/rfc6056.c:rfc6056_f", "src/mod/common/db/pool4/rfc6056.c:hash_tuple"]}
{"id": "C51", "title": "pool4 listing shows everything exactly once", "statement": "Listing pool4 page by page, whatever the page sizes, ends without error and shows ranges which together cover exactly the transport addresses each mark holds, none of them twice.", "quantifier": "every history of pool4 requests, every sequence of page sizes", "why_tests_cant": "page boundaries and range layouts multiply", "anchors": ["src/mod/common/db/pool4/db.c:pool4db_foreach_sample", "src/mod/common/db/pool4/db.c:find_offset", "src/mod/common/nl/pool4.c:handle_pool4_foreach"]}
{"id": "C52", "title": "pool4 iteration limit is honoured", "statement": "After the iteration limit of a mark is set, mask searches of that mark are limited to exactly that number; 'auto' means 1/128 of the size clamped to 1024..8192, 'infinite' means no limit, and a limit of zero is never accepted.", "quantifier": "every history, flags and limit", "why_tests_cant": "combinations of flags and table sizes", "anchors": ["src/mod/common/db/pool4/db.c:pool4db_update", "src/mod/common/db/pool4/db.c:compute_max_iterations", "src/mod/common/db/pool4/db.c:max_iterations_validate"]}
{"id": "C53", "title": "Tree walks agree with the sorted order", "statement": "On any search tree of transport addresses, rbtree_find and rbtree_find_slot find the node with a given address if there is one; otherwise linking a node at the returned slot inserts it at the place of its address in the order. slot_next, find_starting_point and try_next name the neighbour at that place, and find_session_slot's 'allow' flag, though computed only along one descent, is set iff some session has the remote address.", "quantifier": "every search tree and address", "why_tests_cant": "all tree shapes", "anchors": ["src/mod/common/db/rbtree.h:rbtree_find", "src/mod/common/db/rbtree.h:rbtree_find_slot", "src/mod/common/db/rbtree.c:treeslot_commit", "src/mod/common/db/bib/db.c:slot_next", "src/mod/common/db/bib/db.c:find_starting_point", "src/mod/common/db/bib/db.c:try_next", "src/mod/common/db/bib/db.c:find_session_slot"]}
{"id": "C54", "title": "Stored packets are released exactly once", "statement": "Every packet the BIB takes from the caller is, at any later time, either still held (by exactly one session or queue node) or has been released exactly once.", "quantifier": "every history of packets, timeouts and requests, including allocation failures", "why_tests_cant": "leaks and double frees need long histories", "anchors": ["src/mod/common/db/bib/db.c:bib_add_tcp4", "src/mod/common/db/bib/db.c:handle_probe", "src/mod/common/db/bib/pkt_queue.c:pktqueue_add", "src/mod/common/db/bib/pkt_queue.c:pktqueue_rm", "src/mod/common/db/bib/pkt_queue.c:pktqueue_clean"]}
{"id": "C55", "title": "BIB and session gauges equal the number of entries", "statement": "The per-table counters reported as statistics always equal the number of BIB entries and the number of sessions in the table.", "quantifier": "every history", "why_tests_cant": "drift needs long histories", "anchors": ["src/mod/common/db/bib/db.c:commit_bib_add", "src/mod/common/db/bib/db.c:commit_delete_list", "src/mod/common/db/bib/db.c:rm"]}
{"id": "C56", "title": "TCP sessions are only created by SYN segments", "statement": "A TCP segment without SYN never creates a BIB entry or a session (RFC 6146 section 3.5.2.2, CLOSED state).", "quantifier": "every table, segment and direction", "why_tests_cant": "all combinations of state and flags", "anchors": ["src/mod/common/db/bib/db.c:bib_add_tcp6", "src/mod/common/db/bib/db.c:bib_add_tcp4", "src/mod/common/db/bib/db.c:upgrade_pktqueue_session"]}
{"id": "C57", "title": "Every TCP session is in a TCP state", "statement": "Whatever was received, including through session synchronisation, each TCP session is in one of the states of the state machine, so that the next segment is processed by it.", "quantifier": "every history", "why_tests_cant": "needs malformed synchronisation messages", "anchors": ["src/mod/common/nl/attribute.c:jnla_get_session_joold", "src/mod/common/db/bib/db.c:bib_add_session", "src/mod/common/steps/filtering_and_updating.c:tcp_state_machine"]}
{"id": "C58", "title": "Operator changes to the BIB are exact", "statement": "Adding a static entry succeeds iff that mapping already exists or neither of its addresses is mapped, and changes no other mapping or session; removing an entry succeeds iff it exists and takes it and its sessions only; a flush takes everything.", "quantifier": "every table and request", "why_tests_cant": "all tables", "anchors": ["src/mod/common/db/bib/db.c:bib_add_static", "src/mod/common/db/bib/db.c:bib_rm", "src/mod/common/db/bib/db.c:bib_flush"]}
{"id": "C59", "title": "ICMP errors about translated packets reach the sender", "statement": "An ICMP error about a packet the translator sent, in either direction and whatever router it comes from, is translated into one about the packet that was received, addressed to the node that sent it, as long as the mapping exists.", "quantifier": "every state, error and translated packet", "why_tests_cant": "relation between two directions and nested packets", "anchors": ["src/mod/common/steps/determine_incoming_tuple.c:ipv4_icmp_err", "src/mod/common/steps/determine_incoming_tuple.c:ipv6_icmp_err", "src/mod/common/steps/compute_outgoing_tuple.c:find_bib", "src/mod/common/db/bib/db.c:bib_find"]}
{"id": "C60", "title": "Processing a packet is always defined", "statement": "Whatever the packets before, taking a packet through tuple extraction, filtering and updating, outgoing tuple and hairpinning ends with a verdict, uses no freed memory, and leaves a database that satisfies the table invariants.", "quantifier": "every sequence of packets, configuration and allocation failures", "why_tests_cant": "needs rare interleavings", "anchors": ["src/mod/common/core.c:core_common", "src/mod/common/steps/handling_hairpinning_nat64.c:handling_hairpinning_nat64", "src/mod/common/steps/filtering_and_updating.c:filtering_and_updating"]}
{"id": "C61", "title": "Accepted packets have their headers in memory", "statement": "After a packet has been accepted, its network and transport headers and those of the packet inside of an ICMP error are complete and in the linear area of the buffer, as packet.h promises.", "quantifier": "every byte string and every split between linear area and pages", "why_tests_cant": "needs paged buffers and malformed lengths", "anchors": ["src/mod/common/packet.c:pkt_init_ipv6", "src/mod/common/packet.c:pkt_init_ipv4", "src/mod/common/packet.h:pkt_init_ipv6"]}
{"id": "C62", "title": "IPv4 packets are accepted exactly if well formed", "statement": "An IPv4 packet is accepted iff its headers, and those of the packet inside of an ICMP error, are complete, in order and not those of a fragment where none is allowed; what is noted of them is true.", "quantifier": "every byte string", "why_tests_cant": "infinitely many layouts", "anchors": ["src/mod/common/packet.c:summarize_skb4", "src/mod/common/packet.c:validate_inner4", "src/mod/common/packet.c:handle_icmp4"]}
{"id": "C63", "title": "Listing the settings shows each once", "statement": "However many settings fit in each reply, a client that lists the settings of an instance gets every setting of the instance's type exactly once, and none of the other type.", "quantifier": "every size of the replies", "why_tests_cant": "depends on page boundaries", "anchors": ["src/mod/common/db/global.c:globals_foreach", "src/mod/common/nl/global.c:handle_global_foreach", "src/usr/nl/global.c:joolnl_global_foreach"]}
{"id": "C64", "title": "Databases live as long as something refers to them", "statement": "After any history, every table (EAMT, denylist, pool4, BIB, session queue, counters) that an instance, a half uploaded configuration or a packet in flight refers to exists, its reference count is the number of these, and every other table has been freed; no reference count is touched after its table was freed.", "quantifier": "every history of instance operations, uploads, expirations and packets in flight, including failed allocations", "why_tests_cant": "leaks and use after free depend on rare failures and interleavings", "anchors": ["src/mod/common/xlator.c:xlator_put", "src/mod/common/xlator.c:xlator_replace", "src/mod/common/xlator.c:__xlator_add", "src/mod/common/xlator.c:xlator_find", "src/mod/common/atomic_config.c:candidate_destroy"]}
{"id": "C65", "title": "Listing the instances shows each once", "statement": "However many instances fit in each reply, a client that lists the instances gets every instance of its type, in all namespaces, exactly once.", "quantifier": "every set of instances, every size of the replies", "why_tests_cant": "depends on page boundaries and hash order", "anchors": ["src/mod/common/xlator.c:xlator_foreach", "src/mod/common/nl/instance.c:handle_instance_foreach", "src/usr/nl/instance.c:joolnl_instance_foreach"]}
{"id": "C66", "title": "Displayed settings can be entered again", "statement": "The text that the userspace client displays for a setting (--csv) is accepted as an argument for that setting, and means the same value.", "quantifier": "every value of every setting", "why_tests_cant": "infinitely many values; lengths of buffers", "anchors": ["src/common/global.c:print_prefix", "src/common/global.c:print_plateaus", "src/common/global.c:str2nl_prefix6", "src/usr/util/str_utils.c:str_to_plateaus_array"]}
{"id": "C67", "title": "Address arguments are parsed exactly", "statement": "An argument is accepted as a prefix, transport address, port range or list of plateaus iff it has the documented form, and the value used is the one written.", "quantifier": "every string", "why_tests_cant": "infinite strings", "anchors": ["src/usr/util/str_utils.c:str_to_prefix4", "src/usr/util/str_utils.c:str_to_prefix6", "src/usr/util/str_utils.c:str_to_addr4_port", "src/usr/util/str_utils.c:str_to_addr6_port", "src/usr/util/str_utils.c:str_to_port_range", "src/usr/util/str_utils.c:str_to_plateaus_array"]}
{"id": "C68", "title": "Addresses are translated exactly as documented (SIIT)", "statement": "A header is translated iff each address has a translation (a mapping's, else pool6's) that is neither this node's, nor subnet-scoped, nor (without a mapping) denylisted; sources of ICMP errors are exempt, and masked if untranslatable. The result is that translation.", "quantifier": "every packet and every configuration", "why_tests_cant": "infinitely many tables and addresses", "anchors": ["src/mod/common/address_xlat.c:addrxlat_siit64", "src/mod/common/address_xlat.c:addrxlat_siit46", "src/mod/common/steps/compute_outgoing_tuple_siit.c:translate_addrs64_siit", "src/mod/common/steps/compute_outgoing_tuple_siit.c:translate_addrs46_siit"]}
{"id": "C69", "title": "Address queries predict translation", "statement": "'address query' answers the translation that packets get: a translated packet carries the query's answers, and if the query refuses an address, no packet with it is translated.", "quantifier": "every packet and every configuration", "why_tests_cant": "two code paths for infinitely many inputs", "anchors": ["src/mod/common/nl/address.c:handle_address_query64", "src/mod/common/nl/address.c:handle_address_query46"]}
{"id": "C70", "title": "Hairpinning works for any two mapped nodes", "statement": "If A and B are nodes of the IPv6 network with mappings, a packet of A to B's pool6 representation reaches B with A's pool6 representation as its source; so do the answer, and ICMP errors with their inner packets, in both modes of RFC 7757.", "quantifier": "every configuration without overlap between pool6 and the mappings", "why_tests_cant": "combinations of tables, modes and packets", "anchors": ["src/mod/common/steps/handling_hairpinning_siit.c:is_hairpin_siit", "src/mod/common/steps/handling_hairpinning_siit.c:handling_hairpinning_siit", "src/mod/common/steps/compute_outgoing_tuple_siit.c:disable_src_eam", "src/mod/common/steps/compute_outgoing_tuple_siit.c:disable_dst_eam"]}
{"id": "C71", "title": "Answers return to who asked (SIIT)", "statement": "If a packet from S to D is translated into one from s to d, a packet from d to s is translated into one from D to S, and an ICMP error about it contains one from S to D.", "quantifier": "every packet and every configuration", "why_tests_cant": "infinitely many tables and addresses", "anchors": ["src/mod/common/steps/compute_outgoing_tuple_siit.c:compute_out_tuple_siit", "src/mod/common/rfc7915/6to4.c", "src/mod/common/rfc7915/4to6.c"]}
{"id": "C72", "title": "Whole packets leave with both headers translated (SIIT)", "statement": "A packet leaves iff its header (and, in an ICMP error, the inner one) can be translated by the rules and there is a route; its source is the translated one or, in errors whose source has none and there is no RFC 6791 pool, an address of this node; never the unspecified address.", "quantifier": "every packet and every configuration", "why_tests_cant": "infinitely many tables and addresses", "anchors": ["src/mod/common/rfc7915/6to4.c:compute_flowix64", "src/mod/common/rfc7915/6to4.c:predict_route64", "src/mod/common/rfc7915/4to6.c:compute_flowix46", "src/mod/common/rfc7915/4to6.c:predict_route46"]}
{"id": "C73", "title": "EAMT listings resume where they stopped", "statement": "Listing the EAMT from the IPv4 prefix of the last entry received yields exactly the entries that follow it, so that pages of any size put together are the whole listing, without repetitions or omissions.", "quantifier": "every history of add/remove/flush operations, every page size and resumption point", "why_tests_cant": "depends on list order after arbitrary histories and on every point of interruption", "anchors": ["src/mod/common/rtrie.c:rtrie_foreach", "src/mod/common/db/eam.c:eamt_foreach", "src/mod/common/nl/eam.c:handle_eamt_foreach"]}
{"id": "C74", "title": "IPv6 packets become the IPv4 packets RFC 7915 asks for", "statement": "From octets to octets: a packet which the parser accepts (and is no ICMP error) either leaves as one IPv4 packet of the right length, fitting the MTU, with a correct IPv4 header and the transport segment it carried (new ports or identifier, checksum right iff it was), or is answered with the ICMP error RFC 7915 names, or is dropped for a listed reason; memory outside of the packet is never read.", "quantifier": "every packet, every split in linear area and pages, every environment (addresses, ports, MTU, checksum offload, byte order)", "why_tests_cant": "combinations of extension headers, fragments, lengths and paging", "anchors": ["src/mod/common/rfc7915/core.c:translating_the_packet", "src/mod/common/rfc7915/6to4.c:ttp64_alloc_skb", "src/mod/common/rfc7915/6to4.c:compute_flowix64", "src/mod/common/rfc7915/6to4.c:ttp64_ipv4_external", "src/mod/common/rfc7915/6to4.c:ttp64_tcp", "src/mod/common/rfc7915/6to4.c:ttp64_udp", "src/mod/common/rfc7915/6to4.c:ttp64_icmp"]}
{"id": "C75", "title": "IPv4 packets become the IPv6 packets RFC 7915 asks for", "statement": "From octets to octets: a packet which the parser accepts (and is no ICMP error) either leaves as one IPv6 packet or as IPv6 fragments that fit the MTU (one packet if Don't Fragment is set), with correct headers and together carrying the translated segment, or is answered with the ICMP error RFC 7915 names, or is dropped for a listed reason; memory outside of the packet is never accessed.", "quantifier": "every packet, every split in linear area and pages, every environment", "why_tests_cant": "combinations of options, fragments, lengths, MTUs and paging", "anchors": ["src/mod/common/rfc7915/core.c:translating_the_packet", "src/mod/common/rfc7915/4to6.c:ttp46_alloc_skb", "src/mod/common/rfc7915/4to6.c:allocate_fast", "src/mod/common/rfc7915/4to6.c:allocate_slow", "src/mod/common/rfc7915/4to6.c:compute_flowix46", "src/mod/common/rfc7915/4to6.c:ttp46_ipv6_external", "src/mod/common/rfc7915/4to6.c:ttp46_tcp", "src/mod/common/rfc7915/4to6.c:ttp46_udp", "src/mod/common/rfc7915/4to6.c:ttp46_icmp"]}
{"id": "C76", "title": "Packets survive translation to IPv6 and back", "statement": "If an IPv4 packet is translated to IPv6 and what comes out is translated back by another translator (464XLAT, dual translation), the result carries the same segment but for addresses, ports and checksum, valid iff it was, at the same place of the same datagram, with the TTL lowered by both; the second translator accepts what the first one sends.", "quantifier": "every packet, every pair of environments", "why_tests_cant": "two translators, every packet, size and fragmentation", "anchors": ["src/mod/common/rfc7915/core.c:translating_the_packet", "src/mod/common/packet.c:pkt_init_ipv6", "src/mod/common/packet.c:pkt_init_ipv4"]}
{"id": "C77", "title": "ICMP errors become the ICMP errors RFC 7915 asks for", "statement": "From octets to octets: an ICMP error which the parser accepts either leaves as one ICMP error of the other protocol, not longer than 576 (1280) octets, with correct IP header and ICMP checksum, the type, code, MTU and pointer of RFC 7915, and inside of it the translated form of as much of the offending packet as fits, and the ICMP extension if it fits; or is answered or dropped for a listed reason; memory outside of the packet is never accessed.", "quantifier": "every ICMP error, every split in linear area and pages, every environment", "why_tests_cant": "combinations of nested headers, extension, truncation and paging", "anchors": ["src/mod/common/rfc7915/6to4.c:ttp64_icmp", "src/mod/common/rfc7915/6to4.c:post_icmp4error", "src/mod/common/rfc7915/4to6.c:ttp46_icmp", "src/mod/common/rfc7915/4to6.c:post_icmp6error", "src/mod/common/rfc7915/common.c:ttpcomm_translate_inner_packet", "src/mod/common/rfc7915/common.c:become_inner_packet", "src/mod/common/packet.c:validate_inner4"]}
{"id": "C78", "title": "The EAMT frees its memory", "statement": "Every trie node the EAMT has allocated is on its trie's list or has been freed: flushing the table or destroying it leaves no node allocated, whatever was added and removed before.", "quantifier": "for all histories of additions, removals and flushes, with any prefixes, and all outcomes of the memory allocations", "why_tests_cant": "A leaked node is invisible to every lookup; it takes an allocation that fails halfway through an addition, or a particular order of nested prefixes, to leak one.", "anchors": ["src/mod/common/rtrie.c:rtrie_clean", "src/mod/common/rtrie.c:rtrie_add", "src/mod/common/rtrie.c:rtrie_rm", "src/mod/common/rtrie.c:rtrie_flush", "src/mod/common/db/eam.c:eamt_flush", "src/mod/common/db/eam.c:eamt_release"]}
{"id": "C79", "title": "Configuration files are parsed as JSON", "statement": "A text of RFC 8259 is parsed to the value it stands for (strings with their escapes as UTF-8, numbers, arrays, objects), the unsigned integers Jool reads are the numbers without their fraction, and no text at all makes the parser read or write outside of its buffers.", "quantifier": "for all texts, of any length, valid and not", "why_tests_cant": "The buffer of a string is sized by one loop and filled by another; only some malformed escapes make them disagree, and the write past the end is silent.", "anchors": ["src/usr/util/cJSON.c:parse_value", "src/usr/util/cJSON.c:parse_number", "src/usr/util/cJSON.c:parse_string", "src/usr/util/cJSON.c:parse_hex4", "src/usr/util/cJSON.c:parse_array", "src/usr/util/cJSON.c:parse_object", "src/usr/util/cJSON.c:cJSON_ParseWithOpts", "src/usr/util/cJSON.c:assign_cjson_number"]}
{"id": "C80", "title": "A configuration file is sent to the kernel as what it describes", "statement": "Reading a configuration file succeeds exactly if the file describes a configuration (every tag known, none twice, the mandatory ones there, every value well-formed and for the right translator and instance), and then what is sent is an upload of exactly that configuration: the beginning, all settings and entries once and in the order of the file, and the end. If anything is wrong, or the kernel refuses a message, nothing is sent after that, in particular not the end; and the user is told of success only if the end was accepted.", "quantifier": "for all texts, of any length, and all behaviours of the kernel and of the memory allocations, and all sizes of messages", "why_tests_cant": "The order of the tags, where the messages are split, and which message the kernel refuses, multiply; and what is dropped silently (a fraction, a large mark) shows only in the message.", "anchors": ["src/usr/nl/file.c:do_parsing", "src/usr/nl/file.c:prepare_instance", "src/usr/nl/file.c:handle_object", "src/usr/nl/file.c:handle_array", "src/usr/nl/file.c:handle_global", "src/usr/nl/file.c:handle_eam_entry", "src/usr/nl/file.c:handle_denylist_entry", "src/usr/nl/file.c:handle_pool4_entry", "src/usr/nl/file.c:handle_bib_entry", "src/usr/nl/file.c:send_ctrl_msg", "src/usr/nl/file.c:joolnl_file_parse", "src/usr/nl/file.c:joolnl_file_get_iname", "src/usr/nl/json.c:validate_uint", "src/usr/util/file.c:file_to_string", "src/common/global.c:json2nl_plateaus"]}
{"id": "C81", "title": "Uploading a configuration file is atomic and faithful, end to end", "statement": "From the text of the file to the kernel's instance: if the client reports success, the instance the file names exists, with the default settings changed by the file's, and with databases that hold the file's entries, added in order; a valid file is accepted if client and kernel have the memory and the client's upload does not expire; and before the last message, or if the client reports failure, nothing that is in use has changed.", "quantifier": "for all texts, all earlier histories of the kernel, everything other processes and packets do in the kernel between the client's messages, all splits into messages, and all databases", "why_tests_cant": "What happens between the messages is a matter of timing; an upload that is half applied, or applied to another's, needs a particular interleaving to show.", "anchors": ["src/usr/nl/file.c:do_parsing", "src/usr/nl/file.c:joolnl_file_parse", "src/usr/nl/core.c:joolnl_request", "src/mod/common/atomic_config.c:atomconfig_add", "src/mod/common/atomic_config.c:get_candidate", "src/mod/common/atomic_config.c:commit", "src/mod/common/xlator.c:xlator_replace"]}
{"id": "C82", "title": "Netlink attributes carry what was put in them", "statement": "What the client writes in a message (EAMs, denylisted prefixes, pool4 and BIB entries, prefixes that may be absent, plateaus) is what the module reads from it, and what the module writes (these and sessions) is what the client reads, whatever else the message contains; what does not fit leaves the message as it was; and no octets at all make either side read outside of the attributes.", "quantifier": "for all values that fit the structures, all messages and sizes of messages, both byte orders, and kernels before and after Linux 5.2; for all octets", "why_tests_cant": "Each field goes through a different combination of byte order, padding and length check, and the limits of a message cut anywhere; a malformed attribute only comes from another program than the client.", "anchors": ["src/mod/common/nl/attribute.c:jnla_get_eam", "src/mod/common/nl/attribute.c:jnla_get_pool4", "src/mod/common/nl/attribute.c:jnla_get_bib", "src/mod/common/nl/attribute.c:jnla_get_prefix6_optional", "src/mod/common/nl/attribute.c:jnla_get_plateaus", "src/mod/common/nl/attribute.c:jnla_put_eam", "src/mod/common/nl/attribute.c:jnla_put_pool4", "src/mod/common/nl/attribute.c:jnla_put_bib", "src/mod/common/nl/attribute.c:jnla_put_session", "src/usr/nl/attribute.c:nla_put_eam", "src/usr/nl/attribute.c:nla_put_pool4", "src/usr/nl/attribute.c:nla_put_bib_attrs", "src/usr/nl/attribute.c:nla_put_plateaus", "src/usr/nl/attribute.c:nla_get_eam", "src/usr/nl/attribute.c:nla_get_pool4", "src/usr/nl/attribute.c:nla_get_bib", "src/usr/nl/attribute.c:nla_get_session", "src/usr/nl/attribute.c:validate_mandatory_attrs"]}
{"id": "C83", "title": "A request does what was asked for, end to end", "statement": "Each function of the client's library that changes one thing (adding, removing and flushing entries of the EAMT, the denylist, pool4 and the BIB; updating a setting) has the effect of exactly one call of the database's function with those arguments on the instance of that name and type, and returns that call's result, with the module's explanation if it is an error. Whatever octets any program sends instead, a request changes something only if it is an administrator's, of the right magic, version and type, and finds its instance; and then it amounts to one such call with arguments that fit.", "quantifier": "for all arguments, instance names, databases and their states, sizes of messages, both byte orders; for all octets", "why_tests_cant": "Every function builds its message and every handler reads it in its own way; an optional argument left out, an error halfway, and malformed messages are combinations the test suites do not go through.", "anchors": ["src/usr/nl/core.c:joolnl_alloc_msg", "src/usr/nl/core.c:joolnl_msg2result", "src/usr/nl/core.c:joolnl_request", "src/usr/nl/eamt.c:joolnl_eamt_rm", "src/usr/nl/denylist4.c:joolnl_denylist4_add", "src/usr/nl/pool4.c:joolnl_pool4_rm", "src/usr/nl/bib.c:joolnl_bib_rm", "src/usr/nl/global.c:joolnl_global_update", "src/mod/common/nl/nl_common.c:request_handle_start", "src/mod/common/nl/nl_core.c:jresponse_send_simple", "src/mod/common/nl/eam.c:handle_eamt_add", "src/mod/common/nl/eam.c:handle_eamt_rm", "src/mod/common/nl/denylist4.c:handle_denylist4_add", "src/mod/common/nl/pool4.c:handle_pool4_add", "src/mod/common/nl/pool4.c:handle_pool4_rm", "src/mod/common/nl/bib.c:handle_bib_add", "src/mod/common/nl/bib.c:handle_bib_rm", "src/mod/common/nl/global.c:handle_global_update"]}
{"id": "C84", "title": "A listing shows the table, end to end", "statement": "Each function of the client's library that lists (the EAMT, the denylist, pool4, the BIB, the sessions, the settings) shows what the module's tables have, as many entries per request as fit in a message, each request from where the previous one stopped. A table that does not change is shown whole, each entry once, in the table's order. Entries of the BIB and sessions may come and go meanwhile: what is shown was there, in order and once, and what was there all along is shown.", "quantifier": "for all tables and all their states at each request, all names, sizes of messages, both byte orders and kernels before and after Linux 5.2", "why_tests_cant": "Where a page ends depends on the size of the entries and of the message, and what happens to the entry to resume from, on what others do between two requests.", "anchors": ["src/usr/nl/eamt.c:joolnl_eamt_foreach", "src/usr/nl/denylist4.c:joolnl_denylist4_foreach", "src/usr/nl/pool4.c:joolnl_pool4_foreach", "src/usr/nl/bib.c:joolnl_bib_foreach", "src/usr/nl/session.c:joolnl_session_foreach", "src/usr/nl/global.c:joolnl_global_foreach", "src/usr/nl/common.c:joolnl_init_foreach_list", "src/mod/common/nl/eam.c:handle_eamt_foreach", "src/mod/common/nl/denylist4.c:handle_denylist4_foreach", "src/mod/common/nl/pool4.c:handle_pool4_foreach", "src/mod/common/nl/bib.c:handle_bib_foreach", "src/mod/common/nl/session.c:handle_session_foreach", "src/mod/common/nl/global.c:handle_global_foreach", "src/mod/common/nl/nl_core.c:jresponse_send_array", "src/mod/common/db/global.c:globals_foreach"]}
{"id": "C85", "title": "Every packet has one fate, and nothing leaks", "statement": "For every packet the kernel hands over, in order, the first decision that refuses it decides alone: exactly one counter that tells a fate is counted, an ICMP error is sent exactly if the decision says so and it exists and can be sent, with the type and code of the RFCs, and the answer to the kernel is the one of the decision. If nothing refuses, all parts of the translation are sent once, in order, each with its own route; a hairpin's second pass decides for it. Whatever happens, nothing that was allocated or referenced is released twice, used after being released, or kept, and the packet is freed or stored exactly if the kernel is told that it was taken.", "quantifier": "for all outcomes of all steps in both passes, all allocation failures, all failures to route and to send, both hooks, both types of instance, both families", "why_tests_cant": "Each failure has its own exit, most need memory to run out at one particular allocation or the kernel to fail at one particular fragment; a leak does not show in a test's output.", "anchors": ["src/mod/common/core.c:core_common", "src/mod/common/core.c:core_4to6", "src/mod/common/core.c:core_6to4", "src/mod/common/translation_state.c:drop_icmp", "src/mod/common/rfc7915/core.c:translating_the_packet", "src/mod/common/rfc7915/6to4.c:ttp64_alloc_skb", "src/mod/common/rfc7915/4to6.c:ttp46_alloc_skb", "src/mod/common/rfc7915/4to6.c:allocate_slow", "src/mod/common/rfc7915/4to6.c:autofill_dst", "src/mod/common/rfc7915/common.c:fix_ie", "src/mod/common/steps/send_packet.c:sendpkt_send", "src/mod/common/steps/handling_hairpinning_nat64.c:handling_hairpinning_nat64", "src/mod/common/steps/handling_hairpinning_siit.c:handling_hairpinning_siit", "src/mod/common/icmp_wrapper.c:icmp64_send4", "src/mod/common/kernel_hook_netfilter.c:hook_ipv6", "src/mod/common/kernel_hook_iptables.c:target_ipv6"]}
{"id": "C86", "title": "Conversations through the stateful translator work, from octets to octets", "statement": "An IPv6 node's packet, as octets, to an address of pool6, is sent as an IPv4 packet from an address and port of pool4 to the address in the destination, with a checksum as right as before, and a session is kept; while it is kept, what is answered is delivered, as octets, to that node's address and port, from the very address and port the node had written to. Two nodes behind the same translator who write to each other's address in pool4 reach each other, with the hop limit decremented once, each seeing the other's pool4 address in pool6. No memory outside of the packet is read, and the databases stay sound.", "quantifier": "for all packets, bytes, header chains, options and fragments (first ones), all databases that histories of operations lead to, all pool4 and pool6, hashes, routes, MTUs and allocation failures", "why_tests_cant": "A test has one packet on one freshly started translator; whether the parser's offsets, the lookups' fields, the session's addresses and the octets written agree for all headers, states and masks is the composition of everything else.", "anchors": ["src/mod/common/core.c:core_6to4", "src/mod/common/core.c:core_4to6", "src/mod/common/core.c:core_common", "src/mod/common/steps/determine_incoming_tuple.c:determine_in_tuple", "src/mod/common/steps/filtering_and_updating.c:filtering_and_updating", "src/mod/common/steps/compute_outgoing_tuple.c:compute_out_tuple", "src/mod/common/rfc7915/core.c:translating_the_packet", "src/mod/common/rfc7915/6to4.c:ttp64_ipv4_external", "src/mod/common/rfc7915/4to6.c:generate_saddr6_nat64", "src/mod/common/steps/handling_hairpinning_nat64.c:handling_hairpinning_nat64", "src/mod/common/packet.c:pkt_init_ipv6"]}
{"id": "C87", "title": "ICMP errors about a conversation reach the one who sent the packet they are about", "statement": "When an IPv4 node or router sends an ICMP error about a packet of one of the translator's mappings, the translator delivers an ICMPv6 error to the IPv6 node of that mapping, whose quoted packet goes, as that node would have written it, from its own address and port to the one it had written to. When an IPv6 node or router sends an ICMPv6 error about a packet that the translator delivered, the IPv4 node that sent it gets an ICMP error from the mapping's address, about the packet as that node had written it. So whatever the translator sends for a node, an error that quotes it comes back to that node about the packet it sent. The databases do not change.", "quantifier": "for all errors' octets, header chains and options inside and outside, all databases that histories of operations lead to, all pool4 and pool6, hashes, routes and MTUs", "why_tests_cant": "The inner packet's addresses and ports are read at offsets that depend on two header chains, used swapped for the lookup and written swapped again; tests have one error without extension headers on one mapping.", "anchors": ["src/mod/common/core.c:core_6to4", "src/mod/common/core.c:core_4to6", "src/mod/common/steps/determine_incoming_tuple.c:ipv4_icmp_err", "src/mod/common/steps/determine_incoming_tuple.c:ipv6_icmp_err", "src/mod/common/steps/filtering_and_updating.c:filtering_and_updating", "src/mod/common/steps/compute_outgoing_tuple.c:compute_out_tuple", "src/mod/common/rfc7915/6to4.c:ttp64_ipv4_internal", "src/mod/common/rfc7915/4to6.c:ttp46_ipv6_internal", "src/mod/common/rfc7915/4to6.c:generate_saddr6_nat64"]}
{"id": "C88", "title": "Every address in the tables came from somewhere, and any life of a translator leads to sound tables", "statement": "Every mapping between an IPv6 and an IPv4 transport address that the translator ever has is of an IPv6 node that sent a packet or that the operator or another instance named, and of an IPv4 address and port that pool4 offered, that an IPv4 node wrote to, or that the operator or another instance named. From its start, through any sequence of packets with any octets, cleanings, operators' requests and other instances' news, the translator's tables are those which histories of table operations lead to, and hold only addresses and ports of their types.", "quantifier": "for all histories of the translator, octets of packets, configurations that change on the way, clocks, hashes, allocation failures", "why_tests_cant": "An address invented by mistake (an uninitialised field, another entry's port) shows only if somebody looks at the table after the one history that does it; tests begin with an empty table and send well-formed packets.", "anchors": ["src/mod/common/db/bib/db.c:bib_add6", "src/mod/common/db/bib/db.c:bib_add_tcp6", "src/mod/common/db/bib/db.c:bib_add_tcp4", "src/mod/common/db/bib/db.c:bib_add_static", "src/mod/common/db/bib/db.c:bib_add_session", "src/mod/common/db/bib/db.c:upgrade_pktqueue_session", "src/mod/common/db/bib/db.c:find_bib_session6", "src/mod/common/core.c:core_6to4", "src/mod/common/core.c:core_4to6"]}
{"id": "C89", "title": "A conversation is kept for as long as the configuration promises", "statement": "A node's packet to the other side may come at any time of a translator's life. From then on, whatever else happens - others' packets with any octets, hairpinning, cleanings until the promised time has passed, changes of the configuration, removal of other mappings, joold - as long as nobody removes this mapping, every answer is delivered to the node from the address it had written to, and every ICMP error about the packet reaches it.", "quantifier": "for all histories before and after the packet, octets, configurations that change on the way, clocks that do not go back, hashes, allocation failures", "why_tests_cant": "Minutes to hours pass between the packet and the answer, with thousands of others' packets and dozens of cleanings in between; a session lost in one order of events out of many is seen as a connection that sometimes breaks.", "anchors": ["src/mod/common/db/bib/db.c:bib_clean", "src/mod/common/db/bib/db.c:clean_table", "src/mod/common/db/bib/db.c:decide_fate", "src/mod/common/db/bib/db.c:handle_fate_timer", "src/mod/common/db/bib/db.c:bib_add6", "src/mod/common/db/bib/db.c:bib_add4", "src/mod/common/db/bib/db.c:bib_add_tcp6", "src/mod/common/db/bib/db.c:bib_add_tcp4", "src/mod/common/db/bib/db.c:bib_add_session", "src/mod/common/db/bib/db.c:commit_delete_list", "src/mod/common/core.c:core_6to4", "src/mod/common/core.c:core_4to6"]}
{"id": "C90", "title": "Conversations through the stateless translator work, from octets to octets", "statement": "What becomes of a packet handed to a stateless translator is what the mappings, pool6, the denylist and the hairpin mode say of its addresses, and what RFC 7915 says of the rest. If both ends have addresses which represent each other's network's, then what one sends to the other arrives as sent by the one to the other, in both directions, and nothing but the packet itself (hop limit, size, routing header) or a missing route stops it. In intrinsic mode, what is for the pool6 address of a mapped node turns around and arrives at the mapped node, with the pool6 address of its sender.", "quantifier": "for all mapping tables reached by tame histories, configurations, octets of packets, places where the kernel splits them, MTUs, hop limits, random values", "why_tests_cant": "The address translation and the header translation are tested apart; the addresses' bytes, the checksum which covers them and the second pass of a hairpin only meet in whole packets, and every combination of mapping, mode and packet is another case.", "anchors": ["src/mod/common/core.c:core_4to6", "src/mod/common/core.c:core_6to4", "src/mod/common/core.c:core_common", "src/mod/common/rfc7915/core.c:translating_the_packet", "src/mod/common/rfc7915/6to4.c:compute_flowix64", "src/mod/common/rfc7915/6to4.c:__predict_route64", "src/mod/common/rfc7915/4to6.c:compute_flowix46", "src/mod/common/rfc7915/4to6.c:predict_route46", "src/mod/common/steps/handling_hairpinning_siit.c:handling_hairpinning_siit", "src/mod/common/steps/compute_outgoing_tuple_siit.c:translate_addrs64_siit", "src/mod/common/steps/compute_outgoing_tuple_siit.c:translate_addrs46_siit"]}
{"id": "C91", "title": "ICMP errors through the stateless translator reach the sender of the packet they are about", "statement": "If a packet from S6 to D6 left as sent by s4 to d4, then an ICMPv4 error about it arrives at S6 and contains the packet which S6 sent to D6; and if a packet from d4 to s4 arrived as sent by D6 to S6, an ICMPv6 error about it arrives at d4 and contains the packet which d4 sent to s4. The source of the error is the address of the router which sent it if it has one, else one of the RFC 6791 pool, else one of the translator. Nothing but the error itself, a denylisted router, a missing route or a missing address of the translator stops it.", "quantifier": "for all mapping tables reached by tame histories, configurations, octets of the errors and of what is inside, places where the kernel splits them, random values", "why_tests_cant": "Path MTU discovery and traceroute need this, but tests use one router and one inner packet; here four addresses, two directions and three hairpin modes interact.", "anchors": ["src/mod/common/core.c:core_4to6", "src/mod/common/core.c:core_6to4", "src/mod/common/rfc7915/6to4.c:xlat64_internal_addresses", "src/mod/common/rfc7915/4to6.c:xlat46_internal_addresses", "src/mod/common/rfc7915/common.c:move_pointers_in", "src/mod/common/rfc7915/6to4.c:__predict_route64", "src/mod/common/rfc7915/4to6.c:predict_route46", "src/mod/common/steps/compute_outgoing_tuple_siit.c:translate_addrs64_siit", "src/mod/common/steps/compute_outgoing_tuple_siit.c:translate_addrs46_siit", "src/mod/common/steps/compute_outgoing_tuple_siit.c:disable_src_eam", "src/mod/common/rfc6791v4.c:rfc6791v4_find", "src/mod/common/rfc6791v6.c:rfc6791v6_find"]}
{"id": "C92", "title": "The flags in a segment's octets drive the state of its connection, from octets to tables", "statement": "A TCP segment of a known connection, from either side, moves the connection's state by exactly a rule of RFC 6146 section 3.5.2.2 for the SYN, FIN and RST bits found in its octets and the side it came from: the new state, the timer and since when it runs. Its addresses and the other tables stay. Only an IPv4 node's repeated SYN, while the first one is unanswered, is dropped and changes nothing. This is so even if the segment cannot be translated after that.", "quantifier": "for all reachable tables, configurations, octets of segments, places where the kernel splits them, times, random values", "why_tests_cant": "The position of three bits in a header, the direction and the state of a session are read by different modules; swapping two bits only shows when a connection lives too long or dies too early, hours later.", "anchors": ["src/mod/common/packet.c:paranoid_validations", "src/mod/common/core.c:core_6to4", "src/mod/common/core.c:core_4to6", "src/mod/common/steps/filtering_and_updating.c:ipv6_tcp", "src/mod/common/steps/filtering_and_updating.c:ipv4_tcp", "src/mod/common/steps/filtering_and_updating.c:tcp_state_machine", "src/mod/common/db/bib/db.c:bib_add_tcp6", "src/mod/common/db/bib/db.c:bib_add_tcp4"]}
{"id": "C93", "title": "The packets a translator keeps are let go exactly once, whatever octets come", "statement": "A SYN from the IPv4 side that nobody has asked for may be kept for a while. Seen from outside, through any life of the translator with any octets: what it says it kept (stolen) is, packet by packet and as many times, what its tables hold now plus what it has let go since, by answering with an ICMP error, by freeing it or by sending it on. So none is let go twice, none is used after that, none is let go which was not kept, and none is forgotten.", "quantifier": "for all histories of the translator, octets of packets, hairpinned or not, configurations that change on the way, clocks, hashes, allocation failures", "why_tests_cant": "A double free or a leak needs a SYN, and then a particular second segment, cleaning or removal at the right time; neither is seen in what a test receives.", "anchors": ["src/mod/common/core.c:core_6to4", "src/mod/common/core.c:core_4to6", "src/mod/common/steps/filtering_and_updating.c:ipv4_tcp", "src/mod/common/steps/filtering_and_updating.c:ipv6_tcp", "src/mod/common/steps/handling_hairpinning_nat64.c:handling_hairpinning_nat64", "src/mod/common/db/bib/db.c:bib_add_tcp4", "src/mod/common/db/bib/db.c:bib_add_tcp6", "src/mod/common/db/bib/db.c:bib_clean", "src/mod/common/db/bib/db.c:post_fate", "src/mod/common/db/bib/db.c:decide_fate", "src/mod/common/db/bib/pkt_queue.c:pktqueue_add", "src/mod/common/db/bib/pkt_queue.c:pktqueue_rm", "src/mod/common/db/bib/pkt_queue.c:pktqueue_prepare_clean"]}
{"id": "C94", "title": "An established connection stays established for as long as the configuration promises", "statement": "Once a TCP connection is established, at any time of a translator's life, then whatever else happens - others' segments with any flags and octets, hairpinning, cleanings before tcp-est-timeout has passed since it was last heard of, changes of the configuration, removal of other mappings, joold - it is established, as long as none of its own segments has FIN or RST and nobody removes its mapping; every other segment of it starts the time anew, and what the peer sends on it is delivered to the node.", "quantifier": "for all histories before and after, octets, configurations that change on the way, clocks that do not go back, hashes, allocation failures", "why_tests_cant": "RFC 5382 promises 2 hours; a connection downgraded by somebody else's segment, or by one order of events, breaks hours later, and only when it is idle.", "anchors": ["src/mod/common/db/bib/db.c:bib_clean", "src/mod/common/db/bib/db.c:clean_table", "src/mod/common/db/bib/db.c:decide_fate", "src/mod/common/db/bib/db.c:bib_add_tcp6", "src/mod/common/db/bib/db.c:bib_add_tcp4", "src/mod/common/db/bib/db.c:bib_add_session", "src/mod/common/db/bib/db.c:commit_delete_list", "src/mod/common/steps/filtering_and_updating.c:tcp_established_state", "src/mod/common/steps/filtering_and_updating.c:tcp_state_machine", "src/mod/common/core.c:core_6to4", "src/mod/common/core.c:core_4to6"]}
{"id": "C95", "title": "Sessions travel from machine to machine, and no datagram harms the machine it reaches", "statement": "The sessions that joold hands to its daemon in a message reach the module of the other machine, through the daemons and the network, each once, in order, with the same addresses, ports, state and timer and with as long left to live, on machines of any byte order. Whatever datagram reaches the daemon instead, the module reads nothing beyond its octets and only adds plausible sessions, not more than the datagram has room for.", "quantifier": "every list of sessions that fits in a message, every configuration and tables of the receiver, every allocation failure; every datagram", "why_tests_cant": "Tests use two machines of the same kind, and datagrams that Jool itself wrote; the daemon's socket takes datagrams from any machine of the network.", "anchors": ["src/mod/common/joold.c:send_to_userspace", "src/mod/common/joold.c:joold_sync", "src/mod/common/joold.c:add_new_session", "src/mod/common/nl/joold.c:handle_joold_add", "src/usr/argp/joold/modsocket.c:updated_entries_cb", "src/usr/argp/joold/modsocket.c:modsocket_send", "src/usr/argp/joold/netsocket.c:netsocket_listen", "src/usr/nl/joold.c:joolnl_joold_add"]}
{"id": "C96", "title": "Counters are what was counted, and the listing of them shows each once, under its name", "statement": "Whatever packets and sessions are counted, on whichever processors, each of an instance's counters is the sum of what was counted (modulo an unsigned long's size). \"stats display\" shows each counter exactly once, in order, with its own name and its value, however many replies the module needs for it, on octets from end to end; and nothing else. If the instance is not there or memory runs out, that is told.", "quantifier": "for all histories of counts on all processors, sizes of replies, byte orders, names and states of the module at each request", "why_tests_cant": "Tests read a few counters of one machine on a single processor, in a single reply; splitting replies needs small buffers, and alignment needs other processors", "anchors": ["src/mod/common/stats.c", "src/mod/common/nl/stats.c", "src/usr/nl/stats.c", "src/common/stats.h", "src/usr/argp/wargp/stats.c"]}
{"id": "C97", "title": "Users are told the errors of their own request, all of them, in order", "statement": "The text of an error reply is what was logged while that request was handled, in order, up to 255 characters of each message; nothing of other requests' or of what was logged between requests. The buffer it is gathered in is never written beyond its end, not even when the text is cut to fit the reply; and when no request is being handled no message is still allocated.", "quantifier": "for all histories of requests, messages of any length logged during and between them, allocation failures, sizes of replies of 200 octets or more", "why_tests_cant": "The messages are kept in one list for all users; only the right sequence of failing requests, long messages and allocation failures shows a stale message or a buffer too short by a character, and only a race shows that others write to the list", "anchors": ["src/mod/common/error_pool.c:error_pool_add_message", "src/mod/common/error_pool.c:error_pool_get_message", "src/mod/common/error_pool.c:error_pool_activate", "src/mod/common/error_pool.c:error_pool_deactivate", "src/mod/common/log.c:log_err", "src/mod/common/nl/nl_core.c:jresponse_send_simple", "src/mod/common/nl/nl_handler.c:pre_handle_request", "src/mod/common/nl/nl_handler.c:post_handle_request", "src/mod/common/kernel_hook_iptables.c:target_checkentry"]}
