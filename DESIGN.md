# Design of the Jool model

Source under study: NICMx/Jool as found in `/repo` (kernel module sources in
`src/mod/common`, shared code in `src/common`, userspace in `src/usr`).
Everything below is about a hand-written Gallina model of that C code; every
model definition cites the file and lines it transcribes.

## 1. Conventions

* Layout of `rocq/theories/`:
  * `Base.v` – lists, bits, lexicographic orders, wrap-around arithmetic.
  * `X_Model.v` – transcription of C code (definitions only).
  * `X_Spec.v` – the independent specification (RFC tables, sets, longest
    match, ...), which never mentions model helpers.
  * `X_Proofs.v` – lemmas.
  * `X_Properties.v` – only the theorems listed in `MANIFEST.json`, each closed
    by `exact`, followed by `Print Assumptions`, and accompanied by `Example`s
    which show that the hypotheses can be met by a non-trivial case.
* Integers are `Z` (or `N`); C wrap-around is written explicitly (`mod 2^32`).
* Undefined behaviour / memory errors are a distinguished outcome (`UB`,
  `None`, `Crash`, …), never silently totalised.
* Sources of nondeterminism (allocation failures, hash values, random numbers,
  `jiffies`, whether `krealloc` moves) are explicit arguments.
* Locks: each operation that the C code runs under one spinlock is one atomic
  step of the model; histories are lists of steps.
* Red-black trees are modelled as lists sorted by the tree's comparison
  function. The kernel's rebalancing code (`rb_insert_color`, `rb_erase`) is
  trusted to preserve in-order contents.

## 2. Trusted base

* The Coq 8.16.1 kernel (and `coqc`); `vm_compute` is only used in Examples
  and `_refuted` witnesses.
* Axioms: see section 5, which lists the output of `Print Assumptions` for
  every theorem. The goal is "Closed under the global context" everywhere.
* The model itself: that the Gallina functions transcribe the C functions they
  cite. Not modelled unless said otherwise: kernel networking (routing, skb
  allocation, GSO), locking primitives/RCU, Netlink transport, the red-black
  tree rebalancing, logging, compiler and CPU.
* The kernel's checksum helpers behave like its portable versions, which
  `Csum_Model` transcribes (architectures may only differ in ways that give
  the same 16-bit checksum).
* The functions of Linux's `lib/nlattr.c` and libnl's `lib/attr.c` (writing,
  nesting, iterating, validating and parsing attributes) behave as documented;
  `Nla_Model` states what that is.
* C semantics assumptions: two's complement `int`, 32-bit `unsigned int`,
  64-bit `size_t`/`long`, `jiffies` modelled as an unbounded or explicitly
  wrapped integer as stated at each definition.

## 3. Plan per property

| id | model | proof plan |
|----|-------|------------|
| C01, C02 | `rfc6052.c`, `db/global.c` pool6 validation over octet lists | case analysis on prefix length; separate octet-layout spec from RFC 6052 fig. 1 |
| C03 | `address.c` prefix functions over Z with 32-bit masks; IPv6 as 128-bit numbers/octets | bit-level extensionality, `Z.testbit` |
| C04 | `eam.c` translation bit loops over bit-addressed addresses | extensionality over bits |
| C05, C06 | functional model of `rtrie.c` (black/white nodes, left/right order, all insertion cases) | refute in general with a concrete history; prove by an invariant over histories, first for prefix-free tables (`Rtrie_*`, `Eam_*`), then for nested prefixes added from general to particular and removed without leaving forks behind (`Nest_*`) |
| C07 | `eam.c` `validate_overlapping` on top of the trie model | refute (small-then-big) |
| C08 | heap model of `rtrie.c` with parent pointers | refute (`swap_nodes` leaves children's parent dangling) |
| C09 | `denylist4.c` list | induction over histories; pagination; duplicate finding |
| C10, C11, C14 | pool4 tables as range lists, `krealloc` moves as oracle | invariant (sorted, disjoint) and set semantics; refute counts and memory safety |
| C12 | `mask_domain_*` iterator | permutation of the enumeration of the table |
| C13 | mark tree + addr tree | refute |
| C15–C19, C26–C28 | `bib/db.c`: table as two indexes of entries with session lists | invariant by induction over operation lists; refinement |
| C20 | TCP FSM as function | compare against an independently written RFC 6146 table |
| C21 | expiry queues; between cleanings, `Bib_Idle` (what nobody uses is gone with the first cleaning after it expires) | order invariant |
| C22, C23 | packet queue + `upgrade_pktqueue_session` with heap of BIB objects | invariant; refute leak and use-after-free |
| C24, C25, C59, C60 | `determine_incoming_tuple.c`, `filtering_and_updating.c`, `compute_outgoing_tuple.c`, hairpinning and `core_common` on three BIB tables | unfold and use BIB lemmas; refute C25 with suffix bits, C60 with the C23 witness |
| C29 | `joold.c` queue | invariants over histories |
| C30 | joold wire codec on octets | round trip; refute for malformed input |
| C31–C33 | one's complement sums over Z (`csum_fold`, `csum_add`, …) | modular arithmetic mod 65535 |
| C34 | type/code switch tables on the ICMP header's octets | done, against a table of rules written from the RFC |
| C35 | `allocate_slow` and `autofill_hdr6` on octets | done for legal datagrams (induction on the pieces); refuted for fragments past 65535 |
| C36 | `compute_mtu4`/`compute_mtu6`/`icmp6_minimum_mtu` with 32-bit wrap, `validate_size`, the choice in `ttp46_alloc_skb` | done where nothing wraps; refuted at the extremes |
| C37, C38 | headers written on octets | done for outer headers and inner ones 4 to 6; refuted for inner fragment headers 6 to 4, and for ECN on new kernels |
| C39 | `hdr_iterator` and `summarize_skb6` over octet lists with bounds-checked reads | fuel = packet length suffices; agreement |
| C40 | `has_unexpired_src_route` over octets | refute with zero-length option |
| C41 | `handle_icmp_extension` and `fix_ie` with size_t and int wrap, `handle_icmp4/6_extension`, `trim_576/1280` | done for length attributes which cover the inner IP headers; refuted otherwise |
| C42, C43, C64, C65 | hash table of instances, Netfilter list, hooks, candidates, reference counts of the databases | done, invariant over histories; refuted: second Netfilter instance through an upload, write to a freed candidate, uploaded BIB lost, namespaces that the listing confuses |
| C44, C45, C63 | `src/common/global.c` validators, `global_update`, `globals_init`, `globals_foreach` | done, invariant over requests; C45 refuted for the empty list |
| C46, C47, C66, C67 | strings as lists of octets | done, independent grammars; refuted: trailing rubbish, wrapping timeouts, empty and signed timeouts, unset prefixes |
| C48 | pool address selection | arithmetic |
| C49 | `translate_addrs64_siit`: stat selection | refute; case analysis |
| C68, C69, C70, C71, C72 | `address_xlat.c` on top of the EAMT and denylist models, hairpinning as a second 4 to 6 translation | done, relational specification of the documentation and RFC 7757; refuted: denylisted and scoped sources of errors, query in simple mode, round trip of mapped addresses with extra bits |
| C73 | listing resumed by key over the list order of the trie | done for the histories of C05 |
| C74, C75 | `translating_the_packet` on octets, from the parser's output to the packets sent | compose the results about parsing (C39, C62), headers (C33-C36), checksums (C31-C33), sizes and fragments (C35, C40); refute with protocol numbers 1 and 58, short TCP data offsets, oversized payloads |
| C76 | two translators in a row | C75, then the parser on what it sends, then C74; refute with protocol 44 |
| C77 | whole ICMP errors | C36, C37, C41 and C33 put together over the octets of one message; the inner packet by the segment lemmas of C74 and C75; refute with an outer fragment header, a truncated echo and an error within an error |
| C78 | memory of the EAMT | an invariant on the heap alone (live nodes = nodes on the list + at most one per failed addition), preserved by every operation of the trie without assuming it is well formed; with the invariant of the orderly histories for flush; refute with a lost root and with a failed allocation |
| C79 | `cJSON.c`, the parser | the grammar of RFC 8259 with meanings as an inductive relation; induction on it for validity; for safety, an invariant on the place in the text (backslashes come in whole escapes) and a bound of what is written by what is counted; refute with incomplete escapes |
| C80 | `usr/nl/file.c`, `usr/nl/json.c`, `usr/util/file.c`, the JSON part of `common/global.c` | what a file means as a relation between values of C79's parser and lists of settings and entries, with its own table of settings; the reader's result is shown equal to that meaning (both directions) by induction on tags, entries and chunks; the order of messages by an invariant on what has been sent and accepted; refute with concrete files |
| C81 | the client of C80 and the kernel of C42 to C44, with arbitrary events between the messages | the kernel that answers the client is the run of the kernel's model; an invariant (the client's candidate, and only it, is what the file's sections so far make of a new instance) through all messages and what happens between them; conversely, a client whose kernel accepts everything and one whose kernel accepts just those messages do the same |
| C82 | the functions that write and read attributes on both sides, on octets, over a model of Netlink's own functions | every writer appends one block of known length or nothing (closed under sequence and nesting, where cancelling restores the message); reading the block back attribute by attribute; for arbitrary octets, an invariant of the tables that parsing fills (everything in them passed its policy); the client's missing checks and the empty list are counterexamples |
| C83 | the client's functions, the envelope, the module's handlers and its answers, on octets, over arbitrary databases | each message is a header and one known block; handlers are computed on it with C82's lemmas; the answer is read back; an independent `asked` says what one call does. For arbitrary octets, C82's invariant of parsed tables through every handler. The exceptions are counterexamples, with the database models of other files |
| C84 | the foreach functions of the client and of the module, on octets, over arbitrary tables whose state may change between requests | one request's answer is computed with C82's and C83's lemmas; the loop by induction over the states; an independent `shown` says what each page has. The tables of the EAMT, the denylist, pool4 and the BIB are tied to the models of the other files; BIB and sessions with changes by the theory of pages by keys (C26, C27). Findings are counterexamples on octets |
| C85 | all outcomes of all steps as arguments, for both hooks, types, families and passes | the list of what was done (counters, memory and references taken and released, packets sent, errors): for each thing its life through the list (a Hoare triple per function), and for the decisions a list in order of which the first refusal alone decides (a second relation per function, composed like the code) | skb lists by next pointers, the routes in them, fix_ie, the error paths of each function, ICMP errors by RFC |
| C86 | octets of a packet, state of the databases, configuration in; octets out | the parser, what determine_incoming_tuple reads at which offset, steps 2 to 4 and the hairpin composed as core.c does; the claims say who talks to whom by reading the octets (`talk6`, `talk4`), the session, and the segment's relation (`segment64`, `segment46`, `segment66`) | ICMP errors and later fragments (each step has its own claims); the sequence of the copies of sk_buffs (C85) |
| C87 | octets of an ICMP error, state of the databases, configuration in; octets out | the same composition as C86 for packets whose tuple comes from the packet inside; the claims say what an error is about by reading the octets of the quoted packet (`about4`, `about6`) and what quoting is (`quotes`) | hairpinned errors; the exclusions of C77 |
| C88 | a list of happenings: packets as octets (with everything the kernel decides about them), table operations | `good` through every function of the tables; `live` runs the model of C86 on each packet and the tables' operations in between; who named an address is said on the operations (`names6`, `names4`) | operations with values outside of their C types |
| C89 | the same | what must be kept is said on the table (`standing`), what may take it away on the operations and happenings (`spares`, `lets_be`); proved for each operation, then for histories, then for lives of the translator, and composed with C86 and C87 | TCP: the packet is the first SYN of a connection, and the lesser of the two timeouts is promised |
| C90 | `S2e_Model`: the parsers, the addresses of `Siit_Model` read from octets, routes and `Xlat_Model`, put together; hairpins run the second half on the outgoing packet | the addresses are those of `Siit_Spec`, the rest `became4`/`became6` with the reasons for failure (`excuse64`/`excuse46`); each step of C39/C62, C49/C68, C74/C75 rewritten in turn | what C74 and C75 leave out |
| C91 | the same | whom an error is from (`teller6`/`teller4`) and what it becomes (`told6`/`told4`, from C77) are said apart; the addresses outside and inside are those of C71's representation | what C77 leaves out; hairpins; simple mode with a mapped peer |
| C92 | the models of C86 | what the bits of octet 13 mean is RFC 9293's (`flag`), the rules are C20's (`rfc`); the session which a segment of the connection finds is the connection's (`find6`, `find4_ok`, `finds`), and the callback is the rules' (C20) | fragments that are not the first, the sender's connection when a segment is hairpinned (`E2e_TcpHairpin` has the receiver's), allocation failures |
| C93 | the models of C86 | what is kept is what the verdict calls stolen (`see`), what is let go is what the events say (`released`), what is held is what the tables show (`holds`); the accounts balance in each step (`see_balance`, from the tables' `st_flow`) | - |
| C94 | the models of C86 | `no_end` says in octets which packets end the connection (RFC 9293's flags, RFC 6052's addresses); the table keeps `est` in each operation (`est_step`), what a packet does to the TCP table is one such operation with its octets' addresses and flags (`tcp23`, `tcp_view`) | the exclusions of C92 and C86, except in C94_stays |
| C95 | `Sync_Model`: joold's messages on octets, the daemon, the request handler | the receiver adds sessions (`add_all`) that are related one by one (`arrives`) to those sent; composes C30's codec with Netlink's functions; for any datagram, positions of attributes in it; the tables after it, by what adding a session that collides with none does, session by session (`Sync_Have`) | different byte orders and short attributes (refuted) |
| C96 | `Stat_Model`: the counters of each processor, the names, the messages of a listing | what a history adds up to (`total`); the lines shown, page by page (`shown_stats`), and what follows: each counter once, in order, under its name | on machines that want alignment there are other lines (refuted) |
| C97 | `Errpool_Model`: the list of messages, what requests and others do to it, the buffer | what each answer should say, from what was logged during its request (`answers_of`, `answers_to`) | others that log while a request is handled (refuted: the buffer is overrun, or the text is told to someone else) |
| C51 | `pool4db_foreach_sample` with page sizes | reduce to the generic paging lemma |
| C52 | `pool4db_update`, `compute_max_iterations` | case analysis on the flag bits |
| C53 | binary trees with `rbtree_find_slot`, `treeslot_commit`, `slot_next`, `try_next` | induction on trees, relating slots to positions of the in-order list; justifies the list representation used by `Bib_Model` |
| C54, C55 | flow equation of packets through one table; counters against the trees | invariant by induction over histories; permutation from indicator sums |
| C56, C57 | session creation paths of `bib_add_tcp6/4`; states brought by joold | case analysis of the per-operation lemmas; refute |
| C58 | `bib_add_static`, `bib_rm`, `flush_table` | per-operation lemmas |
| C50 | hash input construction, hash itself a parameter | case analysis on the four flag bits |

Properties that a Gallina model of this kind cannot express: none so far is
dropped completely, but claims about weak-memory races between CPUs are only
covered at the granularity of lock-protected critical sections.

## 4. What is modelled, and simplifications (kept current)

| file in `src/` | modelled | model |
|---|---|---|
| `mod/common/address.c`, `address.h` | all prefix/address helpers used by the tables | `Addr_Model` |
| `mod/common/rfc6052.c` | all | `Addr_Model` |
| `mod/common/db/global.c` (`pool6` validation), `db/rfc6791v4.c`, `db/rfc6791v6.c` | prefix validation, `get_pool_address` | `Addr_Model` |
| `mod/common/rtrie.c` | all but printing; heap of nodes with parent pointers, freed nodes | `Rtrie_Model`, `Leak_Model` |
| `mod/common/db/eam.c` | all but printing | `Eam_Model`, `Leak_Model` |
| `mod/common/db/denylist4.c`, `nl/denylist4.c`, `usr/nl/denylist4.c` | add/rm/flush/contains/foreach, paging; `interface_contains` | `Deny_Model`, `Paging` |
| `mod/common/db/pool4/db.c`, `empty.c`, `rfc6056.c` | all but printing and reference counts; the red-black trees are finite maps | `Pool4_Model` |
| `mod/common/steps/filtering_and_updating.c` (TCP states) | `tcp_state_machine` and its per-state functions, `tcp_est_expire_cb` | `Fsm_Model` |
| `mod/common/db/bib/db.c`, `pkt_queue.c`, `entry.c` | one table: packets of both families, TCP packet storage, static entries, removal, range removal, expiry, joold import, listings; trees are sorted lists (justified by C53) and objects live in a heap so that use after free is visible; not `bib_alloc`/`bib_release`, printing | `Bib_Model` |
| `mod/common/joold.c`, the joold parts of `mod/common/nl/attribute.c` | the queue (adding, acks, timer, advertisements, configuration changes between operations, failed allocations), `jnla_put_session_joold` and `jnla_get_session_joold` on octets, `joold_sync` into the BIB; not statistics | `Joold_Model` |
| `mod/common/nl/joold.c`, `usr/nl/joold.c`, `usr/argp/joold/modsocket.c`, `usr/argp/joold/netsocket.c` | the message of `send_to_userspace`, `updated_entries_cb`, `netsocket_listen`, `joolnl_joold_add`, `handle_joold_add`, on octets; not the sockets' options and configuration files, the printing of sessions without a network, acks, statistics | `Sync_Model` |
| `mod/common/stats.c`, `mod/common/nl/stats.c`, `common/stats.h`, `usr/nl/stats.c`, `usr/argp/wargp/stats.c` | counting per processor, the sum over them, the enum and the names, the request and replies on octets, which counters are printed; not the texts explaining them, reference counts, nor `EMSGSIZE` as such | `Stat_Model` |
| `mod/common/error_pool.c`, `mod/common/log.c` (`log_err`), the use of them in `nl/nl_core.c` and `nl/nl_handler.c`, `target_checkentry` of `kernel_hook_iptables.c` | messages kept, gathered, cut and freed; not what is printed to the kernel's log, nor size_t's limit | `Errpool_Model` |
| `mod/common/core.c`, `steps/determine_incoming_tuple.c`, `steps/filtering_and_updating.c`, `steps/compute_outgoing_tuple.c`, `steps/handling_hairpinning_nat64.c` | the stateful translator on parsed packets; the translation of the headers is an argument | `Nat64_Model` |
| `mod/common/rfc7915/6to4.c`, `4to6.c` (checksums) | TCP, UDP and ICMP checksums on octets, either byte order, with and without hardware offload, on single packets and on the fragments of the slow path | `Csum_Model` |
| `mod/common/rfc7915/6to4.c`, `4to6.c` (headers) | outer and inner IP headers, ICMP headers, MTUs, size checks, the choice of path and the fragments of the slow path, on octets; not routing | `Hdr_Model` |
| `mod/common/rfc7915/common.c`, `6to4.c`, `4to6.c` (ICMP extensions) | repositioning and removal of extensions, trimming of errors; allocation failures left out | `Ext_Model` |
| `mod/common/packet.c`, `packet.h` (fields), `ipv6_hdr_iterator.c`, `4to6.c:has_unexpired_src_route`, `6to4.c:has_nonzero_segments_left` | on octets split in a linear area and pages; not shared skbs | `Pkt_Model` |
| `common/global.c`, `common/config.c`, `mod/common/nl/global.c`, `mod/common/db/global.c`, the settings' parts of `nl/attribute.c` | the table of settings, their parsing and validation, updates, defaults, listing; attributes are taken as parsed by the kernel | `Glob_Model` |
| `mod/common/xlator.c`, `atomic_config.c`, `mod/common/nl/instance.c`, `nl/atomic_config.c`, `nl/global.c` (requests), `nl/nl_common.c` (checks), `usr/nl/instance.c` (listing) | the instances of all namespaces, uploads, clones of packets in flight, reference counts, failed allocations; the tables' contents are abstract | `Inst_Model` |
| `usr/util/str_utils.c`, `common/global.c` (userspace half: printing and parsing of settings) | all but error messages; strtoull, strtok, regexec, snprintf by their documentation, inet_pton and inet_ntop as parameters; not JSON | `Str_Model` |
| `mod/common/address_xlat.c`, `steps/compute_outgoing_tuple_siit.c`, `steps/handling_hairpinning_siit.c`, `nl/address.c` | address decisions, hairpinning, queries (a packet is its addresses); not netlink encoding | `Siit_Model` |
| `mod/common/rfc7915/core.c`, `common.c`, `6to4.c`, `4to6.c` (whole packets) | `translating_the_packet` of everything, ICMP errors with their inner packets included, on octets; addresses, ports, MTU and memory handed out are arguments; allocation failures and sk_buff metadata left out | `Xlat_Model` |
| `usr/util/cJSON.c` (parser half) | all; doubles as exact decimals (true up to 2^53), strtod-like rounding and the stack left out; printing and the editing functions not | `Json_Model` |
| `usr/nl/core.c` (joolnl_request), as seen from the kernel | each request is answered before the next is sent; anything else can happen in the kernel in between | `Load_Model` |
| `usr/nl/file.c`, `usr/nl/json.c`, `usr/util/file.c`, `usr/nl/core.c` (allocation and request), `common/global.c` (JSON part) | all but error messages and frees; whether an attribute still fits in a message, whether memory is available and what the kernel answers are parameters; messages as records, not octets | `File_Model` |
| `mod/common/nl/attribute.c`, `usr/nl/attribute.c`, `common/config.c` (policies) | reading and writing of entries, prefixes, sessions and plateaus, on octets, in either byte order; Netlink's own functions by their documentation; instance names and joold's sessions apart (the latter in `Joold_Model`) | `Nla_Model` |
| `usr/nl/core.c`, the requests of `usr/nl/{eamt,denylist4,pool4,bib,global}.c`; `mod/common/nl/{nl_handler,nl_common,nl_core}.c`, the handlers that change something of `mod/common/nl/{eam,denylist4,pool4,bib,global}.c` | on octets, from the function's arguments to the database's function and back; sockets and Generic Netlink's header are not modelled, Linux's checks before the handlers are | `Req_Model` |
| the foreach functions of `usr/nl/{eamt,denylist4,pool4,bib,session,global}.c`, `usr/nl/common.c`, the foreach handlers of `mod/common/nl/{eam,denylist4,pool4,bib,session,global}.c`, `jresponse_send_array`, the raw2nl and nl2raw parts of `common/global.c` | on octets, over arbitrary tables; the user's callback only keeps what it is given | `Lst_Model` |
| `mod/common/core.c`, `translation_state.c`, `icmp_wrapper.c`, `kernel_hook_netfilter.c`, `kernel_hook_iptables.c`, `rfc7915/core.c`, the allocation functions of `rfc7915/{6to4,4to6}.c`, `fix_ie`, `steps/send_packet.c`, `steps/handling_hairpinning_*.c` | control flow, counters, memory, references, ICMP errors; what the other steps decide is an argument | `Fate_Model` |
| `mod/common/core.c` with `steps/determine_incoming_tuple.c` and `rfc7915/4to6.c:generate_saddr6_nat64` | the composition on octets, stateful | `E2e_Model` |
| `mod/common/core.c` with `rfc7915/6to4.c:compute_flowix64`, `rfc7915/4to6.c:compute_flowix46` and `steps/handling_hairpinning_siit.c` | the composition on octets, stateless | `S2e_Model` |
| `mod/common/db/rbtree.h`, `rbtree.c` | searches and slots; rebalancing trusted | `Rbtree_Model` |

Everything else is not modelled. Further simplifications stand in the header
comment of each `*_Model.v`.

## 5. Print Assumptions

Output of `Print Assumptions` for every theorem named in `MANIFEST.json`
(the command stands in the cited files, so every build prints it again):

* C01 `C01_rfc6052_roundtrip`: Closed under the global context
* C01 `C01_rfc6052_injective`: Closed under the global context
* C02 `C02_rfc6052_layout`: Closed under the global context
* C02 `C02_u_octet_zero`: Closed under the global context
* C02 `C02_6to4_fails_iff_outside`: Closed under the global context
* C02 `C02_6to4_extracts`: Closed under the global context
* C03 `C03_prefix4_contains`: Closed under the global context
* C03 `C03_prefix6_contains`: Closed under the global context
* C03 `C03_prefix4_intersects`: Closed under the global context
* C03 `C03_prefix4_validate`: Closed under the global context
* C03 `C03_prefix6_validate`: Closed under the global context
* C03 `C03_prefix4_interval`: Closed under the global context
* C04 `C04_eam_4to6`: Closed under the global context
* C04 `C04_eam_6to4`: Closed under the global context
* C04 `C04_eam_roundtrip`: Closed under the global context
* C04 `C04_entry_admission`: Closed under the global context
* C04 `C04_table_roundtrip_partial`: Closed under the global context
* C04 `C04_table_roundtrip_refuted`: Closed under the global context
* C05 `C05_C06_C08_tame_partial`: Closed under the global context
* C05 `C05_C06_C08_orderly_partial`: Closed under the global context
* C05 `C05_tame_is_orderly`: Closed under the global context
* C05 `C05_longest_prefix_refuted`: Closed under the global context
* C06 `C05_C06_C08_tame_partial`: Closed under the global context
* C06 `C05_C06_C08_orderly_partial`: Closed under the global context
* C06 `C06_entry_lost_refuted`: Closed under the global context
* C06 `C06_is_empty_refuted`: Closed under the global context
* C07 `C07_overlap_accepted_refuted`: Closed under the global context
* C07 `C07_refuses_nested_partial`: Closed under the global context
* C07 `C07_refuses_nested_orderly_partial`: Closed under the global context
* C08 `C08_use_after_free_refuted`: Closed under the global context
* C08 `C05_C06_C08_tame_partial`: Closed under the global context
* C08 `C05_C06_C08_orderly_partial`: Closed under the global context
* C09 `C09_history`: Closed under the global context
* C09 `C09_listing_partial`: Closed under the global context
* C09 `C09_listing_refuted`: Closed under the global context
* C10 `C10_contents`: Closed under the global context
* C10 `C10_contents_empty`: Closed under the global context
* C10 `C10_sorted`: Closed under the global context
* C10 `C10_ephemeral`: Closed under the global context
* C10 `C10_ephemeral_only`: Closed under the global context
* C11 `C11_count_partial`: Closed under the global context
* C11 `C11_overlap_refuted`: Closed under the global context
* C11 `C11_port_zero_refuted`: Closed under the global context
* C11 `C11_hole_refuted`: Closed under the global context
* C11 `C11_wrap_refuted`: Closed under the global context
* C12 `C12_enumeration_partial`: Closed under the global context
* C12 `C12_enumeration_empty`: Closed under the global context
* C12 `C12_enumeration_refuted`: Closed under the global context
* C12 `C12_matches`: Closed under the global context
* C12 `C12_matches_empty`: Closed under the global context
* C12 `C12_commit`: Closed under the global context
* C13 `C13_marks_partial`: Closed under the global context
* C13 `C13_marks_refuted`: Closed under the global context
* C13 `C13_mark_order_refuted`: Closed under the global context
* C14 `C14_memory_partial`: Closed under the global context
* C14 `C14_calm_partial`: Closed under the global context
* C14 `C14_hole_refuted`: Closed under the global context
* C14 `C14_iterations_refuted`: Closed under the global context
* C15 `C15_one_to_one`: Closed under the global context
* C15 `C15_indexes`: Closed under the global context
* C15 `C15_lookup`: Closed under the global context
* C16 `C16_sessions`: Closed under the global context
* C17 `C17_dynamic`: Closed under the global context
* C17 `C17_static_partial`: Closed under the global context
* C17 `C17_static_refuted`: Closed under the global context
* C18 `C18_udp_icmp`: Closed under the global context
* C18 `C18_tcp_partial`: Closed under the global context
* C18 `C18_tcp_chosen`: Closed under the global context
* C18 `C18_masks_from_pool4`: Closed under the global context
* C18 `C18_masks_from_node`: Closed under the global context
* C19 `C19_filtering_partial`: Closed under the global context
* C19 `C19_session`: Closed under the global context
* C19 `C19_tcp_partial`: Closed under the global context
* C19 `C19_tcp_refuted`: Closed under the global context
* C20 `C20_transition`: Closed under the global context
* C20 `C20_unique`: Closed under the global context
* C20 `C20_sequences`: Closed under the global context
* C20 `C20_expiration`: Closed under the global context
* C21 `C21_expiration_partial`: Closed under the global context
* C21 `C21_idle_partial`: Closed under the global context
* C21 `C21_stored_packets`: Closed under the global context
* C21 `C21_refuted`: Closed under the global context
* C22 `C22_bound`: Closed under the global context
* C22 `C22_counter_partial`: Closed under the global context
* C22 `C22_refuted`: Closed under the global context
* C23 `C23_upgrade_partial`: Closed under the global context
* C23 `C23_no_external`: Closed under the global context
* C23 `C23_refuted`: Closed under the global context
* C24 `C24_icmp_errors`: Closed under the global context
* C25 `C25_session_partial`: Closed under the global context
* C25 `C25_delivery_partial`: Closed under the global context
* C25 `C25_answers_partial`: Closed under the global context
* C25 `C25_hairpin_partial`: Closed under the global context
* C25 `C25_hairpin_there`: Closed under the global context
* C25 `C25_refuted`: Closed under the global context
* C26 `C26_listing`: Closed under the global context
* C26 `C26_changing`: Closed under the global context
* C27 `C27_listing`: Closed under the global context
* C27 `C27_changing`: Closed under the global context
* C28 `C28_range_partial`: Closed under the global context
* C28 `C28_refuted`: Closed under the global context
* C29 `C29_order`: Closed under the global context
* C29 `C29_packets`: Closed under the global context
* C29 `C29_outstanding`: Closed under the global context
* C29 `C29_capacity_partial`: Closed under the global context
* C29 `C29_capacity_refuted`: Closed under the global context
* C29 `C29_deadline`: Closed under the global context
* C29 `C29_ack_partial`: Closed under the global context
* C29 `C29_ack_refuted`: Closed under the global context
* C29 `C29_advertised`: Closed under the global context
* C29 `C29_lost_refuted`: Closed under the global context
* C29 `C29_zero_refuted`: Closed under the global context
* C30 `C30_round_trip_partial`: Closed under the global context
* C30 `C30_any_bytes_partial`: Closed under the global context
* C30 `C30_synchronised`: Closed under the global context
* C30 `C30_syn_refuted`: Closed under the global context
* C30 `C30_long_refuted`: Closed under the global context
* C30 `C30_overread_refuted`: Closed under the global context
* C30 `C30_state_refuted`: Closed under the global context
* C30 `C30_timer_refuted`: Closed under the global context
* C31 `C31_tcp64`: Closed under the global context
* C31 `C31_udp64`: Closed under the global context
* C31 `C31_tcp46`: Closed under the global context
* C31 `C31_udp46`: Closed under the global context
* C31 `C31_udp46_zero`: Closed under the global context
* C31 `C31_refuted`: Closed under the global context
* C32 `C32_udp64`: Closed under the global context
* C32 `C32_udp46_partial`: Closed under the global context
* C32 `C31_udp46_zero`: Closed under the global context
* C32 `C32_refuted`: Closed under the global context
* C33 `C33_echo46`: Closed under the global context
* C33 `C33_echo64_partial`: Closed under the global context
* C33 `C33_refuted`: Closed under the global context
* C33 `C33_errors64`: Closed under the global context
* C33 `C33_errors46`: Closed under the global context
* C34 `C34_64`: Closed under the global context
* C34 `C34_46`: Closed under the global context
* C34 `C34_rules`: Closed under the global context
* C35 `C35_partial`: Closed under the global context
* C35 `C35_refuted`: Closed under the global context
* C35 `C35_fast`: Closed under the global context
* C36 `C36_ptb_partial`: Closed under the global context
* C36 `C36_ptb_message_partial`: Closed under the global context
* C36 `C36_ptb_refuted`: Closed under the global context
* C36 `C36_frag_needed_partial`: Closed under the global context
* C36 `C36_frag_needed_message_partial`: Closed under the global context
* C36 `C36_frag_needed_refuted`: Closed under the global context
* C36 `C36_too_big64_partial`: Closed under the global context
* C36 `C36_too_big64_refuted`: Closed under the global context
* C36 `C36_too_big46_partial`: Closed under the global context
* C36 `C36_too_big46_refuted`: Closed under the global context
* C37 `C37_46`: Closed under the global context
* C37 `C37_64`: Closed under the global context
* C37 `C37_round_trip`: Closed under the global context
* C37 `C37_inner46`: Closed under the global context
* C37 `C37_inner64_refuted`: Closed under the global context
* C38 `C38_64`: Closed under the global context
* C38 `C38_46`: Closed under the global context
* C38 `C37_round_trip`: Closed under the global context
* C38 `C38_ecn_refuted`: Closed under the global context
* C39 `C39_terminates`: Closed under the global context
* C39 `C39_parses`: Closed under the global context
* C39 `C39_accepts`: Closed under the global context
* C40 `C40_partial`: Closed under the global context
* C40 `C40_refuted`: Closed under the global context
* C41 `C41_64_partial`: Closed under the global context
* C41 `C41_46_partial`: Closed under the global context
* C41 `C41_trim_64`: Closed under the global context
* C41 `C41_trim_46`: Closed under the global context
* C41 `C41_64_refuted`: Closed under the global context
* C41 `C41_46_refuted`: Closed under the global context
* C42 `C42_names`: Closed under the global context
* C42 `C42_find`: Closed under the global context
* C42 `C42_add`: Closed under the global context
* C42 `C42_add_works`: Closed under the global context
* C42 `C42_rm`: Closed under the global context
* C42 `C42_flush`: Closed under the global context
* C42 `C42_hooks`: Closed under the global context
* C42 `C42_packets`: Closed under the global context
* C42 `C42_netfilter_partial`: Closed under the global context
* C42 `C42_netfilter_refuted`: Closed under the global context
* C42 `C42_packets_refuted`: Closed under the global context
* C43 `C43_unchanged`: Closed under the global context
* C43 `C43_message`: Closed under the global context
* C43 `C43_failed`: Closed under the global context
* C43 `C43_candidates`: Closed under the global context
* C43 `C43_apart`: Closed under the global context
* C43 `C43_refuted`: Closed under the global context
* C43 `C43_bib_refuted`: Closed under the global context
* C44 `C44`: Closed under the global context
* C44 `C44_accepted`: Closed under the global context
* C44 `C44_rejected`: Closed under the global context
* C44 `C44_instances`: Closed under the global context
* C44 `C44_update`: Closed under the global context
* C45 `C45_partial`: Closed under the global context
* C45 `C45_accepts`: Closed under the global context
* C45 `C45_refuted`: Closed under the global context
* C46 `C46`: Closed under the global context
* C47 `C47_exact`: Closed under the global context
* C47 `C47_partial`: Closed under the global context
* C47 `C47_refuted`: Closed under the global context
* C47 `C47_timeout_partial`: Closed under the global context
* C47 `C47_timeout_wraps_refuted`: Closed under the global context
* C47 `C47_timeout_refuted`: Closed under the global context
* C48 `C48_rfc6791v4_in_pool`: Closed under the global context
* C48 `C48_rfc6791v6_in_pool`: Closed under the global context
* C49 `C49_4to6_partial`: Closed under the global context
* C49 `C49_6to4_refuted`: Closed under the global context
* C49 `C49_6to4_partial`: Closed under the global context
* C50 `C50_hash_args`: Closed under the global context
* C50 `C50_hash_all`: Closed under the global context
* C51 `C51_listing`: Closed under the global context
* C52 `C52_limit`: Closed under the global context
* C52 `C52_limit_added`: Closed under the global context
* C53 `C53_find`: Closed under the global context
* C53 `C53_slot`: Closed under the global context
* C53 `C53_start`: Closed under the global context
* C53 `C53_try_next`: Closed under the global context
* C53 `C53_allow`: Closed under the global context
* C54 `C54_packets`: Closed under the global context
* C54 `C54_once`: Closed under the global context
* C55 `C55_counters`: Closed under the global context
* C56 `C56_syn4`: Closed under the global context
* C56 `C56_syn6_partial`: Closed under the global context
* C56 `C56_refuted`: Closed under the global context
* C57 `C57_states_partial`: Closed under the global context
* C57 `C57_states_refuted`: Closed under the global context
* C58 `C58_static`: Closed under the global context
* C58 `C58_rm`: Closed under the global context
* C58 `C58_flush`: Closed under the global context
* C59 `C59_errors4`: Closed under the global context
* C59 `C59_back`: Closed under the global context
* C59 `C59_errors6`: Closed under the global context
* C60 `C60_defined_partial`: Closed under the global context
* C60 `C60_reachable`: Closed under the global context
* C60 `C60_pool4`: Closed under the global context
* C60 `C60_refuted`: Closed under the global context
* C61 `C61_ipv6_partial`: Closed under the global context
* C61 `C61_ipv4_partial`: Closed under the global context
* C61 `C61_refuted`: Closed under the global context
* C62 `C62_parses`: Closed under the global context
* C62 `C62_accepts`: Closed under the global context
* C63 `C63`: Closed under the global context
* C64 `C64`: Closed under the global context
* C65 `C65_partial`: Closed under the global context
* C65 `C65_refuted`: Closed under the global context
* C66 `C66_partial`: Closed under the global context
* C66 `C66_refuted`: Closed under the global context
* C67 `C67_partial`: Closed under the global context
* C67 `C67_refuted`: Closed under the global context
* C68 `C68_6to4_partial`: Closed under the global context
* C68 `C68_4to6_partial`: Closed under the global context
* C68 `C68_4to6_refuted`: Closed under the global context
* C68 `C68_scope_refuted`: Closed under the global context
* C69 `C69_6to4`: Closed under the global context
* C69 `C69_4to6_partial`: Closed under the global context
* C69 `C69_answer_partial`: Closed under the global context
* C69 `C69_4to6_refuted`: Closed under the global context
* C70 `C70_intrinsic_partial`: Closed under the global context
* C70 `C70_simple_partial`: Closed under the global context
* C71 `C71_roundtrip_partial`: Closed under the global context
* C71 `C71_roundtrip_refuted`: Closed under the global context
* C72 `C72_6to4_partial`: Closed under the global context
* C72 `C72_4to6_partial`: Closed under the global context
* C72 `C72_deterministic`: Closed under the global context
* C73 `C73_listing_resumes_partial`: Closed under the global context
* C73 `C73_pages_partial`: Closed under the global context
* C74 `C74_partial`: Closed under the global context
* C74 `C74_memory_refuted`: Closed under the global context
* C74 `C74_length_refuted`: Closed under the global context
* C75 `C75_partial`: Closed under the global context
* C75 `C75_memory_refuted`: Closed under the global context
* C76 `C76_partial`: Closed under the global context
* C76 `C76_accepted_partial`: Closed under the global context
* C76 `C76_refuted`: Closed under the global context
* C77 `C77_64_partial`: Closed under the global context
* C77 `C77_46_partial`: Closed under the global context
* C77 `C77_outer_fragment_refuted`: Closed under the global context
* C77 `C77_echo_refuted`: Closed under the global context
* C77 `C77_nested_refuted`: Closed under the global context
* C78 `C78_accounting`: Closed under the global context
* C78 `C78_release`: Closed under the global context
* C78 `C78_flush_partial`: Closed under the global context
* C78 `C78_flush_refuted`: Closed under the global context
* C78 `C78_failed_allocation_refuted`: Closed under the global context
* C79 `C79_valid`: Closed under the global context
* C79 `C79_unsigned`: Closed under the global context
* C79 `C79_safe_partial`: Closed under the global context
* C79 `C79_safe_refuted`: Closed under the global context
* C79 `C79_rejects_refuted`: Closed under the global context
* C80 `C80_accepts`: Closed under the global context
* C80 `C80_success_partial`: Closed under the global context
* C80 `C80_order`: Closed under the global context
* C80 `C80_name`: Closed under the global context
* C80 `C80_read`: Closed under the global context
* C80 `C80_mark_refuted`: Closed under the global context
* C80 `C80_fraction_refuted`: Closed under the global context
* C80 `C80_option_refuted`: Closed under the global context
* C80 `C80_room_refuted`: Closed under the global context
* C80 `C80_name_refuted`: Closed under the global context
* C80 `C80_read_refuted`: Closed under the global context
* C81 `C81_success_partial`: Closed under the global context
* C81 `C81_success`: Closed under the global context
* C81 `C81_unchanged`: Closed under the global context
* C81 `C81_works`: Closed under the global context
* C82 `C82_entry_to_module`: Closed under the global context
* C82 `C82_left_out`: Closed under the global context
* C82 `C82_entry_to_client`: Closed under the global context
* C82 `C82_session_to_client`: Closed under the global context
* C82 `C82_prefix6_to_module`: Closed under the global context
* C82 `C82_prefix4_to_module`: Closed under the global context
* C82 `C82_prefix6_to_client`: Closed under the global context
* C82 `C82_prefix4_to_client`: Closed under the global context
* C82 `C82_plateaus_to_module`: Closed under the global context
* C82 `C82_plateaus_to_client`: Closed under the global context
* C82 `C82_plateaus_empty_refuted`: Closed under the global context
* C82 `C82_module_safe`: Closed under the global context
* C82 `C82_module_safe_prefixes`: Closed under the global context
* C82 `C82_module_safe_plateaus_partial`: Closed under the global context
* C82 `C82_module_safe_plateaus_refuted`: Closed under the global context
* C82 `C82_client_safe_partial`: Closed under the global context
* C82 `C82_client_safe_refuted`: Closed under the global context
* C83 `C83_request_partial`: Closed under the global context
* C83 `C83_names`: Closed under the global context
* C83 `C83_eamt_rm_one_prefix`: Closed under the global context
* C83 `C83_eamt_rm_one_prefix_refuted`: Closed under the global context
* C83 `C83_pool4_rm_drops_bib_refuted`: Closed under the global context
* C83 `C83_pool4_rm_long_prefix_refuted`: Closed under the global context
* C83 `C83_only_proper`: Closed under the global context
* C83 `C83_any_octets_partial`: Closed under the global context
* C83 `C83_no_stray_partial`: Closed under the global context
* C83 `C83_bib_rm_uninitialized_refuted`: Closed under the global context
* C84 `C84_listing`: Closed under the global context
* C84 `C84_unreadable`: Closed under the global context
* C84 `C84_steady`: Closed under the global context
* C84 `C84_settings`: Closed under the global context
* C84 `C84_eamt`: Closed under the global context
* C84 `C84_denylist_partial`: Closed under the global context
* C84 `C84_pool4`: Closed under the global context
* C84 `C84_bib`: Closed under the global context
* C84 `C84_sessions`: Closed under the global context
* C84 `C84_removed_refuted`: Closed under the global context
* C84 `C84_removed_eamt_refuted`: Closed under the global context
* C84 `C84_repeated_refuted`: Closed under the global context
* C85 `C85_owned`: Closed under the global context
* C85 `C85_refused`: Closed under the global context
* C85 `C85_sent`: Closed under the global context
* C85 `C85_hairpin`: Closed under the global context
* C85 `C85_one_fate`: Closed under the global context
* C85 `C85_hairpin_told_refuted`: Closed under the global context
* C85 `C85_hairpin_counted_refuted`: Closed under the global context
* C85 `C85_bystanders_refuted`: Closed under the global context
* C85 `C85_handed_back_refuted`: Closed under the global context
* C85 `C85_owned_torn_refuted`: Closed under the global context
* C85 `C85_owned_null_refuted`: Closed under the global context
* C86 `C86_there_partial`: Closed under the global context
* C86 `C86_back_partial`: Closed under the global context
* C86 `C86_answers_partial`: Closed under the global context
* C86 `C86_hairpin_partial`: Closed under the global context
* C86 `C86_defined6_partial`: Closed under the global context
* C86 `C86_defined4_partial`: Closed under the global context
* C86 `C86_pool4`: Closed under the global context
* C86 `C86_defined_refuted`: Closed under the global context
* C87 `C87_error4_partial`: Closed under the global context
* C87 `C87_error6_partial`: Closed under the global context
* C87 `C87_sent_partial`: Closed under the global context
* C88 `C88_origin`: Closed under the global context
* C88 `C88_life`: Closed under the global context
* C89 `C89_kept_partial`: Closed under the global context
* C89 `C89_conversation_partial`: Closed under the global context
* C89 `C89_errors_partial`: Closed under the global context
* C90 `C90_6to4_partial`: Closed under the global context
* C90 `C90_4to6_partial`: Closed under the global context
* C90 `C90_hairpin_partial`: Closed under the global context
* C90 `C90_there_partial`: Closed under the global context
* C90 `C90_back_partial`: Closed under the global context
* C91 `C91_error4_partial`: Closed under the global context
* C91 `C91_error6_partial`: Closed under the global context
* C92 `C92_4_partial`: Closed under the global context
* C92 `C92_6_partial`: Closed under the global context
* C92 `C92_hairpin_partial`: Closed under the global context
* C93 `C93_kept`: Closed under the global context
* C93 `C93_once`: Closed under the global context
* C93 `C93_step`: Closed under the global context
* C94 `C94_stays`: Closed under the global context
* C94 `C94_renewed4_partial`: Closed under the global context
* C94 `C94_renewed6_partial`: Closed under the global context
* C94 `C94_delivered_partial`: Closed under the global context
* C95 `C95_arrive_partial`: Closed under the global context
* C95 `C95_have_partial`: Closed under the global context
* C95 `C95_any_partial`: Closed under the global context
* C95 `C95_order_refuted`: Closed under the global context
* C95 `C95_short_refuted`: Closed under the global context
* C95 `C95_absent_refuted`: Closed under the global context
* C96 `C96_listed_partial`: Closed under the global context
* C96 `C96_counted_partial`: Closed under the global context
* C96 `C96_unknown_refuted`: Closed under the global context
* C97 `C97_told_partial`: Closed under the global context
* C97 `C97_cut`: Closed under the global context
* C97 `C97_race_refuted`: Closed under the global context
* C97 `C97_foreign_refuted`: Closed under the global context
