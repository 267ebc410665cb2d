{"id": "C01", "title": "Advertised validity times are never longer than the configured interval and lose less than 1/8 of it", "statement": "For every interval from 125 ms up to (not including) the 4096 s saturation point, the one-byte time a node advertises decodes, at the receiver, to a time that is not longer than the interval and longer than 7/8 of it; longer configured intervals never decode to shorter times; every result fits in one byte. Intervals at or above saturation all encode to the largest code, intervals below 125 ms all encode to the smallest one.", "quantifier": "all 2^32 intervals in milliseconds", "why_tests_cant": "The encoder is a search loop over a mantissa/exponent pair with integer truncation; a test samples a few intervals, the claim is about every interval including all boundary values between exponents.", "anchors": ["src/mantissa.c: reltime_to_me, me_to_reltime"]}
{"id": "C02", "title": "Relaying an advertised time never changes it", "statement": "Decoding any advertised time byte and encoding the resulting duration again yields a byte that decodes to the same duration, so a validity time can be re-advertised any number of times without drifting.", "quantifier": "all 256 encoded time bytes and any number of re-encodings", "why_tests_cant": "Needs the composition of two lossy integer functions to be idempotent at every code, including the smallest codes where the decoder truncates to whole milliseconds.", "anchors": ["src/mantissa.c: reltime_to_me, me_to_reltime"]}
{"id": "C03", "title": "A flooded message is accepted at most once", "statement": "While an originator's duplicate record is alive, a message (originator, sequence number) that the duplicate check has reported as new is never reported as new again until the sequence window has been restarted.", "quantifier": "all sequences of duplicate checks for all originators and all 16-bit sequence numbers", "why_tests_cant": "The claim is about every interleaving of sequence numbers through a sliding 32-entry window with 16-bit wrap-around; it depends on history, not on one call.", "anchors": ["src/duplicate_set.c: olsr_message_is_duplicate, olsr_seqno_diff, olsr_create_duplicate_entry", "src/duplicate_set.h: DUP_MAX_TOO_LOW"]}
{"id": "C04", "title": "A fresh message is never mistaken for a duplicate", "statement": "A message whose sequence number is ahead (in 16-bit circular order) of every number seen from its originator is always reported as new; so is one at most 31 behind that has not been received since the window was opened.", "quantifier": "all duplicate-check histories, all originators", "why_tests_cant": "Depends on the whole history that shaped the window and on modular comparison for all pairs of sequence numbers.", "anchors": ["src/duplicate_set.c: olsr_message_is_duplicate, olsr_seqno_diff"]}
{"id": "C05", "title": "Duplicate records of different originators do not interfere; a restarted originator is heard again", "statement": "Checking a message of one originator never changes the verdict for messages of another originator. If an originator restarts with low sequence numbers, after at most 17 consecutive too-old messages its messages are accepted again.", "quantifier": "all histories mixing arbitrary originators", "why_tests_cant": "Non-interference is a claim about all pairs of histories; the restart claim is a bounded-liveness claim over every starting state.", "anchors": ["src/duplicate_set.c: olsr_message_is_duplicate, olsr_cleanup_duplicates"]}
{"id": "C06", "title": "Prefix length and netmask conversions are inverse", "statement": "Every IPv4 prefix length 0..32 and IPv6 prefix length 0..128 is converted to the netmask with exactly that many leading one bits, and that netmask converts back to the same length.", "quantifier": "all prefix lengths of both address families and every bit position", "why_tests_cant": "Statement about every bit of every mask; the conversion works byte-wise with a partial byte.", "anchors": ["src/ipcalc.c: olsr_prefix_to_netmask, olsr_netmask_to_prefix"]}
{"id": "C07", "title": "Non-contiguous netmasks are rejected", "statement": "A netmask received from the network is converted to a prefix length only if it consists of leading one bits followed by zero bits; any other mask is rejected.", "quantifier": "all 2^32 IPv4 and 2^128 IPv6 masks", "why_tests_cant": "The input space cannot be enumerated for IPv6 and rejection must hold for every malformed mask.", "anchors": ["src/ipcalc.c: olsr_netmask_to_prefix", "src/hna_set.c: olsr_input_hna"]}
{"id": "C08", "title": "Network membership test agrees with the leading bits", "statement": "An address is reported to lie in a network exactly when its first prefix-length bits equal those of the network address, for every valid prefix length of both address families.", "quantifier": "all addresses, networks and prefix lengths", "why_tests_cant": "2^64 (IPv4) or more combinations; mask arithmetic has its special cases at 0 and at the full length.", "anchors": ["src/ipcalc.c: ip_in_net"]}
{"id": "C09", "title": "Timestamps order correctly across clock wrap-around", "statement": "A timestamp taken t milliseconds in the future (t below 2^31) is not reported as expired before t milliseconds have passed and is reported as expired from then on for the following 2^31 milliseconds, and the reported remaining time is exact, whatever the value of the 32-bit clock.", "quantifier": "all clock values, all relative times below 2^31, all elapsed times", "why_tests_cant": "Wrap-around happens once in 49.7 days of uptime, a test rarely gets there; the claim covers every clock value.", "anchors": ["src/scheduler.c: olsr_getTimestamp, olsr_isTimedOut, olsr_getTimeDue"]}
{"id": "C10", "title": "Timer jitter only shortens a period, by at most the configured percentage", "statement": "The next firing time of a timer lies no later than its period and no earlier than the period reduced by the jitter percentage, for every random number.", "quantifier": "all periods, jitter percentages up to 100 and random values", "why_tests_cant": "Integer arithmetic of random scaling could overflow for particular combinations only.", "anchors": ["src/scheduler.c: calc_jitter"]}
{"id": "C11", "title": "The timer wheel fires every timer exactly once when due and never early", "statement": "When the wheel is advanced to time T, the callbacks that run are exactly those of the timers that are due at or before T and lie in the visited slots; a one-shot timer runs once and is then stopped, a periodic one is re-armed later; no timer runs before its time, and none is lost.", "quantifier": "all sets of timers, all start times, all sequences of wheel advances", "why_tests_cant": "Depends on slot hashing, wheel revolutions and the order of walks; a property of all schedules.", "anchors": ["src/scheduler.c: walk_timers, olsr_start_timer, olsr_change_timer, olsr_stop_timer"]}
{"id": "C12", "title": "Packet parsing stays inside the received packet", "statement": "Whatever bytes are received, every message handed to a message handler lies completely inside the received packet, messages are visited in order without overlap or gap, and a malformed size stops the parsing.", "quantifier": "all byte strings of all lengths", "why_tests_cant": "Universally quantified over adversarial input bytes.", "anchors": ["src/parser.c: parse_packet"]}
{"id": "C13", "title": "Own and invalid originators are never processed; forwarding requires consent of all handlers", "statement": "Messages whose originator is the node itself or a denied address are neither processed nor forwarded; a processed message is offered for forwarding exactly when every matching handler asked for it; every matching handler of an accepted message is called exactly once.", "quantifier": "all packets, all registered handler sets", "why_tests_cant": "Quantifies over handler registries and packets.", "anchors": ["src/parser.c: parse_packet, olsr_parser_add_function, olsr_parser_remove_function"]}
{"id": "C14", "title": "HELLO parsing never reads beyond the message", "statement": "Decoding a HELLO message reads only bytes that belong to that message.", "quantifier": "all HELLO messages, including hostile ones", "why_tests_cant": "Adversarial inputs; the block length field is independent of the message length field.", "anchors": ["src/process_package.c: deserialize_hello"]}
{"id": "C15", "title": "HELLO decoding yields each advertised neighbor and drops only superseded unspecified entries", "statement": "For a well-formed HELLO message the decoded neighbor list contains exactly the advertised (address, link type, neighbor type) entries, except that an entry with unspecified link type is dropped if and only if the same address also occurs with a specified link type.", "quantifier": "all well-formed HELLO bodies", "why_tests_cant": "The list surgery has pointer-order subtleties that depend on the shape of the whole message.", "anchors": ["src/process_package.c: deserialize_hello"]}
{"id": "C16", "title": "Topology information is only replaced by newer information", "statement": "A topology message is applied only if it is not older (in 16-bit circular order) than the one applied before, except when the originator is recognised as restarted after a bounded number of rejected messages.", "quantifier": "all sequences of topology messages of one originator", "why_tests_cant": "History-dependent modular window checks.", "anchors": ["src/tc_set.c: olsr_input_tc, olsr_seq_inrange_low, olsr_seq_inrange_high"]}
{"id": "C17", "title": "Fragmented topology messages revoke exactly the links no longer advertised", "statement": "After processing a complete set of fragments of a topology message, the stored links of the originator are exactly the advertised ones: a fragment never revokes a link that belongs to the address range of another fragment.", "quantifier": "all neighbor sets, all fragmentations", "why_tests_cant": "The border encoding is a lossy one-byte description of an address; correctness needs all pairs of adjacent addresses.", "anchors": ["src/tc_set.c: olsr_calculate_tc_border, delete_outdated_tc_edges", "src/lq_packet.c: calculate_border_flag, serialize_lq_tc"]}
{"id": "C18", "title": "Link graph stays symmetric-consistent", "statement": "At any time the forward and reverse records of a link between two nodes refer to each other exactly when both directions are advertised, and removing a node removes all traces of its links.", "quantifier": "all sequences of link additions, removals and node removals", "why_tests_cant": "Pointer consistency across arbitrary histories.", "anchors": ["src/tc_set.c: olsr_add_tc_edge_entry, olsr_delete_tc_edge_entry, olsr_delete_tc_entry"]}
{"id": "C19", "title": "Computed routes are shortest paths", "statement": "After a route calculation every node that can be reached over usable bidirectional links has a path cost equal to the minimum over all such paths, and every other node is marked unreachable.", "quantifier": "all link graphs and link costs", "why_tests_cant": "Optimality over all paths of all graphs.", "anchors": ["src/olsr_spf.c: olsr_spf_run_full, olsr_spf_relax, olsr_spf_add_cand_tree"]}
{"id": "C20", "title": "Every route's next hop starts a shortest path", "statement": "The next hop chosen for a reachable destination is a usable direct neighbor, and the path cost equals the cost of the link to it plus a shortest remaining path through it; the recorded hop count is the length of that path.", "quantifier": "all link graphs and link costs", "why_tests_cant": "Quantifies over all graphs and tie-breaking orders.", "anchors": ["src/olsr_spf.c: olsr_spf_relax, olsr_spf_run_full"]}
{"id": "C21", "title": "Best route selection picks a minimum and is stable", "statement": "Among the alternative paths to a prefix the selected one is not beaten by any other (cost, then hop count, then originator address), independent of the insertion order.", "quantifier": "all sets of alternative paths", "why_tests_cant": "Independence of order for all permutations.", "anchors": ["src/routing_table.c: olsr_rt_best, olsr_cmp_rtp"]}
{"id": "C22", "title": "Kernel routing table follows the calculated table", "statement": "After a route update in which the kernel accepts every request, the kernel holds for every reachable prefix exactly the next hop of its best path and no route for any other prefix.", "quantifier": "all sequences of route calculations", "why_tests_cant": "State carried between updates (installed next hop, outdated versions) makes this a property of histories.", "anchors": ["src/process_routes.c: olsr_update_rib_routes, olsr_update_kernel_routes, olsr_chg_kernel_routes"]}
{"id": "C23", "title": "MPR selection covers every strict two-hop neighbor", "statement": "After MPR calculation every two-hop neighbor that is reachable through some willing symmetric neighbor is adjacent to at least one selected MPR.", "quantifier": "all neighborhoods, willingness values and coverage settings", "why_tests_cant": "Greedy selection followed by an optimisation pass; a covering property of all bipartite graphs.", "anchors": ["src/mpr.c: olsr_calculate_mpr, olsr_optimize_mpr_set"]}
{"id": "C24", "title": "Link-quality MPR selection covers two-hop neighbors by their cheapest neighbors", "statement": "With link-quality MPR selection every two-hop neighbor not better reached directly is covered by at least min(coverage, candidates) MPRs, and these are among its cheapest neighbors.", "quantifier": "all neighborhoods, costs and coverage settings", "why_tests_cant": "Quantifies over all cost assignments.", "anchors": ["src/lq_mpr.c: olsr_calculate_lq_mpr"]}
{"id": "C25", "title": "The ordered tree behaves as a sorted multimap and stays balanced", "statement": "For any sequence of insertions and deletions, lookup finds exactly the stored keys, the in-order list is sorted, holds every inserted and not deleted element exactly once (duplicates in insertion order), the result codes are exact, no NULL pointer is dereferenced, and the height is logarithmic.", "quantifier": "all operation sequences and all total-preorder comparators", "why_tests_cant": "Rebalancing has many cases reached only by particular histories.", "anchors": ["src/common/olsrd_avl.c: olsrd_avl_insert, olsrd_avl_delete, olsrd_avl_find"]}
{"id": "C26", "title": "List operations implement sequences", "statement": "Insertion before/after, removal and merging on the circular doubly linked list implement the corresponding sequence operations; forward and backward traversal agree; membership and emptiness tests are exact.", "quantifier": "all operation sequences on all lists", "why_tests_cant": "Pointer aliasing over arbitrary histories.", "anchors": ["src/common/list.c", "src/common/list.h: list_merge"]}
{"id": "C27", "title": "Text buffers hold exactly what was appended", "statement": "After any sequence of appends, prefix insertions and pulls that report success, a text buffer holds exactly the concatenation, is zero-terminated, and never writes outside its allocation.", "quantifier": "all operation sequences and contents", "why_tests_cant": "Capacity growth boundaries depend on the accumulated length.", "anchors": ["src/common/autobuf.c"]}
{"id": "C28", "title": "Bounded string copy never overruns and always terminates", "statement": "Copying or concatenating into a destination of a given size writes at most that many bytes, leaves a terminated string, and keeps the longest prefix that fits.", "quantifier": "all strings and sizes", "why_tests_cant": "Boundary arithmetic on unsigned sizes.", "anchors": ["src/common/string_handling.c: strscpy, strscat"]}
{"id": "C29", "title": "The HNA set holds each announced network once, until it expires", "statement": "After any history of announcements and expiries, the set of (gateway, network, prefix length) entries equals the announced-and-not-expired ones, without duplicates, and no gateway entry is left without networks.", "quantifier": "all histories of HNA messages and timeouts", "why_tests_cant": "History-dependent set semantics.", "anchors": ["src/hna_set.c: olsr_update_hna_entry, olsr_add_hna_net, olsr_expire_hna_net_entry, olsr_input_hna"]}
{"id": "C30", "title": "An interface address belongs to at most one node", "statement": "At any time each alias address maps to exactly one main address, forward and reverse tables agree, and an alias never equals a main address in use.", "quantifier": "all histories of MID messages, HELLO-learned aliases and expiries", "why_tests_cant": "Two tables must agree after arbitrary histories.", "anchors": ["src/mid_set.c: insert_mid_tuple, insert_mid_alias, olsr_prune_aliases, mid_lookup_main_addr"]}
{"id": "C31", "title": "Outgoing packets never exceed the buffer and carry exactly the queued messages", "statement": "Whatever is queued, the output buffer is never overrun, and each transmitted packet is a header with correct length followed by exactly the messages queued since the last transmission, in order.", "quantifier": "all sequences of queueing, reservation and transmission", "why_tests_cant": "History-dependent buffer arithmetic.", "anchors": ["src/net_olsr.c: net_add_buffer, net_outbuffer_push, net_outbuffer_push_reserved, net_output, net_outbuffer_bytes_left"]}
{"id": "C32", "title": "Fragmentation of outgoing topology messages loses and duplicates nothing", "statement": "The addresses carried by the generated messages, concatenated, are exactly the addresses to be advertised in order, each message fits the space available, and consecutive messages get consecutive sequence numbers.", "quantifier": "all address lists and buffer fill levels", "why_tests_cant": "Fragment boundary conditions depend on list length and fill level.", "anchors": ["src/build_msg.c: serialize_tc4, serialize_tc6, serialize_hello4, serialize_mid4, serialize_hna4"]}
{"id": "C33", "title": "Link quality and cost stay in range and cost decreases with quality", "statement": "Estimated link quality is always representable (0..255, never wrapping), link cost lies between 1 and the broken value, better quality never costs more, and the cost of a link is independent of the direction it is seen from.", "quantifier": "all packet/loss histories and all quality pairs", "why_tests_cant": "Fixed-point arithmetic over unbounded histories.", "anchors": ["src/lq_plugin_default_ff.c", "src/lq_plugin_default_fpm.c", "src/lq_plugin_default_ffeth.c"]}
{"id": "C34", "title": "A silent link is eventually declared broken", "statement": "If no further HELLO is received over a link, its quality eventually falls below the usable minimum, for every configurable aging factor.", "quantifier": "all starting qualities and aging factors", "why_tests_cant": "Liveness of an integer recurrence with rounding.", "anchors": ["src/lq_plugin_default_fpm.c: default_lq_packet_loss_worker_fpm"]}
{"id": "C35", "title": "Advertised gateway bandwidth is an honest approximation", "statement": "The bandwidth decoded by a receiver is never more than the configured one (except that 1 becomes 2), at least three quarters of it, larger bandwidths never decode to smaller ones, and re-announcing a decoded value does not change it.", "quantifier": "all 32-bit bandwidths and all encoded bytes", "why_tests_cant": "Lossy decimal mantissa coding over all values.", "anchors": ["src/gateway.c: serialize_gw_speed, deserialize_gw_speed"]}
{"id": "C36", "title": "A worse gateway never looks cheaper", "statement": "With the same bandwidth, a gateway with a higher path cost never gets a lower gateway cost; with the same path cost, a gateway with less bandwidth never gets a lower cost.", "quantifier": "all path costs, bandwidths and weight settings", "why_tests_cant": "Integer overflow shows only for large path costs.", "anchors": ["src/gateway_costs.c: gw_costs_weigh"]}
{"id": "C37", "title": "The gateway list is sorted by cost and bounded", "statement": "The list of gateways in use is always ordered by cost, holds no more than the configured number, and contains exactly the added and not removed gateways.", "quantifier": "all sequences of list operations", "why_tests_cant": "History property.", "anchors": ["src/gateway_list.c"]}
{"id": "C38", "title": "Gateway choice is optimal and does not flap", "statement": "The chosen gateway is selectable, has the lowest cost among selectable ones, and replaces the current one only if it is better by the configured threshold.", "quantifier": "all gateway sets, costs and thresholds", "why_tests_cant": "Quantifies over all gateway sets and previous choices.", "anchors": ["src/gateway_default_handler.c: gw_default_choose_gateway"]}
{"id": "C39", "title": "Recycled memory blocks are never shared", "statement": "A block handed out by the recycling allocator is not handed out again before it has been returned, is zeroed, and the usage counter equals the number of blocks in use.", "quantifier": "all sequences of allocations and frees", "why_tests_cant": "History property of a free list.", "anchors": ["src/olsr_cookie.c: olsr_cookie_malloc, olsr_cookie_free, olsr_alloc_cookie"]}
{"id": "C40", "title": "Link status and link choice follow the sensing timers", "statement": "A link is reported symmetric, asymmetric or lost according to which of its timers run, and the link chosen towards a neighbor is symmetric whenever a symmetric one exists.", "quantifier": "all link sets and timer states", "why_tests_cant": "Quantifies over all link sets in all orders.", "anchors": ["src/link_set.c: lookup_link_status, get_best_link_to_neighbor"]}
{"id": "C41", "title": "Two-hop neighbor information is mutual and expires", "statement": "The records linking a neighbor to its two-hop neighbors and back agree at all times, the reference count equals the number of linking neighbors, and every such record disappears at the latest when its validity time has passed without confirmation.", "quantifier": "all histories of HELLO messages and timeouts", "why_tests_cant": "Consistency of two doubly linked structures and a timer over all histories.", "anchors": ["src/process_package.c: process_message_neighbors, linking_this_2_entries", "src/neighbor_table.c: olsr_delete_neighbor_2_pointer", "src/two_hop_neighbor_table.c"]}
{"id": "C42", "title": "Only MPRs of the sender forward, once, with decreasing time to live", "statement": "A message is retransmitted only if it came from a symmetric neighbor that selected this node as relay and has not been forwarded before; its hop limit is reduced by one and its hop count increased by one, and messages whose hop limit is used up leave only on wired interfaces and never on the incoming wired interface or on silent ones.", "quantifier": "all messages, neighbor states and interface sets", "why_tests_cant": "Decision over all states; the at-most-once part depends on history.", "anchors": ["src/olsr.c: olsr_forward_message"]}
{"id": "C43", "title": "Sequence-number collision detection is exact", "statement": "A received message carrying the own address is reported as a collision exactly when its sequence number lies ahead of the own counter in 16-bit circular order.", "quantifier": "all sequence numbers and counter values", "why_tests_cant": "2^32 combinations with wrap-around.", "anchors": ["src/olsr.c: olsr_is_bad_duplicate_msg_seqno, get_msg_seqno"]}
{"id": "C44", "title": "Denied addresses are always rejected and no others", "statement": "An address passes validation exactly when it is not among the denied addresses added so far.", "quantifier": "all addresses and all histories of additions", "why_tests_cant": "History property.", "anchors": ["src/net_olsr.c: olsr_validate_address, olsr_add_invalid_address"]}
{"id": "C45", "title": "Hysteresis quality stays between 0 and 1 and changes state only across thresholds", "statement": "The hysteresis link quality never leaves the interval from 0 to 1; a link becomes pending only below the low threshold and established only above the high threshold.", "quantifier": "all loss histories and parameter settings", "why_tests_cant": "Recurrence over unbounded histories.", "anchors": ["src/hysteresis.c"]}
{"id": "C46", "title": "Neighborhood and topology changes always lead to recalculation", "statement": "Whenever a change flag is set when changes are processed, routes (and for neighborhood changes MPRs) are recalculated before the flags are cleared, all registered listeners see the flags once, and without a flag nothing happens.", "quantifier": "all sequences of flag settings and processing", "why_tests_cant": "Sequencing property.", "anchors": ["src/olsr.c: olsr_process_changes, register_pcf"]}
{"id": "C47", "title": "The advertised neighbor sequence number grows with every change of the advertised set", "statement": "Adding or removing an MPR selector increases the advertised sequence number, by one modulo 2^16, and nothing else does; each selector is stored once.", "quantifier": "all histories of selector updates and expiries", "why_tests_cant": "History property with wrap-around.", "anchors": ["src/mpr_selector_set.c"]}
{"id": "C48", "title": "A duplicate record outlives the last message of its originator by 120 seconds", "statement": "After a message of an originator has been checked, the record that recognises its duplicates is kept for at least 120 seconds, whatever other messages are checked and however often the cleanup runs.", "quantifier": "all histories of checks and cleanups at all clock values", "why_tests_cant": "Depends on the interplay of arbitrary interleavings and on the wrap of the 32-bit clock after 49.7 days.", "anchors": ["src/duplicate_set.c: olsr_message_is_duplicate, olsr_cleanup_duplicate_entry", "src/scheduler.c: olsr_isTimedOut"]}
{"id": "C49", "title": "The internal clock never goes backward and never leaps", "statement": "Whatever the operating system clock does (jumping backward or far ahead), consecutive readings of the internal millisecond clock never decrease and never advance by more than about 61 seconds; with an undisturbed system clock they show the elapsed time to within a millisecond.", "quantifier": "all sequences of system clock readings", "why_tests_cant": "Clock jumps cannot be provoked exhaustively, and rounding at second boundaries is only wrong for particular sub-second offsets.", "anchors": ["src/scheduler.c: olsr_times, olsr_init_timers"]}
{"id": "C50", "title": "Only default routes count as Internet gateway announcements", "statement": "A network announcement is treated as an Internet gateway exactly if it is the IPv4 default route, the global IPv6 unicast route 2000::/3, or the IPv4-mapped default route; no other prefix is.", "quantifier": "all prefixes of both address families", "why_tests_cant": "2^128 prefixes; a comparison that looks at too few bytes is only wrong for prefixes a test does not try.", "anchors": ["src/ipcalc.h: ip_prefix_is_v4_inetgw, ip_prefix_is_v6_inetgw, ip_prefix_is_mappedv4_inetgw", "src/ipcalc.c: is_prefix_inetgw"]}
{"id": "C51", "title": "Merged lists are appended at the end", "statement": "Merging one list into another appends its elements behind the existing ones, as the interface documents.", "quantifier": "all pairs of lists", "why_tests_cant": "Needs an argument about all list shapes; order is only visible for two non-empty lists.", "anchors": ["src/common/list.h: list_merge"]}
{"id": "C52", "title": "Comparison functions of ordered trees are total orders", "statement": "Each comparison function given to a tree (IPv4 and IPv6 addresses, IPv4 and IPv6 prefixes, path costs, timers) is reflexive, antisymmetric in sign, transitive, and reports equality exactly for identical keys.", "quantifier": "all keys", "why_tests_cant": "Transitivity is about every triple of keys.", "anchors": ["src/ipcalc.h: ip4cmp, ip6cmp", "src/routing_table.c: olsrd_avl_comp_ipv4_prefix, olsrd_avl_comp_ipv6_prefix", "src/olsr_spf.c: olsrd_avl_comp_etx", "src/scheduler.c: olsrd_avl_comp_timer"]}
{"id": "C53", "title": "All nodes order addresses alike", "statement": "The address order that delimits the fragments of a topology message (src/lq_packet.c sorts by it, src/tc_set.c cuts by it) is the same on every host, whatever its byte order.", "quantifier": "all pairs of IPv4 addresses and both byte orders", "why_tests_cant": "Needs two machines of different byte order in one network.", "anchors": ["src/ipcalc.h: ip4cmp", "src/lq_packet.c: create_lq_tc", "src/tc_set.c: delete_outdated_tc_edges"]}
{"id": "C54", "title": "A timer set again from its own callback stays set", "statement": "When a timer's callback sets the same timer for a later time with olsr_change_timer, the timer is still running after the walk and its callback is made at the new time.", "quantifier": "all timers and callbacks", "why_tests_cant": "Whether it holds depends on the order in which the walker re-reads the timer's flags and period after the callback; a failing case frees the timer its owner still holds.", "anchors": ["src/scheduler.c: walk_timers, olsr_change_timer, olsr_stop_timer"]}
{"id": "C55", "title": "A rejected HELLO leaves no memory behind", "statement": "Whatever HELLO message arrives, every neighbor entry the decoder allocates is either handed to the HELLO processing (which frees it) or freed.", "quantifier": "all HELLO messages, including malformed ones", "why_tests_cant": "Needs a malformed block after well-formed ones; a leak has no functional symptom in one run.", "anchors": ["src/process_package.c: deserialize_hello", "src/process_package.c: olsr_input_hello"]}
{"id": "C56", "title": "Reserved buffer space stays available", "statement": "After a successful reservation of n bytes in an output buffer, n bytes can be added to the reserved part, whatever else is queued.", "quantifier": "all buffer fill levels and sequences of buffer operations", "why_tests_cant": "Depends on what was pending or reserved before; plugins reserve at arbitrary times.", "anchors": ["src/net_olsr.c: net_reserve_bufspace, net_outbuffer_push_reserved, net_add_buffer"]}
{"id": "C57", "title": "Suppressed collision warnings are all accounted for", "statement": "The warnings logged during an hour plus the number reported as skipped at its end equal the number of collisions that hour.", "quantifier": "any number of collisions", "why_tests_cant": "Off-by-one at the limit; an hourly timer.", "anchors": ["src/duplicate_handler.c: olsr_test_originator_collision, olsr_handle_hna_collision, olsr_handle_mid_collision, handle_duplicate_spam_timer"]}
{"id": "C58", "title": "Border flags of any value are handled safely", "statement": "Whatever the two border flag bytes of a received topology message are, processing it stays within the address it manipulates.", "quantifier": "all pairs of bytes, all messages", "why_tests_cant": "65536 pairs; the write beside a stack variable is rarely visible.", "anchors": ["src/tc_set.c: olsr_calculate_tc_border, olsr_delete_outdated_tc_edges, olsr_input_tc"]}
{"id": "C59", "title": "A denied address in a topology message does not disturb the others", "statement": "If a topology message names an address the configuration excludes, the links stored are exactly the others it names.", "quantifier": "all messages, all deny lists", "why_tests_cant": "Needs a denied address in front of others; the rest of the message is then read shifted.", "anchors": ["src/tc_set.c: olsr_tc_update_edge, olsr_add_tc_edge_entry"]}
{"id": "C60", "title": "Topology messages of the standard format are understood", "statement": "With link quality off, each address of a TC message of the standard format becomes a link of the originator.", "quantifier": "all messages", "why_tests_cant": "Interoperability mode that the default configuration never uses.", "anchors": ["src/tc_set.c: olsr_tc_update_edge, olsr_input_tc"]}
{"id": "C61", "title": "Topology message processing never reads beyond the message", "statement": "Processing a received topology message, whose size field is the number of bytes given, reads only these bytes.", "quantifier": "all byte strings", "why_tests_cant": "Over-reads of a few bytes inside a static buffer are invisible to tests.", "anchors": ["src/tc_set.c: olsr_input_tc, olsr_tc_update_edge"]}
{"id": "C62", "title": "Originators nothing is known of are forgotten", "statement": "When the last advertised prefix or alias of an originator that has advertised no topology has been withdrawn, the link state database no longer holds an entry for that originator.", "quantifier": "all sequences of HNA/MID additions and removals", "why_tests_cant": "It is a statement about what remains after arbitrary histories; the memory that stays behind is invisible to functional tests.", "anchors": ["src/tc_set.c: olsr_locate_tc_entry", "src/routing_table.c: olsr_insert_routing_table, olsr_delete_routing_table"]}
{"id": "C63", "title": "A symmetric neighbor with a usable link is used at once", "statement": "After a route calculation every symmetric neighbor that has a usable link, and that advertises us, is reachable at a cost no higher than that of its best link.", "quantifier": "all link graphs, neighbor tables and link costs", "why_tests_cant": "It depends on whether the edge to the neighbor already existed before the calculation, i.e. on the history.", "anchors": ["src/olsr_spf.c: olsr_calculate_routing_table", "src/tc_set.c: olsr_add_tc_edge_entry"]}
{"id": "C64", "title": "Refreshing the kernel routes is always possible", "statement": "olsr_force_kernelroutes_refresh may be called at any time between updates: it writes every route again, leaves the next hops in the kernel as they were and never reads through an invalid pointer.", "quantifier": "all histories of route calculations, removed paths and lost interfaces", "why_tests_cant": "The failure needs the removal of a best path between the last update and the refresh.", "anchors": ["src/process_routes.c: olsr_force_kernelroutes_refresh", "src/routing_table.h: olsr_rt_best_metric"]}
{"id": "C65", "title": "MPR selection respects willingness", "statement": "After MPR selection no neighbor that announces WILL_NEVER is an MPR, and every symmetric neighbor that announces WILL_ALWAYS is one; the selection always ends.", "quantifier": "all neighborhoods, willingness bytes, coverage settings and previous states", "why_tests_cant": "Quantifies over all neighborhoods; the two selection algorithms differ.", "anchors": ["src/mpr.c: olsr_calculate_mpr, add_will_always_nodes, olsr_find_maximum_covered", "src/lq_mpr.c: olsr_calculate_lq_mpr"]}
{"id": "C66", "title": "Only symmetric neighbors become MPR", "statement": "After MPR selection every MPR is a symmetric neighbor.", "quantifier": "all neighborhoods, including neighbors that have just become asymmetric", "why_tests_cant": "Needs a neighbor that lost symmetry while its two-hop entries have not yet expired.", "anchors": ["src/mpr.c: olsr_find_maximum_covered, olsr_calculate_two_hop_neighbors", "src/lq_mpr.c: olsr_calculate_lq_mpr"]}
{"id": "C67", "title": "Every change of the MPR set is signalled", "statement": "If tc_redundancy is positive, MPR selection calls signal_link_changes exactly when the set of MPRs differs from the one before.", "quantifier": "all neighborhoods and all previous MPR sets", "why_tests_cant": "A property of pairs of consecutive selections.", "anchors": ["src/mpr.c: olsr_check_mpr_changes", "src/lq_mpr.c: olsr_calculate_lq_mpr"]}
{"id": "C68", "title": "A smart gateway's announcement is understood as it was meant", "statement": "If a node with an internet uplink announces its default route with its bandwidths and capabilities encoded in the netmask, then every other node that receives this HNA entry recognises it as a smart gateway announcement and stores bandwidths that honestly approximate the configured ones, the same IPv4, NAT and IPv6 capabilities, and (for 2000::/3) the same external prefix; encoding and decoding never touch memory outside the netmask.", "quantifier": "for all configurations, all bandwidths, all netmasks and prefixes", "why_tests_cant": "Encoder and decoder work on offsets that depend on the prefix length and the address family; the IPv4 case that everyone uses works, so the one byte overflow and the never matching comparison in the IPv6 cases stay unseen.", "anchors": ["src/gateway.c:refresh_smartgw_netmask", "src/gateway.c:olsr_modifiy_inetgw_netmask", "src/gateway.c:olsr_is_smart_gateway", "src/gateway.c:olsr_update_gateway_entry", "src/build_msg.c:appendHNAEntry"]}
{"id": "C69", "title": "The current gateway always points to a live list entry", "statement": "Whatever sequence of announcements, timers, route losses and tunnel failures occurs, the container remembered as current gateway is one that is still in the gateway list, so that no handler reads freed memory and no assertion fails.", "quantifier": "all histories of gateway events and all outcomes of tunnel creation", "why_tests_cant": "A dangling pointer needs the worst gateway to be evicted and then the tunnel of its replacement to fail; sanitizers only see the histories they run.", "anchors": ["src/gateway.c: olsr_set_inet_gateway", "src/gateway.c: olsr_delete_gateway_tree_entry", "src/gateway.c: removeGatewayFromList", "src/gateway_default_handler.c: gw_default_choose_gateway"]}
{"id": "C70", "title": "Kernel tunnels and the default route follow the gateway list", "statement": "After every event there is exactly one kernel tunnel for each gateway in the list, never more tunnels than smart_gw_use_count, and the default route goes through the tunnel of the current gateway, if there is one.", "quantifier": "all histories of gateway events", "why_tests_cant": "A leaked or missing tunnel depends on the order of eviction, takedown, deletion and failure.", "anchors": ["src/gateway.c: olsr_set_inet_gateway", "src/gateway.c: removeGatewayFromList", "src/gateway.c: olsr_delete_gateway_tree_entry", "src/linux/kernel_tunnel.c"]}
{"id": "C71", "title": "Takedown removes exactly the expensive gateways", "statement": "Taking down expensive gateways never removes the current one, removes only gateways whose cost is above the configured multiple of the current cost, and afterwards no other gateway in the list is above it.", "quantifier": "all reachable lists, all costs and percentages", "why_tests_cant": "Quantifies over all lists and 64 bit costs, including those for which the product overflows.", "anchors": ["src/gateway.c: takeDownExpensiveGateways"]}
{"id": "C72", "title": "With hysteresis a loss-free link becomes usable", "statement": "For every accepted hysteresis setting, a link over which packets arrive without loss is eventually no longer pending.", "quantifier": "all accepted hysteresis parameters and all starting sequence numbers", "why_tests_cant": "Liveness of a rounded floating point recurrence for all parameter values.", "anchors": ["src/hysteresis.c: olsr_hyst_calc_stability, olsr_process_hysteresis", "src/cfgparser/olsrd_conf.c: olsrd_sanity_check_cnf"]}
{"id": "C73", "title": "The link quality in use follows the measured one", "statement": "After every run of the link quality timer of the packet counting plugins, the quality that is announced and routed by differs from the measured quality by at most a tenth, on every link and in both directions; between two runs the quality and cost in use do not change.", "quantifier": "all histories of packets, losses, reports, link arrivals and departures, any number of links", "why_tests_cant": "The two-pass refresh couples all links; an unbounded history decides who is refreshed when.", "anchors": ["src/lq_plugin_default_ff.c: default_lq_ff_handle_lqchange", "src/lq_plugin_default_ffeth.c: default_lq_ffeth_handle_lqchange"]}
{"id": "C74", "title": "Only its own announcements decide over a smart gateway", "statement": "The HNA set withdraws a smart gateway only if the announcement that made it known is withdrawn or has run out.", "quantifier": "for all histories of HNA messages, expiries and originator removals", "why_tests_cant": "The fault needs a node that changes from a plain default route to a smart gateway, and then the right order of two timers.", "anchors": ["src/hna_set.c:olsr_delete_hna_net_entry", "src/hna_set.c:olsr_input_hna"]}
{"id": "C75", "title": "A neighbor is marked symmetric exactly while a link to it is", "statement": "Between events, a neighbor entry has status SYM if and only if at least one of the links that belong to it is symmetric.", "quantifier": "for all histories of HELLOs, timer expiries, MID aliases and interface changes", "why_tests_cant": "The mark goes stale only after particular sequences of HELLO contents and silence on several links; nothing fails at that moment.", "anchors": ["src/link_set.c:update_link_entry", "src/link_set.c:olsr_expire_link_sym_timer", "src/link_set.c:get_neighbor_status", "src/neighbor_table.c:update_neighbor_status"]}
{"id": "C76", "title": "The status of a neighbor interface is symmetric if some link to it is", "statement": "check_neighbor_link answers SYM for an address exactly if there is a symmetric link whose remote address it is.", "quantifier": "for all link sets and addresses", "why_tests_cant": "Needs the same neighbor address heard over several local interfaces with different link states, in every order of creation.", "anchors": ["src/link_set.c:check_neighbor_link"]}
{"id": "C77", "title": "Links and neighbor entries fit together", "statement": "Every link points to a live neighbor entry, each neighbor entry counts its links correctly and has at least one, no two entries have the same address, and no event makes the program use a freed entry.", "quantifier": "for all histories of HELLOs, MID aliases, expiries and interface removals", "why_tests_cant": "Use after free depends on forged or contradictory messages arriving in a particular order.", "anchors": ["src/link_set.c:add_link_entry", "src/link_set.c:lookup_link_entry", "src/link_set.c:olsr_delete_link_entry", "src/mid_set.c:insert_mid_alias", "src/mid_set.c:insert_mid_tuple", "src/neighbor_table.c:olsr_delete_neighbor_table"]}
{"id": "C78", "title": "A link lives as long as its HELLOs are valid", "statement": "A link is not removed while the last HELLO heard on it is valid, and is removed at the latest a fixed hold time after all HELLOs heard on it have run out.", "quantifier": "for all histories of HELLOs with any validity times, at all times including clock wrap", "why_tests_cant": "Depends on the random jitter and on HELLOs near the wrap of the millisecond clock after 49 days.", "anchors": ["src/link_set.c:update_link_entry", "src/link_set.c:olsr_set_link_timer", "src/link_set.c:olsr_expire_link_entry"]}
{"id": "C79", "title": "Routes to aliases follow the MID set", "statement": "The routes to interface addresses that the MID code has asked the routing table to install and not to remove again are exactly those to the aliases currently known, by way of their main addresses.", "quantifier": "for all sequences of MID messages, HELLOs, timer expiries, empty TCs and shutdowns", "why_tests_cant": "Needs every interleaving of competing declarations, expiries and prunings; a left-over route only shows when two nodes declare one address and both expire.", "anchors": ["src/mid_set.c:154-252", "src/mid_set.c:415-488", "src/mid_set.c:565-630"]}
{"id": "C80", "title": "Lifetime of an alias", "statement": "An alias stays mapped to its main address at least as long as the latest message naming it is valid, and disappears at the latest when everything heard from its main address has expired, or with the next MID message that does not list it after its validity has passed.", "quantifier": "for all timed runs of the MID set, clock wraparounds included", "why_tests_cant": "The lifetime depends on the order of HELLOs, MID messages and timers over hours and on the 32-bit clock; only some orders lose or keep an alias wrongly.", "anchors": ["src/mid_set.c:132-252", "src/mid_set.c:393-488", "src/process_package.c:478-500"]}
{"id": "C81", "title": "Parsing of MID messages", "statement": "Parsing a MID message yields exactly the whole addresses in its body and reads nothing beyond the stated size of the message.", "quantifier": "for all message buffers and sizes, IPv4 and IPv6", "why_tests_cant": "Only sizes with a particular remainder go wrong, and the surplus read is silent.", "anchors": ["src/rebuild_packet.c:63-165"]}
{"id": "C82", "title": "Two-hop path costs are the best of what the last HELLO listed", "statement": "After a HELLO has been processed with link quality enabled, the cost recorded for the path by way of its sender to each two-hop neighbor that it names (under any of its addresses, any number of times) is the smallest of the listed costs plus the cost of the best link to the sender, or the cost of a broken link if there is no such link or nothing better; the costs of all other paths are unchanged.", "quantifier": "for all reachable table states, HELLO messages, MID sets and link costs", "why_tests_cant": "Depends on the number and order in which the same node is listed under several addresses, and on what other neighbors have reported before; tests fix one message and one topology.", "anchors": ["src/process_package.c:78", "src/process_package.c:173", "src/two_hop_neighbor_table.c:153"]}
{"id": "C83", "title": "A HELLO says about each neighbor exactly what is recorded", "statement": "For every neighbor in the HELLO to be sent, the link type and neighbor type a receiver reads from the generated HELLO messages are the recorded ones, and neighbors with a hidden link are not advertised.", "quantifier": "all lists of neighbors with any link and neighbor types, both address families, with and without link quality, any state of the output buffer and any packet size that fits one neighbor", "why_tests_cant": "The combination of the IPv6 serializer with a hidden link is never set up in a test network, and the number of ways to split the neighbors over messages is unbounded.", "anchors": ["src/build_msg.c:serialize_hello4", "src/build_msg.c:serialize_hello6", "src/lq_packet.c:serialize_lq_hello", "src/olsr_protocol.h:CREATE_LINK_CODE"]}
{"id": "C84", "title": "HNA messages announce exactly the configured networks", "statement": "The entries of the generated HNA messages, concatenated, are exactly the networks to be announced in order with their netmasks, the default route of a smart gateway carrying its bandwidths and flags in the netmask and being left out if there is no bandwidth; numbers are consecutive and no message is empty.", "quantifier": "all lists of networks, both address families, with and without smart gateway, any state of the output buffer and any packet size that fits one network", "why_tests_cant": "Splitting depends on what already waits in the output buffer and on packet size, and the netmask doubles as a carrier for the gateway data, so only particular combinations fail.", "anchors": ["src/build_msg.c:serialize_hna4", "src/build_msg.c:serialize_hna6", "src/build_msg.c:appendHNAEntry", "src/gateway.c:olsr_modifiy_inetgw_netmask"]}
{"id": "C85", "title": "A gateway that stops announcing itself takes the announcement back", "statement": "After a node has announced itself as smart gateway and does so no longer, each of its HNA generations contains an announcement of the gateway with zero bandwidth and the rest of the validity time of the last real announcement as validity, until that time is over, and none afterwards.", "quantifier": "all validity times, periods, numbers of generations and other networks announced, both address families", "why_tests_cant": "It concerns any number of timer periods after a change of configuration, and the IPv6 variant needs a second implementation's view of the message.", "anchors": ["src/build_msg.c:serialize_hna4", "src/build_msg.c:serialize_hna6"]}
{"id": "C86", "title": "A node's TC messages convey exactly the neighbors to advertise", "statement": "For every neighbor table, TC redundancy and amount of data already queued: the topology messages olsr_output_lq_tc queues, received in order (directly or after forwarding) by a node that accepts the first of them and knows only older links, leave that node with exactly the symmetric neighbors selected by the redundancy setting whose links are not broken, each with the quality of its best link and the current ANSN.", "quantifier": "all neighbor tables with distinct addresses, all redundancy settings, all states of the output buffer, all reachable states of the receiver, any TTL and hop count", "why_tests_cant": "Depends on how the list happens to be cut into messages by the fill level of the output buffer and on the whole history of the receiver; tests only cover a few sizes.", "anchors": ["src/lq_packet.c:183-301", "src/lq_packet.c:545-649", "src/lq_packet.c:679-719", "src/tc_set.c"]}
{"id": "C87", "title": "Fish-eye TTLs follow the cycle and empty TCs stop", "statement": "With fish-eye on, the TC messages of the k-th round of an interface have the k-th TTL of the cycle 2,8,2,16,2,8,2,255, whatever was or was not sent before. When there is nothing left to advertise, one empty TC is sent at once and further ones in the rounds before 3*max_tc_vtime has passed, and none later.", "quantifier": "all sequences of rounds with arbitrary neighbor tables and times", "why_tests_cant": "The claim is about unboundedly many rounds; it fails only 2^31 ms (25 days) later, when the 32 bit clock comparison turns round.", "anchors": ["src/lq_packet.c:189-215", "src/lq_packet.c:679-719", "src/build_msg.c:103-117", "src/main.c:606", "src/scheduler.c:209-217"]}
{"id": "C88", "title": "LQ_HELLO messages describe each neighbor interface once, with the link on the outgoing interface", "statement": "In the LQ_HELLO messages generated for an interface every neighbor interface address occurs at most once; if there is a link to it on that interface the message gives that link's status, the neighbor's type and that link's quality (and nothing if it is hidden), otherwise the first link on another interface without a link type; no other addresses are mentioned.", "quantifier": "all link sets with distinct pairs of interface addresses, any order of the links, all states of the output buffer", "why_tests_cant": "Depends on the order of the link set and on several local interfaces seeing the same neighbor interface; combinations are unbounded.", "anchors": ["src/lq_packet.c:71-165", "src/lq_packet.c:353-543"]}
{"id": "C89", "title": "Signed packets are restored, and only authentic packets are accepted", "statement": "A packet signed by the secure plugin is accepted by every node with the same key that knows the clock of the sender, and what is handed on is exactly the packet that would have been sent without the plugin. Whatever is accepted ends with the code of all the bytes before it under the shared key; who gets a different packet accepted under the same code has found a collision of the hash function.", "quantifier": "all packets, keys, hash functions, both sizes of time_t, both hash lengths and byte orders", "why_tests_cant": "A test runs one build: with SHA1 and an 8 byte time_t (or between 32 and 64 bit nodes) every packet is rejected; the integrity claim is about all packets an attacker could send.", "anchors": ["lib/secure/src/olsrd_secure.c:226-257", "lib/secure/src/olsrd_secure.c:294-364", "lib/secure/src/olsrd_secure.c:366-485", "lib/secure/src/secure_messages.h:87-113"]}
{"id": "C90", "title": "Only fresh packets are accepted", "statement": "A packet is accepted by the secure plugin only if its time stamp is within three seconds of what the known difference of the clocks lets expect, and an old packet cannot be accepted again later.", "quantifier": "all packets, databases, times, and arbitrarily long sequences of replays", "why_tests_cant": "A single replay is rejected after three seconds; the attack needs a sequence of replays, each of which moves the stored difference by the mean.", "anchors": ["lib/secure/src/olsrd_secure.c:487-532", "lib/secure/src/olsrd_secure.c:1073-1106"]}
{"id": "C91", "title": "Only nodes with the key change the database of clocks", "statement": "A node is marked as validated only after a correctly signed answer to the challenge that it was sent. Packets without a right signature change nothing and cause no answer, and old handshake messages change nothing.", "quantifier": "all packets and databases", "why_tests_cant": "The claim is about all packets that do not carry a right code; the entry is made before the signature of a challenge is checked.", "anchors": ["lib/secure/src/olsrd_secure.c:613-806", "lib/secure/src/olsrd_secure.c:808-887", "lib/secure/src/olsrd_secure.c:500-508"]}
{"id": "C92", "title": "Signing stays within its buffers", "statement": "Adding the signature to an outgoing packet never writes outside the output buffer of the interface or the local buffer checksum_cache.", "quantifier": "all output buffers, MTUs and contents", "why_tests_cant": "Overflows only when the messages fill the buffer to the last bytes, or with a large MTU.", "anchors": ["lib/secure/src/olsrd_secure.c:294-364", "src/net_olsr.c:120-160", "src/net_olsr.c:219-229"]}
{"id": "C93", "title": "The handshake makes both nodes know each other's clocks", "statement": "When a packet of an unknown node with the same key arrives, the challenge, the answer and the answer to that are exchanged, after which both nodes know the difference of their clocks exactly.", "quantifier": "all nodes, clocks, challenges, random numbers, contents of memory from malloc, and states of the output buffers", "why_tests_cant": "Depends on what is waiting in the output buffers at that moment; random challenges and uninitialised memory.", "anchors": ["lib/secure/src/olsrd_secure.c:537-611", "lib/secure/src/olsrd_secure.c:613-887", "lib/secure/src/olsrd_secure.c:894-1045"]}
{"id": "C94", "title": "Requests to the kernel say what was asked for", "statement": "The bytes sent for adding or deleting a route or a policy rule have exactly one reading as a netlink request, and it names the operation, table, destination, interface, metric, source address and gateway that the caller gave.", "quantifier": "all arguments of the types of olsr_new_netlink_route and olsr_os_policy_rule, both byte orders", "why_tests_cant": "Needs a kernel and privileges; the wrong table shows only with table numbers above 255.", "anchors": ["src/linux/kernel_routes_nl.c:200-211", "src/linux/kernel_routes_nl.c:275-305", "src/linux/kernel_routes_nl.c:347-447"]}
{"id": "C95", "title": "Similar routes are found when a route cannot be added", "statement": "When the kernel refuses a route because it exists, the deletion that olsrd sends applies to every unicast route to the same destination in the same table, whatever its gateway, interface, metric and protocol.", "quantifier": "all configurations, entries and routes in the kernel", "why_tests_cant": "Needs a kernel with foreign routes in its table.", "anchors": ["src/linux/kernel_routes_nl.c:555-572", "src/linux/kernel_routes_nl.c:420-437"]}
{"id": "C96", "title": "Entries are installed and removed in the kernel", "statement": "Success of adding an entry means that the kernel accepted the wanted route; the route that was added is found by the later deletion; deleting an entry sends nothing but that deletion.", "quantifier": "all configurations, entries and answers of the kernel", "why_tests_cant": "Depends on the answers of the kernel, in particular on unusual errors.", "anchors": ["src/linux/kernel_routes_nl.c:502-612"]}
{"id": "C97", "title": "The result of a request is the kernel's answer to it", "statement": "The value that olsr_netlink_send returns for a request is the error number of the kernel's answer to this request.", "quantifier": "all sequences of requests, failures of sendmsg and recvmsg, and answers", "why_tests_cant": "Only after an interrupted system call, and then for the rest of the process's life.", "anchors": ["src/linux/kernel_routes_nl.c:213-273"]}
{"id": "C98", "title": "Received names cannot break the files", "statement": "Whatever messages are received, the text of entries stored by the name service plugin is such that the hosts, services, macs and position files consist of one complete line for each entry: no line is made by a neighbour's text alone.", "quantifier": "all sequences of messages (any bytes) and expiries, all suffixes", "why_tests_cant": "Depends on unusual characters at particular places of the text, and on the suffix being used as a regular expression.", "anchors": ["lib/nameservice/src/nameservice.c:340-400", "lib/nameservice/src/nameservice.c:814-899", "lib/nameservice/src/nameservice.c:1114-1241", "lib/nameservice/src/nameservice.c:1495-1601", "lib/nameservice/src/mapwrite.c:140-157"]}
{"id": "C99", "title": "Parsing of a name message is confined to the message", "statement": "The result of parsing a name service message depends only on the bytes of the message, and nothing outside of the receive buffer is read.", "quantifier": "all messages, all bytes around them", "why_tests_cant": "Depends on the bytes that follow the message in the packet or the buffer.", "anchors": ["lib/nameservice/src/nameservice.c:670-721", "lib/nameservice/src/nameservice.c:814-957"]}
{"id": "C100", "title": "What a node announces is what its neighbours store", "statement": "A message built by the plugin, received by a node without entries of the sender, leaves exactly the sender's entries in its tables, under the sender's main address.", "quantifier": "all lists of acceptable entries, all surroundings of the message", "why_tests_cant": "Depends on the length of the last text, on the bytes after the message, and on one name being the beginning of another.", "anchors": ["lib/nameservice/src/nameservice.c:609-808", "lib/nameservice/src/nameservice.c:814-1013"]}
{"id": "C101", "title": "Repeating a name message changes nothing", "statement": "The tables after receiving a message twice are those after receiving it once; an originator has at most one position.", "quantifier": "all tables, all messages (any bytes)", "why_tests_cant": "Needs repetition; the growth is slow.", "anchors": ["lib/nameservice/src/nameservice.c:844-899", "lib/nameservice/src/nameservice.c:960-1013"]}
{"id": "C102", "title": "The best name servers are written", "statement": "resolv.conf lists the best reachable forwarders by cost of the route, hop count and originator, best first, each once.", "quantifier": "all tables of forwarders and routes", "why_tests_cant": "Depends on the order in which forwarders are met.", "anchors": ["lib/nameservice/src/nameservice.c:1277-1396"]}
{"id": "C103", "title": "Only services on own hosts are announced", "statement": "A configured service is announced exactly if its host is one of the node's names or addresses.", "quantifier": "all names, suffixes, addresses and networks", "why_tests_cant": "Depends on the length of the suffix compared with that of the name.", "anchors": ["lib/nameservice/src/nameservice.c:1444-1562"]}
{"id": "C104", "title": "The own name message stays within its buffer", "statement": "Building a name service message writes only inside the buffer, and the size field is the length of the message.", "quantifier": "all lists of entries", "why_tests_cant": "Only with many long names.", "anchors": ["lib/nameservice/src/nameservice.c:609-808"]}
{"id": "C105", "title": "Information plugins print well-formed JSON", "statement": "Whatever tree of objects, arrays, strings, numbers, booleans and addresses the information plugins print (nested at most 14 levels, strings without characters that need escaping), the produced text is a JSON text by RFC 8259, with and without pretty-printing, and denotes exactly that tree. Strings with a quote or a backslash break this.", "quantifier": "all trees of values, both formats", "why_tests_cant": "The text depends on the nesting, emptiness and order of arbitrarily many values; tests see a few documents.", "anchors": ["lib/info/json_helpers.c", "lib/jsoninfo/src/olsrd_jsoninfo.c"]}
{"id": "C106", "title": "Cached sections are recent and complete", "statement": "In every sequence of requests and clock changes, each section of a reply is what the plugin would print for the state at some moment not longer ago than the cache timeout (immediately for timeout 0, at first use for sections that never change), and the sections of a reply are exactly the requested ones in order.", "quantifier": "all request sequences, clock sequences, timeouts and states", "why_tests_cant": "Depends on the interleaving of requests and time.", "anchors": ["lib/info/olsrd_info.c:420-573", "lib/info/olsrd_info.h"]}
{"id": "C107", "title": "Requests to the information plugins mean their path", "statement": "A request line that is a path, or an HTTP GET of a path, with any blanks and repeated slashes, from a host that may ask, is answered with exactly the union of the sections that its names denote, or not-found if one is unknown; headers are sent as the kind of request and the http/plain prefix say. A blank or lone slash, a GET of blanks, and requests that do not fit in the buffer break this.", "quantifier": "all request lines and trailing bytes, all contents of the rest of the buffer, all peers and configurations", "why_tests_cant": "The sanitising works in place on pointers and lengths; the failing inputs are rare shapes.", "anchors": ["lib/info/olsrd_info.c:101-314", "lib/info/olsrd_info.c:611-744", "lib/info/olsrd_info.c:862-986"]}
{"id": "C108", "title": "Only permitted hosts are served", "statement": "A reply of an information plugin is 'forbidden', and contains no section, exactly if the peer is neither the configured host nor (if allowed) the local host and a host is configured. This holds for IPv4; for IPv6 the local host is refused and strangers are admitted.", "quantifier": "all configurations, peers and requests", "why_tests_cant": "Needs peers and configurations that tests do not have.", "anchors": ["lib/info/olsrd_info.c:898-910"]}
{"id": "C109", "title": "Replies of the information plugins reach their clients", "statement": "In every history of connections and timer expirations, whatever the kernel does with the sockets, the output slots of the information plugins never overflow and no buffer is left; every client that connects while fewer than 8 replies are on their way gets a prefix of its own reply, its connection is closed once, and only after the complete reply or an error; the write timer runs exactly while replies are on their way; and if the kernel keeps taking bytes all replies are delivered.", "quantifier": "all histories of connections and expirations, all results of select and send, all replies", "why_tests_cant": "Depends on partial sends and their interleaving over several slots.", "anchors": ["lib/info/olsrd_info.c:316-418", "lib/info/olsrd_info.c:575-609"]}
{"id": "C110", "title": "HTTP headers state the length of the body", "statement": "A reply with headers is an HTTP response: header lines up to an empty line, then exactly the body, with exactly one Content-Length field, whose value is the length of the body (below 2 GiB).", "quantifier": "all bodies, plugin names, types, dates and statuses", "why_tests_cant": "The length is patched into reserved space after the body was written; all lengths matter.", "anchors": ["lib/info/http_headers.c:59-119", "lib/info/olsrd_info.c:496-573"]}
{"id": "C111", "title": "The egress file says what the egress interfaces can do", "statement": "A line of the egress file is accepted exactly when it is written as documented (name, require flags, bandwidths, optional costs, network and gateway); after a new file has been read every egress interface has the values of the last line that gives values for it, and none if there is no such line. Refuted for indented lines, which are silently ignored, and for comments beyond 255 characters, whose tail is taken for a line.", "quantifier": "all lines, all files, all sets of interfaces with different names", "why_tests_cant": "The grammar has many optional parts and separators, and the reader works on a fixed buffer; a test sees only a few files.", "anchors": ["src/egressFile.c:68-120", "src/egressFile.c:192-294", "src/egressFile.c:340-640"]}
{"id": "C112", "title": "Changes of the egress file are reported", "statement": "A poll of the egress file reports a change exactly when the costs, the network or the gateway of an interface differ from before; without a file all interfaces are cleared; whatever the files contain over time the values stay within their limits and the costs are those of the values; the file is closed. Refuted: swapped bandwidths are not reported, a file of time 0 is never read, and the descriptor is closed twice after a file was read.", "quantifier": "all states, all results of opening the file, all sequences of polls", "why_tests_cant": "Change detection compares two polls; the missed changes need equal costs of different values.", "anchors": ["src/egressFile.c:400-640", "src/egressTypes.h:137-159"]}
{"id": "C113", "title": "The cheapest uplink is used", "statement": "In multi-gateway mode the best egress link is always the first of the cheapest interfaces that are up and usable, and there is none exactly when no interface is usable; the costs are those of the values in the egress file; traffic goes over the interface unless the OLSR gateway is cheaper. Refuted: the announced speeds are those of the best uplink (swapped bandwidths), and an interface absent from the file is not chosen (divider 0).", "quantifier": "all configurations, all interfaces and all sequences of polls, interface events and gateway changes", "why_tests_cant": "The choice depends on the whole history of events and on flags that are set and cleared between them.", "anchors": ["src/gateway.c:1683-1767", "src/gateway_costs.c:59-91"]}
{"id": "C114", "title": "No routes of multi-gateway mode are left behind", "statement": "Every route of multi-gateway mode in the kernel is one that olsrd has on record, and after shutdown none is left. Refuted: this holds when an interface loses its carrier and the kernel keeps the routes; a recorded blackhole route is in the kernel.", "quantifier": "all sequences of events, with any failures to add routes and any interfaces going down", "why_tests_cant": "Stale routes come from combinations of failed requests and interface events.", "anchors": ["src/gateway.c:1811-1840", "src/gateway.c:1912-2158", "src/gateway.c:995-1031"]}
{"id": "C115", "title": "The kernel has the routes that are wanted for the uplinks", "statement": "After every event the table of each egress interface has exactly the wanted network route and default route, the table of the best uplink has its default route, and the two halves of the default route go over the interface of the best link. Refuted: the halves follow a changed gateway of the uplink; the routes follow a changed interface index; accepted table offsets keep the tables away from the main table (8-bit truncation).", "quantifier": "all configurations and all sequences of polls, interface events and gateway changes", "why_tests_cant": "Exactness of five kinds of routes after any history cannot be sampled.", "anchors": ["src/gateway.c:1912-2158", "src/gateway.c:2364-2421", "src/cfgparser/olsrd_conf.c:797-835"]}
{"id": "C116", "title": "Zebra is told exactly the route changes", "statement": "With the quagga plugin, as long as the connection to zebra lasts and however write(2) splits the bytes, the stream that zebra receives decodes to exactly the sequence of route additions and removals (network, next hop or interface, distance, metric), the calls end, nothing outside the message buffers is touched, and after a reconnection zebra gets a hello, all present routes and the requested route types. Refuted: no memory is lost while there is no connection; with the option to keep the kernel's routes, a removed route is removed from the kernel.", "quantifier": "all configurations (IPv4 and IPv6, protocol versions 0 to 2), routes, sequences of changes and answers of write(2)", "why_tests_cant": "Every way a message can be split and every combination of address family, version and option would have to be tried.", "anchors": ["lib/quagga/src/packet.c:57-173", "lib/quagga/src/client.c:107-163", "lib/quagga/src/quagga.c:87-217"]}
{"id": "C117", "title": "Routes sent by zebra are read exactly", "statement": "Every well-formed route message of zebra is read back as the route it describes: network, next hops, interfaces, distance and metric. Refuted: a message with a right length field never makes the reader write or read outside its objects; an announced IPv4 network has at most 32 bits.", "quantifier": "all routes, protocol versions, address families and positions in the buffer", "why_tests_cant": "Optional fields, counts and prefix lengths combine to an unbounded number of layouts.", "anchors": ["lib/quagga/src/parse.c:73-160"]}
{"id": "C118", "title": "The announced networks follow zebra's messages", "statement": "However the bytes of zebra's messages are split into reads, and with any number of calls that find nothing in between, a network is announced afterwards if and only if zebra's last message about it was an addition. Proviso: no call finds a message cut short, fewer than 65536 bytes are pending, and additions and removals of a network take turns. Refuted without the proviso: a pause inside a message (olsrd exits), a zero length (endless loop), more than 65535 pending bytes (endless loop), a closed connection (never noticed), a reconnection (networks stay announced).", "quantifier": "all sequences of messages, all ways to split them into reads, any number of calls", "why_tests_cant": "The number of ways to split a stream into reads is exponential in its length.", "anchors": ["lib/quagga/src/client.c:165-232", "lib/quagga/src/parse.c:162-255", "src/cfgparser/olsrd_conf.c:1462-1503"]}
{"id": "C119", "title": "Standard HELLO messages describe each link of the interface and each other neighbor once", "statement": "The HELLO messages without link quality that are sent on an interface say exactly once, for each link on that interface that is not hidden, the address of the neighbor's interface, the type of the link and the type of the neighbor, and, if the node has several interfaces, for each neighbor without a link on that interface its main address and type without a link type; nothing else is said.", "quantifier": "all link sets, neighbor tables, interfaces, states of the output buffer and sizes of packets", "why_tests_cant": "The number of links and neighbors, their types, the number of interfaces and how the list is cut into messages are unbounded; which neighbors are left out depends on the combination of links on several interfaces.", "anchors": ["src/packet.c:91-288", "src/generate_msg.c:72-85", "src/build_msg.c:256-563"]}
{"id": "C120", "title": "Standard TC messages list the neighbors to advertise, and empty ones stop", "statement": "The TC messages without link quality list exactly once each symmetric neighbor that the TC redundancy asks for (MPR selectors, also MPRs, or all) under the current number of the set with TTL 255. When there is nothing to advertise any more, on every interface empty messages are sent with each TC interval for three times the validity time and none after that; a node that never had anything to advertise sends none.", "quantifier": "all neighbor tables, all sequences of calls on any interfaces at any times, all states of the output buffers", "why_tests_cant": "The behaviour depends on the whole history of earlier calls on all interfaces through two shared variables, and on times far apart.", "anchors": ["src/packet.c:320-401", "src/generate_msg.c:87-101", "src/build_msg.c:575-787", "src/main.c:606"]}
{"id": "C121", "title": "An accepted configuration is within all limits", "statement": "If the check of the configuration accepts it, every setting is within the limits of the documentation: debug level, IP version, TOS, willingness, hysteresis values, poll rate, intervals and validity times (no interval shorter than the poll rate, no validity time shorter than its interval), multipliers, link quality settings, and for several gateways the instance id (not empty, no white space), the script (an executable regular file of root), the egress interfaces (at most 32, names that fit, not an OLSR interface) and the speeds. A configuration for one gateway that is within all limits is accepted.", "quantifier": "all configurations, including floats that are infinite or not a number", "why_tests_cant": "There are dozens of settings with dependencies between them and any number of interfaces; values that are not numbers and counters that wrap around are not tried by tests.", "anchors": ["src/cfgparser/olsrd_conf.c:474-992", "src/main.c:530"]}
{"id": "C122", "title": "The tables and rules for several gateways do not collide", "statement": "If a configuration for several gateways is accepted, the numbers of the routing tables given to the egress interfaces and tunnels are all different and none is reserved (0, 253 to 255), the priorities of the policy rules given to the OLSR interfaces, egress interfaces, tunnels and the servers are all different, fit into 32 bits and none is reserved (0, 32766, 32767), and none of them is a table or priority of the routing policy.", "quantifier": "all accepted configurations: offsets, numbers of OLSR interfaces, egress interfaces and gateways", "why_tests_cant": "The numbers depend on two 32-bit offsets and three counts; the collisions occur at the borders of ranges and after truncation to 8 bits.", "anchors": ["src/cfgparser/olsrd_conf.c:688-876", "src/gateway.c:482-516", "src/gateway.c:853-902"]}
{"id": "C123", "title": "The automatic routing policy keeps explicit settings and orders its rules", "statement": "The completion of the routing policy keeps every table and priority that was configured, gives a priority to every automatic rule that smart gateways need, and the rules that will be installed have positive, increasing priorities and a table below 253.", "quantifier": "all configured tables and priorities, with or without smart gateways", "why_tests_cant": "Seven interdependent settings, each automatic, disabled or an arbitrary number; the failures need extreme numbers.", "anchors": ["src/cfgparser/olsrd_conf.c:336-472"]}
{"id": "C124", "title": "Interface options come from the interface, then the defaults, then the built-in values", "statement": "After reading a configuration file there is exactly one interface for each name in it, and each option of an interface is what the last statement in the blocks for that interface says, otherwise what the last block InterfaceDefaults says, wherever it stands, otherwise the built-in value.", "quantifier": "all sequences of blocks with any names and statements", "why_tests_cant": "Any number of blocks for any sets of interfaces in any order; the merging is done byte by byte with a trick (two copies with different fill) whose correctness has to hold for all values.", "anchors": ["src/cfgparser/oparse.y:76-136", "src/cfgparser/oparse.y:388-480", "src/cfgparser/oparse.y:978-1040", "src/cfgparser/olsrd_conf.c:912-983"]}
{"id": "C125", "title": "The link quality multiplier of a neighbor has a fixed precedence", "statement": "The multiplier used for a link is the interface's own multiplier for the address of the neighbor, otherwise that of the defaults for this address, otherwise the interface's own for all neighbors, otherwise that of the defaults for all, otherwise 1.0; among several statements of one kind the last counts.", "quantifier": "all configuration files and neighbors", "why_tests_cant": "Lists of multipliers of any length from several blocks are merged in an order that is partly reversed; a test fixes a few lists.", "anchors": ["src/cfgparser/oparse.y:94-136", "src/cfgparser/olsrd_conf.c:949-983", "src/link_set.c:313-361"]}
{"id": "C126", "title": "Options of the command line do what they say", "statement": "olsr_process_arguments accepts exactly the sequences of documented options with their values, applies them from left to right, and rejects everything else without undefined behaviour; the pairs -f file are taken out before. In particular an option about all interfaces (-bcast, -multi, -hint, -tcint, -midint, -hnaint) changes what the interfaces use.", "quantifier": "all argument lists, configurations read before, and results of the library functions for numbers and addresses", "why_tests_cant": "The argument list is unbounded; the effects that are missing show only in the packets that are sent later.", "anchors": ["src/cli.c:81-400", "src/main.c:388-401", "src/main.c:496-524", "src/cfgparser/olsrd_conf.c:177-241", "src/interfaces.c:284-318"]}
{"id": "C127", "title": "Interfaces keep the order in which they are given", "statement": "The list of interfaces, whose first working member gives the main address, has the order in which configuration files and the command line name the interfaces, each name once.", "quantifier": "all configuration files (any blocks), all lists of files, all lists of names of -i", "why_tests_cant": "Depends on the number of files and on repetitions; a test has one file.", "anchors": ["src/cfgparser/olsrd_conf.c:243-292", "src/cfgparser/oparse.y:974-1022", "src/interfaces.c:284-318", "src/cli.c:192-214"]}
{"id": "C128", "title": "The message digest is that of RFC 1321", "statement": "MD5Init, any number of calls of MD5Update and MD5Final give the digest of RFC 1321 of all the data together: however the data is cut into calls and whatever the buffer of the context held before; no call reads outside its data. Hence the CHECKSUM of the secure plugin is the MD5 digest of the bytes it is given.", "quantifier": "all byte sequences, all ways to cut them into calls, all contents of the uninitialised buffer", "why_tests_cant": "The test suite of the RFC has seven short messages in one call each; the position in the buffer and the carry in the bit count depend on all the earlier calls.", "anchors": ["lib/secure/src/md5.c:50-292", "lib/secure/src/md5.h:41-45", "lib/secure/src/olsrd_secure.c:87-95"]}
{"id": "C129", "title": "The routes of the niit devices follow the routing table", "statement": "With both niit devices up, there is a route towards niit4to6 for each entry of the routing table in the kernel which stands for an IPv4 prefix, and none for a prefix that is not in the routing table; towards niit6to4 there is one for exactly the announced prefixes that stand for IPv4. With a device down or missing there are none.", "quantifier": "all announced prefixes, all histories of routing table changes, successes and failures of the kernel, and changes of the two devices", "why_tests_cant": "Needs the two kernel devices and every order of changes of the devices and of the routing table.", "anchors": ["src/olsr_niit.c:57-167", "src/ipcalc.h:168-188", "src/process_routes.c:160-235", "src/process_routes.c:338-388", "src/interfaces.c:118-127"]}
{"id": "C130", "title": "The fingerprint by which BMF recognises a packet", "statement": "PacketCrc32 gives the CRC-32 (IEEE 802.3) of the first 256 bytes of a packet with fixed values in place of the time to live and of the header checksum, and leaves the packet as it was. Hence copies of one packet that took different ways have the same fingerprint, and packets that differ within any four consecutive bytes of those 256 (identification, address, ports) have different ones.", "quantifier": "all packets of at least 20 bytes, all lengths up to that of the packet, all positions of the four bytes", "why_tests_cant": "That no two packets with different identifications collide is a statement about all pairs of packets; it needs the step of the CRC to be injective.", "anchors": ["lib/bmf/src/PacketHistory.c:72-171", "lib/bmf/src/Packet.c:84-175", "lib/bmf/src/Bmf.c:449-455", "lib/bmf/src/Bmf.c:665-680"]}
{"id": "C131", "title": "Which packets BMF takes for copies", "statement": "CheckAndMarkRecentPacket says that a packet is a copy exactly if a packet with the same fingerprint was checked before and PrunePacketHistory has not run three seconds or more after the last of them; so copies within three seconds are always recognised, new fingerprints never, and entries of other fingerprints in the same list of the hash table do not matter.", "quantifier": "all sequences of checks and prunings with times that do not go back and prunings at most 24 days apart, all fingerprints, all start times (including the wrap of the clock)", "why_tests_cant": "Depends on all packets and prunings before, on collisions in the hash table and on the wrap of the 32-bit clock.", "anchors": ["lib/bmf/src/PacketHistory.c:180-298", "lib/bmf/src/PacketHistory.h:62-75", "lib/bmf/src/olsrd_plugin.c:116", "lib/p2pd/src/PacketHistory.c:180-298"]}
{"id": "C132", "title": "Checksums stay right when BMF rewrites the broadcast address", "statement": "CheckAndUpdateLocalBroadcast leaves a packet to a multicast address alone. In any other packet the destination becomes the broadcast address of the interface, nothing else but the header checksum and, for UDP, the UDP checksum changes, and if the checksums were right before they are right afterwards.", "quantifier": "all packets of at least 68 bytes with any options, all broadcast addresses", "why_tests_cant": "The incremental update is wrong for two out of about 2^18 values of old checksum plus address difference; tests with a few addresses do not meet them.", "anchors": ["lib/bmf/src/NetworkInterfaces.c:1868-1945", "lib/bmf/src/Address.c:113-118", "lib/bmf/src/Packet.c:106-115"]}
{"id": "C133", "title": "The BMF plugin sends each packet exactly where the protocol wants it", "statement": "For a captured or encapsulated packet that is new: each non-OLSR network other than the one it came from gets it once as it is, the local stack gets it once, and each OLSR interface gets it encapsulated for exactly the best-reached neighbors other than its source, its forwarder and its addressee, one by one up to the fan-out limit and else as one broadcast; a captured packet is relayed only if its source is no neighbor or has selected this node as MPR, an encapsulated one only if its forwarder has. Copies, later fragments, OLSR and BMF traffic and unwanted destinations are not sent anywhere. No packet goes back to the neighbor it is from.", "quantifier": "all packets, neighbor tables, interface lists, histories and times", "why_tests_cant": "Which neighbors are left depends on links, costs, two-hop edges, MPR selection and aliases together; no set of test networks covers the combinations.", "anchors": ["lib/bmf/src/Bmf.c:139-1155", "lib/bmf/src/NetworkInterfaces.c:453-982", "lib/bmf/src/Address.c:112-171", "lib/bmf/src/Packet.c:72-103"]}
{"id": "C134", "title": "Handling a packet in the BMF plugin stays in the buffer", "statement": "Whatever arrives on the capturing, listening, encapsulating and tun sockets, handling it reads and writes only the receive buffer, fails no assertion, and sends only bytes that were received.", "quantifier": "all received bytes, all former contents of the buffer, all states", "why_tests_cant": "The failures need a total length in the inner IP header that contradicts the number of bytes received; regular stacks never send such packets.", "anchors": ["lib/bmf/src/Bmf.c:139-1155", "lib/bmf/src/Packet.c:72-103", "lib/bmf/src/Packet.c:207-244"]}
{"id": "C135", "title": "Packets forwarded by the BMF plugin do not circulate", "statement": "A copy of a packet that this node has forwarded, encapsulated or on a network without OLSR, and that comes back within three seconds over any interface and from any node, with other packets handled in between, is not forwarded again.", "quantifier": "all packets, all states, all sequences of events in between", "why_tests_cant": "A broadcast storm needs two gateways between the same pair of networks and a packet kind whose fingerprint changes on the way.", "anchors": ["lib/bmf/src/Bmf.c:139-1155", "lib/bmf/src/PacketHistory.c:67-239", "lib/bmf/src/NetworkInterfaces.c:1868-1945"]}
{"id": "C136", "title": "On each network one router is master for mDNS", "statement": "After an election an interface is active exactly if no router with a lower address has been heard on it lately; routers on a network that have heard one another, and no one else, elect exactly one of them.", "quantifier": "all sequences of received introductions and elections, all sets of routers and interfaces, both address families", "why_tests_cant": "Age is counted per interface and per election, so that the outcome depends on the number of interfaces and on how the timers of several routers interleave.", "anchors": ["lib/mdns/src/RouterElection.c:79-291", "lib/mdns/src/mdns.c:639-702", "lib/mdns/src/NetworkInterfaces.c:86-87"]}
{"id": "C137", "title": "The mDNS plugin sends what it received on its networks, and changes nothing else", "statement": "A packet in an mDNS message is sent once on each active interface, with time to live 1 if that is checked and with a right header checksum, and else as it was captured; no other byte of the received OLSR packet is changed, and messages of this node or from a node that is no symmetric neighbor are dropped.", "quantifier": "all packets, all lists of interfaces, all contents of the receive buffer around the message", "why_tests_cant": "Needs messages whose inner length disagrees with their size, interfaces in a certain order, and a look at the rest of the receive buffer.", "anchors": ["lib/mdns/src/mdns.c:89-303"]}
{"id": "C138", "title": "What is captured on one network arrives on the others", "statement": "A captured frame is put into an OLSR message exactly if this router is master on that interface and it is a multicast DNS packet that may be passed on; another router that gets the message sends the packet on each of its active interfaces; nothing but the packet is in the message.", "quantifier": "all frames, all filters and contents of the stack, the receive buffer and the rest of the received packet", "why_tests_cant": "The result can depend on uninitialised memory and on the frame captured before; a test sees one content of memory.", "anchors": ["lib/mdns/src/mdns.c:89-303", "lib/mdns/src/mdns.c:395-606"]}
{"id": "C139", "title": "The kernel settings are in force while olsrd runs, and put back when it ends", "statement": "While olsrd runs, IP forwarding is on (if configured) and ICMP redirects and source address filters are off, globally, for the tunnel and for each interface that came up, as far as the entries can be written; when it ends every entry has the value it had before.", "quantifier": "all configurations, all contents and permissions of the entries, all sequences of interfaces coming up and going away", "why_tests_cant": "Tests do not run as root on a kernel whose interfaces go away and come back, nor look at the settings after the daemon has ended in each of its ways.", "anchors": ["src/linux/net.c:133-364", "src/unix/ifnet.c:497-768", "src/interfaces.c:378-440", "src/main.c:199-360", "src/olsr.c:565-583"]}
{"id": "C140", "title": "At most one olsrd runs with a lock file", "statement": "A process that gets the lock keeps it until it ends, and no other process gets it in the meantime; a process that is alone gets it, whatever happened before.", "quantifier": "all sequences of attempts, ends and kills of any number of processes", "why_tests_cant": "Needs several processes, a file that is removed while it is locked, and retries.", "anchors": ["src/lock_file.c:89-191", "src/main.c:696-701"]}
{"id": "C141", "title": "The PID file names the running process", "statement": "After the start the PID file contains the number of the process in decimal, and nothing else, whatever runs there were before.", "quantifier": "all sequences of process numbers", "why_tests_cant": "The numbers of the processes of a test seldom differ in length.", "anchors": ["src/pid_file.c:57-114", "src/main.c:692-694"]}
{"id": "C142", "title": "Policy rules come and go with olsrd", "statement": "While olsrd runs each configured policy rule is in the kernel once, among them one for each of its interfaces; rules of others stay, and when it ends those of olsrd are gone.", "quantifier": "all configurations with distinct priorities, all sets of interfaces, all rules of others", "why_tests_cant": "The rules are in the kernel; interfaces must go away and come while the daemon runs.", "anchors": ["src/main.c:285-321", "src/main.c:713-733", "src/linux/kernel_routes_nl.c:275-305"]}
{"id": "C143", "title": "The gateway filter keeps out the gateways of filtered nodes, and nothing else", "statement": "With the filtergw plugin the announcements of internet gateways by filtered originators are neither used nor forwarded; all other announcements, and the messages that follow in the packet, are processed unchanged.", "quantifier": "all configurations of the plugin, all HNA messages, all contents of the buffer behind them, IPv4 and IPv6", "why_tests_cant": "Needs an HNA flood of mixed announcements and a look at both the tables of the node and what it forwards.", "anchors": ["lib/filtergw/src/olsrd_filtergw.c:151-244", "lib/filtergw/src/olsrd_filtergw.c:266-307", "src/parser.c:391-405"]}
{"id": "C144", "title": "The values of plugin parameters mean what they say", "statement": "A port, integer or long parameter is accepted if and only if its value is a number in range, and then that number is stored; a boolean if it is yes, true, no or false in any case; a string if it fits with its end into the memory of the parameter.", "quantifier": "all values, all sizes of the memory", "why_tests_cant": "The range of values is not limited; only the ends of the ranges tell a cut number from a refused one.", "anchors": ["src/plugin_util.c:52-72", "src/plugin_util.c:97-167"]}
{"id": "C145", "title": "Plugins get their parameters in order and are initialized once", "statement": "When olsrd starts with a configuration, each plugin gets exactly its own parameters in order and is then initialized once; if a plugin cannot be loaded, does not know or refuses a parameter, or fails to initialize, olsrd does not start.", "quantifier": "all configurations, all plugins (any parameter table, any answer to any value)", "why_tests_cant": "Plugins are arbitrary shared objects.", "anchors": ["src/plugin_loader.c:66-80", "src/plugin_loader.c:163-310"]}
{"id": "C146", "title": "The host switch applies exactly the link qualities that were set, and forwards with that chance", "statement": "In olsr_switch the command link [bi] src dst q changes the quality of exactly the links it names (both directions with bi, every client for a wildcard, never a client to itself), 100 removing the entry; a command with an unknown client or a quality outside 0-100 changes nothing. A packet of a client reaches every other connected client without an entry, none whose entry is 0, never the client itself, and a client whose entry is q with a chance of q percent. Links of a client that left are forgotten.", "quantifier": "all histories of connects, leaves and link commands, all packets and all random numbers", "why_tests_cant": "The table of links is changed by arbitrary sequences of commands with wildcards in both places, and the decision depends on random numbers; a test samples a few of both.", "anchors": ["src/olsr_switch/link_rules.c:55-158", "src/olsr_switch/ohs_cmd.c:226-354", "src/olsr_switch/main.c:123-281", "src/olsr_switch/commands.h:67-70", "src/olsr_random.h:57-79"]}
{"id": "C147", "title": "The scanner reads a configuration file as the words it consists of", "statement": "A file made of keywords, decimal and hexadecimal numbers, floating point numbers, IPv4 and IPv6 addresses, quoted strings, slashes, braces, blanks, line ends and comments gives exactly the corresponding tokens in order and the right number of lines; comments have no effect, unknown text is reported, decimal digits give their decimal value, every IPv6 text form is one address. For any file at all, the whole file is read and every token stands in it in the form that belongs to its kind.", "quantifier": "all files, of any bytes and any length", "why_tests_cant": "The longest-match rule makes every rule interact with every other on arbitrary text; tests only cover the files somebody wrote.", "anchors": ["src/cfgparser/oscan.lex:76-802", "src/cfgparser/olsrd_conf.h:56-61", "src/cfgparser/olsrd_conf.c:243-256"]}
{"id": "C148", "title": "The checksum of the configuration is a function of its words", "statement": "The checksum that olsrd reports for its configuration is always defined, is eight hexadecimal digits, is the same for files that differ only in blanks, line ends and comments, and differs for configurations that differ.", "quantifier": "all files and all command lines", "why_tests_cant": "That blanks and comments never matter is about all pairs of files; the undefined shift depends on the length of a word modulo four and on its last character.", "anchors": ["src/superfasthash.c:44-100", "src/cfgparser/olsrd_conf_checksum.c:54-110", "src/cfgparser/oscan.lex:169-799", "src/main.c:436-437"]}
{"id": "C149", "title": "The numbers of a position update survive the wire", "statement": "The validity time read from a position update is the nearest that the field can express; the time read is the time of the sender when the clocks differ by less than twelve hours; altitude, speed and track are rounded to whole units and limited to their ranges.", "quantifier": "all validity times, instants, base times, altitudes, speeds and tracks", "why_tests_cant": "The validity fails only at the borders of the exponents, the time only near midnight and at leap seconds; tests take a few values.", "anchors": ["lib/pud/wireformat/src/wireFormat.c:70-117", "lib/pud/wireformat/src/wireFormat.c:346-396", "lib/pud/wireformat/src/wireFormat.c:538-626", "lib/pud/wireformat/include/OlsrdPudWireFormat/wireFormat.h:89-153"]}
{"id": "C150", "title": "A position update is relayed to the LAN once", "statement": "With de-duplication of depth N an update from the OLSR network becomes a sentence on the LAN exactly when it is not the node's own, has the known version and is none of the last N updates that were looked at; so the same update is relayed twice only when more than N others came in between. No update and no configured depth makes the daemon use memory outside of the list or of the message.", "quantifier": "all sequences of messages, depths, IP versions and configurations", "why_tests_cant": "The list is a ring whose wrapping depends on the depth and the history; the overflow of its size needs a depth near 2^60.", "anchors": ["lib/pud/src/dedup.c:77-201", "lib/pud/src/pud.c:175-207", "lib/pud/src/gpsConversion.c:84-160", "src/parser.c:393-400"]}
{"id": "C151", "title": "A datagram of the downlink is unpacked into its messages", "statement": "From a datagram of the downlink every position update for the IP version of the node is taken, once and in order, sent to the OLSR network by a gateway and to the LAN; other messages are skipped. For every datagram the loop ends, only the bytes received are looked at and only position updates are sent on.", "quantifier": "all datagrams, all rests in the buffer, all configurations", "why_tests_cant": "Datagrams come from the network; the endless loop needs one certain length, and reads beyond the datagram depend on what an earlier one left in the buffer.", "anchors": ["lib/pud/src/pud.c:66-70", "lib/pud/src/pud.c:215-303", "lib/pud/wireformat/include/OlsrdPudWireFormat/wireFormat.h:361"]}
{"id": "C152", "title": "A node id is shown by a receiver as it was configured", "statement": "For every nodeId parameter that is accepted, the position update fits the transmit buffer, contains nothing but the update, and a receiver shows the id as it was configured: numbers without needless zeros, MAC addresses in hexadecimal pairs, names unchanged, UUIDs in small letters. A received id is read only from the message and does not change the fields of the sentence.", "quantifier": "all types, ids, IP versions, contents of the stack and received messages", "why_tests_cant": "The failures depend on zeros at certain digits, on names of nearly a thousand characters, on the contents of the stack and on where a message ends.", "anchors": ["lib/pud/src/configuration.c:158-497", "lib/pud/src/configTools.c:230-250", "lib/pud/wireformat/src/nodeIdConversion.c:83-411", "lib/pud/wireformat/src/wireFormat.c:676-889", "lib/pud/src/gpsConversion.c:256-376", "lib/pud/src/receiver.c:112-301", "lib/pud/nmealib/src/validate.c:29-95"]}
{"id": "C153", "title": "Packets captured by the P2PD plugin enter the OLSR network as they were", "statement": "A captured frame with a UDP packet to a configured address and port becomes one OLSR message with exactly the packet and padding; other frames are ignored. With the decrement of the time to live the packet loses one hop, its header checksum is right, and a packet without hops left is dropped. No frame is written outside of the buffer, nothing of the stack is sent, and every packet that fits a link of 1500 bytes is relayed.", "quantifier": "all packets, configurations, contents of the stack and frame types", "why_tests_cant": "The wrong checksum needs a sum of words with a second carry, about one packet in thousands; the overflow needs frames of more than 2040 bytes; the leak is in bytes nobody looks at.", "anchors": ["lib/p2pd/src/p2pd.c:459-512", "lib/p2pd/src/p2pd.c:614-865", "lib/p2pd/src/Packet.c:60-190", "lib/p2pd/src/NetworkInterfaces.h:62"]}
{"id": "C154", "title": "The fingerprints of the P2PD plugin recognise copies of a packet and nothing else", "statement": "With UseHashFilter, a copy of a packet that comes within three seconds, also with another time to live, is dropped; a different packet is not; and no packet ends the daemon.", "quantifier": "all packets, times, and contents of the buffer", "why_tests_cant": "The fingerprint is taken eight bytes behind the start of the packet and its length is the header checksum, so most tests with identical or clearly different packets pass.", "anchors": ["lib/p2pd/src/p2pd.c:1169-1202", "lib/p2pd/src/PacketHistory.c:139-298", "lib/p2pd/src/Packet.c:165-190", "lib/p2pd/src/Packet.h:64-74"]}
{"id": "C155", "title": "The P2PD plugin puts a packet on the LAN once, whole, and to the right hardware address", "statement": "The packet of a message that is not the own one and not a copy within the time-out is sent once on each interface outside of OLSR if its address and port are configured, with the hardware address of its group, with exactly the bytes of the packet and none from behind the message. A packet captured by one node is put on the LANs of another as it was.", "quantifier": "all packets, messages, sequences of messages and interfaces", "why_tests_cant": "Lengths that exceed the message come only from hostile or broken nodes; copies depend on times and sequence numbers.", "anchors": ["lib/p2pd/src/p2pd.c:113-283", "lib/p2pd/src/p2pd.c:302-457", "lib/p2pd/src/Packet.c:118-150", "lib/p2pd/src/dllist.c:57-143"]}
{"id": "C156", "title": "The dyn_gw plugin announces a network while there is a route to it and a ping is answered", "statement": "After the timer has read the routing table, a configured network is in the list of announced networks just if the table has a route to it that is up and is not one of olsrd's own, and the last ping of its section of the configuration was answered (or no address to ping is configured). Sections with a route are pinged within a bounded number of steps, pings go to the addresses of the section, and entries for other networks stay.", "quantifier": "all configurations of sections with distinct networks, routing tables, answers to pings and interleavings of timer and thread", "why_tests_cant": "It depends on the kernel's routing table, on a second thread and on hosts that answer or not, in every order.", "anchors": ["lib/dyn_gw/src/olsrd_dyn_gw.c:149-213", "lib/dyn_gw/src/olsrd_dyn_gw.c:253-312", "lib/dyn_gw/src/olsrd_dyn_gw.c:340-600", "src/cfgparser/olsrd_conf.c:1463-1503"]}
{"id": "C157", "title": "The networks of the dyn_gw plugin are checked as configured, in whatever order they are listed", "statement": "If addresses to ping are configured, a network is announced only after one has answered, whatever the order of the parameters; a network listed in two sections is announced if either answers; the network announced has the configured netmask.", "quantifier": "all lists of parameters and all runs", "why_tests_cant": "Tests use configurations like that of the README.", "anchors": ["lib/dyn_gw/src/olsrd_dyn_gw.c:149-213", "lib/dyn_gw/src/olsrd_dyn_gw.c:253-275", "lib/dyn_gw/src/olsrd_dyn_gw.c:413-429", "src/ipcalc.c:114-164"]}
{"id": "C158", "title": "The dyn_gw_plain plugin announces the default route while the node has one", "statement": "After an event that could read the routing table the default route is announced just if the table has a default route that is up; other announced networks stay.", "quantifier": "all lists of announced networks and sequences of routing tables", "why_tests_cant": "The plugin reads the kernel's routing table; metrics depend on who wrote the route.", "anchors": ["lib/dyn_gw_plain/src/olsrd_dyn_gw_plain.c:110-212"]}
{"id": "C159", "title": "Only hosts that may connect get anything from the front end socket", "statement": "Data that olsrd sends on its socket for front ends goes only to connections from this host or from a host in one of the configured networks (IpcConnect), for both versions of IP, and the check reads only the address of the peer.", "quantifier": "all configurations, sequences of connections, messages and failures of send", "why_tests_cant": "It is about all hosts that are not configured and about orders of connections, refusals and failures.", "anchors": ["src/ipc_frontend.c:142-222", "src/ipc_frontend.c:287-403", "src/ipcalc.c:236-262"]}
{"id": "C160", "title": "A connected front end is told the state, the routes and every message until it leaves", "statement": "A front end that may connect gets the state of the node, one record for each route and then each OLSR message as it was received, and is told when routes change; other connections do not disturb it, descriptors are given back, and connections never end olsrd.", "quantifier": "all routing tables, interfaces, messages and sequences of connections", "why_tests_cant": "Leaks show after hundreds of connections; the interplay with refused hosts needs two machines and a certain order.", "anchors": ["src/ipc_frontend.c:142-168", "src/ipc_frontend.c:199-222", "src/ipc_frontend.c:287-403", "src/interfaces.c:268-272", "src/unix/ifnet.c:695-697"]}
{"id": "C161", "title": "The arprefresh plugin writes to the ARP cache what OLSR frames say, and only that", "statement": "The filter of the packet socket accepts a frame just if it carries UDP to port 698 in an IPv4 datagram that is no later fragment; every request for the ARP cache names the interface, the IP address and the hardware address of the sender of such a frame, in the order of the frames and each frame at most once, and each frame that finds room leads to one.", "quantifier": "all frames, sequences of frames and timer events", "why_tests_cant": "The filter runs in the kernel as a program of eleven instructions; frames with other header lengths, fragments and short frames are rare.", "anchors": ["lib/arprefresh/src/olsrd_arprefresh.c:103-164", "lib/arprefresh/src/olsrd_arprefresh.c:169-218"]}
{"id": "C162", "title": "The ARP cache stays right with the arprefresh plugin", "statement": "An entry that the plugin writes is that of the host which owns the address, as last heard; a request that fails does not end the refreshing.", "quantifier": "all frames and sequences of events", "why_tests_cant": "Needs hostile or moving hosts and failures of the kernel.", "anchors": ["lib/arprefresh/src/olsrd_arprefresh.c:116-164"]}
{"id": "C163", "title": "The movement state of the PUD plugin follows its reports with the configured hysteresis", "statement": "What the plugin shows for its position and for its gateway changes to stationary or to moving just when as many consecutive reports as configured say so, and to moving at once when position information begins or stops; the node is moving just if one of the two is, and each call reports just the changes of these states.", "quantifier": "all thresholds and all sequences of reports", "why_tests_cant": "The state depends on the whole history of two interleaved kinds of reports and on four thresholds of 64 bits.", "anchors": ["lib/pud/src/state.c:60-234"]}
{"id": "C164", "title": "The PUD plugin sends updates when the movement state changes and at the interval of the state", "statement": "The timers for updates have the configured interval of the current movement state. An update is sent at once just if the movement state changes. Every update has the cluster leader of the last check and, while moving, the newest position; a stationary node sends no speed; a new cluster leader is sent at once by a stationary node.", "quantifier": "all configurations and all sequences of positions, checks of the gateway and timer events", "why_tests_cant": "Needs interleavings of GPS reports, gateway checks and timers over a long time, and unusual intervals.", "anchors": ["lib/pud/src/receiver.c:174-315", "lib/pud/src/receiver.c:518-595", "lib/pud/src/receiver.c:879-951", "lib/pud/src/timers.c:160-260"]}
{"id": "C165", "title": "The cluster leader is the usable gateway with the most bandwidth and the lowest address", "statement": "The plugin chooses among the gateways that can be reached, have bandwidth in both directions and are in use or of a usable kind one with the largest sum of uplink and downlink, of several with the same sum the one with the lowest address; without one it chooses the node itself.", "quantifier": "all sets of gateways and settings", "why_tests_cant": "There are arbitrary sets of gateways; ties between certain addresses on hosts of one byte order are not tried.", "anchors": ["lib/pud/src/uplinkGateway.c:57-140", "src/ipcalc.h:71-86"]}
{"id": "C166", "title": "The httpinfo plugin answers a GET with the page of that name, everything else with an error, and bounded reads", "statement": "A complete GET request for '/' and the name of a page from an allowed peer is answered with status 200 and that page, for '/' with the configuration page, for any other name with 404, other methods with 400; the reply announces the length of its body. Peers that are not allowed get nothing. No request makes the plugin read outside its buffers or print uninitialised ones.", "quantifier": "all byte strings sent by a client, all page contents and dates", "why_tests_cant": "Requests are arbitrary byte strings: oversized ones, ones with NUL bytes, without a version or a blank line, and pauses in between.", "anchors": ["lib/httpinfo/src/olsrd_httpinfo.c:332-557", "lib/httpinfo/src/olsrd_httpinfo.c:612-663", "lib/httpinfo/src/olsrd_httpinfo.c:111-113"]}
{"id": "C167", "title": "Replies of the httpinfo plugin reach their peer complete and in order", "statement": "What goes to a socket is a start of its one reply; the socket is closed only after all of it was sent or a write failed, and nothing follows. At most three replies wait, and the timer runs while one does. If the sockets take bytes, every reply is delivered completely. Every timer event serves each socket that takes bytes, and every client is taken.", "quantifier": "all sequences of requests and timer events with all results of select and write", "why_tests_cant": "Needs interleavings of several slow clients with partial and failing writes.", "anchors": ["lib/httpinfo/src/olsrd_httpinfo.c:530-557", "lib/httpinfo/src/olsrd_httpinfo.c:560-608", "lib/httpinfo/src/olsrd_httpinfo.c:348-351"]}
{"id": "C168", "title": "The speed file sets the uplink and downlink of the gateway to the numbers in it", "statement": "When the file with the speeds of the gateway has changed, each of the two speeds becomes the number of the last line that names it, comments, blank lines and white space around names and numbers do not matter, numbers that the configuration would refuse are refused, and speeds that are not named are kept. A missing or unchanged file changes nothing.", "quantifier": "all file contents, times and current speeds", "why_tests_cant": "File contents are arbitrary: long lines, blanks in odd places, signs and huge numbers.", "anchors": ["lib/sgwdynspeed/src/speedFile.c:66-77", "lib/sgwdynspeed/src/speedFile.c:117-151", "lib/sgwdynspeed/src/speedFile.c:226-340", "src/olsr_cfg.h:460-472"]}
{"id": "C169", "title": "The willingness follows the power supply", "statement": "With willingness set to follow the power supply, a node on AC power announces willingness 6, a node without information about its power supply the default 3, and a node on battery 3 above 78 percent of charge, 2 between 26 and 78 percent and 1 below, computed from the remaining and the last full capacity that the files of the kernel give. Any contents of these files are read without touching memory that was not set or is outside the arrays.", "quantifier": "all contents of the files in /proc/acpi and /proc/apm", "why_tests_cant": "The files differ from machine to machine, and long words, blank lines and large capacities never show on the tested ones.", "anchors": ["src/linux/apm.c:120-160", "src/linux/apm.c:162-219", "src/linux/apm.c:221-295", "src/linux/apm.c:297-366", "src/olsr.c:460-485"]}
{"id": "C170", "title": "The NMEA reader delivers exactly the valid sentences of a stream", "statement": "For a reader with any buffer size and any stream of bytes given in any pieces, the sentences that are handed on are exactly those that start with $, consist of allowed characters, optionally carry * and two hexadecimal digits equal to the exclusive or of the characters between, end with CR LF and fit the buffer, in their order and without the end of line. Other bytes are skipped and nothing outside the buffer is written.", "quantifier": "all buffer sizes, all byte streams and all ways to cut them", "why_tests_cant": "Streams are unbounded and interrupted anywhere; wrong parities, sentences inside of sentences and lengths around the buffer size need all combinations.", "anchors": ["lib/pud/nmealib/src/parser.c:35-88", "lib/pud/nmealib/src/parser.c:103-208", "lib/pud/nmealib/src/parser.c:210-232", "lib/pud/nmealib/src/validate.c:29-77"]}
{"id": "C171", "title": "NMEA sentences are printed with their checksum and inside the buffer", "statement": "Printing a sentence writes its text, * and the exclusive or of its characters in hexadecimal, CR, LF and NUL, and returns the number of characters; with a buffer that is too small it returns the number that would be needed, and in every case only the buffer is read and written.", "quantifier": "all texts and all buffer sizes", "why_tests_cant": "Reading behind the buffer gives no visible error, and only some sizes of text and buffer do it.", "anchors": ["lib/pud/nmealib/src/util.c:106-124", "lib/pud/nmealib/src/util.c:236-250", "lib/pud/nmealib/src/util.c:252-279"]}
{"id": "C172", "title": "The fields of an NMEA sentence are read as their format says", "statement": "Reading a sentence against the format of its kind stores each field as that field says: a text of less than 16 characters, a letter in upper case, a number with its decimal value, and nothing for an empty field; a sentence with fewer fields gives their number. A field that is not the number the format asks for refuses the sentence. Whatever the sentence, texts fit their arrays and only the string with its NUL is read.", "quantifier": "all sentences, all lists of fields and all formats of the kinds that the parsers use", "why_tests_cant": "The fields can have any length and content, and tests use sentences that receivers produce, without trailing characters or long runs of digits.", "anchors": ["lib/pud/nmealib/src/util.c:126-233", "lib/pud/nmealib/src/util.c:282-481"]}
{"id": "C173", "title": "The time and the date of an NMEA sentence are read as the standard writes them", "statement": "The time field HHMMSS with no fraction or one to three decimals, with spaces around it or not, gives that time to the nearest hundredth of a second, and the date field DDMMYY gives that day in the years 1991 to 2090. Fields that are something else, or out of range, refuse the sentence, and an empty field is absent. Whatever the field holds, a time or a date that is stored is in range.", "quantifier": "all contents of the fields", "why_tests_cant": "The fields hold arbitrary text from a receiver or a multicast sender, and the failing readings are five milliseconds in a second and one year in a hundred.", "anchors": ["lib/pud/nmealib/src/info.c:95-170", "lib/pud/nmealib/src/validate.c:97-131", "lib/pud/nmealib/src/util.c:64-104", "lib/pud/nmealib/src/gprmc.c:81-93", "lib/pud/nmealib/src/gprmc.c:160-171"]}
{"id": "C174", "title": "The satellites of a series of GPGSV sentences reach the position information", "statement": "A GPGSV sentence is read as its fields say if its counters fit each other and its satellites are possible. Its satellites go to the places that its number gives, the ones before stay and the ones behind are cleared, and nothing outside of the array is written. The sentences made from one position information, taken in order, bring the same satellites and the same number into any other one, and no more satellites are in the array than the number says.", "quantifier": "all sentences, all numbers of satellites and all earlier contents of the array", "why_tests_cant": "The array is filled over several sentences, each with counters chosen by the sender, and an index outside of it gives no visible error.", "anchors": ["lib/pud/nmealib/src/gpgsv.c:28-292", "lib/pud/nmealib/src/validate.c:205-227"]}
{"id": "C175", "title": "Sanitising a position ends, and gives the same point in range", "statement": "For every finite latitude and longitude in the form DDMM.MMMM, nmeaInfoSanitise ends with a latitude from 90 degrees south to 90 degrees north and a longitude from 180 degrees west to 180 degrees east that are the same point of the earth. A time that is present is a time of day afterwards, and stays as it was if it was one.", "quantifier": "all finite doubles for latitude and longitude, all times", "why_tests_cant": "Tests try a few multiples of the ranges; the loops depend on the rounding of numbers of any size, and the folding over a pole on the minutes.", "anchors": ["lib/pud/nmealib/src/info.c:216-492"]}
{"id": "C176", "title": "The satellites in use are those of the last sentence", "statement": "For every GPGSA sentence that is accepted and names a satellite, nmeaGPGSAToInfo makes the satellites in use exactly those that the sentence names, in its order, and counts them; a sentence that names none leaves them. The mode and the fix stored are possible ones, a complete sentence is read as its fields say, and a sentence made by nmeaGPGSAFromInfo from up to twelve satellites brings the same satellites back.", "quantifier": "all sentences, all earlier satellites in use", "why_tests_cant": "Tests parse into a cleared info; what stays behind depends on the sentences that came before.", "anchors": ["lib/pud/nmealib/src/gpgsa.c:30-238"]}
{"id": "C177", "title": "The position file is used as a whole or not at all, and its last settings count", "statement": "For every file of comments and valid settings whose time differs from that of the last one read, readPositionFile gives each of the signal, the fix and the numbers the value of the last line with its name, and leaves it absent if there is none. A file with an unknown name or an impossible value leaves the position as it was, as does one that is gone or whose time is that of the last one. The descriptor of the file is closed once, an indented setting counts, and a comment may have any length.", "quantifier": "all sequences of lines, all texts for the file, all earlier positions, any way to read numbers", "why_tests_cant": "Tests use a few tidy files; repeated names, blanks, half-valid files and long lines combine without limit, and a second close is silent unless another thread opened a file in between.", "anchors": ["lib/pud/src/posFile.c:62-373", "lib/pud/src/posFile.h:84-118", "lib/pud/src/configTools.c:267-285"]}
{"id": "C178", "title": "A GPGGA sentence gives the position that its fields say", "statement": "For every GPGGA sentence that nmeaGPGGAParse accepts, the letters of the latitude and the longitude, the signal and the time are possible ones; nmeaGPGGAToInfo stores the southern latitudes and the western longitudes as negative numbers, every field as it is written, and leaves what an empty field does not say. Every position information comes back from the sentence made of it. The number of satellites and the coordinates are in their ranges.", "quantifier": "all sentences, all earlier position informations, any reading of numbers", "why_tests_cant": "Any of fourteen fields may be empty or wrong, in every combination, and what was known before shows through.", "anchors": ["lib/pud/nmealib/src/gpgga.c:30-319", "lib/pud/nmealib/src/validate.c:133-182"]}
{"id": "C179", "title": "A GPVTG sentence gives the track and the speed that its fields say", "statement": "A GPVTG sentence is accepted just if each number in it has its unit. nmeaGPVTGToInfo then stores the track, the magnetic track and the speed in km/h, from the knots if only they are given, and leaves what an empty field does not say. Every information comes back from the sentence made of it. The two speeds of a sentence agree and the track is below 360 degrees.", "quantifier": "all sentences, all earlier informations, any reading of numbers and any conversion of units", "why_tests_cant": "Each of the eight fields may be empty or have another unit; tests cover a few of the combinations.", "anchors": ["lib/pud/nmealib/src/gpvtg.c:28-194"]}
{"id": "C180", "title": "A GPRMC sentence gives the signal and the position that its fields say, and one marked void makes the signal invalid", "statement": "For every GPRMC sentence that nmeaGPRMCParse accepts with a status and a mode, nmeaGPRMCToInfo sets the signal of the mode if the status is A, and the invalid signal if it is V; the other fields are stored as they are written and empty ones leave what was known. Every information with a signal from 0 to 8 comes back from the sentence made of it. After a sentence with status V the signal is invalid.", "quantifier": "all sentences, all earlier informations, any reading of numbers and any conversion of units", "why_tests_cant": "Twelve fields may each be empty, sentences come with and without the mode, and whether a stale signal stays depends on what was received before.", "anchors": ["lib/pud/nmealib/src/gprmc.c:29-336", "lib/pud/nmealib/src/info.c:27-93", "lib/pud/nmealib/src/validate.c:184-204"]}
