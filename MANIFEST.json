{
 "claims": [
  {
   "property": "C01",
   "status": "proved",
   "theorems": [
    "C01_validity_time_accuracy",
    "C01_validity_time_total",
    "C01_validity_time_monotone",
    "C01_validity_time_saturates"
   ],
   "note": ""
  },
  {
   "property": "C02",
   "status": "partial",
   "theorems": [
    "C02_reencoding_refuted",
    "C02_reencoding_stable_partial"
   ],
   "note": "False below 2 s: decoding truncates to whole milliseconds, re-encoding then loses one mantissa step. Proved stable for exponents >= 5 and never growing."
  },
  {
   "property": "C03",
   "status": "partial",
   "theorems": [
    "C03_accepted_once_refuted",
    "C03_accepted_once_partial",
    "C03_position_of_number"
   ],
   "note": "False for the message that creates a record (its bit is not set), which can be accepted a second time. Proved for all others."
  },
  {
   "property": "C04",
   "status": "proved",
   "theorems": [
    "C04_fresh_accepted",
    "C04_unknown_accepted"
   ],
   "note": ""
  },
  {
   "property": "C05",
   "status": "proved",
   "theorems": [
    "C05_originators_independent",
    "C05_restart_heard"
   ],
   "note": ""
  },
  {
   "property": "C06",
   "status": "proved",
   "theorems": [
    "C06_netmask_bits",
    "C06_prefix_roundtrip",
    "C06_netmask_length"
   ],
   "note": ""
  },
  {
   "property": "C07",
   "status": "partial",
   "theorems": [
    "C07_message_refuted",
    "C07_noncontiguous_refuted",
    "C07_accepted_mask_partial"
   ],
   "note": "False: the scan stops at the first byte that is not 255, later one bits are ignored (255.0.255.0 is accepted as /8). Proved what is accepted and rejected."
  },
  {
   "property": "C08",
   "status": "proved",
   "theorems": [
    "C08_in_net"
   ],
   "note": ""
  },
  {
   "property": "C09",
   "status": "partial",
   "theorems": [
    "C09_timeout_exact",
    "C09_time_due_refuted",
    "C09_time_due_partial"
   ],
   "note": "Expiry is exact; the remaining time is off by one millisecond across the 32-bit wrap."
  },
  {
   "property": "C10",
   "status": "proved",
   "theorems": [
    "C10_jitter_bounds"
   ],
   "note": ""
  },
  {
   "property": "C11",
   "status": "partial",
   "theorems": [
    "C11_walk_exact",
    "C11_wrap_refuted",
    "C11_full_turn",
    "C11_terminates",
    "C11_zero_interval_refuted",
    "C11_no_freed_timer"
   ],
   "note": "Proved for walks that do not span the 32-bit wrap (C11_walk_exact) and after a full turn (C11_full_turn); at the wrap a due timer is passed over (C11_wrap_refuted). C11_zero_interval_refuted: timers set for 0 ms can keep the walk from ending."
  },
  {
   "property": "C12",
   "status": "partial",
   "theorems": [
    "C12_in_bounds_partial",
    "C12_short_datagram_refuted"
   ],
   "note": "Proved for datagrams of 4 or more bytes; for 1 to 3 bytes the unsigned byte count wraps and the parser replays stale buffer content and reads beyond it (C12_short_datagram_refuted)."
  },
  {
   "property": "C13",
   "status": "proved",
   "theorems": [
    "C13_handlers_and_forwarding",
    "C13_messages_determined",
    "C13_unregister"
   ],
   "note": ""
  },
  {
   "property": "C14",
   "status": "partial",
   "theorems": [
    "C14_reads_beyond_refuted",
    "C14_short_hello_refuted",
    "C14_ends_and_list_safe_partial"
   ],
   "note": "False: the block size field is never compared with the message or the buffer (PropHello C14_*_refuted). Proved for all bytes: decoding ends and the list surgery never touches freed or NULL nodes; for well-formed messages reads stay inside (C15)."
  },
  {
   "property": "C15",
   "status": "proved",
   "theorems": [
    "C15_decode_exact",
    "C15_members"
   ],
   "note": "Exact result for every well-formed HELLO/LQ HELLO, with the culling modelled at pointer level."
  },
  {
   "property": "C16",
   "status": "partial",
   "theorems": [
    "C16_decision",
    "C16_bounded",
    "C16_after_empty_refuted"
   ],
   "note": "While links of the originator are known: exact decision and the bound of 33 ignored messages proved. After a message without links: refuted (an older message is accepted at once)."
  },
  {
   "property": "C17",
   "status": "partial",
   "theorems": [
    "C17_message_exact",
    "C17_pieces_partial",
    "C17_lost_pieces_partial",
    "C17_little_endian_refuted",
    "C17_restart_refuted",
    "C17_ones_refuted"
   ],
   "note": "One message: exact. All pieces received: exact except the address of all ones (refuted). Lost pieces keep their links if addresses are compared in network order; refuted for IPv4 on little endian machines, and after a restart of the originator."
  },
  {
   "property": "C18",
   "status": "partial",
   "theorems": [
    "C18_link_graph_partial",
    "C18_removed_partial",
    "C18_main_change_refuted"
   ],
   "note": "Pointer-level model of originators, links, prefixes and reference counts. Proved for all histories in which this node's own entry does not expire and the main address does not become that of a known originator (C18_main_change_refuted shows what happens then: the node's own entry is not in the tree and is later removed from it all the same)."
  },
  {
   "property": "C19",
   "status": "partial",
   "theorems": [
    "C19_shortest_paths_partial",
    "C19_overflow_refuted"
   ],
   "note": "Dijkstra on the pointer-level database of C18, including the refresh of this node's own links. The sum of costs must not reach 2^32-1 (entries times largest link cost); C19_overflow_refuted shows what happens otherwise."
  },
  {
   "property": "C20",
   "status": "partial",
   "theorems": [
    "C20_next_hop_partial",
    "C20_stale_link_refuted"
   ],
   "note": "Proved when every link of this node leads to somebody in the neighbor table; C20_stale_link_refuted: a link left behind when an interface goes away hides a node that is still reachable. The hop count is modulo 256."
  },
  {
   "property": "C21",
   "status": "partial",
   "theorems": [
    "C21_best_path",
    "C21_plain",
    "C21_gateway_refuted"
   ],
   "note": "Proved for every set of offered paths when the gateway scaling is fixed (C21_best_path); C21_gateway_refuted: with the gateway hysteresis the comparison is not an order and the chosen default route depends on which paths are looked at first."
  },
  {
   "property": "C22",
   "status": "partial",
   "theorems": [
    "C22_flat_partial",
    "C22_accepting_partial",
    "C22_rejected_refuted",
    "C22_linklocal_refuted",
    "C22_ifdown_refuted",
    "C22_unflushed_refuted"
   ],
   "note": "Proved for all histories: IPv4 flat metric even with refused requests; every metric and IPv6 if requests are accepted and interfaces flush. Refuted otherwise: a refused replacement, link-local destinations, and an interface lost after a path was removed leave the kernel different for good."
  },
  {
   "property": "C23",
   "status": "partial",
   "theorems": [
    "C23_cover_partial",
    "C23_select_partial",
    "C23_optimize_refuted",
    "C23_greedy_refuted"
   ],
   "note": "Proved when no two-hop neighbor has more neighbors than the coverage asks for (the selection alone: one more). Refuted in general: the optimisation removes all relays of a ring, and the greedy choice stops early because its counters go down once per MPR."
  },
  {
   "property": "C24",
   "status": "proved",
   "theorems": [
    "C24_cheapest"
   ],
   "note": "For all neighborhoods, costs and coverages. A symmetric neighbor without any link (get_best_link_to_neighbor returns NULL) gets no MPR and is outside the statement."
  },
  {
   "property": "C25",
   "status": "proved",
   "theorems": [
    "C25_sorted_multimap",
    "C25_ascending"
   ],
   "note": ""
  },
  {
   "property": "C26",
   "status": "proved",
   "theorems": [
    "C26_lists_are_sequences",
    "C26_traversal",
    "C26_removed"
   ],
   "note": ""
  },
  {
   "property": "C27",
   "status": "partial",
   "theorems": [
    "C27_content_partial",
    "C27_no_overrun_partial",
    "C27_terminated_partial",
    "C27_large_append_refuted",
    "C27_pull_terminated_refuted",
    "C27_failed_first_append_refuted"
   ],
   "note": "Exact and memory safe below 16 MB when the first allocation succeeds. False: an append beyond 2^24 bytes overruns, a pulled buffer is not terminated, a failing first formatted append writes to NULL."
  },
  {
   "property": "C28",
   "status": "partial",
   "theorems": [
    "C28_strscpy",
    "C28_strscat_partial",
    "C28_strscat_refuted"
   ],
   "note": "Copy exact. Concatenation exact if the existing string fits; otherwise the unsigned difference wraps and it writes beyond the size."
  },
  {
   "property": "C29",
   "status": "proved",
   "theorems": [
    "C29_set",
    "C29_lookup",
    "C29_routes",
    "C29_changed",
    "C29_safe",
    "C29_accepted"
   ],
   "note": "Proved for all histories of messages (byte level), expiries and originator removals and any hash function: records = announced and not withdrawn (with the latest validity time), no duplicates, no empty gateway, routing table calls agree, changes_hna raised exactly for new networks, no reading outside the message. Simplified: records are identified by key instead of pointer, the expiry timer may fire at any time."
  },
  {
   "property": "C30",
   "status": "partial",
   "theorems": [
    "C30_agree",
    "C30_main_refuted",
    "C30_main_partial"
   ],
   "note": "Proved that the forward and reverse tables agree and that no freed entry is met, for all runs (C30_agree). That an alias is never a main address in use is refuted (C30_main_refuted: chains and self aliases) and proved for networks whose nodes declare only their own other addresses (C30_main_partial). The effect of insert_mid_tuple on the neighbor table is modelled in LinkSet.v, here only asked for membership."
  },
  {
   "property": "C31",
   "status": "proved",
   "theorems": [
    "C31_buffer_is_queue",
    "C31_packets_fit"
   ],
   "note": "Refinement of a message queue for all operation sequences; reservations must not be negative, MTU below 65536, no packet transform function registered."
  },
  {
   "property": "C32",
   "status": "partial",
   "theorems": [
    "C32_tc",
    "C32_mid_partial",
    "C32_mid_gap_refuted",
    "C32_hello4",
    "C32_hello6_partial",
    "C32_hello6_exit_refuted",
    "C32_lq_hello",
    "C32_lq_tc"
   ],
   "note": "Proved for TC, HELLO with IPv4, LQ_HELLO and LQ_TC in full (any state of the output buffer, any packet size that fits one address; exit and refusal are excluded). MID: proved when some interface has an address other than the main one; refuted otherwise (C32_mid_gap_refuted: a number is used up without a message). HELLO with IPv6: proved unless the waiting data leaves between 28 and 47 bytes, where the process exits (C32_hello6_exit_refuted). HNA messages not modelled here."
  },
  {
   "property": "C33",
   "status": "partial",
   "theorems": [
    "C33_quality",
    "C33_quality_ffeth",
    "C33_burst_refuted",
    "C33_range",
    "C33_cost",
    "C33_fpm",
    "C33_fpm_cost",
    "C33_direction_refuted",
    "C33_direction_partial"
   ],
   "note": "etx_ff and etx_ffeth: quality is the exact proportion over the last 32 intervals rounded down by less than two units (C33_quality, C33_quality_ffeth) while at most 255 packets arrive per second; beyond that the counters wrap and a bad link is taken for a perfect one (C33_burst_refuted). Cost range, monotonicity, symmetry: C33_range, C33_cost. etx_fpm: C33_fpm, C33_fpm_cost; its cost depends on the direction (C33_direction_refuted), by at most 11 units (C33_direction_partial)."
  },
  {
   "property": "C34",
   "status": "partial",
   "theorems": [
    "C34_silent",
    "C34_ethernet_refuted",
    "C34_fpm_partial",
    "C34_aging_refuted"
   ],
   "note": "etx_ff, and radio links with etx_ffeth: broken after 33 silent seconds (C34_silent). etx_ffeth: a silent Ethernet link with the usual HELLO interval stays perfect for ever (C34_ethernet_refuted). etx_fpm: broken after at most 231 losses if the aging factor is at least 2622/65535 (C34_fpm_partial); for every smaller configurable factor some link is never declared broken (C34_aging_refuted)."
  },
  {
   "property": "C35",
   "status": "partial",
   "theorems": [
    "C35_honest_partial",
    "C35_stable_partial",
    "C35_monotone_refuted"
   ],
   "note": "Bounds and stability proved for all 32-bit speeds (saturates at 320000000); not monotone: 32 is announced as 32 but 33 as 30."
  },
  {
   "property": "C36",
   "status": "partial",
   "theorems": [
    "C36_path_partial",
    "C36_bandwidth_partial",
    "C36_range_partial",
    "C36_wrap_refuted",
    "C36_bandwidth_refuted"
   ],
   "note": "Proved when the 32-bit products do not wrap and the dividers stay below weight*2^23; the wrap and the bandwidth order are refuted otherwise."
  },
  {
   "property": "C37",
   "status": "partial",
   "theorems": [
    "C37_bounded",
    "C37_sorted_partial",
    "C37_content",
    "C37_sorted_refuted"
   ],
   "note": "Bounds, content and absence of duplicates proved for all histories; the order only while no gateway in use is announced with infinite cost (then the list is not resorted: refuted)."
  },
  {
   "property": "C38",
   "status": "partial",
   "theorems": [
    "C38_choice_partial",
    "C38_loss_refuted",
    "C38_dead_refuted"
   ],
   "note": "Optimality and threshold proved for every reachable state in which tunnels work and the arithmetic does not overflow; a lost or dead current gateway is not replaced (refuted)."
  },
  {
   "property": "C39",
   "status": "proved",
   "theorems": [
    "C39_blocks",
    "C39_usage",
    "C39_accounting",
    "C39_double"
   ],
   "note": "Proved for all histories of permitted calls (C39_blocks, C39_usage, C39_accounting, C39_double): no call fails, a block handed out is held by nobody else and zeroed, no other held block changes, the counter equals the number of held blocks (below 2^32), every block is held or on exactly one free list, and a second free of a waiting block stops the program. Assumes cookies of at least 8 bytes, as all in the code, and that calloc succeeds and returns memory not in use."
  },
  {
   "property": "C40",
   "status": "partial",
   "theorems": [
    "C40_status",
    "C40_sym",
    "C40_entry",
    "C40_best_refuted",
    "C40_best_metric_refuted",
    "C40_best_partial",
    "C40_chosen"
   ],
   "note": "Refuted as stated: get_best_link_to_neighbor keeps one best cost for symmetric and other links, so a cheaper asymmetric link hides a symmetric one (with link quality and with interface metrics). The status part is proved over all timed runs, and the choice is proved correct when everything not symmetric costs more. Exact status under hysteresis is only proved in one direction."
  },
  {
   "property": "C41",
   "status": "partial",
   "theorems": [
    "C41_consistent_partial",
    "C41_safe_partial",
    "C41_dangling_refuted",
    "C41_dup_refuted",
    "C41_learned_partial",
    "C41_expiry_partial",
    "C41_expiry_refuted",
    "C41_not_early_partial"
   ],
   "note": "Tables agree, counts right, no use of freed memory: proved for runs that exclude three kinds of events (MID set with chains during a HELLO; alias learned while another alias of the node is itself in the neighbor table; more than 32767 neighbors); refuted without the exclusion (dangling, dup). Expiry proved for records confirmed by a second HELLO, refuted for records learned once (they have no timer)."
  },
  {
   "property": "C42",
   "status": "partial",
   "theorems": [
    "C42_relayed_exactly",
    "C42_nothing_else",
    "C42_recorded",
    "C42_hop_limits",
    "C42_once_refuted",
    "C42_once_partial"
   ],
   "note": "Relay decision, interfaces and header changes exact; the at-most-once part is false for the first message of an originator (C42_once_refuted) and otherwise reduces to C03."
  },
  {
   "property": "C43",
   "status": "proved",
   "theorems": [
    "C43_collision_exact",
    "C43_own_echo_silent",
    "C43_handlers_called"
   ],
   "note": ""
  },
  {
   "property": "C44",
   "status": "proved",
   "theorems": [
    "C44_deny_exact",
    "C44_defaults"
   ],
   "note": ""
  },
  {
   "property": "C45",
   "status": "proved",
   "theorems": [
    "C45_range",
    "C45_thresholds",
    "C45_history"
   ],
   "note": "Proved for all loss histories and all accepted settings, with IEEE binary32 arithmetic rounding to nearest (C45_range, C45_thresholds, C45_history). Times (L_LOST_LINK_time) are not modelled."
  },
  {
   "property": "C46",
   "status": "partial",
   "theorems": [
    "C46_recalculation_partial",
    "C46_quiet",
    "C46_stale_refuted"
   ],
   "note": "Proved: after any change, unless a route calculation ran less than one backoff period ago, the next processing calculates MPRs (for neighborhood changes) and then routes, calls every listener once with the same flags, which include every flag raised, and clears the flags (C46_recalculation_partial, assumes the backoff timer has expired since the last processing); without a flag nothing happens (C46_quiet). Refuted: a change within the backoff second after a calculation is discarded, and no number of later passes calculates the routes (C46_stale_refuted)."
  },
  {
   "property": "C47",
   "status": "partial",
   "theorems": [
    "C47_selectors",
    "C47_increase",
    "C47_only",
    "C47_advertised_partial",
    "C47_early_refuted",
    "C47_status_refuted",
    "C47_other_refuted"
   ],
   "note": "Proved for all histories: selectors stored once and exactly those selected and not expired since (C47_selectors); adding or removing one increases the number by one modulo 2^16 at the next check of the main loop (C47_increase); nothing but that check changes it and only after a signal (C47_only); with tc_redundancy 2 the advertised set is constant while no signal is raised (C47_advertised_partial, only redundancy 2). Refuted: a TC sent before the check has the new set and the old number (C47_early_refuted); with redundancy 0 a selector losing symmetry changes the set without the number (C47_status_refuted); the number also grows without any change of the set (C47_other_refuted)."
  },
  {
   "property": "C48",
   "status": "partial",
   "theorems": [
    "C48_record_lifetime_partial",
    "C48_record_lifetime_refuted"
   ],
   "note": "Holds while the 32-bit clock does not wrap; the unsigned comparison of valid_until makes a record die early at the wrap."
  },
  {
   "property": "C49",
   "status": "proved",
   "theorems": [
    "C49_clock_monotone",
    "C49_clock_accurate"
   ],
   "note": ""
  },
  {
   "property": "C50",
   "status": "partial",
   "theorems": [
    "C50_default_route_v4",
    "C50_default_route_v6_refuted",
    "C50_default_route_v6_partial"
   ],
   "note": "IPv4 exact. False for IPv6: prefix_len/8 = 0 bytes are compared, so every /3 prefix counts as the Internet route; proved that only /3 and the mapped /96 can."
  },
  {
   "property": "C51",
   "status": "partial",
   "theorems": [
    "C51_merge_at_end_refuted"
   ],
   "note": "The documentation of list_merge says 'append'; the model of the code shows the elements are put at the front. Refuted with a witness."
  },
  {
   "property": "C52",
   "status": "proved",
   "theorems": [
    "C52_ipv4_addresses",
    "C52_ipv6_addresses",
    "C52_prefixes",
    "C52_costs"
   ],
   "note": ""
  },
  {
   "property": "C53",
   "status": "partial",
   "theorems": [
    "C53_same_order_everywhere_refuted"
   ],
   "note": "False: IPv4 addresses are compared as host integers, so little and big endian hosts sort them differently."
  },
  {
   "property": "C54",
   "status": "partial",
   "theorems": [
    "C54_rearm_in_callback_refuted"
   ],
   "note": "One-shot timers re-armed in their own callback are stopped and freed."
  },
  {
   "property": "C55",
   "status": "partial",
   "theorems": [
    "C55_leak_refuted",
    "C55_wellformed_tapped"
   ],
   "note": "False: a zero-size block drops the neighbors allocated so far."
  },
  {
   "property": "C56",
   "status": "partial",
   "theorems": [
    "C56_reserve_pending_refuted",
    "C56_second_reservation_refuted",
    "C56_mtu_change_refuted",
    "C56_reserved_room_partial"
   ],
   "note": "False in three ways; proved for reservations made with room left and kept until the next reservation, transmission or MTU change."
  },
  {
   "property": "C57",
   "status": "partial",
   "theorems": [
    "C57_lost_warning_refuted",
    "C57_warning_count_partial"
   ],
   "note": "False: off by one from 10 collisions on; the exact deficit is proved."
  },
  {
   "property": "C58",
   "status": "partial",
   "theorems": [
    "C58_flags_refuted",
    "C58_zero_refuted"
   ],
   "note": "False: flags above 8*address size, or exactly one 0, write out of bounds. Safe for flags a sender produces (C61_slack_partial)."
  },
  {
   "property": "C59",
   "status": "partial",
   "theorems": [
    "C59_denied_refuted"
   ],
   "note": "False: a denied unknown address does not skip its quality bytes."
  },
  {
   "property": "C60",
   "status": "partial",
   "theorems": [
    "C60_standard_tc_refuted"
   ],
   "note": "False: 4 bytes of quality are skipped behind every new address."
  },
  {
   "property": "C61",
   "status": "partial",
   "theorems": [
    "C61_slack_partial",
    "C61_overread_refuted"
   ],
   "note": "False: a size that is not a whole number of records reads beyond the end. Safe with room for one record after the end."
  },
  {
   "property": "C62",
   "status": "partial",
   "theorems": [
    "C62_forgotten_refuted"
   ],
   "note": "False: an entry made for an HNA or MID originator has no validity timer and stays for ever."
  },
  {
   "property": "C63",
   "status": "partial",
   "theorems": [
    "C63_new_neighbor_refuted",
    "C63_known_neighbor_partial"
   ],
   "note": "False in the calculation that first sees the neighbor (the new edge has the cost of zero qualities); proved when the edge existed before."
  },
  {
   "property": "C64",
   "status": "partial",
   "theorems": [
    "C64_refresh_partial",
    "C64_refresh_refuted"
   ],
   "note": "Proved directly after an accepted IPv4 calculation; refuted when a best path has been removed since."
  },
  {
   "property": "C65",
   "status": "partial",
   "theorems": [
    "C65_rfc",
    "C65_lq_partial",
    "C65_lq_refuted"
   ],
   "note": "Proved for src/mpr.c in every neighborhood; false for src/lq_mpr.c, which never looks at WILL_NEVER."
  },
  {
   "property": "C66",
   "status": "partial",
   "theorems": [
    "C66_lq",
    "C66_rfc_refuted"
   ],
   "note": "Proved for src/lq_mpr.c; false for src/mpr.c."
  },
  {
   "property": "C67",
   "status": "partial",
   "theorems": [
    "C67_rfc_partial",
    "C67_lq_partial",
    "C67_rfc_refuted",
    "C67_lq_refuted"
   ],
   "note": "False in both directions: src/mpr.c signals exactly lost MPRs, src/lq_mpr.c exactly new ones (both proved)."
  },
  {
   "property": "C68",
   "status": "partial",
   "theorems": [
    "C68_v4_partial",
    "C68_mapped_partial",
    "C68_plain",
    "C68_v6_refuted",
    "C68_external_refuted"
   ],
   "note": "Proved for IPv4 and ::ffff:0:0/96; for 2000::/3 the encoder writes one byte past the netmask, and no netmask makes a receiver learn an external prefix. An HNA entry with an ordinary netmask is never taken for a gateway (C68_plain)."
  },
  {
   "property": "C69",
   "status": "partial",
   "theorems": [
    "C69_pointer_partial",
    "C69_pointer_refuted"
   ],
   "note": "Proved when tunnel creation never fails (then only the threshold overflow remains); one failing tunnel leaves a dangling pointer (refuted)."
  },
  {
   "property": "C70",
   "status": "partial",
   "theorems": [
    "C70_tunnels",
    "C70_route_partial",
    "C70_route_refuted"
   ],
   "note": "Tunnels proved for all histories; the route only when tunnel creation never fails, refuted otherwise. doRoutesMultiGw not modelled."
  },
  {
   "property": "C71",
   "status": "partial",
   "theorems": [
    "C71_takedown_partial",
    "C71_takedown_refuted"
   ],
   "note": "Completeness needs a sorted list (no infinite costs) and a cost up to INT64_MAX/100; infinite current cost overflows (refuted)."
  },
  {
   "property": "C72",
   "status": "partial",
   "theorems": [
    "C72_established_partial",
    "C72_established_refuted"
   ],
   "note": "Proved for scaling at least 2^-7 and high threshold at most 1 - 2^-10: after 2^19 or more loss-free packets the next HELLO establishes the link (C72_established_partial). Refuted in general: a high threshold of 1.0 is accepted and no link is ever established (C72_established_refuted)."
  },
  {
   "property": "C73",
   "status": "proved",
   "theorems": [
    "C73_smoothing",
    "C73_stable"
   ],
   "note": "Proved: C73_smoothing, C73_stable."
  },
  {
   "property": "C74",
   "status": "partial",
   "theorems": [
    "C74_gateway_refuted",
    "C74_gateway_partial"
   ],
   "note": "False: expiry of an older plain 0.0.0.0/0 announcement deletes the smart gateway entry of the same node although its announcement is fresh (olsr_delete_hna_net_entry calls olsr_delete_gateway_entry for any Internet prefix). Proved: without plain default routes the HNA set never withdraws a gateway."
  },
  {
   "property": "C75",
   "status": "partial",
   "theorems": [
    "C75_refuted",
    "C75_partial"
   ],
   "note": "Refuted: a HELLO listing us as ASYM starts the symmetry timer and marks the neighbor, but when that timer expires the mark is only withdrawn if the previous status was SYM. Proved for single-address neighbors whose HELLOs say SYM or LOST."
  },
  {
   "property": "C76",
   "status": "partial",
   "theorems": [
    "C76_refuted",
    "C76_partial"
   ],
   "note": "Refuted: only the oldest link with the address is looked at. Proved: never SYM without a symmetric link, exact for addresses with one link."
  },
  {
   "property": "C77",
   "status": "partial",
   "theorems": [
    "C77_partial",
    "C77_source_refuted",
    "C77_alias_refuted",
    "C77_count_refuted"
   ],
   "note": "Refuted three ways: a HELLO carrying another neighbor's main address, a MID message listing its own originator as an alias (both lead to use after free), and alias insertion that loses the link count. Proved for networks in which all messages agree about who owns an address."
  },
  {
   "property": "C78",
   "status": "partial",
   "theorems": [
    "C78_jitter_refuted",
    "C78_wrap_refuted",
    "C78_partial",
    "C78_removed"
   ],
   "note": "Refuted: jitter removes up to 5 percent of the life time, and near the clock wrap the timer is not prolonged. Proved: at least 95 percent before 3221225472 ms of uptime; removal bound at all times."
  },
  {
   "property": "C79",
   "status": "partial",
   "theorems": [
    "C79_listed",
    "C79_refuted",
    "C79_partial"
   ],
   "note": "Proved: every known alias has its route asked for. The converse is refuted by two nodes declaring one address; proved for honest networks. What the routing table does with the calls is in Rib.v."
  },
  {
   "property": "C80",
   "status": "partial",
   "theorems": [
    "C80_hello_refuted",
    "C80_partial",
    "C80_expiry",
    "C80_pruned_partial",
    "C80_pruned_refuted"
   ],
   "note": "Refuted for aliases learned from HELLOs (never refreshed). Proved lower bound for aliases declared in MID messages, upper bound for all, removal by MID messages that do not list them for the first 24 days of the clock, refuted later. Timers fire at most the slack late."
  },
  {
   "property": "C81",
   "status": "partial",
   "theorems": [
    "C81_v4",
    "C81_v6_refuted",
    "C81_v6_partial"
   ],
   "note": "Proved for IPv4; refuted for IPv6 (the 24-byte header is counted as 12 bytes); proved for IPv6 bodies with fewer than 4 surplus bytes."
  },
  {
   "property": "C82",
   "status": "partial",
   "theorems": [
    "C82_path_partial",
    "C82_other_partial"
   ],
   "note": "Proved for the same runs as C41 (no MID chains); costs as 32-bit sums that do not wrap."
  },
  {
   "property": "C83",
   "status": "partial",
   "theorems": [
    "C83_v4",
    "C83_lq",
    "C83_v6_partial",
    "C83_v6_refuted"
   ],
   "note": "Proved for IPv4 and for LQ_HELLO; with IPv6 without LQ proved if no link is hidden, refuted otherwise (C83_v6_refuted)."
  },
  {
   "property": "C84",
   "status": "partial",
   "theorems": [
    "C84_partial",
    "C84_empty_refuted",
    "C84_overflow_refuted"
   ],
   "note": "Proved for at least one network to announce and without the IPv6 route 2000::/3 of a smart gateway; refuted otherwise: an empty message is sent (C84_empty_refuted), a netmask is written beyond a variable (C84_overflow_refuted)."
  },
  {
   "property": "C85",
   "status": "partial",
   "theorems": [
    "C85_start",
    "C85_step_partial",
    "C85_window_partial",
    "C85_v6_refuted"
   ],
   "note": "Proved for IPv4; refuted for IPv6 (C85_v6_refuted: an ordinary route ::/0 is announced instead). Fewer than 2000 networks (the 16 bit size estimate does not overflow)."
  },
  {
   "property": "C86",
   "status": "partial",
   "theorems": [
    "C86_partial"
   ],
   "note": "C86_partial: the messages arrive in order and without loss, the first is accepted and what was known is older; the all-ones address is left out."
  },
  {
   "property": "C87",
   "status": "partial",
   "theorems": [
    "C87_fisheye",
    "C87_empty_partial",
    "C87_wrap_refuted"
   ],
   "note": "C87_fisheye is full; C87_empty_partial holds for 2^31 ms; C87_wrap_refuted: later, when the clock comparison turns round, a node that never had anything to advertise sends empty TCs."
  },
  {
   "property": "C88",
   "status": "proved",
   "theorems": [
    "C88_content"
   ],
   "note": "C88: full for create_lq_hello and serialize_lq_hello."
  },
  {
   "property": "C89",
   "status": "partial",
   "theorems": [
    "C89_restored_partial",
    "C89_integrity_partial",
    "C89_altered_partial",
    "C89_sha_refuted",
    "C89_mixed_refuted"
   ],
   "note": "C89_restored_partial and C89_integrity_partial need an unpadded layout and that the signature fits; C89_altered_partial reduces forgery with the same code to a hash collision. C89_sha_refuted: SHA1 with an 8 byte time_t rejects all packets (code written behind the field). C89_mixed_refuted: 32 and 64 bit nodes reject each other. The hash is an argument; unforgeability of the keyed hash is not modelled."
  },
  {
   "property": "C90",
   "status": "partial",
   "theorems": [
    "C90_window_partial",
    "C90_replay_refuted"
   ],
   "note": "C90_window_partial: the three second window. C90_replay_refuted: two replays every two seconds keep the stored difference following the clock, for ever."
  },
  {
   "property": "C91",
   "status": "partial",
   "theorems": [
    "C91_validated_partial",
    "C91_unsigned_partial",
    "C91_forged_refuted",
    "C91_recorded_refuted"
   ],
   "note": "C91_validated_partial: except for what malloc returns in a new entry. C91_unsigned_partial: except for the entry that a challenge makes. C91_forged_refuted: a forged challenge locks a node out. C91_recorded_refuted: a recorded challenge un-validates a node."
  },
  {
   "property": "C92",
   "status": "partial",
   "theorems": [
    "C92_exact_partial",
    "C92_buffer_refuted",
    "C92_cache_refuted"
   ],
   "note": "C92_exact_partial: the exact condition. C92_buffer_refuted: nothing reserves room in the output buffer. C92_cache_refuted: checksum_cache overflows with a large MTU."
  },
  {
   "property": "C93",
   "status": "partial",
   "theorems": [
    "C93_handshake_partial",
    "C93_waiting_refuted"
   ],
   "note": "C93_handshake_partial: no loss, idle buffers, unpadded layout. C93_waiting_refuted: a message waiting ahead of the challenge deadlocks the handshake."
  },
  {
   "property": "C94",
   "status": "partial",
   "theorems": [
    "C94_request_partial",
    "C94_table_refuted",
    "C94_rule_partial",
    "C94_rule_refuted"
   ],
   "note": "C94_request_partial and C94_rule_partial: exact and unique reading for table numbers below 256. C94_table_refuted: RTA_TABLE is overwritten by the header, the request names table 0. C94_rule_refuted: rules use the low 8 bits of the table."
  },
  {
   "property": "C95",
   "status": "partial",
   "theorems": [
    "C95_similar_partial",
    "C95_host_refuted"
   ],
   "note": "C95_similar_partial: IPv4 with prefix length other than 32. C95_host_refuted: for host routes the deletion names the destination as gateway."
  },
  {
   "property": "C96",
   "status": "partial",
   "theorems": [
    "C96_added",
    "C96_placed",
    "C96_removable",
    "C96_deleted_partial",
    "C96_deleted_refuted"
   ],
   "note": "C96_added and C96_removable hold in full (IPv4 matching rules). C96_deleted_partial: unless the answer is 101 or 128. C96_deleted_refuted: these answers to a deletion create a route to the next hop."
  },
  {
   "property": "C97",
   "status": "partial",
   "theorems": [
    "C97_answers_partial",
    "C97_done",
    "C97_shift",
    "C97_answers_refuted"
   ],
   "note": "C97_answers_partial: if recvmsg never fails. C97_shift: after one failure all results are those of the request before; C97_answers_refuted is the witness."
  },
  {
   "property": "C98",
   "status": "partial",
   "theorems": [
    "C98_hosts",
    "C98_services_partial",
    "C98_services_refuted",
    "C98_macs_refuted",
    "C98_position_refuted"
   ],
   "note": "C98_hosts full for the hosts file. Services: printable only if the suffix, as a regular expression, is; refuted for '.olsr'. Macs and positions refuted (text after the numbers is not looked at). is_latlon_wellformed is a parameter; latlon_scan is a model of it for plain decimals."
  },
  {
   "property": "C99",
   "status": "partial",
   "theorems": [
    "C99_confined_partial",
    "C99_tail_refuted",
    "C99_overread_refuted"
   ],
   "note": "Proved for messages in which every text is terminated inside the message; refuted for messages that announce more entries than they contain (end computed 8 bytes too far on 64 bit IPv4) and for texts without end."
  },
  {
   "property": "C100",
   "status": "partial",
   "theorems": [
    "C100_delivered_partial",
    "C100_last_refuted",
    "C100_prefix_refuted"
   ],
   "note": "Excludes texts that begin an earlier one, and last texts whose length is a multiple of 4; both refuted."
  },
  {
   "property": "C101",
   "status": "partial",
   "theorems": [
    "C101_again_partial",
    "C101_position",
    "C101_macs_refuted"
   ],
   "note": "Names, forwarders, services: any memory. At most one position: all runs. Macs refuted."
  },
  {
   "property": "C102",
   "status": "partial",
   "theorems": [
    "C102_best_partial",
    "C102_fourth_refuted",
    "C102_twice_refuted"
   ],
   "note": "First three lines exact; a fourth line may be any server, and a server may appear twice (refuted). Internet gateway route not considered in the comparison."
  },
  {
   "property": "C103",
   "status": "partial",
   "theorems": [
    "C103_own_partial",
    "C103_suffix_refuted"
   ],
   "note": "Exact (up to prefixes) without suffix; refuted with the suffix '.olsr'."
  },
  {
   "property": "C104",
   "status": "partial",
   "theorems": [
    "C104_fits_partial",
    "C104_overflow_refuted"
   ],
   "note": "Success characterised exactly; refuted with 70 names of 127 characters."
  },
  {
   "property": "C105",
   "status": "partial",
   "theorems": [
    "C105_document_partial",
    "C105_unescaped_refuted"
   ],
   "note": "Partial: nesting at most 14 levels, strings that need no escaping (refuted otherwise: the writer does not escape), floats as decimals with the digits of %.3f."
  },
  {
   "property": "C106",
   "status": "proved",
   "theorems": [
    "C106_cached_replies"
   ],
   "note": "Full for all histories of requests; sections as data printed through the modelled writer. Memory for the cache is always available."
  },
  {
   "property": "C107",
   "status": "partial",
   "theorems": [
    "C107_request_partial",
    "C107_blank_refuted",
    "C107_nothing_refuted",
    "C107_large_refuted"
   ],
   "note": "Partial: lines of one of the two shapes with at least one name (plain) that fit in the buffer. Refuted: '/' and ' ' read before the buffer, 'GET   HTTP/1.1' gets status 500, requests of 1024 bytes are cut instead of refused."
  },
  {
   "property": "C108",
   "status": "partial",
   "theorems": [
    "C108_host_partial",
    "C108_v6_refuted"
   ],
   "note": "IPv4 exact; IPv6 refuted (accept_ip is compared with ::1 instead of the peer)."
  },
  {
   "property": "C109",
   "status": "proved",
   "theorems": [
    "C109_delivered",
    "C109_progress"
   ],
   "note": "Full. Connections have names that are not reused; the kernel takes at most what it is offered."
  },
  {
   "property": "C110",
   "status": "proved",
   "theorems": [
    "C110_content_length"
   ],
   "note": "Full for bodies below 2 GiB (int)."
  },
  {
   "property": "C111",
   "status": "partial",
   "theorems": [
    "C111_syntax",
    "C111_read_partial",
    "C111_indent_refuted",
    "C111_long_refuted"
   ],
   "note": "Lines below 255 characters that are not indented and have no zero bytes; interfaces with different names. Indented lines and long comments are refuted."
  },
  {
   "property": "C112",
   "status": "partial",
   "theorems": [
    "C112_changed",
    "C112_bandwidth_refuted",
    "C112_absent",
    "C112_limits",
    "C112_epoch_refuted",
    "C112_descriptor_partial",
    "C112_descriptor_refuted"
   ],
   "note": "The report is characterised in full; that it covers bandwidth changes, that every file is read, and that the descriptor is closed once are refuted."
  },
  {
   "property": "C113",
   "status": "partial",
   "theorems": [
    "C113_best_partial",
    "C113_costs",
    "C113_overall_partial",
    "C113_announce_refuted",
    "C113_absent_refuted"
   ],
   "note": "IPv4; requests succeed and interfaces that are up are running; the gateway selection itself is an input."
  },
  {
   "property": "C114",
   "status": "partial",
   "theorems": [
    "C114_stale_partial",
    "C114_shutdown_partial",
    "C114_carrier_refuted",
    "C114_blackhole_refuted"
   ],
   "note": "IPv4; deletions succeed and no route is over an interface that is not up; the kernel's route store is modelled as a map by table and destination."
  },
  {
   "property": "C115",
   "status": "partial",
   "theorems": [
    "C115_net_partial",
    "C115_default_partial",
    "C115_best_partial",
    "C115_override_partial",
    "C115_gateway_refuted",
    "C115_index_refuted",
    "C115_offset_partial",
    "C115_offset_refuted"
   ],
   "note": "IPv4; requests succeed; tables are different; the gateway is not lost; priorities (metrics) and rules are left out."
  },
  {
   "property": "C116",
   "status": "partial",
   "theorems": [
    "C116_stream_partial",
    "C116_ends_partial",
    "C116_reconnect_partial",
    "C116_leak_refuted",
    "C116_kernel_refuted"
   ],
   "note": "While the connection lasts (no write error); the route's best path exists; plugin parameters, socket set-up and logging are left out."
  },
  {
   "property": "C117",
   "status": "partial",
   "theorems": [
    "C117_parse",
    "C117_overflow_refuted",
    "C117_overread_refuted",
    "C117_range_refuted"
   ],
   "note": "The reading of well-formed messages is proved for all of them; robustness against malformed messages is refuted."
  },
  {
   "property": "C118",
   "status": "partial",
   "theorems": [
    "C118_follows_partial",
    "C118_pause_refuted",
    "C118_zero_refuted",
    "C118_much_refuted",
    "C118_closed_refuted",
    "C118_reconnect_refuted"
   ],
   "note": "Messages are never cut short at the end of a call, fewer than 65536 bytes pending, additions and removals of a network take turns; list entries of an IPv4 configuration have zeros after the address."
  },
  {
   "property": "C119",
   "status": "partial",
   "theorems": [
    "C119_v4",
    "C119_v6_partial",
    "C119_hidden_refuted"
   ],
   "note": "IPv4 proved in full; IPv6 without hidden links and with room in the buffer. Refuted where RFC 3626 6.2 asks for more: a neighbor with a hidden link on the interface is not mentioned there although it is a symmetric MPR over another interface."
  },
  {
   "property": "C120",
   "status": "partial",
   "theorems": [
    "C120_content",
    "C120_empty_partial",
    "C120_silent_partial",
    "C120_wrap_refuted"
   ],
   "note": "Contents proved in full; times within 2^31 ms, refuted beyond: after 24.8 days a node with nothing to advertise starts sending empty TCs."
  },
  {
   "property": "C121",
   "status": "partial",
   "theorems": [
    "C121_good_partial",
    "C121_accept_partial",
    "C121_id_refuted",
    "C121_script_refuted",
    "C121_name_refuted",
    "C121_count_refuted",
    "C121_nan_refuted",
    "C121_times_partial"
   ],
   "note": "Sound for all configurations outside the listed gaps; complete for one gateway. Refuted: leading white space in the instance id, script without execute permission, 16-character egress names, 257 egress interfaces (counter wraps), NaN poll rate."
  },
  {
   "property": "C122",
   "status": "partial",
   "theorems": [
    "C122_rules_partial",
    "C122_tables_partial",
    "C122_cut_refuted",
    "C122_same_refuted",
    "C122_tables_refuted",
    "C122_rules_refuted"
   ],
   "note": "Rules proved distinct and unreserved for fewer than 256 egress interfaces, tables if also the offset is below 256. Refuted: truncation to 8 bits reaches the main table, duplicates after the counter wraps, collisions with tables and priorities of the routing policy."
  },
  {
   "property": "C123",
   "status": "partial",
   "theorems": [
    "C123_kept",
    "C123_auto",
    "C123_ordered_partial",
    "C123_negative_refuted",
    "C123_overflow_refuted"
   ],
   "note": "Kept values and automatic priorities proved in full; ordering for priorities of at least -1. Refuted: negative priorities are installed, overflow of signed arithmetic."
  },
  {
   "property": "C124",
   "status": "partial",
   "theorems": [
    "C124_option_partial",
    "C124_twice_refuted",
    "C124_null_refuted"
   ],
   "note": "Proved for blocks that do not give a name twice. Refuted otherwise: statements go to another interface or follow a null pointer."
  },
  {
   "property": "C125",
   "status": "partial",
   "theorems": [
    "C125_multiplier_partial",
    "C125_zero_refuted",
    "C125_twice_refuted"
   ],
   "note": "Proved without duplicate addresses and zero multipliers. Refuted: zero counts as 1.0; of duplicates sometimes the first counts."
  },
  {
   "property": "C126",
   "status": "partial",
   "theorems": [
    "C126_meaning",
    "C126_only",
    "C126_safe_partial",
    "C126_number_refuted",
    "C126_limits_refuted",
    "C126_ipv6_refuted",
    "C126_interface_refuted",
    "C126_never",
    "C126_files"
   ],
   "note": "Meaning, rejection and file arguments are proved without restriction; no undefined behaviour if -lql, -lqa and -lqnt get numbers. Refuted: -lql without a number uses an unset variable, -lqa nan is accepted, -ipv6 leaves prefixes limited to 32 bits, and the options for all interfaces reach none (C126_never)."
  },
  {
   "property": "C127",
   "status": "partial",
   "theorems": [
    "C127_file_partial",
    "C127_once",
    "C127_repeated_refuted",
    "C127_again",
    "C127_files_refuted",
    "C127_option",
    "C127_option_refuted"
   ],
   "note": "Proved for one file (order of last mention; order of the file if no name is repeated). Refuted: a repeated block moves the interface to the end, a second file reverses the first, -i puts its names in front in reverse."
  },
  {
   "property": "C128",
   "status": "partial",
   "theorems": [
    "C128_digest_partial",
    "C128_checksum",
    "C128_length_refuted"
   ],
   "note": "Proved for calls of at most 2^32-64 bytes (the plugin passes at most 65535). Refuted without the bound: after one byte, a call of 2^32-1 bytes reads past the data because i+63 wraps."
  },
  {
   "property": "C129",
   "status": "partial",
   "theorems": [
    "C129_routes_partial",
    "C129_interface_refuted",
    "C129_hna_refuted",
    "C129_device_refuted"
   ],
   "note": "Proved for devices that keep their index and exist at the start, HNAs that do not change and interfaces that are not lost. Refuted: dropping the entries of a lost interface leaves their 4to6 routes (src/process_routes.c:383-388); an HNA added or removed at run time gets no route or keeps its route; a device made anew with another index, or after the start, is never used."
  },
  {
   "property": "C130",
   "status": "partial",
   "theorems": [
    "C130_fingerprint",
    "C130_ways",
    "C130_window",
    "C130_distinct_refuted",
    "C130_length_refuted"
   ],
   "note": "The three statements are proved. Refuted beyond them: packets with identification 0 that differ only after byte 256 collide; a packet with total length 0 (received from the network) fails the assertion len > 0 and ends the daemon."
  },
  {
   "property": "C131",
   "status": "partial",
   "theorems": [
    "C131_copy",
    "C131_within",
    "C131_new",
    "C131_six_refuted",
    "C131_starved_refuted"
   ],
   "note": "Proved as stated. Refuted: a packet counts as a copy for up to almost six seconds, not three; and as each copy renews the entry, a packet repeated every two seconds is forwarded once and then never again."
  },
  {
   "property": "C132",
   "status": "partial",
   "theorems": [
    "C132_broadcast_partial",
    "C132_carry_refuted",
    "C132_unused_refuted"
   ],
   "note": "Proved when old checksum + halves of the old address - halves of the new one is neither 131071 nor -65536 and the UDP checksum is used. Refuted: for those sums the header checksum is wrong afterwards; a UDP checksum of 0 (not used) becomes a wrong one."
  },
  {
   "property": "C133",
   "status": "partial",
   "theorems": [
    "C133_captured",
    "C133_ignored",
    "C133_tun",
    "C133_received",
    "C133_overheard",
    "C133_refused",
    "C133_source_refuted",
    "C133_fragment_refuted"
   ],
   "note": "Proved for packets whose total length is at least 1 and not more than the bytes received (valid), with link costs and fan-out limit as olsrd sets them (sane). Refuted: a captured packet from a neighbor that has selected this node as MPR is encapsulated back to that neighbor; the first fragment of a packet is forwarded though the later ones are not."
  },
  {
   "property": "C134",
   "status": "partial",
   "theorems": [
    "C134_memory_partial",
    "C134_bounded",
    "C134_leak_refuted",
    "C134_outside_refuted",
    "C134_abort_refuted"
   ],
   "note": "Proved when the total length is at most the bytes received and not 0. Refuted: with a larger one stale stack bytes are sent to the neighbors (proved equal to the former contents of the stack buffer); with one over 2040 the read leaves the buffer; with 0 an assertion ends the daemon."
  },
  {
   "property": "C135",
   "status": "partial",
   "theorems": [
    "C135_encapsulated",
    "C135_relayed",
    "C135_raw",
    "C135_rewritten_refuted"
   ],
   "note": "Proved for encapsulated copies and for multicast packets on networks without OLSR (also with changed time to live). Refuted for broadcasts: the rewritten destination address makes it another packet, and it is forwarded once more."
  },
  {
   "property": "C136",
   "status": "partial",
   "theorems": [
    "C136_hello",
    "C136_elect",
    "C136_one_master",
    "C136_many_refuted",
    "C136_pace_refuted",
    "C136_network_refuted",
    "C136_early_refuted",
    "C136_unsent_refuted"
   ],
   "note": "Proved for one election after any events, and for any set of routers. Refuted: with eleven interfaces a router just heard is forgotten on the last one in the same election (the age is decremented once for each interface), with six the default timers are too slow; the configured network is overwritten at start; an introduction in the first second, and a send that fails, follow a NULL pointer."
  },
  {
   "property": "C137",
   "status": "partial",
   "theorems": [
    "C137_unpacked_partial",
    "C137_dropped",
    "C137_master_refuted",
    "C137_source_refuted",
    "C137_beyond_refuted",
    "C137_next_refuted"
   ],
   "note": "Proved for IPv4 packets that are whole, up to the first interface that is not active. Refuted: the rest of the interfaces gets nothing (return in the loop); in IPv6 packets two bytes of the source address are replaced by a checksum; a total length above the message sends the memory behind it; an empty message changes the sequence number of the next one."
  },
  {
   "property": "C138",
   "status": "partial",
   "theorems": [
    "C138_captured_partial",
    "C138_through_partial",
    "C138_stale_refuted",
    "C138_overflow_refuted",
    "C138_stack_refuted",
    "C138_filter_refuted"
   ],
   "note": "Proved for IPv4. Refuted: frames above 2040 bytes overflow the buffer, the port of a packet without payload is taken from the frame before, with IPv6 84 bytes of the stack are sent, and the IPv6 filter compares with a variable that is never set."
  },
  {
   "property": "C139",
   "status": "partial",
   "theorems": [
    "C139_in_force",
    "C139_restored_partial",
    "C139_version_partial",
    "C139_version_refuted",
    "C139_removed_refuted",
    "C139_failed_refuted",
    "C139_early_refuted",
    "C139_digits_refuted"
   ],
   "note": "In force: proved for all events. Restored: proved if interfaces only come up; refuted for an interface that was removed (also if it came back), that could not be brought up at the first attempt, for an end during the start (no signal handlers yet), and for values of more than one digit. A kernel 2.7 would be taken for an old one."
  },
  {
   "property": "C140",
   "status": "partial",
   "theorems": [
    "C140_alone_partial",
    "C140_retry_partial",
    "C140_gives_up",
    "C140_kept_partial",
    "C140_refused_partial",
    "C140_two_refuted",
    "C140_none_refuted",
    "C140_foreign_refuted"
   ],
   "note": "Proved for single attempts. Refuted for the whole: a failed attempt removes the file of the other process, so that the second attempt succeeds; without host emulation no lock is taken at all, and such a process removes the lock file of another when it ends."
  },
  {
   "property": "C141",
   "status": "partial",
   "theorems": [
    "C141_rising_partial",
    "C141_shorter_refuted"
   ],
   "note": "Proved for process numbers that do not fall; refuted for a shorter number after a longer one (no O_TRUNC, and the file is never removed)."
  },
  {
   "property": "C142",
   "status": "partial",
   "theorems": [
    "C142_start",
    "C142_stop_partial",
    "C142_removed_refuted",
    "C142_added_refuted"
   ],
   "note": "Proved for the start, and for the end with the same interfaces; refuted for interfaces that were removed (the rule stays) or came later (no rule)."
  },
  {
   "property": "C143",
   "status": "partial",
   "theorems": [
    "C143_whom",
    "C143_kept",
    "C143_others",
    "C143_only_partial",
    "C143_taken_refuted",
    "C143_v6_refuted",
    "C143_inside",
    "C143_end_used",
    "C143_end_refuted"
   ],
   "note": "C143_kept/C143_others/C143_whom/C143_inside are full. C143_only_partial: a message that has only gateway announcements is not forwarded, but the last one stays in the buffer and olsr_input_hna, which is called next, takes it (C143_taken_refuted). IPv6: ::/0 passes, any network of length 3 is removed (C143_v6_refuted). olsrd_plugin_fini never advances to the next group: use after free (C143_end_refuted)."
  },
  {
   "property": "C144",
   "status": "partial",
   "theorems": [
    "C144_port",
    "C144_port_only_partial",
    "C144_port_refuted",
    "C144_int",
    "C144_long",
    "C144_number",
    "C144_int_refuted",
    "C144_boolean",
    "C144_string"
   ],
   "note": "C144_port_only_partial: what is accepted as a port is the number only below 2^32 (C144_port_refuted: 4294967376 is port 80); C144_int_refuted: ints are cut to 32 bits and longs limited without a message. Not modelled: set_plugin_ipaddress (inet_pton)."
  },
  {
   "property": "C145",
   "status": "partial",
   "theorems": [
    "C145_loaded",
    "C145_refused",
    "C145_unknown_refuted",
    "C145_initialized_refuted",
    "C145_init_refuted"
   ],
   "note": "C145_loaded and C145_refused are full. C145_unknown_refuted: unknown parameters are ignored with a message; C145_initialized_refuted: plugin_init is called although a parameter was refused; C145_init_refuted: the return value of plugin_init is ignored."
  },
  {
   "property": "C146",
   "status": "partial",
   "theorems": [
    "C146_link",
    "C146_route",
    "C146_chance_refuted",
    "C146_stale_refuted",
    "C146_random_partial",
    "C146_random_refuted"
   ],
   "note": "C146_link and C146_route hold for every history of the switch. Refuted: the documented chance is inverted (C146_chance_refuted: whatever passes a better link passes every worse one, and quality 91 passes only the last tenth of the random numbers); links to a client survive its leaving (C146_stale_refuted); olsr_random is undefined for INT_MIN (C146_random_refuted)."
  },
  {
   "property": "C147",
   "status": "partial",
   "theorems": [
    "C147_file",
    "C147_tokens",
    "C147_comment_refuted",
    "C147_unknown_refuted",
    "C147_number_refuted",
    "C147_embedded_refuted",
    "C147_line_refuted"
   ],
   "note": "C147_file and C147_tokens hold for every file of the described form and for every file. Refuted: a comment without a line end at the end of the file is active configuration, unknown text (wrong keywords, signs, points, exponents) is silently skipped, 010 is 8 and 09 is 0, IPv6 addresses with an embedded IPv4 address are cut, line ends in strings are not counted."
  },
  {
   "property": "C148",
   "status": "partial",
   "theorems": [
    "C148_same",
    "C148_defined_partial",
    "C148_defined_refuted",
    "C148_different_refuted"
   ],
   "note": "Proved: independence of blanks, line ends and comments (C148_same), definedness for every file (C148_defined_partial, which needs arguments that end with an ASCII character). Refuted: a negative char is shifted otherwise (C148_defined_refuted); two addresses give the same checksum (C148_different_refuted)."
  },
  {
   "property": "C149",
   "status": "partial",
   "theorems": [
    "C149_validity_partial",
    "C149_border_refuted",
    "C149_time",
    "C149_leap_refuted",
    "C149_rounded",
    "C149_track_refuted"
   ],
   "note": "Proved: time (C149_time), altitude, speed and track (C149_rounded), validity away from the borders of the exponents (C149_validity_partial). Refuted: at the borders, 47 s and 110 s for example, an assertion ends the daemon (C149_border_refuted); a leap second or a field out of range is read a day away (C149_leap_refuted); a track above the field wraps to 0 (C149_track_refuted)."
  },
  {
   "property": "C150",
   "status": "partial",
   "theorems": [
    "C150_seen",
    "C150_relay",
    "C150_once",
    "C150_again_refuted",
    "C150_depth_refuted",
    "C150_short_refuted"
   ],
   "note": "Proved: the list contains exactly the last N (C150_seen), what is relayed (C150_relay), never twice within N (C150_once). Refuted: relayed again after N others (C150_again_refuted); depth 2^62 makes an empty list that is written to (C150_depth_refuted); a message without the fixed part is read beyond its end (C150_short_refuted). The return value also decides whether src/parser.c forwards the message: updates of another version are not forwarded."
  },
  {
   "property": "C151",
   "status": "partial",
   "theorems": [
    "C151_unpack_partial",
    "C151_endless_refuted",
    "C151_outside_refuted",
    "C151_stale_refuted",
    "C151_contents_refuted",
    "C151_short_refuted"
   ],
   "note": "Proved: well-formed datagrams (C151_unpack_partial). Refuted: 01 ff fc 00 never ends (C151_endless_refuted); reads outside of the buffer (C151_outside_refuted, C151_short_refuted); use of bytes not received (C151_stale_refuted); any bytes are sent into the OLSR network (C151_contents_refuted)."
  },
  {
   "property": "C152",
   "status": "partial",
   "theorems": [
    "C152_number",
    "C152_mac",
    "C152_name",
    "C152_uuid_partial",
    "C152_mip_partial",
    "C152_uuid_refuted",
    "C152_mip_refuted",
    "C152_short_refuted",
    "C152_long_refuted",
    "C152_leader_refuted",
    "C152_stack_refuted",
    "C152_comma_refuted",
    "C152_received_refuted"
   ],
   "note": "Proved: one number (C152_number), MAC (C152_mac), names up to 900 characters (C152_name), UUID and MIP without zeros in front of a part (C152_uuid_partial, C152_mip_partial). Refuted: zeros in front of a part lose half of a UUID or digits of a MIP OID (C152_uuid_refuted, C152_mip_refuted); long names and the leader message overflow the buffer (C152_long_refuted, C152_leader_refuted); a byte of the stack is sent (C152_stack_refuted); commas and any received characters go into the sentence and short messages are read beyond their end (C152_comma_refuted, C152_received_refuted)."
  },
  {
   "property": "C153",
   "status": "partial",
   "theorems": [
    "C153_relay",
    "C153_message",
    "C153_message_partial",
    "C153_stack_refuted",
    "C153_ttl_partial",
    "C153_ttl6",
    "C153_checksum_refuted",
    "C153_overflow_refuted",
    "C153_large_refuted"
   ],
   "note": "Proved: relaying (C153_relay), the message with IPv4 addresses (C153_message), the hop limit of IPv6 (C153_ttl6); the time to live of IPv4 with a right checksum unless the folded sum has a second carry (C153_ttl_partial); the message with IPv6 addresses up to 84 further bytes (C153_message_partial). Refuted: those bytes are of the stack (C153_stack_refuted); the checksum with a second carry is wrong (C153_checksum_refuted); a frame of 2041 bytes is written over the end of the buffer (C153_overflow_refuted); packets of nearly 1500 bytes are lost (C153_large_refuted)."
  },
  {
   "property": "C154",
   "status": "partial",
   "theorems": [
    "C154_copy_partial",
    "C154_ttl_refuted",
    "C154_other_refuted",
    "C154_abort_refuted",
    "C154_local_refuted",
    "C154_stale_refuted"
   ],
   "note": "Proved: an identical copy with the same bytes behind it in the buffer is dropped (C154_copy_partial). Refuted: a copy with another time to live is relayed again (C154_ttl_refuted); a packet to another group is dropped (C154_other_refuted); a packet from a link local IPv6 address ends a daemon with assertions, and without them blocks all others (C154_abort_refuted, C154_local_refuted); old bytes in the buffer decide (C154_stale_refuted)."
  },
  {
   "property": "C155",
   "status": "partial",
   "theorems": [
    "C155_lan4",
    "C155_lan6_partial",
    "C155_mac6_refuted",
    "C155_beyond_refuted",
    "C155_once",
    "C155_own",
    "C155_end"
   ],
   "note": "Proved: frames for IPv4 (C155_lan4), duplicates with a clock that does not go back (C155_once), own messages (C155_own), from node to node for both versions of IP (C155_end); frames for IPv6 up to the hardware address (C155_lan6_partial). Refuted: that address is 0 (C155_mac6_refuted); bytes from behind the message are sent (C155_beyond_refuted)."
  },
  {
   "property": "C156",
   "status": "partial",
   "theorems": [
    "C156_announced",
    "C156_pinged",
    "C156_unchecked",
    "C156_stale_refuted",
    "C156_static_refuted",
    "C156_own_refuted"
   ],
   "note": "Proved: C156_announced, C156_pinged, C156_unchecked. Refuted: a route that comes back is announced without a new ping (C156_stale_refuted), an entry of the configuration for the same network is removed (C156_static_refuted), routes of olsrd itself count when their metric is not FIBMetricDefault (C156_own_refuted). IPv4 only."
  },
  {
   "property": "C157",
   "status": "partial",
   "theorems": [
    "C157_order_refuted",
    "C157_twice_refuted",
    "C157_mask_refuted"
   ],
   "note": "All three are refuted: C157_order_refuted, C157_twice_refuted, C157_mask_refuted. Documented configurations are covered by C156."
  },
  {
   "property": "C158",
   "status": "partial",
   "theorems": [
    "C158_plain",
    "C158_metric_refuted"
   ],
   "note": "Proved for default routes of metric 0 (C158_plain); refuted for other metrics (C158_metric_refuted)."
  },
  {
   "property": "C159",
   "status": "partial",
   "theorems": [
    "C159_allowed",
    "C159_v6_refuted",
    "C159_overread_refuted"
   ],
   "note": "Proved for IPv4 (C159_allowed). Refuted for IPv6: a host in no configured network is let in (C159_v6_refuted) and the comparison reads behind the address (C159_overread_refuted)."
  },
  {
   "property": "C160",
   "status": "partial",
   "theorems": [
    "C160_gets",
    "C160_kick_refuted",
    "C160_takeover_refuted",
    "C160_exit_refuted",
    "C160_change_refuted",
    "C160_name_refuted",
    "C160_alike_refuted"
   ],
   "note": "Proved: what an undisturbed front end gets (C160_gets). Refuted: a refused host cuts it off (C160_kick_refuted), a second one takes over and the first connection leaks (C160_takeover_refuted), the leaks end olsrd (C160_exit_refuted), changes of routes are not told (C160_change_refuted), short interface names are read behind their end (C160_name_refuted), long ones are cut (C160_alike_refuted)."
  },
  {
   "property": "C161",
   "status": "partial",
   "theorems": [
    "C161_filter",
    "C161_requests",
    "C161_refreshed",
    "C161_malformed_refuted"
   ],
   "note": "Proved: C161_filter, C161_requests, C161_refreshed. Refuted for datagrams whose header length is less than 20 (C161_malformed_refuted). The kernel's machine for filters is modelled from its documentation."
  },
  {
   "property": "C162",
   "status": "partial",
   "theorems": [
    "C162_spoof_refuted",
    "C162_stop_refuted",
    "C162_lag_refuted"
   ],
   "note": "Refuted: any host can have any entry written (C162_spoof_refuted), one failure ends the refreshing (C162_stop_refuted), one frame in two seconds is used so that old senders overwrite newer ones (C162_lag_refuted)."
  },
  {
   "property": "C163",
   "status": "proved",
   "theorems": [
    "C163_hysteresis"
   ],
   "note": "the comparison of two positions (floating point) is an input"
  },
  {
   "property": "C164",
   "status": "partial",
   "theorems": [
    "C164_timers_partial",
    "C164_timers_refuted",
    "C164_at_once",
    "C164_leader",
    "C164_newest",
    "C164_gateway_partial",
    "C164_gateway_refuted",
    "C164_speed_refuted"
   ],
   "note": "timers: intervals of more than 4294967 seconds wrap around (refuted). A new leader counts as one report of moving only, so with the built-in threshold of five a stationary node does not send it at once (refuted). If the gateway is the last to become stationary, the speed of the time before is sent (refuted)"
  },
  {
   "property": "C165",
   "status": "partial",
   "theorems": [
    "C165_most",
    "C165_lowest_partial",
    "C165_lowest_refuted",
    "C165_niit_refuted"
   ],
   "note": "IPv4 addresses are compared as little-endian numbers, also the first four bytes of IPv6 addresses of IPv4 gateways, so ties do not go to the lowest address (refuted)"
  },
  {
   "property": "C166",
   "status": "partial",
   "theorems": [
    "C166_get_partial",
    "C166_method_partial",
    "C166_safe_partial",
    "C166_long_refuted",
    "C166_version_refuted",
    "C166_name_refuted",
    "C166_pause_refuted"
   ],
   "note": "Proved: a complete GET with a version and '/name' below 10240 bytes gets the page of that name (200), an unknown name 404, '/' the configuration page; other methods 400; peers not allowed nothing; requests below 10240 bytes are handled without a bad read when no debug output is printed. Refuted: 10240 bytes without a blank line leave the buffer without an end (sscanf reads beyond it); a request without a version makes the debug output print an array that was never set; a name with any first character matches; a pause of 200 us in a request loses it. Missing: requests without a version or with a longer line as exact claims; page contents, the date and the test of the address are inputs."
  },
  {
   "property": "C167",
   "status": "partial",
   "theorems": [
    "C167_sent_partial",
    "C167_delivered_partial",
    "C167_passed_refuted",
    "C167_fourth_refuted"
   ],
   "note": "Proved for every run: bytes to a socket are a start of its one reply, a socket is closed only with the reply complete or after a failed write and then silent, at most three replies wait, the timer runs exactly while one does, and with sockets that take bytes all replies are delivered. Refuted: the timer event that ends one reply passes over the next socket; a fourth client is not taken while three wait. Missing: select on descriptors of 1024 and more; empty replies do not occur."
  },
  {
   "property": "C168",
   "status": "partial",
   "theorems": [
    "C168_read_partial",
    "C168_kept",
    "C168_indent_refuted",
    "C168_trailing_refuted",
    "C168_range_refuted",
    "C168_long_refuted",
    "C168_time_refuted"
   ],
   "note": "Proved: a file of comments and lines 'name = number' of at most 255 characters, with names in any case and numbers below 2^32, sets each speed to its last value and keeps the others, and the mark for no bandwidth follows; a missing file or one with the same time changes nothing. Refuted: a line that starts with a blank is a comment; a blank behind the number makes it invalid; negative numbers, ones of 2^32 and more and ones outside the range of the configuration are taken; the end of a long comment is read as a line; a change within the same time stamp is not seen. regexec is taken to follow POSIX."
  },
  {
   "property": "C169",
   "status": "partial",
   "theorems": [
    "C169_battery_partial",
    "C169_range",
    "C169_ac_partial",
    "C169_levels_refuted",
    "C169_word_refuted",
    "C169_unset_refuted",
    "C169_overflow_refuted",
    "C169_apm_refuted"
   ],
   "note": "Proved for one battery: the willingness is 3 from 78 percent on, 2 from 52, 1 from 26 and else 0; for all files it is 0, 1, 2, 3 or 6. Refuted: the levels of the comment (25 percent gives WILL_NEVER, 50 percent gives 1); a word of 32 characters is written beyond its array; a blank line reads arrays that were not set; large capacities overflow; with APM a negative percentage gives a willingness above WILL_ALWAYS. Missing in the positive part: absent batteries, the order of several adapters, and other texts."
  },
  {
   "property": "C170",
   "status": "proved",
   "theorems": [
    "C170_read",
    "C170_inside",
    "C170_pieces",
    "C170_roundtrip"
   ],
   "note": "Proved in full for the model: the delivered sentences are exactly those of an independent definition, for every stream, buffer size and cut; memory safety of the buffer; a stream of valid sentences is read back."
  },
  {
   "property": "C171",
   "status": "partial",
   "theorems": [
    "C171_printed_partial",
    "C171_small_refuted",
    "C171_small_always"
   ],
   "note": "Proved for buffers that hold the text and the checksum. Refuted: for every text longer than the buffer, nmeaPrintf takes the parity of characters behind the end of the buffer."
  },
  {
   "property": "C172",
   "status": "partial",
   "theorems": [
    "C172_fields_partial",
    "C172_fewer",
    "C172_letters_partial",
    "C172_inside",
    "C172_junk_refuted",
    "C172_digits_refuted"
   ],
   "note": "Proved for all lists of fields and sentences: fields that are right are stored as their kinds say, a shorter sentence without a checksum gives the number of its fields, a number field that starts with another character refuses the sentence, texts fit and nothing behind the NUL is read. Partial: floating-point values are kept as text and strtod's acceptance is an argument; refusal is shown only for fields that do not start as a number. Refuted: a number followed by other characters is accepted as the number before them, and a number of 64 characters is stored as 0."
  },
  {
   "property": "C173",
   "status": "partial",
   "theorems": [
    "C173_time_partial",
    "C173_rounding_always",
    "C173_rounding_refuted",
    "C173_date_partial",
    "C173_year_always",
    "C173_year_refuted",
    "C173_range",
    "C173_junk_refuted"
   ],
   "note": "Proved for all readings with spaces around them: times before the last five milliseconds of a second and dates of all years but 90 are stored or, out of range, refused; whatever is stored is in range. Partial: fields that are no clock reading are not all refused. Refuted: from .995 on the hundredths round up to 100 and the whole sentence is refused, as is every date of a year 90 (it becomes 2090, and 2089 is the last valid year); digits may be replaced by other characters (1x2y3z.4 is 01:02:03.40), and 31 February is accepted."
  },
  {
   "property": "C174",
   "status": "partial",
   "theorems": [
    "C174_any",
    "C174_series_partial",
    "C174_text_partial",
    "C174_count_refuted"
   ],
   "note": "Proved for all accepted sentences: satellites, places, clearing and bounds; and for all lists of 1 to 72 satellites: the series made from one information brings them into any other. Partial: the text theorem is for sentences with all 19 fields; a last sentence without the empty fields is covered by the theorem about accepted sentences and an example only; the generator's text is not modelled. Refuted: a last sentence with 19 fields can hold more satellites than it counts, and all are stored."
  },
  {
   "property": "C175",
   "status": "partial",
   "theorems": [
    "C175_range",
    "C175_ends_partial",
    "C175_ends_refuted",
    "C175_degrees_partial",
    "C175_minutes_refuted",
    "C175_time_partial",
    "C175_time_refuted"
   ],
   "note": "Proved for all doubles: if the loops end, the position is in range; they end up to 2^60; whole degrees up to 2^40 stay the same point; with a date, the time becomes a time of day and a time of day stays. Partial: positions with minutes that are not folded over a pole are only shown to be in range. Refuted: for a latitude of 2^70 the loop never ends, because subtracting 36000 rounds back to the same number; 91 degrees 30 minutes are folded to 88 degrees 70 minutes; a time without a date is not checked, because the condition asks for the date."
  },
  {
   "property": "C176",
   "status": "partial",
   "theorems": [
    "C176_any_partial",
    "C176_mode",
    "C176_again_partial",
    "C176_stale_refuted",
    "C176_stale_always",
    "C176_text_partial",
    "C176_letters"
   ],
   "note": "Proved for all sentences and all earlier states: the satellites named come first in the array and are counted, a sentence without any leaves the array, the mode and the fix are possible ones, the fields of a sentence are read with empty ones as 0, and up to twelve satellites survive the way through a sentence into a cleared array. Refuted: memset clears the size of one element, so satellites of an earlier, longer sentence remain behind the new ones (shown for every sentence) and are reported by the next sentence that is made. The dilutions of precision are not modelled."
  },
  {
   "property": "C177",
   "status": "partial",
   "theorems": [
    "C177_read_partial",
    "C177_wrong",
    "C177_atomic",
    "C177_close_always",
    "C177_close_refuted",
    "C177_indent_refuted",
    "C177_long_refuted"
   ],
   "note": "Proved for all sequences of well-shaped lines, any way to read numbers and any use of the values: the last line with a name counts, a line that cannot be used keeps the position whatever is around it, and for any text the position changes only as a whole and together with the result true. Refuted: every file that is read is closed twice (fclose and close of the same descriptor), an indented setting is taken as a comment, and a long comment makes the file invalid. Partial: lines of other shapes (such as several equals signs) are in the model but not in the theorem about the values."
  },
  {
   "property": "C178",
   "status": "partial",
   "theorems": [
    "C178_any",
    "C178_again",
    "C178_text_partial",
    "C178_sign_refuted",
    "C178_range_refuted",
    "C178_letters",
    "C178_metres"
   ],
   "note": "Proved for all sentences and all earlier informations: letters, signal and time of an accepted sentence are possible, every combination of empty and given fields is stored as the fields say with S and W negative, and every information survives the way through a sentence. Partial: coordinates in the sentence are not negative. Refuted: a minus sign is dropped, so -4807,N is 48 degrees north; a latitude of 99 degrees is accepted; a count of 4294967294 satellites is accepted, from which more than 10^9 GPGSV sentences would be made. Doubles are integers in units of 2^-1074; infinities and the sign of 0 are not modelled."
  },
  {
   "property": "C179",
   "status": "partial",
   "theorems": [
    "C179_text",
    "C179_again",
    "C179_agree_refuted"
   ],
   "note": "Proved for all combinations of fields, any reading of numbers and any conversion: accepted just if each number has its unit, stored as the fields say, and every information survives the way through a sentence. Refuted: two different speeds in one sentence and a track of 999 degrees are accepted. Infinities are not modelled."
  },
  {
   "property": "C180",
   "status": "partial",
   "theorems": [
    "C180_signal_partial",
    "C180_text_partial",
    "C180_again",
    "C180_void_refuted",
    "C180_void_always",
    "C180_letters"
   ],
   "note": "Proved for every accepted sentence with a status and a mode, for all combinations of empty fields in the text of twelve fields, and for the way through a sentence and back for the signals 0 to 8. Refuted: a sentence with status V but no mode, or an empty one, leaves an earlier valid signal and its position is stored. The speed comes back as far as it survives the two conversions (a hypothesis); texts without a mode and negative coordinates are left out of the text theorem; infinities are not modelled."
  }
 ]
}