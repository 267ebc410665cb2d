{
 "C02": {
  "note": "False below 2 s: decoding truncates to whole milliseconds, re-encoding then loses one mantissa step. Proved stable for exponents >= 5 and never growing."
 },
 "C03": {
  "note": "False for the message that creates a record (its bit is not set), which can be accepted a second time. Proved for all others."
 },
 "C09": {
  "note": "Expiry is exact; the remaining time is off by one millisecond across the 32-bit wrap."
 },
 "C48": {
  "note": "Holds while the 32-bit clock does not wrap; the unsigned comparison of valid_until makes a record die early at the wrap."
 },
 "C07": {
  "note": "False: the scan stops at the first byte that is not 255, later one bits are ignored (255.0.255.0 is accepted as /8). Proved what is accepted and rejected."
 },
 "C50": {
  "note": "IPv4 exact. False for IPv6: prefix_len/8 = 0 bytes are compared, so every /3 prefix counts as the Internet route; proved that only /3 and the mapped /96 can."
 },
 "C27": {
  "note": "Exact and memory safe below 16 MB when the first allocation succeeds. False: an append beyond 2^24 bytes overruns, a pulled buffer is not terminated, a failing first formatted append writes to NULL."
 },
 "C28": {
  "note": "Copy exact. Concatenation exact if the existing string fits; otherwise the unsigned difference wraps and it writes beyond the size."
 },
 "C51": {
  "note": "The documentation of list_merge says 'append'; the model of the code shows the elements are put at the front. Refuted with a witness."
 },
 "C53": {
  "note": "False: IPv4 addresses are compared as host integers, so little and big endian hosts sort them differently."
 },
 "C11": {
  "note": "Proved for walks that do not span the 32-bit wrap (C11_walk_exact) and after a full turn (C11_full_turn); at the wrap a due timer is passed over (C11_wrap_refuted). C11_zero_interval_refuted: timers set for 0 ms can keep the walk from ending."
 },
 "C54": {
  "note": "One-shot timers re-armed in their own callback are stopped and freed."
 },
 "C12": {
  "note": "Proved for datagrams of 4 or more bytes; for 1 to 3 bytes the unsigned byte count wraps and the parser replays stale buffer content and reads beyond it (C12_short_datagram_refuted)."
 },
 "C14": {
  "note": "False: the block size field is never compared with the message or the buffer (PropHello C14_*_refuted). Proved for all bytes: decoding ends and the list surgery never touches freed or NULL nodes; for well-formed messages reads stay inside (C15)."
 },
 "C15": {
  "note": "Exact result for every well-formed HELLO/LQ HELLO, with the culling modelled at pointer level."
 },
 "C55": {
  "note": "False: a zero-size block drops the neighbors allocated so far."
 },
 "C31": {
  "note": "Refinement of a message queue for all operation sequences; reservations must not be negative, MTU below 65536, no packet transform function registered."
 },
 "C42": {
  "note": "Relay decision, interfaces and header changes exact; the at-most-once part is false for the first message of an originator (C42_once_refuted) and otherwise reduces to C03."
 },
 "C56": {
  "note": "False in three ways; proved for reservations made with room left and kept until the next reservation, transmission or MTU change."
 },
 "C57": {
  "note": "False: off by one from 10 collisions on; the exact deficit is proved."
 },
 "C16": {
  "note": "While links of the originator are known: exact decision and the bound of 33 ignored messages proved. After a message without links: refuted (an older message is accepted at once)."
 },
 "C17": {
  "note": "One message: exact. All pieces received: exact except the address of all ones (refuted). Lost pieces keep their links if addresses are compared in network order; refuted for IPv4 on little endian machines, and after a restart of the originator."
 },
 "C58": {
  "note": "False: flags above 8*address size, or exactly one 0, write out of bounds. Safe for flags a sender produces (C61_slack_partial)."
 },
 "C59": {
  "note": "False: a denied unknown address does not skip its quality bytes."
 },
 "C60": {
  "note": "False: 4 bytes of quality are skipped behind every new address."
 },
 "C61": {
  "note": "False: a size that is not a whole number of records reads beyond the end. Safe with room for one record after the end."
 },
 "C18": {
  "note": "Pointer-level model of originators, links, prefixes and reference counts. Proved for all histories in which this node's own entry does not expire and the main address does not become that of a known originator (C18_main_change_refuted shows what happens then: the node's own entry is not in the tree and is later removed from it all the same)."
 },
 "C62": {
  "note": "False: an entry made for an HNA or MID originator has no validity timer and stays for ever."
 },
 "C19": {
  "note": "Dijkstra on the pointer-level database of C18, including the refresh of this node's own links. The sum of costs must not reach 2^32-1 (entries times largest link cost); C19_overflow_refuted shows what happens otherwise."
 },
 "C20": {
  "note": "Proved when every link of this node leads to somebody in the neighbor table; C20_stale_link_refuted: a link left behind when an interface goes away hides a node that is still reachable. The hop count is modulo 256."
 },
 "C63": {
  "note": "False in the calculation that first sees the neighbor (the new edge has the cost of zero qualities); proved when the edge existed before."
 },
 "C21": {
  "note": "Proved for every set of offered paths when the gateway scaling is fixed (C21_best_path); C21_gateway_refuted: with the gateway hysteresis the comparison is not an order and the chosen default route depends on which paths are looked at first."
 },
 "C22": {
  "note": "Proved for all histories: IPv4 flat metric even with refused requests; every metric and IPv6 if requests are accepted and interfaces flush. Refuted otherwise: a refused replacement, link-local destinations, and an interface lost after a path was removed leave the kernel different for good."
 },
 "C64": {
  "note": "Proved directly after an accepted IPv4 calculation; refuted when a best path has been removed since."
 },
 "C23": {
  "note": "Proved when no two-hop neighbor has more neighbors than the coverage asks for (the selection alone: one more). Refuted in general: the optimisation removes all relays of a ring, and the greedy choice stops early because its counters go down once per MPR."
 },
 "C24": {
  "note": "For all neighborhoods, costs and coverages. A symmetric neighbor without any link (get_best_link_to_neighbor returns NULL) gets no MPR and is outside the statement."
 },
 "C65": {
  "note": "Proved for src/mpr.c in every neighborhood; false for src/lq_mpr.c, which never looks at WILL_NEVER."
 },
 "C66": {
  "note": "Proved for src/lq_mpr.c; false for src/mpr.c."
 },
 "C67": {
  "note": "False in both directions: src/mpr.c signals exactly lost MPRs, src/lq_mpr.c exactly new ones (both proved)."
 },
 "C35": {
  "note": "Bounds and stability proved for all 32-bit speeds (saturates at 320000000); not monotone: 32 is announced as 32 but 33 as 30."
 },
 "C36": {
  "note": "Proved when the 32-bit products do not wrap and the dividers stay below weight*2^23; the wrap and the bandwidth order are refuted otherwise."
 },
 "C68": {
  "note": "Proved for IPv4 and ::ffff:0:0/96; for 2000::/3 the encoder writes one byte past the netmask, and no netmask makes a receiver learn an external prefix. An HNA entry with an ordinary netmask is never taken for a gateway (C68_plain)."
 },
 "C37": {
  "note": "Bounds, content and absence of duplicates proved for all histories; the order only while no gateway in use is announced with infinite cost (then the list is not resorted: refuted)."
 },
 "C38": {
  "note": "Optimality and threshold proved for every reachable state in which tunnels work and the arithmetic does not overflow; a lost or dead current gateway is not replaced (refuted)."
 },
 "C69": {
  "note": "Proved when tunnel creation never fails (then only the threshold overflow remains); one failing tunnel leaves a dangling pointer (refuted)."
 },
 "C70": {
  "note": "Tunnels proved for all histories; the route only when tunnel creation never fails, refuted otherwise. doRoutesMultiGw not modelled."
 },
 "C71": {
  "note": "Completeness needs a sorted list (no infinite costs) and a cost up to INT64_MAX/100; infinite current cost overflows (refuted)."
 },
 "C46": {
  "note": "Proved: after any change, unless a route calculation ran less than one backoff period ago, the next processing calculates MPRs (for neighborhood changes) and then routes, calls every listener once with the same flags, which include every flag raised, and clears the flags (C46_recalculation_partial, assumes the backoff timer has expired since the last processing); without a flag nothing happens (C46_quiet). Refuted: a change within the backoff second after a calculation is discarded, and no number of later passes calculates the routes (C46_stale_refuted)."
 },
 "C47": {
  "note": "Proved for all histories: selectors stored once and exactly those selected and not expired since (C47_selectors); adding or removing one increases the number by one modulo 2^16 at the next check of the main loop (C47_increase); nothing but that check changes it and only after a signal (C47_only); with tc_redundancy 2 the advertised set is constant while no signal is raised (C47_advertised_partial, only redundancy 2). Refuted: a TC sent before the check has the new set and the old number (C47_early_refuted); with redundancy 0 a selector losing symmetry changes the set without the number (C47_status_refuted); the number also grows without any change of the set (C47_other_refuted)."
 },
 "C39": {
  "note": "Proved for all histories of permitted calls (C39_blocks, C39_usage, C39_accounting, C39_double): no call fails, a block handed out is held by nobody else and zeroed, no other held block changes, the counter equals the number of held blocks (below 2^32), every block is held or on exactly one free list, and a second free of a waiting block stops the program. Assumes cookies of at least 8 bytes, as all in the code, and that calloc succeeds and returns memory not in use."
 },
 "C45": {
  "note": "Proved for all loss histories and all accepted settings, with IEEE binary32 arithmetic rounding to nearest (C45_range, C45_thresholds, C45_history). Times (L_LOST_LINK_time) are not modelled."
 },
 "C72": {
  "note": "Proved for scaling at least 2^-7 and high threshold at most 1 - 2^-10: after 2^19 or more loss-free packets the next HELLO establishes the link (C72_established_partial). Refuted in general: a high threshold of 1.0 is accepted and no link is ever established (C72_established_refuted)."
 },
 "C33": {
  "note": "etx_ff and etx_ffeth: quality is the exact proportion over the last 32 intervals rounded down by less than two units (C33_quality, C33_quality_ffeth) while at most 255 packets arrive per second; beyond that the counters wrap and a bad link is taken for a perfect one (C33_burst_refuted). Cost range, monotonicity, symmetry: C33_range, C33_cost. etx_fpm: C33_fpm, C33_fpm_cost; its cost depends on the direction (C33_direction_refuted), by at most 11 units (C33_direction_partial)."
 },
 "C34": {
  "note": "etx_ff, and radio links with etx_ffeth: broken after 33 silent seconds (C34_silent). etx_ffeth: a silent Ethernet link with the usual HELLO interval stays perfect for ever (C34_ethernet_refuted). etx_fpm: broken after at most 231 losses if the aging factor is at least 2622/65535 (C34_fpm_partial); for every smaller configurable factor some link is never declared broken (C34_aging_refuted)."
 },
 "C73": {
  "note": "Proved: C73_smoothing, C73_stable."
 },
 "C29": {
  "note": "Proved for all histories of messages (byte level), expiries and originator removals and any hash function: records = announced and not withdrawn (with the latest validity time), no duplicates, no empty gateway, routing table calls agree, changes_hna raised exactly for new networks, no reading outside the message. Simplified: records are identified by key instead of pointer, the expiry timer may fire at any time."
 },
 "C74": {
  "note": "False: expiry of an older plain 0.0.0.0/0 announcement deletes the smart gateway entry of the same node although its announcement is fresh (olsr_delete_hna_net_entry calls olsr_delete_gateway_entry for any Internet prefix). Proved: without plain default routes the HNA set never withdraws a gateway."
 },
 "C40": {
  "note": "Refuted as stated: get_best_link_to_neighbor keeps one best cost for symmetric and other links, so a cheaper asymmetric link hides a symmetric one (with link quality and with interface metrics). The status part is proved over all timed runs, and the choice is proved correct when everything not symmetric costs more. Exact status under hysteresis is only proved in one direction."
 },
 "C75": {
  "note": "Refuted: a HELLO listing us as ASYM starts the symmetry timer and marks the neighbor, but when that timer expires the mark is only withdrawn if the previous status was SYM. Proved for single-address neighbors whose HELLOs say SYM or LOST."
 },
 "C76": {
  "note": "Refuted: only the oldest link with the address is looked at. Proved: never SYM without a symmetric link, exact for addresses with one link."
 },
 "C77": {
  "note": "Refuted three ways: a HELLO carrying another neighbor's main address, a MID message listing its own originator as an alias (both lead to use after free), and alias insertion that loses the link count. Proved for networks in which all messages agree about who owns an address."
 },
 "C78": {
  "note": "Refuted: jitter removes up to 5 percent of the life time, and near the clock wrap the timer is not prolonged. Proved: at least 95 percent before 3221225472 ms of uptime; removal bound at all times."
 },
 "C30": {
  "note": "Proved that the forward and reverse tables agree and that no freed entry is met, for all runs (C30_agree). That an alias is never a main address in use is refuted (C30_main_refuted: chains and self aliases) and proved for networks whose nodes declare only their own other addresses (C30_main_partial). The effect of insert_mid_tuple on the neighbor table is modelled in LinkSet.v, here only asked for membership."
 },
 "C79": {
  "note": "Proved: every known alias has its route asked for. The converse is refuted by two nodes declaring one address; proved for honest networks. What the routing table does with the calls is in Rib.v."
 },
 "C80": {
  "note": "Refuted for aliases learned from HELLOs (never refreshed). Proved lower bound for aliases declared in MID messages, upper bound for all, removal by MID messages that do not list them for the first 24 days of the clock, refuted later. Timers fire at most the slack late."
 },
 "C81": {
  "note": "Proved for IPv4; refuted for IPv6 (the 24-byte header is counted as 12 bytes); proved for IPv6 bodies with fewer than 4 surplus bytes."
 },
 "C41": {
  "note": "Tables agree, counts right, no use of freed memory: proved for runs that exclude three kinds of events (MID set with chains during a HELLO; alias learned while another alias of the node is itself in the neighbor table; more than 32767 neighbors); refuted without the exclusion (dangling, dup). Expiry proved for records confirmed by a second HELLO, refuted for records learned once (they have no timer)."
 },
 "C82": {
  "note": "Proved for the same runs as C41 (no MID chains); costs as 32-bit sums that do not wrap."
 },
 "C32": {
  "note": "Proved for TC, HELLO with IPv4, LQ_HELLO and LQ_TC in full (any state of the output buffer, any packet size that fits one address; exit and refusal are excluded). MID: proved when some interface has an address other than the main one; refuted otherwise (C32_mid_gap_refuted: a number is used up without a message). HELLO with IPv6: proved unless the waiting data leaves between 28 and 47 bytes, where the process exits (C32_hello6_exit_refuted). HNA messages not modelled here."
 },
 "C83": {
  "note": "Proved for IPv4 and for LQ_HELLO; with IPv6 without LQ proved if no link is hidden, refuted otherwise (C83_v6_refuted)."
 },
 "C84": {
  "note": "Proved for at least one network to announce and without the IPv6 route 2000::/3 of a smart gateway; refuted otherwise: an empty message is sent (C84_empty_refuted), a netmask is written beyond a variable (C84_overflow_refuted)."
 },
 "C85": {
  "note": "Proved for IPv4; refuted for IPv6 (C85_v6_refuted: an ordinary route ::/0 is announced instead). Fewer than 2000 networks (the 16 bit size estimate does not overflow)."
 },
 "C86": {
  "note": "C86_partial: the messages arrive in order and without loss, the first is accepted and what was known is older; the all-ones address is left out."
 },
 "C87": {
  "note": "C87_fisheye is full; C87_empty_partial holds for 2^31 ms; C87_wrap_refuted: later, when the clock comparison turns round, a node that never had anything to advertise sends empty TCs."
 },
 "C88": {
  "note": "C88: full for create_lq_hello and serialize_lq_hello."
 },
 "C89": {
  "note": "C89_restored_partial and C89_integrity_partial need an unpadded layout and that the signature fits; C89_altered_partial reduces forgery with the same code to a hash collision. C89_sha_refuted: SHA1 with an 8 byte time_t rejects all packets (code written behind the field). C89_mixed_refuted: 32 and 64 bit nodes reject each other. The hash is an argument; unforgeability of the keyed hash is not modelled."
 },
 "C90": {
  "note": "C90_window_partial: the three second window. C90_replay_refuted: two replays every two seconds keep the stored difference following the clock, for ever."
 },
 "C91": {
  "note": "C91_validated_partial: except for what malloc returns in a new entry. C91_unsigned_partial: except for the entry that a challenge makes. C91_forged_refuted: a forged challenge locks a node out. C91_recorded_refuted: a recorded challenge un-validates a node."
 },
 "C92": {
  "note": "C92_exact_partial: the exact condition. C92_buffer_refuted: nothing reserves room in the output buffer. C92_cache_refuted: checksum_cache overflows with a large MTU."
 },
 "C93": {
  "note": "C93_handshake_partial: no loss, idle buffers, unpadded layout. C93_waiting_refuted: a message waiting ahead of the challenge deadlocks the handshake."
 },
 "C94": {
  "note": "C94_request_partial and C94_rule_partial: exact and unique reading for table numbers below 256. C94_table_refuted: RTA_TABLE is overwritten by the header, the request names table 0. C94_rule_refuted: rules use the low 8 bits of the table."
 },
 "C95": {
  "note": "C95_similar_partial: IPv4 with prefix length other than 32. C95_host_refuted: for host routes the deletion names the destination as gateway."
 },
 "C96": {
  "note": "C96_added and C96_removable hold in full (IPv4 matching rules). C96_deleted_partial: unless the answer is 101 or 128. C96_deleted_refuted: these answers to a deletion create a route to the next hop."
 },
 "C97": {
  "note": "C97_answers_partial: if recvmsg never fails. C97_shift: after one failure all results are those of the request before; C97_answers_refuted is the witness."
 },
 "C98": {
  "note": "C98_hosts full for the hosts file. Services: printable only if the suffix, as a regular expression, is; refuted for '.olsr'. Macs and positions refuted (text after the numbers is not looked at). is_latlon_wellformed is a parameter; latlon_scan is a model of it for plain decimals."
 },
 "C99": {
  "note": "Proved for messages in which every text is terminated inside the message; refuted for messages that announce more entries than they contain (end computed 8 bytes too far on 64 bit IPv4) and for texts without end."
 },
 "C100": {
  "note": "Excludes texts that begin an earlier one, and last texts whose length is a multiple of 4; both refuted."
 },
 "C101": {
  "note": "Names, forwarders, services: any memory. At most one position: all runs. Macs refuted."
 },
 "C102": {
  "note": "First three lines exact; a fourth line may be any server, and a server may appear twice (refuted). Internet gateway route not considered in the comparison."
 },
 "C103": {
  "note": "Exact (up to prefixes) without suffix; refuted with the suffix '.olsr'."
 },
 "C104": {
  "note": "Success characterised exactly; refuted with 70 names of 127 characters."
 },
 "C105": {
  "note": "Partial: nesting at most 14 levels, strings that need no escaping (refuted otherwise: the writer does not escape), floats as decimals with the digits of %.3f."
 },
 "C106": {
  "note": "Full for all histories of requests; sections as data printed through the modelled writer. Memory for the cache is always available."
 },
 "C107": {
  "note": "Partial: lines of one of the two shapes with at least one name (plain) that fit in the buffer. Refuted: '/' and ' ' read before the buffer, 'GET   HTTP/1.1' gets status 500, requests of 1024 bytes are cut instead of refused."
 },
 "C108": {
  "note": "IPv4 exact; IPv6 refuted (accept_ip is compared with ::1 instead of the peer)."
 },
 "C109": {
  "note": "Full. Connections have names that are not reused; the kernel takes at most what it is offered."
 },
 "C110": {
  "note": "Full for bodies below 2 GiB (int)."
 },
 "C111": {
  "note": "Lines below 255 characters that are not indented and have no zero bytes; interfaces with different names. Indented lines and long comments are refuted."
 },
 "C112": {
  "note": "The report is characterised in full; that it covers bandwidth changes, that every file is read, and that the descriptor is closed once are refuted."
 },
 "C113": {
  "note": "IPv4; requests succeed and interfaces that are up are running; the gateway selection itself is an input."
 },
 "C114": {
  "note": "IPv4; deletions succeed and no route is over an interface that is not up; the kernel's route store is modelled as a map by table and destination."
 },
 "C115": {
  "note": "IPv4; requests succeed; tables are different; the gateway is not lost; priorities (metrics) and rules are left out."
 },
 "C116": {
  "note": "While the connection lasts (no write error); the route's best path exists; plugin parameters, socket set-up and logging are left out."
 },
 "C117": {
  "note": "The reading of well-formed messages is proved for all of them; robustness against malformed messages is refuted."
 },
 "C118": {
  "note": "Messages are never cut short at the end of a call, fewer than 65536 bytes pending, additions and removals of a network take turns; list entries of an IPv4 configuration have zeros after the address."
 },
 "C119": {
  "note": "IPv4 proved in full; IPv6 without hidden links and with room in the buffer. Refuted where RFC 3626 6.2 asks for more: a neighbor with a hidden link on the interface is not mentioned there although it is a symmetric MPR over another interface."
 },
 "C120": {
  "note": "Contents proved in full; times within 2^31 ms, refuted beyond: after 24.8 days a node with nothing to advertise starts sending empty TCs."
 },
 "C121": {
  "note": "Sound for all configurations outside the listed gaps; complete for one gateway. Refuted: leading white space in the instance id, script without execute permission, 16-character egress names, 257 egress interfaces (counter wraps), NaN poll rate."
 },
 "C122": {
  "note": "Rules proved distinct and unreserved for fewer than 256 egress interfaces, tables if also the offset is below 256. Refuted: truncation to 8 bits reaches the main table, duplicates after the counter wraps, collisions with tables and priorities of the routing policy."
 },
 "C123": {
  "note": "Kept values and automatic priorities proved in full; ordering for priorities of at least -1. Refuted: negative priorities are installed, overflow of signed arithmetic."
 },
 "C124": {
  "note": "Proved for blocks that do not give a name twice. Refuted otherwise: statements go to another interface or follow a null pointer."
 },
 "C125": {
  "note": "Proved without duplicate addresses and zero multipliers. Refuted: zero counts as 1.0; of duplicates sometimes the first counts."
 },
 "C126": {
  "note": "Meaning, rejection and file arguments are proved without restriction; no undefined behaviour if -lql, -lqa and -lqnt get numbers. Refuted: -lql without a number uses an unset variable, -lqa nan is accepted, -ipv6 leaves prefixes limited to 32 bits, and the options for all interfaces reach none (C126_never)."
 },
 "C127": {
  "note": "Proved for one file (order of last mention; order of the file if no name is repeated). Refuted: a repeated block moves the interface to the end, a second file reverses the first, -i puts its names in front in reverse."
 },
 "C128": {
  "note": "Proved for calls of at most 2^32-64 bytes (the plugin passes at most 65535). Refuted without the bound: after one byte, a call of 2^32-1 bytes reads past the data because i+63 wraps."
 },
 "C129": {
  "note": "Proved for devices that keep their index and exist at the start, HNAs that do not change and interfaces that are not lost. Refuted: dropping the entries of a lost interface leaves their 4to6 routes (src/process_routes.c:383-388); an HNA added or removed at run time gets no route or keeps its route; a device made anew with another index, or after the start, is never used."
 },
 "C130": {
  "note": "The three statements are proved. Refuted beyond them: packets with identification 0 that differ only after byte 256 collide; a packet with total length 0 (received from the network) fails the assertion len > 0 and ends the daemon."
 },
 "C131": {
  "note": "Proved as stated. Refuted: a packet counts as a copy for up to almost six seconds, not three; and as each copy renews the entry, a packet repeated every two seconds is forwarded once and then never again."
 },
 "C132": {
  "note": "Proved when old checksum + halves of the old address - halves of the new one is neither 131071 nor -65536 and the UDP checksum is used. Refuted: for those sums the header checksum is wrong afterwards; a UDP checksum of 0 (not used) becomes a wrong one."
 },
 "C133": {
  "note": "Proved for packets whose total length is at least 1 and not more than the bytes received (valid), with link costs and fan-out limit as olsrd sets them (sane). Refuted: a captured packet from a neighbor that has selected this node as MPR is encapsulated back to that neighbor; the first fragment of a packet is forwarded though the later ones are not."
 },
 "C134": {
  "note": "Proved when the total length is at most the bytes received and not 0. Refuted: with a larger one stale stack bytes are sent to the neighbors (proved equal to the former contents of the stack buffer); with one over 2040 the read leaves the buffer; with 0 an assertion ends the daemon."
 },
 "C135": {
  "note": "Proved for encapsulated copies and for multicast packets on networks without OLSR (also with changed time to live). Refuted for broadcasts: the rewritten destination address makes it another packet, and it is forwarded once more."
 },
 "C136": {
  "note": "Proved for one election after any events, and for any set of routers. Refuted: with eleven interfaces a router just heard is forgotten on the last one in the same election (the age is decremented once for each interface), with six the default timers are too slow; the configured network is overwritten at start; an introduction in the first second, and a send that fails, follow a NULL pointer."
 },
 "C137": {
  "note": "Proved for IPv4 packets that are whole, up to the first interface that is not active. Refuted: the rest of the interfaces gets nothing (return in the loop); in IPv6 packets two bytes of the source address are replaced by a checksum; a total length above the message sends the memory behind it; an empty message changes the sequence number of the next one."
 },
 "C138": {
  "note": "Proved for IPv4. Refuted: frames above 2040 bytes overflow the buffer, the port of a packet without payload is taken from the frame before, with IPv6 84 bytes of the stack are sent, and the IPv6 filter compares with a variable that is never set."
 },
 "C139": {
  "note": "In force: proved for all events. Restored: proved if interfaces only come up; refuted for an interface that was removed (also if it came back), that could not be brought up at the first attempt, for an end during the start (no signal handlers yet), and for values of more than one digit. A kernel 2.7 would be taken for an old one."
 },
 "C140": {
  "note": "Proved for single attempts. Refuted for the whole: a failed attempt removes the file of the other process, so that the second attempt succeeds; without host emulation no lock is taken at all, and such a process removes the lock file of another when it ends."
 },
 "C141": {
  "note": "Proved for process numbers that do not fall; refuted for a shorter number after a longer one (no O_TRUNC, and the file is never removed)."
 },
 "C142": {
  "note": "Proved for the start, and for the end with the same interfaces; refuted for interfaces that were removed (the rule stays) or came later (no rule)."
 },
 "C143": {
  "note": "C143_kept/C143_others/C143_whom/C143_inside are full. C143_only_partial: a message that has only gateway announcements is not forwarded, but the last one stays in the buffer and olsr_input_hna, which is called next, takes it (C143_taken_refuted). IPv6: ::/0 passes, any network of length 3 is removed (C143_v6_refuted). olsrd_plugin_fini never advances to the next group: use after free (C143_end_refuted)."
 },
 "C144": {
  "note": "C144_port_only_partial: what is accepted as a port is the number only below 2^32 (C144_port_refuted: 4294967376 is port 80); C144_int_refuted: ints are cut to 32 bits and longs limited without a message. Not modelled: set_plugin_ipaddress (inet_pton)."
 },
 "C145": {
  "note": "C145_loaded and C145_refused are full. C145_unknown_refuted: unknown parameters are ignored with a message; C145_initialized_refuted: plugin_init is called although a parameter was refused; C145_init_refuted: the return value of plugin_init is ignored."
 },
 "C146": {
  "note": "C146_link and C146_route hold for every history of the switch. Refuted: the documented chance is inverted (C146_chance_refuted: whatever passes a better link passes every worse one, and quality 91 passes only the last tenth of the random numbers); links to a client survive its leaving (C146_stale_refuted); olsr_random is undefined for INT_MIN (C146_random_refuted)."
 },
 "C147": {
  "note": "C147_file and C147_tokens hold for every file of the described form and for every file. Refuted: a comment without a line end at the end of the file is active configuration, unknown text (wrong keywords, signs, points, exponents) is silently skipped, 010 is 8 and 09 is 0, IPv6 addresses with an embedded IPv4 address are cut, line ends in strings are not counted."
 },
 "C148": {
  "note": "Proved: independence of blanks, line ends and comments (C148_same), definedness for every file (C148_defined_partial, which needs arguments that end with an ASCII character). Refuted: a negative char is shifted otherwise (C148_defined_refuted); two addresses give the same checksum (C148_different_refuted)."
 },
 "C149": {
  "note": "Proved: time (C149_time), altitude, speed and track (C149_rounded), validity away from the borders of the exponents (C149_validity_partial). Refuted: at the borders, 47 s and 110 s for example, an assertion ends the daemon (C149_border_refuted); a leap second or a field out of range is read a day away (C149_leap_refuted); a track above the field wraps to 0 (C149_track_refuted)."
 },
 "C150": {
  "note": "Proved: the list contains exactly the last N (C150_seen), what is relayed (C150_relay), never twice within N (C150_once). Refuted: relayed again after N others (C150_again_refuted); depth 2^62 makes an empty list that is written to (C150_depth_refuted); a message without the fixed part is read beyond its end (C150_short_refuted). The return value also decides whether src/parser.c forwards the message: updates of another version are not forwarded."
 },
 "C151": {
  "note": "Proved: well-formed datagrams (C151_unpack_partial). Refuted: 01 ff fc 00 never ends (C151_endless_refuted); reads outside of the buffer (C151_outside_refuted, C151_short_refuted); use of bytes not received (C151_stale_refuted); any bytes are sent into the OLSR network (C151_contents_refuted)."
 },
 "C152": {
  "note": "Proved: one number (C152_number), MAC (C152_mac), names up to 900 characters (C152_name), UUID and MIP without zeros in front of a part (C152_uuid_partial, C152_mip_partial). Refuted: zeros in front of a part lose half of a UUID or digits of a MIP OID (C152_uuid_refuted, C152_mip_refuted); long names and the leader message overflow the buffer (C152_long_refuted, C152_leader_refuted); a byte of the stack is sent (C152_stack_refuted); commas and any received characters go into the sentence and short messages are read beyond their end (C152_comma_refuted, C152_received_refuted)."
 },
 "C153": {
  "note": "Proved: relaying (C153_relay), the message with IPv4 addresses (C153_message), the hop limit of IPv6 (C153_ttl6); the time to live of IPv4 with a right checksum unless the folded sum has a second carry (C153_ttl_partial); the message with IPv6 addresses up to 84 further bytes (C153_message_partial). Refuted: those bytes are of the stack (C153_stack_refuted); the checksum with a second carry is wrong (C153_checksum_refuted); a frame of 2041 bytes is written over the end of the buffer (C153_overflow_refuted); packets of nearly 1500 bytes are lost (C153_large_refuted)."
 },
 "C154": {
  "note": "Proved: an identical copy with the same bytes behind it in the buffer is dropped (C154_copy_partial). Refuted: a copy with another time to live is relayed again (C154_ttl_refuted); a packet to another group is dropped (C154_other_refuted); a packet from a link local IPv6 address ends a daemon with assertions, and without them blocks all others (C154_abort_refuted, C154_local_refuted); old bytes in the buffer decide (C154_stale_refuted)."
 },
 "C155": {
  "note": "Proved: frames for IPv4 (C155_lan4), duplicates with a clock that does not go back (C155_once), own messages (C155_own), from node to node for both versions of IP (C155_end); frames for IPv6 up to the hardware address (C155_lan6_partial). Refuted: that address is 0 (C155_mac6_refuted); bytes from behind the message are sent (C155_beyond_refuted)."
 },
 "C156": {
  "note": "Proved: C156_announced, C156_pinged, C156_unchecked. Refuted: a route that comes back is announced without a new ping (C156_stale_refuted), an entry of the configuration for the same network is removed (C156_static_refuted), routes of olsrd itself count when their metric is not FIBMetricDefault (C156_own_refuted). IPv4 only."
 },
 "C157": {
  "note": "All three are refuted: C157_order_refuted, C157_twice_refuted, C157_mask_refuted. Documented configurations are covered by C156."
 },
 "C158": {
  "note": "Proved for default routes of metric 0 (C158_plain); refuted for other metrics (C158_metric_refuted)."
 },
 "C159": {
  "note": "Proved for IPv4 (C159_allowed). Refuted for IPv6: a host in no configured network is let in (C159_v6_refuted) and the comparison reads behind the address (C159_overread_refuted)."
 },
 "C160": {
  "note": "Proved: what an undisturbed front end gets (C160_gets). Refuted: a refused host cuts it off (C160_kick_refuted), a second one takes over and the first connection leaks (C160_takeover_refuted), the leaks end olsrd (C160_exit_refuted), changes of routes are not told (C160_change_refuted), short interface names are read behind their end (C160_name_refuted), long ones are cut (C160_alike_refuted)."
 },
 "C161": {
  "note": "Proved: C161_filter, C161_requests, C161_refreshed. Refuted for datagrams whose header length is less than 20 (C161_malformed_refuted). The kernel's machine for filters is modelled from its documentation."
 },
 "C162": {
  "note": "Refuted: any host can have any entry written (C162_spoof_refuted), one failure ends the refreshing (C162_stop_refuted), one frame in two seconds is used so that old senders overwrite newer ones (C162_lag_refuted)."
 },
 "C163": {
  "note": "the comparison of two positions (floating point) is an input"
 },
 "C164": {
  "note": "timers: intervals of more than 4294967 seconds wrap around (refuted). A new leader counts as one report of moving only, so with the built-in threshold of five a stationary node does not send it at once (refuted). If the gateway is the last to become stationary, the speed of the time before is sent (refuted)"
 },
 "C165": {
  "note": "IPv4 addresses are compared as little-endian numbers, also the first four bytes of IPv6 addresses of IPv4 gateways, so ties do not go to the lowest address (refuted)"
 },
 "C166": {
  "note": "Proved: a complete GET with a version and '/name' below 10240 bytes gets the page of that name (200), an unknown name 404, '/' the configuration page; other methods 400; peers not allowed nothing; requests below 10240 bytes are handled without a bad read when no debug output is printed. Refuted: 10240 bytes without a blank line leave the buffer without an end (sscanf reads beyond it); a request without a version makes the debug output print an array that was never set; a name with any first character matches; a pause of 200 us in a request loses it. Missing: requests without a version or with a longer line as exact claims; page contents, the date and the test of the address are inputs."
 },
 "C167": {
  "note": "Proved for every run: bytes to a socket are a start of its one reply, a socket is closed only with the reply complete or after a failed write and then silent, at most three replies wait, the timer runs exactly while one does, and with sockets that take bytes all replies are delivered. Refuted: the timer event that ends one reply passes over the next socket; a fourth client is not taken while three wait. Missing: select on descriptors of 1024 and more; empty replies do not occur."
 },
 "C168": {
  "note": "Proved: a file of comments and lines 'name = number' of at most 255 characters, with names in any case and numbers below 2^32, sets each speed to its last value and keeps the others, and the mark for no bandwidth follows; a missing file or one with the same time changes nothing. Refuted: a line that starts with a blank is a comment; a blank behind the number makes it invalid; negative numbers, ones of 2^32 and more and ones outside the range of the configuration are taken; the end of a long comment is read as a line; a change within the same time stamp is not seen. regexec is taken to follow POSIX."
 },
 "C169": {
  "note": "Proved for one battery: the willingness is 3 from 78 percent on, 2 from 52, 1 from 26 and else 0; for all files it is 0, 1, 2, 3 or 6. Refuted: the levels of the comment (25 percent gives WILL_NEVER, 50 percent gives 1); a word of 32 characters is written beyond its array; a blank line reads arrays that were not set; large capacities overflow; with APM a negative percentage gives a willingness above WILL_ALWAYS. Missing in the positive part: absent batteries, the order of several adapters, and other texts."
 },
 "C170": {
  "note": "Proved in full for the model: the delivered sentences are exactly those of an independent definition, for every stream, buffer size and cut; memory safety of the buffer; a stream of valid sentences is read back."
 },
 "C171": {
  "note": "Proved for buffers that hold the text and the checksum. Refuted: for every text longer than the buffer, nmeaPrintf takes the parity of characters behind the end of the buffer."
 },
 "C172": {
  "note": "Proved for all lists of fields and sentences: fields that are right are stored as their kinds say, a shorter sentence without a checksum gives the number of its fields, a number field that starts with another character refuses the sentence, texts fit and nothing behind the NUL is read. Partial: floating-point values are kept as text and strtod's acceptance is an argument; refusal is shown only for fields that do not start as a number. Refuted: a number followed by other characters is accepted as the number before them, and a number of 64 characters is stored as 0."
 },
 "C173": {
  "note": "Proved for all readings with spaces around them: times before the last five milliseconds of a second and dates of all years but 90 are stored or, out of range, refused; whatever is stored is in range. Partial: fields that are no clock reading are not all refused. Refuted: from .995 on the hundredths round up to 100 and the whole sentence is refused, as is every date of a year 90 (it becomes 2090, and 2089 is the last valid year); digits may be replaced by other characters (1x2y3z.4 is 01:02:03.40), and 31 February is accepted."
 },
 "C174": {
  "note": "Proved for all accepted sentences: satellites, places, clearing and bounds; and for all lists of 1 to 72 satellites: the series made from one information brings them into any other. Partial: the text theorem is for sentences with all 19 fields; a last sentence without the empty fields is covered by the theorem about accepted sentences and an example only; the generator's text is not modelled. Refuted: a last sentence with 19 fields can hold more satellites than it counts, and all are stored."
 },
 "C175": {
  "note": "Proved for all doubles: if the loops end, the position is in range; they end up to 2^60; whole degrees up to 2^40 stay the same point; with a date, the time becomes a time of day and a time of day stays. Partial: positions with minutes that are not folded over a pole are only shown to be in range. Refuted: for a latitude of 2^70 the loop never ends, because subtracting 36000 rounds back to the same number; 91 degrees 30 minutes are folded to 88 degrees 70 minutes; a time without a date is not checked, because the condition asks for the date."
 },
 "C176": {
  "note": "Proved for all sentences and all earlier states: the satellites named come first in the array and are counted, a sentence without any leaves the array, the mode and the fix are possible ones, the fields of a sentence are read with empty ones as 0, and up to twelve satellites survive the way through a sentence into a cleared array. Refuted: memset clears the size of one element, so satellites of an earlier, longer sentence remain behind the new ones (shown for every sentence) and are reported by the next sentence that is made. The dilutions of precision are not modelled."
 },
 "C177": {
  "note": "Proved for all sequences of well-shaped lines, any way to read numbers and any use of the values: the last line with a name counts, a line that cannot be used keeps the position whatever is around it, and for any text the position changes only as a whole and together with the result true. Refuted: every file that is read is closed twice (fclose and close of the same descriptor), an indented setting is taken as a comment, and a long comment makes the file invalid. Partial: lines of other shapes (such as several equals signs) are in the model but not in the theorem about the values."
 },
 "C178": {
  "note": "Proved for all sentences and all earlier informations: letters, signal and time of an accepted sentence are possible, every combination of empty and given fields is stored as the fields say with S and W negative, and every information survives the way through a sentence. Partial: coordinates in the sentence are not negative. Refuted: a minus sign is dropped, so -4807,N is 48 degrees north; a latitude of 99 degrees is accepted; a count of 4294967294 satellites is accepted, from which more than 10^9 GPGSV sentences would be made. Doubles are integers in units of 2^-1074; infinities and the sign of 0 are not modelled."
 },
 "C179": {
  "note": "Proved for all combinations of fields, any reading of numbers and any conversion: accepted just if each number has its unit, stored as the fields say, and every information survives the way through a sentence. Refuted: two different speeds in one sentence and a track of 999 degrees are accepted. Infinities are not modelled."
 },
 "C180": {
  "note": "Proved for every accepted sentence with a status and a mode, for all combinations of empty fields in the text of twelve fields, and for the way through a sentence and back for the signals 0 to 8. Refuted: a sentence with status V but no mode, or an empty one, leaves an earlier valid signal and its position is stored. The speed comes back as far as it survives the two conversions (a hypothesis); texts without a mode and negative coordinates are left out of the text theorem; infinities are not modelled."
 }
}