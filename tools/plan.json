{
"C01": "Mantissa.v: both functions over Z; encoder search loop as bounded recursion. Interval arithmetic per exponent.",
"C02": "Mantissa.v; finite sweep over the 256 codes lifted with forallb_forall.",
"C03": "DupSet.v: per-originator record (last, 32-bit window, too-low counter) and a finite map of originators; trace invariant relating the window to the set of accepted numbers. Expected refutation for the first message of an originator.",
"C04": "DupSet.v; same invariant.",
"C05": "DupSet.v; frame lemma on the map, bounded induction on the too-low counter.",
"C06": "IpCalc.v: addresses as byte lists; bit-level spec.",
"C07": "IpCalc.v; expected refutation (255.0.255.0), partial theorem for what is rejected.",
"C08": "IpCalc.v; bit-level spec of membership.",
"C09": "SchedTime.v: 32-bit wrap written out; lia over Z mod 2^32.",
"C10": "SchedTime.v: integer model of the jitter computation.",
"C11": "TimerWheel.v: slots as lists of timers, walk as in the code; invariants over all operation lists.",
"C12": "Parser.v: packet as a byte list inside a receive buffer, out-of-bounds read is a distinct outcome. Expected refutation for 1-3 byte datagrams.",
"C13": "Parser.v: handler registry as list.",
"C14": "Hello.v: reader with explicit bounds. Expected refutation.",
"C15": "Hello.v: functional decode and cull; spec by filtering.",
"C16": "TcSeq.v.",
"C17": "TcBorder.v: border coding over byte-list addresses.",
"C18": "TcGraph.v: edges as a map; operations as in code.",
"C19": "Spf.v: Dijkstra as in code with candidate tree; proved optimal against path spec.",
"C20": "Spf.v.",
"C21": "RtBest.v.",
"C22": "Rib.v: RIB plus abstract kernel table, oracle for errors.",
"C23": "Mpr.v; expected refutation of the optimisation pass.",
"C24": "LqMpr.v.",
"C25": "Avl.v: functional tree with the code's rotations, threaded list as separate field.",
"C26": "DList.v: pointer-level heap model (next/prev maps).",
"C27": "Autobuf.v.",
"C28": "Strings.v.",
"C29": "Hna.v.",
"C30": "Mid.v.",
"C31": "NetBuf.v.",
"C32": "BuildMsg.v.",
"C33": "LqCost.v.",
"C34": "LqCost.v; expected refutation for small aging factors.",
"C35": "GwSpeed.v.",
"C36": "GwCost.v; expected refutation by 32-bit wrap.",
"C37": "GwList.v.",
"C38": "GwChoose.v.",
"C39": "Cookie.v.",
"C40": "LinkSet.v; expected refutation of the preference for symmetric links.",
"C41": "TwoHop.v; expected refutation of the expiry part.",
"C42": "Forward.v.",
"C43": "SeqNo.v.",
"C44": "Deny.v.",
"C45": "Hyst.v: rationals instead of floats.",
"C46": "ProcChanges.v.",
"C47": "MprSel.v.",
"C48": "DupSet.v; time as unwrapped milliseconds beside the 32-bit field. Expected refutation at the wrap.",
"C49": "SchedTime.v: olsr_times as a state machine over the readings of the system clock; invariant over all sequences of readings.",
"C50": "IpCalc.v, GwHna.v; byte comparison as in the code against a prefix spec. Expected refutation for IPv6.",
"C51": "DList.v: pointer-level list_merge against sequence append; refuted.",
"C52": "Compare.v: every comparison function as written; totality, antisymmetry, transitivity over all byte strings.",
"C53": "Compare.v: little and big endian loads of the same address; refuted for IPv4.",
"C54": "Timers.v: timers, slots and callbacks as operations on a heap; refuted for callbacks that set the timer again.",
"C55": "Hello.v with an allocation log.",
"C56": "NetBuf.v: reserved space against pending bytes over all operation lists.",
"C57": "SeqNo.v: count of warnings suppressed against the count printed.",
"C58": "Tc.v: shift amounts taken from the message, out of range as a distinct outcome.",
"C59": "Tc.v: deny list in input_tc.",
"C60": "Tc.v: standard TC messages (type 2) against RFC 3626 section 9; refuted by the 4-byte entries.",
"C61": "Tc.v: reader with explicit bounds.",
"C62": "TcGraph.v: reference counts of tc_entry, timers, edges; invariant over all histories.",
"C63": "Spf.v: direct links as edges of the graph.",
"C64": "Rib.v: table change with refresh.",
"C65": "Mpr.v: willingness 0 and 7 over all neighbor tables.",
"C66": "Mpr.v against RFC 3626 section 8.3.1.",
"C67": "Mpr.v: the return value and flags against the set before and after.",
"C68": "GwHna.v: encoder of build_msg.c composed with the decoder of gateway.c.",
"C69": "Gateway.v: lists and pointers with reference counts; use after free as a distinct outcome.",
"C70": "Gateway.v: kernel tunnels and routes as a log of requests.",
"C71": "Gateway.v: doRemoveGatewayFromList over all lists.",
"C72": "Hyst.v: rationals instead of floats; induction over the HELLOs received.",
"C73": "LqCost.v: ring of the last packets against the counts of received and lost ones.",
"C74": "Hna.v: input_hna with the gateway handler.",
"C75": "LinkSet.v: link set and neighbor table as one state; invariants over all histories of HELLOs and timers.",
"C76": "LinkSet.v: check_link_status and lookup_link_status.",
"C77": "LinkSet.v: pointer consistency (neighbor of each link, link counts).",
"C78": "LinkSet.v: unwrapped times beside the 32-bit ones; expected refutation by jitter and wrap.",
"C79": "Mid.v: routes to aliases as a log of insert and delete requests.",
"C80": "Mid.v: timers against the validity times received.",
"C81": "Mid.v: reader with explicit bounds for MID messages, IPv4 and IPv6.",
"C82": "TwoHop.v: path link quality fields after a HELLO against the minimum over its entries.",
"C83": "BuildMsg.v: all builders as programs in a state monad over the message buffer and the output buffer; composed with the decoder's spec.",
"C84": "BuildHna.v on top of BuildMsg.v; the list of networks against the entries decoded by HnaSpec.",
"C85": "BuildHna.v: the static variables of serialize_hna4/6 as state, rounds by induction.",
"C86": "CreateMsg.v (creation), BuildMsg.v (fragmentation), Tc.v (reception) composed: C32_lq_tc and C17_pieces_partial.",
"C87": "CreateMsg.v: rounds of the TC timer, unwrapped times; expected refutation 2^31 ms later.",
"C88": "CreateMsg.v: create_lq_hello against a two-step lookup spec, composed with C83_lq.",
"C89": "Secure.v: layout of the message as a function of the ABI, hash abstract; round trip, inversion, expected refutations for padded and mixed ABIs.",
"C90": "Secure.v: window from check_timestamp; induction over replays for the refutation.",
"C91": "Secure.v: inversion of secure_preprocessor for new validations and for unsigned packets; expected refutations by a forged and by a recorded challenge.",
"C92": "Secure.v with NetBuf.v: exact condition for net_output with the transform function; expected refutations at both buffers.",
"C93": "Secure.v: composition of the four steps of the handshake; expected refutation with messages waiting.",
"C94": "NlRoute.v: the request as bytes, NlRouteSpec.v: an independent reader (inductive, unique); proof by an invariant over the attributes added; expected refutations for tables above 255.",
"C95": "NlRoute.v with the kernel's rules for matching a deletion (NlRouteSpec.v applies); expected refutation for host routes.",
"C96": "NlRoute.v: case analysis of process_rt_entry over all answers; the deletion after the addition with the kernel's matching rules; expected refutation with ENETUNREACH.",
"C97": "NlRoute.v: the socket as a queue of answers; induction over the requests; expected refutation after one failed recvmsg.",
"C98": "Regex.v (regular expressions by derivatives, proved equal to their languages), NameSvc.v; invariant over all runs that stored entries have passed the tests; hosts file as lines; expected refutations for the suffix as a regular expression and for sscanf, which ignores what follows.",
"C99": "NameSvc.v over a list of bytes; a message grammar in the specification, result independent of the surroundings; refutations by messages that are too short for their entries.",
"C100": "Round trip ns_gen, ns_parser: the built message is in the grammar of C99, induction over the entries; refutations by missing terminators and by strncmp.",
"C101": "Arbitrary memory: every place visited is settled after the first pass (decoding it changes nothing), later insertions preserve this; macs refuted for every n.",
"C102": "The array of four as a sorted list of three and a rest; insertion; permutation and order proved for all sequences.",
"C103": "allowed_host against prefixes and own addresses without suffix; refutation with the usual suffix.",
"C104": "ns_gen on a buffer of 10240 bytes: success exactly if the sum of the sizes fits.",
"C105": "JSON text grammar as a relation between bytes and values; induction over the printed tree with the writer's nesting state as invariant; uniqueness of the value by a prefix-determinism lemma. Strings that need escaping are the counterexample.",
"C106": "Invariant over all sequences of requests and clock steps: every cache entry holds what the section printed at a moment that is recent enough; independent of which sections were asked together.",
"C107": "Every sanitising step is proved on buffers of the shape before ++ text ++ NUL ++ after and the steps are composed; the command table is compared with an independent list of names. Counterexamples for empty, blank and overlong requests.",
"C108": "Case analysis of the host test against the documented rule; counterexample for IPv6.",
"C109": "Trace of socket events; invariant that ties every slot to one connection of the trace, by induction over the operations and over the slots within a write; progress by the sum of the bytes left.",
"C110": "The reply is rewritten as its list of lines; an independent line parser reads it back.",
"C111": "The regular expression and its submatches against a grammar of the documented line; the file as lines; induction over the lines, with one interface looked at in isolation.",
"C112": "Comparison of the interfaces before and after one poll; an invariant of the values over all polls.",
"C113": "Invariant over all reachable states: the best link is the minimum of the scan; the overall link is the cheaper of two.",
"C114": "Invariant: the routes in the kernel are among the recorded ones; every request keeps it; shutdown leaves no record.",
"C115": "Invariant: each slot of a route agrees with the kernel on its key, and equals the wanted route unless a change flag is set.",
"C116": "An independent decoder of the stream zebra receives; each message decodes to the change, decoding distributes over concatenation, the write loop appends exactly one message.",
"C117": "An independent encoder of zebra's messages; the reader follows the encoding field by field at any position of the buffer.",
"C118": "Invariant of the read loop: the buffer holds a prefix of the stream and the offset is a message boundary; counting of list entries gives the last word.",
"C119": "build_hello as folds over links and neighbors; show the list is a permutation of the specified one, then C32/C83 for the wire.",
"C120": "rfc_tc over arbitrary sequences of calls with arbitrary buffer states; invariant on sending_tc and the timer; C32 for the wire.",
"C121": "sanity as a chain of checks on numbers and floats (with infinities and NaN); soundness and completeness check by check.",
"C122": "all_nums lists every number handed out; intervals that do not overlap give NoDup; witnesses for truncation and collisions.",
"C123": "case analysis over automatic/disabled/explicit for each setting in rtpolicy, overflow as its own outcome.",
"C124": "parser state as list of interfaces with two byte copies; invariant over blocks relating both copies to the statements so far; mix byte by byte.",
"C125": "the lists of multipliers from the invariant of C124, then lookup lemmas over the merged list.",
"C126": "argument loop with argc and position; options as a grammar with unique decomposition; induction over the option list and over the rest of argv.",
"C127": "names of the parser state as push-to-front with removal; closed form by induction over the blocks; reversal at the end of a file.",
"C128": "The 64 lines of MD5Transform are a table; that it is the schedule of the RFC is checked by computation, that a step is the step of the RFC holds for all words. Invariant over the absorbed bytes: the state is the fold of the RFC over the full blocks, the buffer holds the rest, the two count words hold the number of bits. Induction over the calls; padding by cases on the rest.",
"C129": "Invariant: the flags follow the devices, the two route sets are exactly those of the routing table and of the announced prefixes while both flags are set, and empty otherwise. A lemma for each of the two loops; one lemma for the handler from the state between the change of a device and the message; induction over events.",
"C130": "The table lookup is eight shift steps of the register, bit by bit. Steps are injective on 32-bit words, and the register after four bytes is the register xor the packed bytes, shifted 32 steps; so two packets that agree before and after a window of four bytes end in different registers.",
"C131": "Invariant over the events: each list of the table has no fingerprint twice, and an entry is in the list of its hash exactly if it was seen and not pruned since, with a time-out three seconds after; the times of live entries are within reach of the 32-bit comparison.",
"C132": "The value of new_check modulo 65535 by cases on the borrows; the sum of the RFC is the sum of the words modulo 65535, not 0. Then the words that change are taken out of the two sums.",
"C133": "The candidates are described as a relation on links (heard, not excluded, listed once at the best cost) and the loop over the links is shown to collect exactly these up to the limit; then each handler is a case split over the interfaces, with the history of C131.",
"C134": "Each handler is a composition of the total functions of C133; the buffer splits into header, received bytes and rest.",
"C135": "Everything a handler sends is of one shape (header and the received bytes up to the total length); its fingerprint is the one marked; C131 answers for the history.",
"C136": "Invariant over events: the list of each interface holds the routers by age; the election pass decrements once per interface, so the age is counted in passes; the minimum of the addresses is the only master.",
"C137": "The loop rewrites the time to live and the checksum for each interface: idempotent after the first; one's complement sum as in C132; witnesses for the rest.",
"C138": "The filter decides mdns4 and allowed; the message built is header, packet, padding; composed with C137 at the other router.",
"C139": "Each entry has one wanted value; invariant: an entry is as before, or has the wanted value and the first saved value is the one before; restoring is a fold over the saved values. The release of the kernel is read with strtol.",
"C140": "Files, names and locks as the kernel keeps them; invariant over all events: who has a lock has the file open and is alive.",
"C141": "The file is not emptied when opened: the new number covers the old one exactly if it is not shorter; lengths of decimal numbers are monotone.",
"C142": "Requests of olsrd fit exactly its own rules when priorities differ; adding and deleting as folds over lists.",
"C143": "FilterGw.v models the parameters, should_filter, the in-place removal on bytes (memmove, size rewritten), the order of the two HNA handlers and the loop at shutdown. Proved: who is filtered; exactly the gateway announcements go, in order, following messages stay; others untouched; memory safety for any message the packet parser lets through. Refuted: a message with only gateways keeps its last one, which olsr_input_hna then takes; IPv6 ::/0 passes and any /3 is taken for the internet; use after free at shutdown.",
"C144": "PluginUtil.v models strtol/strtoul with base 0 on bytes, the truncation to int/unsigned, strcasecmp and strscpy. The spec is the grammar of C integer constants as an inductive relation. Proved: numbers in range are stored as they are, non-numbers refused, exactly the words yes/true/no/false, strings only if they fit. Refuted: ports and ints of 2^32 and more are cut, longs limited.",
"C145": "load_plugins as a list of calls into plugins; the spec relation loads says which calls a configuration asks for. Proved: olsrd goes on iff the calls are those; a plugin that refuses a value stops olsrd. Refuted: unknown parameters are ignored, a plugin is initialized although it refused a parameter, the return value of plugin_init is not looked at.",
"C146": "HostSwitch.v models the client list, the link command and the forwarding loop; invariant: addresses and sockets unique, one entry per destination; the wildcard loops are a fold over a product of addresses; the random numbers are an input list and the spec says each rated receiver has its own draw.",
"C147": "ConfScan.v has the rules of the scanner as regular expressions and flex's longest match by derivatives; the spec describes files by an inductive relation with its own definition of words, numbers and addresses. Keyword tables are checked by computation, the classes of numbers and addresses by characters, counts of dots and the set of characters that end a word.",
"C148": "ConfSum.v models the hash with undefined reads and shifts as None on top of the scanner; the words of a file are an inductive relation; only the last character of a word can be shifted as a signed char.",
"C149": "PudWire.v models the conversions on rationals with 2^20 steps to the unit; [nearest], [instant] and [rounded] are the specification; assertions are in the default build.",
"C150": "PudRx.v models the ring of DeDupEntry with sizes in 64 bits; the invariant relates it to the history, newest first; [relays] is an inductive specification over the messages.",
"C151": "PudRx.v models the loop with fuel on the 2048 byte buffer; well-formed datagrams are lists of packed messages; the hanging loop is a statement about every fuel.",
"C152": "PudId.v models the parameter, the bytes, the writes into the 1024 byte buffer on the stack and the text of a receiver; the round trip is proved for any stack, header and fields; numbers are those of ConfScanSpec.",
"C153": "P2pd.v models capture, filter, time to live, checksum and message over explicit buffers; packets are specified by RFC 791, 2460 and 768 in P2pdSpec.v and the checksum by the sum of BmfPacketSpec.v.",
"C154": "The fingerprint is that of BmfPacket.v, applied where the plugin applies it; the history is a list; determinism gives the drop of copies, computed witnesses the refutations.",
"C155": "The loop over the interfaces is proved by induction; the list of messages by an invariant that relates it to all messages let through; the two sides are composed.",
"C156": "DynGw.v models parameters, timer and thread over lists; an invariant relates flags, entries and the log of pings; progress of the thread is by induction on the distance to the network.",
"C157": "Computed witnesses; for the network in two sections an invariant over all answers.",
"C158": "An invariant relates has_inet_gateway and the entries; induction over the events.",
"C159": "IpcFront.v names connections by their number; an invariant says that the current one belongs to a host that may connect.",
"C160": "The bytes of the records are stated by offsets in IpcFrontSpec.v; induction over routes, messages and connections.",
"C161": "ArpRefresh.v runs the filter on a small machine; OLSR frames are specified by offsets of RFC 894, 791 and 768; requests are related to a subsequence of the frames by an invariant.",
"C162": "General witnesses from the theorems of C161 and computed runs.",
"C163": "PudState.v keeps counters; the specification counts consecutive reports in the history. An invariant relates the counter to the streak.",
"C164": "Runs of the receiver; every state of it is reached by calls of C163; invariants for the timers and the gateway.",
"C165": "Induction over the gateways from the left; addresses are ordered lexicographically in the specification.",
"C166": "Induction over the bytes read with the part already in the buffer; the names of the pages are compared by computation; the header is shown to be a list of lines with the length among them.",
"C167": "Invariant over runs with the slots and the events so far; each write or close of one slot keeps it; progress by the number of bytes left.",
"C168": "Induction over the lines, each read by fgets up to its end; the subexpressions of the regular expression are computed for a well-formed line; last values by induction from the right.",
"C169": "Apm.v: the files as character lists, sscanf with its widths, unset words as None; line-wise spec of the two capacities, then division by 26.",
"C170": "Nmea.v: the reader as a step function over characters; invariant that the buffer is a prefix of a sentence at the end of what was read, and a forward run for the other direction.",
"C171": "Nmea.v: the buffer as a list, reads beyond it are None. Expected refutation for texts longer than the buffer.",
"C172": "NmeaScan.v: the format and the sentence as lists, strtod's acceptance an argument; induction over the fields. Expected refutation for numbers followed by other characters and for numbers of 64 digits.",
"C173": "NmeaTime.v: trimming, the two-digit tokens over NmeaScan.v and the validation; the spec is a grammar of clock readings. Expected refutation for fractions that round up to a whole second and for the year 90.",
"C174": "NmeaGsv.v: the sentence over NmeaScan.v, the array of 72 satellites as a list, writes outside are None; induction over the series of sentences. Expected refutation for sentences with more satellites than they count.",
"C175": "Sanitise.v: doubles as integers in units of 2^-1074 with rounding to 53 bits; the loops with a number of turns. Expected refutation for numbers so big that subtracting a turn changes nothing, for minutes, and for times without a date.",
"C176": "NmeaGsa.v: the array of satellites in use as a list of 72 numbers; the loop by induction over the twelve numbers of the sentence. Expected refutation: memset with the size of one element.",
"C177": "PosFile.v: the regular expressions as functions on lists, readDouble and the sanitising as parameters, closes of the descriptor counted. Expected refutations: two closes, indented settings, long comments.",
"C178": "NmeaGga.v: the fields as options, numbers as integers with an uninterpreted reading of texts; reuse of the lemmas about nmeaScanf. Expected refutations: no upper bounds for the count and the coordinates.",
"C179": "NmeaVtg.v: like NmeaGga.v with the conversions as parameters. Expected refutation: two speeds that differ.",
"C180": "NmeaRmc.v: like NmeaVtg.v, with status and mode. Expected refutation: status V without a mode leaves an earlier signal."
}