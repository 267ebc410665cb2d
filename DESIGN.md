# Formal model of olsrd: design

Model and proofs are in Rocq/Coq 8.16.1 under `rocq/theories`. The C source in `/repo` is read as text only; it is never built or run.

## How to read this

* `properties.jsonl`: the properties, in terms of the daemon's interfaces and observable effects.
* `MANIFEST.json`: for each property its status and theorems (generated by `tools/manifest.py` from the Prop files and `tools/notes.json`).
* `rocq/theories/X.v`: the model of one part of the code, definitions only, each with the file and lines it models.
* `rocq/theories/XSpec.v`: what the properties mean, written without the functions of the model as far as possible (formats, reference structures, histories).
* `rocq/theories/XProofs.v` (and similar): lemmas. `XExec.v`: boolean executors for witnesses, proved sound.
* `rocq/theories/PropX.v`: the theorems, named after the properties, each with `Print Assumptions` and an `Example` with concrete values that meet its hypotheses.
* `seeded/LOG.jsonl`: attempts to falsify the theorems by changing the model (one definition at a time) in a scratch copy (`tools/mutate.py`).

Names: `Cnn_..._partial` is a weaker statement than the property (the comment above it says what is missing), `Cnn_..._refuted` shows with a witness that the code as modelled does not have the property (or the part named in the comment).

## Trusted base

* The kernel of Coq 8.16.1 (`coqc`, `coqchk`), with `vm_compute` for concrete witnesses.
* Axioms: none of our own. `Print Assumptions` answers "Closed under the global context" for every theorem in the `Prop*.v` files. Loading the standard library brings seven axioms of `Coq.ssr.ssrunder` (`Under_rel`, `Under_rel_from_rel`, `Over_rel`, ... - the module-sealed definitions of the ssreflect `under` tactic, listed by `coqchk` because `Lia`/`zify` load ssr files); no theorem depends on them.
* That the model says what the C code says. It was written by reading; the citations in each definition's comment make it checkable line by line. This is the part no tool checks.
* The specifications (`XSpec.v` and the statements of the theorems).

### What the models abstract from

* Machine integers are `Z` with the wrap written out (`u8`, `u16`, `u32`, `mod`) wherever the C type can wrap for the inputs considered; where a wrap cannot happen within physical limits (list lengths, 64 bit nanoseconds) it is left out and the comment says so.
* Memory: buffers are byte lists inside an allocated size; reads and writes outside are `None` or a separate outcome, never a default value. Pointers are modelled as heap references where sharing, dangling or freeing matters (`DList.v`, `Timers.v`, `Cookie.v`, `Gateway.v`, `LinkSet.v`, `TwoHop.v`, `TcGraph.v`); elsewhere containers are functional lists or maps in the iteration order of the code.
* AVL trees are modelled and proved once (`Avl.v`, C25, C52); other models use sorted lists or finite maps in their place. Hash tables are lists in bucket order, or maps where the order is of no effect.
* `malloc` failure is modelled where the code handles it; elsewhere `olsr_malloc` exits the process.
* Floating point: hysteresis and link quality in `float` are modelled with rationals (C45, C72: exact arithmetic, no rounding). Mantissa times and gateway costs are integer code and exact.
* Concurrency: the daemon is single threaded; histories are sequences of operations (packet received, timer fired, configuration action). Each theorem about histories quantifies over all such sequences of the operations modelled.
* The kernel (routes, tunnels, interfaces) is a log of requests with results chosen by an oracle.
* Clock: histories carry unwrapped time; the model sees it modulo 2^32 ms. Theorems that need the time between two events to be below 2^31 ms say so in a hypothesis.
* Logging and debug output, `#ifdef` branches for Windows, BSD and Android, and the plugins in `lib/` other than `lib/secure`, `lib/nameservice` and `lib/info` (with the JSON output of `lib/jsoninfo`) are not modelled.

## Plan per property

Written before the proofs (C01 to C47), the others added as the model grew.

<!-- begin plan -->
| id | property | model and proof | theorems in |
|---|---|---|---|
| C01 | Advertised validity times are never longer than the configured interval and lose less than 1/8 of it | Mantissa.v: both functions over Z; encoder search loop as bounded recursion. Interval arithmetic per exponent. | PropMantissa.v |
| C02 | Relaying an advertised time never changes it | Mantissa.v; finite sweep over the 256 codes lifted with forallb_forall. | PropMantissa.v |
| C03 | A flooded message is accepted at most once | DupSet.v: per-originator record (last, 32-bit window, too-low counter) and a finite map of originators; trace invariant relating the window to the set of accepted numbers. Expected refutation for the first message of an originator. | PropDup.v |
| C04 | A fresh message is never mistaken for a duplicate | DupSet.v; same invariant. | PropDup.v |
| C05 | Duplicate records of different originators do not interfere; a restarted originator is heard again | DupSet.v; frame lemma on the map, bounded induction on the too-low counter. | PropDup.v |
| C06 | Prefix length and netmask conversions are inverse | IpCalc.v: addresses as byte lists; bit-level spec. | PropIp.v |
| C07 | Non-contiguous netmasks are rejected | IpCalc.v; expected refutation (255.0.255.0), partial theorem for what is rejected. | PropHna.v, PropIp.v |
| C08 | Network membership test agrees with the leading bits | IpCalc.v; bit-level spec of membership. | PropIp.v |
| C09 | Timestamps order correctly across clock wrap-around | SchedTime.v: 32-bit wrap written out; lia over Z mod 2^32. | PropSched.v |
| C10 | Timer jitter only shortens a period, by at most the configured percentage | SchedTime.v: integer model of the jitter computation. | PropSched.v |
| C11 | The timer wheel fires every timer exactly once when due and never early | TimerWheel.v: slots as lists of timers, walk as in the code; invariants over all operation lists. | PropTimers.v |
| C12 | Packet parsing stays inside the received packet | Parser.v: packet as a byte list inside a receive buffer, out-of-bounds read is a distinct outcome. Expected refutation for 1-3 byte datagrams. | PropParser.v |
| C13 | Own and invalid originators are never processed; forwarding requires consent of all handlers | Parser.v: handler registry as list. | PropParser.v |
| C14 | HELLO parsing never reads beyond the message | Hello.v: reader with explicit bounds. Expected refutation. | PropHello.v |
| C15 | HELLO decoding yields each advertised neighbor and drops only superseded unspecified entries | Hello.v: functional decode and cull; spec by filtering. | PropHello.v |
| C16 | Topology information is only replaced by newer information | TcSeq.v. | PropTc.v |
| C17 | Fragmented topology messages revoke exactly the links no longer advertised | TcBorder.v: border coding over byte-list addresses. | PropTc.v |
| C18 | Link graph stays symmetric-consistent | TcGraph.v: edges as a map; operations as in code. | PropTcGraph.v |
| C19 | Computed routes are shortest paths | Spf.v: Dijkstra as in code with candidate tree; proved optimal against path spec. | PropSpf.v |
| C20 | Every route's next hop starts a shortest path | Spf.v. | PropSpf.v |
| C21 | Best route selection picks a minimum and is stable | RtBest.v. | PropRtBest.v |
| C22 | Kernel routing table follows the calculated table | Rib.v: RIB plus abstract kernel table, oracle for errors. | PropRib.v |
| C23 | MPR selection covers every strict two-hop neighbor | Mpr.v; expected refutation of the optimisation pass. | PropMpr.v |
| C24 | Link-quality MPR selection covers two-hop neighbors by their cheapest neighbors | LqMpr.v. | PropMpr.v |
| C25 | The ordered tree behaves as a sorted multimap and stays balanced | Avl.v: functional tree with the code's rotations, threaded list as separate field. | PropAvl.v |
| C26 | List operations implement sequences | DList.v: pointer-level heap model (next/prev maps). | PropDList.v |
| C27 | Text buffers hold exactly what was appended | Autobuf.v. | PropAutobuf.v |
| C28 | Bounded string copy never overruns and always terminates | Strings.v. | PropStrings.v |
| C29 | The HNA set holds each announced network once, until it expires | Hna.v. | PropHna.v |
| C30 | An interface address belongs to at most one node | Mid.v. | PropMid.v |
| C31 | Outgoing packets never exceed the buffer and carry exactly the queued messages | NetBuf.v. | PropNetBuf.v |
| C32 | Fragmentation of outgoing topology messages loses and duplicates nothing | BuildMsg.v. | PropBuildMsg.v |
| C33 | Link quality and cost stay in range and cost decreases with quality | LqCost.v. | PropLqCost.v |
| C34 | A silent link is eventually declared broken | LqCost.v; expected refutation for small aging factors. | PropLqCost.v |
| C35 | Advertised gateway bandwidth is an honest approximation | GwSpeed.v. | PropGwSpeed.v |
| C36 | A worse gateway never looks cheaper | GwCost.v; expected refutation by 32-bit wrap. | PropGwSpeed.v |
| C37 | The gateway list is sorted by cost and bounded | GwList.v. | PropGateway.v |
| C38 | Gateway choice is optimal and does not flap | GwChoose.v. | PropGateway.v |
| C39 | Recycled memory blocks are never shared | Cookie.v. | PropCookie.v |
| C40 | Link status and link choice follow the sensing timers | LinkSet.v; expected refutation of the preference for symmetric links. | PropLinkSet.v |
| C41 | Two-hop neighbor information is mutual and expires | TwoHop.v; expected refutation of the expiry part. | PropTwoHop.v |
| C42 | Only MPRs of the sender forward, once, with decreasing time to live | Forward.v. | PropForward.v |
| C43 | Sequence-number collision detection is exact | SeqNo.v. | PropSeqNo.v |
| C44 | Denied addresses are always rejected and no others | Deny.v. | PropParser.v |
| C45 | Hysteresis quality stays between 0 and 1 and changes state only across thresholds | Hyst.v: rationals instead of floats. | PropHyst.v |
| C46 | Neighborhood and topology changes always lead to recalculation | ProcChanges.v. | PropLoop.v |
| C47 | The advertised neighbor sequence number grows with every change of the advertised set | MprSel.v. | PropLoop.v |
| C48 | A duplicate record outlives the last message of its originator by 120 seconds | DupSet.v; time as unwrapped milliseconds beside the 32-bit field. Expected refutation at the wrap. | PropDup.v |
| C49 | The internal clock never goes backward and never leaps | SchedTime.v: olsr_times as a state machine over the readings of the system clock; invariant over all sequences of readings. | PropSched.v |
| C50 | Only default routes count as Internet gateway announcements | IpCalc.v, GwHna.v; byte comparison as in the code against a prefix spec. Expected refutation for IPv6. | PropIp.v |
| C51 | Merged lists are appended at the end | DList.v: pointer-level list_merge against sequence append; refuted. | PropDList.v |
| C52 | Comparison functions of ordered trees are total orders | Compare.v: every comparison function as written; totality, antisymmetry, transitivity over all byte strings. | PropAvl.v |
| C53 | All nodes order addresses alike | Compare.v: little and big endian loads of the same address; refuted for IPv4. | PropAvl.v |
| C54 | A timer set again from its own callback stays set | Timers.v: timers, slots and callbacks as operations on a heap; refuted for callbacks that set the timer again. | PropTimers.v |
| C55 | A rejected HELLO leaves no memory behind | Hello.v with an allocation log. | PropHello.v |
| C56 | Reserved buffer space stays available | NetBuf.v: reserved space against pending bytes over all operation lists. | PropNetBuf.v |
| C57 | Suppressed collision warnings are all accounted for | SeqNo.v: count of warnings suppressed against the count printed. | PropSeqNo.v |
| C58 | Border flags of any value are handled safely | Tc.v: shift amounts taken from the message, out of range as a distinct outcome. | PropTc.v |
| C59 | A denied address in a topology message does not disturb the others | Tc.v: deny list in input_tc. | PropTc.v |
| C60 | Topology messages of the standard format are understood | Tc.v: standard TC messages (type 2) against RFC 3626 section 9; refuted by the 4-byte entries. | PropTc.v |
| C61 | Topology message processing never reads beyond the message | Tc.v: reader with explicit bounds. | PropTc.v |
| C62 | Originators nothing is known of are forgotten | TcGraph.v: reference counts of tc_entry, timers, edges; invariant over all histories. | PropTcGraph.v |
| C63 | A symmetric neighbor with a usable link is used at once | Spf.v: direct links as edges of the graph. | PropSpf.v |
| C64 | Refreshing the kernel routes is always possible | Rib.v: table change with refresh. | PropRib.v |
| C65 | MPR selection respects willingness | Mpr.v: willingness 0 and 7 over all neighbor tables. | PropMpr.v |
| C66 | Only symmetric neighbors become MPR | Mpr.v against RFC 3626 section 8.3.1. | PropMpr.v |
| C67 | Every change of the MPR set is signalled | Mpr.v: the return value and flags against the set before and after. | PropMpr.v |
| C68 | A smart gateway's announcement is understood as it was meant | GwHna.v: encoder of build_msg.c composed with the decoder of gateway.c. | PropGwHna.v |
| C69 | The current gateway always points to a live list entry | Gateway.v: lists and pointers with reference counts; use after free as a distinct outcome. | PropGateway.v |
| C70 | Kernel tunnels and the default route follow the gateway list | Gateway.v: kernel tunnels and routes as a log of requests. | PropGateway.v |
| C71 | Takedown removes exactly the expensive gateways | Gateway.v: doRemoveGatewayFromList over all lists. | PropGateway.v |
| C72 | With hysteresis a loss-free link becomes usable | Hyst.v: rationals instead of floats; induction over the HELLOs received. | PropHyst.v |
| C73 | The link quality in use follows the measured one | LqCost.v: ring of the last packets against the counts of received and lost ones. | PropLqCost.v |
| C74 | Only its own announcements decide over a smart gateway | Hna.v: input_hna with the gateway handler. | PropHna.v |
| C75 | A neighbor is marked symmetric exactly while a link to it is | LinkSet.v: link set and neighbor table as one state; invariants over all histories of HELLOs and timers. | PropLinkSet.v |
| C76 | The status of a neighbor interface is symmetric if some link to it is | LinkSet.v: check_link_status and lookup_link_status. | PropLinkSet.v |
| C77 | Links and neighbor entries fit together | LinkSet.v: pointer consistency (neighbor of each link, link counts). | PropLinkSet.v |
| C78 | A link lives as long as its HELLOs are valid | LinkSet.v: unwrapped times beside the 32-bit ones; expected refutation by jitter and wrap. | PropLinkSet.v |
| C79 | Routes to aliases follow the MID set | Mid.v: routes to aliases as a log of insert and delete requests. | PropMid.v |
| C80 | Lifetime of an alias | Mid.v: timers against the validity times received. | PropMid.v |
| C81 | Parsing of MID messages | Mid.v: reader with explicit bounds for MID messages, IPv4 and IPv6. | PropMid.v |
| C82 | Two-hop path costs are the best of what the last HELLO listed | TwoHop.v: path link quality fields after a HELLO against the minimum over its entries. | PropTwoHop.v |
| C83 | A HELLO says about each neighbor exactly what is recorded | BuildMsg.v: all builders as programs in a state monad over the message buffer and the output buffer; composed with the decoder's spec. | PropBuildMsg.v |
| C84 | HNA messages announce exactly the configured networks | BuildHna.v on top of BuildMsg.v; the list of networks against the entries decoded by HnaSpec. | PropBuildHna.v |
| C85 | A gateway that stops announcing itself takes the announcement back | BuildHna.v: the static variables of serialize_hna4/6 as state, rounds by induction. | PropBuildHna.v |
| C86 | A node's TC messages convey exactly the neighbors to advertise | CreateMsg.v (creation), BuildMsg.v (fragmentation), Tc.v (reception) composed: C32_lq_tc and C17_pieces_partial. | PropCreateMsg.v |
| C87 | Fish-eye TTLs follow the cycle and empty TCs stop | CreateMsg.v: rounds of the TC timer, unwrapped times; expected refutation 2^31 ms later. | PropCreateMsg.v |
| C88 | LQ_HELLO messages describe each neighbor interface once, with the link on the outgoing interface | CreateMsg.v: create_lq_hello against a two-step lookup spec, composed with C83_lq. | PropCreateMsg.v |
| C89 | Signed packets are restored, and only authentic packets are accepted | Secure.v: layout of the message as a function of the ABI, hash abstract; round trip, inversion, expected refutations for padded and mixed ABIs. | PropSecure.v |
| C90 | Only fresh packets are accepted | Secure.v: window from check_timestamp; induction over replays for the refutation. | PropSecure.v |
| C91 | Only nodes with the key change the database of clocks | Secure.v: inversion of secure_preprocessor for new validations and for unsigned packets; expected refutations by a forged and by a recorded challenge. | PropSecure.v |
| C92 | Signing stays within its buffers | Secure.v with NetBuf.v: exact condition for net_output with the transform function; expected refutations at both buffers. | PropSecure.v |
| C93 | The handshake makes both nodes know each other's clocks | Secure.v: composition of the four steps of the handshake; expected refutation with messages waiting. | PropSecure.v |
| C94 | Requests to the kernel say what was asked for | NlRoute.v: the request as bytes, NlRouteSpec.v: an independent reader (inductive, unique); proof by an invariant over the attributes added; expected refutations for tables above 255. | PropNlRoute.v |
| C95 | Similar routes are found when a route cannot be added | NlRoute.v with the kernel's rules for matching a deletion (NlRouteSpec.v applies); expected refutation for host routes. | PropNlRoute.v |
| C96 | Entries are installed and removed in the kernel | NlRoute.v: case analysis of process_rt_entry over all answers; the deletion after the addition with the kernel's matching rules; expected refutation with ENETUNREACH. | PropNlRoute.v |
| C97 | The result of a request is the kernel's answer to it | NlRoute.v: the socket as a queue of answers; induction over the requests; expected refutation after one failed recvmsg. | PropNlRoute.v |
| C98 | Received names cannot break the files | Regex.v (regular expressions by derivatives, proved equal to their languages), NameSvc.v; invariant over all runs that stored entries have passed the tests; hosts file as lines; expected refutations for the suffix as a regular expression and for sscanf, which ignores what follows. | PropNameSvc.v |
| C99 | Parsing of a name message is confined to the message | NameSvc.v over a list of bytes; a message grammar in the specification, result independent of the surroundings; refutations by messages that are too short for their entries. | PropNameSvc.v |
| C100 | What a node announces is what its neighbours store | Round trip ns_gen, ns_parser: the built message is in the grammar of C99, induction over the entries; refutations by missing terminators and by strncmp. | PropNameSvc.v |
| C101 | Repeating a name message changes nothing | Arbitrary memory: every place visited is settled after the first pass (decoding it changes nothing), later insertions preserve this; macs refuted for every n. | PropNameSvc.v |
| C102 | The best name servers are written | The array of four as a sorted list of three and a rest; insertion; permutation and order proved for all sequences. | PropNameSvc.v |
| C103 | Only services on own hosts are announced | allowed_host against prefixes and own addresses without suffix; refutation with the usual suffix. | PropNameSvc.v |
| C104 | The own name message stays within its buffer | ns_gen on a buffer of 10240 bytes: success exactly if the sum of the sizes fits. | PropNameSvc.v |
| C105 | Information plugins print well-formed JSON | JSON text grammar as a relation between bytes and values; induction over the printed tree with the writer's nesting state as invariant; uniqueness of the value by a prefix-determinism lemma. Strings that need escaping are the counterexample. | PropJson.v |
| C106 | Cached sections are recent and complete | Invariant over all sequences of requests and clock steps: every cache entry holds what the section printed at a moment that is recent enough; independent of which sections were asked together. | PropJson.v |
| C107 | Requests to the information plugins mean their path | Every sanitising step is proved on buffers of the shape before ++ text ++ NUL ++ after and the steps are composed; the command table is compared with an independent list of names. Counterexamples for empty, blank and overlong requests. | PropInfoReq.v |
| C108 | Only permitted hosts are served | Case analysis of the host test against the documented rule; counterexample for IPv6. | PropInfoReq.v |
| C109 | Replies of the information plugins reach their clients | Trace of socket events; invariant that ties every slot to one connection of the trace, by induction over the operations and over the slots within a write; progress by the sum of the bytes left. | PropInfoOut.v |
| C110 | HTTP headers state the length of the body | The reply is rewritten as its list of lines; an independent line parser reads it back. | PropInfoOut.v |
| C111 | The egress file says what the egress interfaces can do | The regular expression and its submatches against a grammar of the documented line; the file as lines; induction over the lines, with one interface looked at in isolation. | PropEgress.v |
| C112 | Changes of the egress file are reported | Comparison of the interfaces before and after one poll; an invariant of the values over all polls. | PropEgress.v |
| C113 | The cheapest uplink is used | Invariant over all reachable states: the best link is the minimum of the scan; the overall link is the cheaper of two. | PropMultiGw.v |
| C114 | No routes of multi-gateway mode are left behind | Invariant: the routes in the kernel are among the recorded ones; every request keeps it; shutdown leaves no record. | PropMultiGw.v |
| C115 | The kernel has the routes that are wanted for the uplinks | Invariant: each slot of a route agrees with the kernel on its key, and equals the wanted route unless a change flag is set. | PropMultiGw.v |
| C116 | Zebra is told exactly the route changes | An independent decoder of the stream zebra receives; each message decodes to the change, decoding distributes over concatenation, the write loop appends exactly one message. | PropQuagga.v |
| C117 | Routes sent by zebra are read exactly | An independent encoder of zebra's messages; the reader follows the encoding field by field at any position of the buffer. | PropQuagga.v |
| C118 | The announced networks follow zebra's messages | Invariant of the read loop: the buffer holds a prefix of the stream and the offset is a message boundary; counting of list entries gives the last word. | PropQuagga.v |
| C119 | Standard HELLO messages describe each link of the interface and each other neighbor once | build_hello as folds over links and neighbors; show the list is a permutation of the specified one, then C32/C83 for the wire. | PropRfcMsg.v |
| C120 | Standard TC messages list the neighbors to advertise, and empty ones stop | rfc_tc over arbitrary sequences of calls with arbitrary buffer states; invariant on sending_tc and the timer; C32 for the wire. | PropRfcMsg.v |
| C121 | An accepted configuration is within all limits | sanity as a chain of checks on numbers and floats (with infinities and NaN); soundness and completeness check by check. | PropConfCheck.v |
| C122 | The tables and rules for several gateways do not collide | all_nums lists every number handed out; intervals that do not overlap give NoDup; witnesses for truncation and collisions. | PropConfCheck.v |
| C123 | The automatic routing policy keeps explicit settings and orders its rules | case analysis over automatic/disabled/explicit for each setting in rtpolicy, overflow as its own outcome. | PropConfCheck.v |
| C124 | Interface options come from the interface, then the defaults, then the built-in values | parser state as list of interfaces with two byte copies; invariant over blocks relating both copies to the statements so far; mix byte by byte. | PropConfIf.v |
| C125 | The link quality multiplier of a neighbor has a fixed precedence | the lists of multipliers from the invariant of C124, then lookup lemmas over the merged list. | PropConfIf.v |
| C126 | Options of the command line do what they say | argument loop with argc and position; options as a grammar with unique decomposition; induction over the option list and over the rest of argv. | PropCli.v |
| C127 | Interfaces keep the order in which they are given | names of the parser state as push-to-front with removal; closed form by induction over the blocks; reversal at the end of a file. | PropCli.v |
| C128 | The message digest is that of RFC 1321 | The 64 lines of MD5Transform are a table; that it is the schedule of the RFC is checked by computation, that a step is the step of the RFC holds for all words. Invariant over the absorbed bytes: the state is the fold of the RFC over the full blocks, the buffer holds the rest, the two count words hold the number of bits. Induction over the calls; padding by cases on the rest. | PropMd5.v |
| C129 | The routes of the niit devices follow the routing table | Invariant: the flags follow the devices, the two route sets are exactly those of the routing table and of the announced prefixes while both flags are set, and empty otherwise. A lemma for each of the two loops; one lemma for the handler from the state between the change of a device and the message; induction over events. | PropNiit.v |
| C130 | The fingerprint by which BMF recognises a packet | The table lookup is eight shift steps of the register, bit by bit. Steps are injective on 32-bit words, and the register after four bytes is the register xor the packed bytes, shifted 32 steps; so two packets that agree before and after a window of four bytes end in different registers. | PropBmfPacket.v |
| C131 | Which packets BMF takes for copies | Invariant over the events: each list of the table has no fingerprint twice, and an entry is in the list of its hash exactly if it was seen and not pruned since, with a time-out three seconds after; the times of live entries are within reach of the 32-bit comparison. | PropBmfHistory.v |
| C132 | Checksums stay right when BMF rewrites the broadcast address | The value of new_check modulo 65535 by cases on the borrows; the sum of the RFC is the sum of the words modulo 65535, not 0. Then the words that change are taken out of the two sums. | PropBmfPacket.v |
| C133 | The BMF plugin sends each packet exactly where the protocol wants it | The candidates are described as a relation on links (heard, not excluded, listed once at the best cost) and the loop over the links is shown to collect exactly these up to the limit; then each handler is a case split over the interfaces, with the history of C131. | PropBmfForward.v |
| C134 | Handling a packet in the BMF plugin stays in the buffer | Each handler is a composition of the total functions of C133; the buffer splits into header, received bytes and rest. | PropBmfForward.v |
| C135 | Packets forwarded by the BMF plugin do not circulate | Everything a handler sends is of one shape (header and the received bytes up to the total length); its fingerprint is the one marked; C131 answers for the history. | PropBmfForward.v |
| C136 | On each network one router is master for mDNS | Invariant over events: the list of each interface holds the routers by age; the election pass decrements once per interface, so the age is counted in passes; the minimum of the addresses is the only master. | PropMdnsElect.v |
| C137 | The mDNS plugin sends what it received on its networks, and changes nothing else | The loop rewrites the time to live and the checksum for each interface: idempotent after the first; one's complement sum as in C132; witnesses for the rest. | PropMdnsRelay.v |
| C138 | What is captured on one network arrives on the others | The filter decides mdns4 and allowed; the message built is header, packet, padding; composed with C137 at the other router. | PropMdnsRelay.v |
| C139 | The kernel settings are in force while olsrd runs, and put back when it ends | Each entry has one wanted value; invariant: an entry is as before, or has the wanted value and the first saved value is the one before; restoring is a fold over the saved values. The release of the kernel is read with strtol. | PropProcFs.v |
| C140 | At most one olsrd runs with a lock file | Files, names and locks as the kernel keeps them; invariant over all events: who has a lock has the file open and is alive. | PropRunFiles.v |
| C141 | The PID file names the running process | The file is not emptied when opened: the new number covers the old one exactly if it is not shorter; lengths of decimal numbers are monotone. | PropRunFiles.v |
| C142 | Policy rules come and go with olsrd | Requests of olsrd fit exactly its own rules when priorities differ; adding and deleting as folds over lists. | PropPolicyRules.v |
| C143 | The gateway filter keeps out the gateways of filtered nodes, and nothing else | FilterGw.v models the parameters, should_filter, the in-place removal on bytes (memmove, size rewritten), the order of the two HNA handlers and the loop at shutdown. Proved: who is filtered; exactly the gateway announcements go, in order, following messages stay; others untouched; memory safety for any message the packet parser lets through. Refuted: a message with only gateways keeps its last one, which olsr_input_hna then takes; IPv6 ::/0 passes and any /3 is taken for the internet; use after free at shutdown. | PropFilterGw.v |
| C144 | The values of plugin parameters mean what they say | PluginUtil.v models strtol/strtoul with base 0 on bytes, the truncation to int/unsigned, strcasecmp and strscpy. The spec is the grammar of C integer constants as an inductive relation. Proved: numbers in range are stored as they are, non-numbers refused, exactly the words yes/true/no/false, strings only if they fit. Refuted: ports and ints of 2^32 and more are cut, longs limited. | PropPluginUtil.v |
| C145 | Plugins get their parameters in order and are initialized once | load_plugins as a list of calls into plugins; the spec relation loads says which calls a configuration asks for. Proved: olsrd goes on iff the calls are those; a plugin that refuses a value stops olsrd. Refuted: unknown parameters are ignored, a plugin is initialized although it refused a parameter, the return value of plugin_init is not looked at. | PropPluginUtil.v |
| C146 | The host switch applies exactly the link qualities that were set, and forwards with that chance | HostSwitch.v models the client list, the link command and the forwarding loop; invariant: addresses and sockets unique, one entry per destination; the wildcard loops are a fold over a product of addresses; the random numbers are an input list and the spec says each rated receiver has its own draw. | PropHostSwitch.v |
| C147 | The scanner reads a configuration file as the words it consists of | ConfScan.v has the rules of the scanner as regular expressions and flex's longest match by derivatives; the spec describes files by an inductive relation with its own definition of words, numbers and addresses. Keyword tables are checked by computation, the classes of numbers and addresses by characters, counts of dots and the set of characters that end a word. | PropConfScan.v |
| C148 | The checksum of the configuration is a function of its words | ConfSum.v models the hash with undefined reads and shifts as None on top of the scanner; the words of a file are an inductive relation; only the last character of a word can be shifted as a signed char. | PropConfSum.v |
| C149 | The numbers of a position update survive the wire | PudWire.v models the conversions on rationals with 2^20 steps to the unit; [nearest], [instant] and [rounded] are the specification; assertions are in the default build. | PropPudWire.v |
| C150 | A position update is relayed to the LAN once | PudRx.v models the ring of DeDupEntry with sizes in 64 bits; the invariant relates it to the history, newest first; [relays] is an inductive specification over the messages. | PropPudRx.v |
| C151 | A datagram of the downlink is unpacked into its messages | PudRx.v models the loop with fuel on the 2048 byte buffer; well-formed datagrams are lists of packed messages; the hanging loop is a statement about every fuel. | PropPudRx.v |
| C152 | A node id is shown by a receiver as it was configured | PudId.v models the parameter, the bytes, the writes into the 1024 byte buffer on the stack and the text of a receiver; the round trip is proved for any stack, header and fields; numbers are those of ConfScanSpec. | PropPudId.v |
| C153 | Packets captured by the P2PD plugin enter the OLSR network as they were | P2pd.v models capture, filter, time to live, checksum and message over explicit buffers; packets are specified by RFC 791, 2460 and 768 in P2pdSpec.v and the checksum by the sum of BmfPacketSpec.v. | PropP2pd.v |
| C154 | The fingerprints of the P2PD plugin recognise copies of a packet and nothing else | The fingerprint is that of BmfPacket.v, applied where the plugin applies it; the history is a list; determinism gives the drop of copies, computed witnesses the refutations. | PropP2pd.v |
| C155 | The P2PD plugin puts a packet on the LAN once, whole, and to the right hardware address | The loop over the interfaces is proved by induction; the list of messages by an invariant that relates it to all messages let through; the two sides are composed. | PropP2pd.v |
| C156 | The dyn_gw plugin announces a network while there is a route to it and a ping is answered | DynGw.v models parameters, timer and thread over lists; an invariant relates flags, entries and the log of pings; progress of the thread is by induction on the distance to the network. | PropDynGw.v |
| C157 | The networks of the dyn_gw plugin are checked as configured, in whatever order they are listed | Computed witnesses; for the network in two sections an invariant over all answers. | PropDynGw.v |
| C158 | The dyn_gw_plain plugin announces the default route while the node has one | An invariant relates has_inet_gateway and the entries; induction over the events. | PropDynGw.v |
| C159 | Only hosts that may connect get anything from the front end socket | IpcFront.v names connections by their number; an invariant says that the current one belongs to a host that may connect. | PropIpcFront.v |
| C160 | A connected front end is told the state, the routes and every message until it leaves | The bytes of the records are stated by offsets in IpcFrontSpec.v; induction over routes, messages and connections. | PropIpcFront.v |
| C161 | The arprefresh plugin writes to the ARP cache what OLSR frames say, and only that | ArpRefresh.v runs the filter on a small machine; OLSR frames are specified by offsets of RFC 894, 791 and 768; requests are related to a subsequence of the frames by an invariant. | PropArpRefresh.v |
| C162 | The ARP cache stays right with the arprefresh plugin | General witnesses from the theorems of C161 and computed runs. | PropArpRefresh.v |
| C163 | The movement state of the PUD plugin follows its reports with the configured hysteresis | PudState.v keeps counters; the specification counts consecutive reports in the history. An invariant relates the counter to the streak. | PropPudState.v |
| C164 | The PUD plugin sends updates when the movement state changes and at the interval of the state | Runs of the receiver; every state of it is reached by calls of C163; invariants for the timers and the gateway. | PropPudState.v |
| C165 | The cluster leader is the usable gateway with the most bandwidth and the lowest address | Induction over the gateways from the left; addresses are ordered lexicographically in the specification. | PropPudState.v |
| C166 | The httpinfo plugin answers a GET with the page of that name, everything else with an error, and bounded reads | Induction over the bytes read with the part already in the buffer; the names of the pages are compared by computation; the header is shown to be a list of lines with the length among them. | PropHttpInfo.v |
| C167 | Replies of the httpinfo plugin reach their peer complete and in order | Invariant over runs with the slots and the events so far; each write or close of one slot keeps it; progress by the number of bytes left. | PropHttpInfo.v |
| C168 | The speed file sets the uplink and downlink of the gateway to the numbers in it | Induction over the lines, each read by fgets up to its end; the subexpressions of the regular expression are computed for a well-formed line; last values by induction from the right. | PropSpeedFile.v |
| C169 | The willingness follows the power supply | Apm.v: the files as character lists, sscanf with its widths, unset words as None; line-wise spec of the two capacities, then division by 26. | PropApm.v |
| C170 | The NMEA reader delivers exactly the valid sentences of a stream | Nmea.v: the reader as a step function over characters; invariant that the buffer is a prefix of a sentence at the end of what was read, and a forward run for the other direction. | PropNmea.v |
| C171 | NMEA sentences are printed with their checksum and inside the buffer | Nmea.v: the buffer as a list, reads beyond it are None. Expected refutation for texts longer than the buffer. | PropNmea.v |
| C172 | The fields of an NMEA sentence are read as their format says | NmeaScan.v: the format and the sentence as lists, strtod's acceptance an argument; induction over the fields. Expected refutation for numbers followed by other characters and for numbers of 64 digits. | PropNmeaScan.v |
| C173 | The time and the date of an NMEA sentence are read as the standard writes them | NmeaTime.v: trimming, the two-digit tokens over NmeaScan.v and the validation; the spec is a grammar of clock readings. Expected refutation for fractions that round up to a whole second and for the year 90. | PropNmeaTime.v |
| C174 | The satellites of a series of GPGSV sentences reach the position information | NmeaGsv.v: the sentence over NmeaScan.v, the array of 72 satellites as a list, writes outside are None; induction over the series of sentences. Expected refutation for sentences with more satellites than they count. | PropNmeaGsv.v |
| C175 | Sanitising a position ends, and gives the same point in range | Sanitise.v: doubles as integers in units of 2^-1074 with rounding to 53 bits; the loops with a number of turns. Expected refutation for numbers so big that subtracting a turn changes nothing, for minutes, and for times without a date. | PropSanitise.v |
| C176 | The satellites in use are those of the last sentence | NmeaGsa.v: the array of satellites in use as a list of 72 numbers; the loop by induction over the twelve numbers of the sentence. Expected refutation: memset with the size of one element. | PropNmeaGsa.v |
| C177 | The position file is used as a whole or not at all, and its last settings count | PosFile.v: the regular expressions as functions on lists, readDouble and the sanitising as parameters, closes of the descriptor counted. Expected refutations: two closes, indented settings, long comments. | PropPosFile.v |
| C178 | A GPGGA sentence gives the position that its fields say | NmeaGga.v: the fields as options, numbers as integers with an uninterpreted reading of texts; reuse of the lemmas about nmeaScanf. Expected refutations: no upper bounds for the count and the coordinates. | PropNmeaGga.v |
| C179 | A GPVTG sentence gives the track and the speed that its fields say | NmeaVtg.v: like NmeaGga.v with the conversions as parameters. Expected refutation: two speeds that differ. | PropNmeaVtg.v |
| C180 | A GPRMC sentence gives the signal and the position that its fields say, and one marked void makes the signal invalid | NmeaRmc.v: like NmeaVtg.v, with status and mode. Expected refutation: status V without a mode leaves an earlier signal. | PropNmeaRmc.v |
<!-- end plan -->

## Which parts of the code are modelled

By function: "modelled" if the citations in the Coq files cover at least half of its lines, "in part" if they cover some (generated by `tools/design.py`).

<!-- begin coverage -->
| file | Coq files | functions modelled | in part | not modelled |
|---|---|---|---|---|
| lib/arprefresh/src/olsrd_arprefresh.c | ArpRefresh | `olsr_arp_event`, `olsrd_plugin_init` |  | `olsrd_plugin_interface_version`, `olsrd_get_plugin_parameters`, `my_init`, `my_fini` |
| lib/bmf/src/Address.c | BmfForward, BmfPacket | `IsMulticast`, `IsOlsrOrBmfPacket` |  | `DoLocalBroadcast` |
| lib/bmf/src/Bmf.c | BmfForward | `MainAddressOf`, `ForwardPacket`, `EncapsulateAndForwardPacket`, `BmfPacketCaptured`, `BmfEncapsulationPacketReceived`, `BmfTunPacketCaptured` |  | `BmfPError`, `InterfaceChange`, `SetFanOutLimit`, `InitBmf`, `CloseBmf` |
| lib/bmf/src/NetworkInterfaces.c | BmfForward, BmfPacket | `FindNeighbors`, `CheckAndUpdateLocalBroadcast` |  | `SetBmfInterfaceName`, `SetBmfInterfaceIp`, `SetBmfInterfacePersistent`, `SetCapturePacketsOnOlsrInterfaces`, `SetBmfMechanism`, `AddDescriptorToInputSet`, `DeactivateSpoofFilter`, `RestoreSpoofFilter`, `CreateCaptureSocket`, `CreateListeningSocket`, `CreateEncapsulateSocket`, `CreateLocalEtherTunTap`, `CreateInterface`, `CreateBmfNetworkInterfaces`, `CloseBmfNetworkInterfaces`, `AddNonOlsrBmfIf`, `IsNonOlsrBmfIf`, `AddMulticastRoute`, `DeleteMulticastRoute` |
| lib/bmf/src/Packet.c | BmfForward, BmfPacket | `IsIpFragment`, `GetIpTotalLength`, `GetIpHeaderLength`, `GetTtl`, `SaveTtlAndChecksum`, `GetEncapsulationUdpDataLength` | `RestoreTtlAndChecksum` | `DecreaseTtlAndUpdateHeaderChecksum`, `GetIpHeader`, `GetIpPacket` |
| lib/bmf/src/PacketHistory.c | BmfHistory, BmfPacket | `GenerateCrc32Table`, `CalcCrc32`, `PacketCrc32`, `Hash`, `InitPacketHistory`, `CheckAndMarkRecentPacket`, `PrunePacketHistory` |  |  |
| lib/bmf/src/olsrd_plugin.c | BmfHistory |  | `olsrd_plugin_init` | `olsrd_plugin_interface_version`, `olsr_plugin_exit`, `olsrd_get_plugin_parameters`, `my_init`, `my_fini` |
| lib/dyn_gw/src/olsrd_dyn_gw.c | DynGw | `set_plugin_ping`, `olsrd_plugin_init`, `olsr_event_doing_hna`, `find_hna`, `update_routing`, `check_gw`, `ping_is_possible` | `set_plugin_hna` | `set_plugin_cmd`, `olsrd_get_plugin_parameters`, `olsrd_plugin_fini`, `get_ip_str`, `add_to_ping_list`, `add_to_hna_list`, `add_to_hna_group`, `ThreadWrapper`, `pthread_create`, `pthread_kill`, `pthread_mutex_init`, `pthread_mutex_lock`, `pthread_mutex_unlock` |
| lib/dyn_gw_plain/src/olsrd_dyn_gw_plain.c | DynGw | `olsrd_plugin_init`, `check_gw`, `olsr_event` |  | `my_init`, `my_fini`, `olsrd_plugin_interface_version`, `olsrd_get_plugin_parameters` |
| lib/filtergw/src/olsrd_filtergw.c | FilterGw | `olsrd_plugin_fini`, `should_filter` |  | `olsrd_plugin_init` |
| lib/httpinfo/src/olsrd_httpinfo.c | HttpInfo | `parse_http_request`, `build_http_header` |  | `get_http_socket`, `olsrd_plugin_init`, `build_tabs`, `olsr_plugin_exit`, `section_title`, `build_frame`, `fmt_href`, `build_ip_txt`, `build_ipaddr_link`, `build_route`, `build_routes_body`, `build_config_body`, `build_neigh_body`, `build_topo_body`, `build_mid_body`, `build_nodes_body`, `build_all_body`, `build_pud_body`, `sgw_ipvx`, `build_sgw_body`, `build_about_body`, `build_cfgfile_body`, `check_allowed_ip` |
| lib/jsoninfo/src/olsrd_jsoninfo.c | InfoCache, InfoReq, Json | `get_supported_commands_mask`, `isCommand`, `output_start`, `output_end` | `plugin_init` | `read_uuid_from_file`, `determine_mime_type`, `output_error`, `print_msg_params`, `print_hna_array_entry`, `print_link_quality_multipliers_array_entry`, `print_ipc_net_array_entry`, `print_interface_config`, `print_interface_olsr`, `ipc_print_gateway_entry`, `ipc_print_neighbors_internal`, `ipc_print_neighbors`, `ipc_print_links`, `ipc_print_routes`, `ipc_print_topology`, `ipc_print_hna`, `ipc_print_mid`, `ipc_print_gateways_ipvx`, `ipc_print_gateways`, `sgw_ipvx`, `sgw_egress_bw`, `sgw_egress_route_info`, `sgw_egress`, `ipc_print_sgw`, `ipc_print_pud_position`, `ipc_print_version`, `ipc_print_olsrd_conf`, `ipc_print_interfaces`, `ipc_print_twohop`, `ipc_print_config`, `ipc_print_plugins` |
| lib/mdns/src/Address.c | MdnsRelay | `IsMulticast` |  |  |
| lib/mdns/src/NetworkInterfaces.c | MdnsElect, MdnsRelay |  | `CreateBmfNetworkInterfaces` | `CreateCaptureSocket`, `CreateRouterElectionSocket`, `CreateHelloSocket`, `CreateInterface`, `AddInterface`, `CloseBmfNetworkInterfaces`, `AddNonOlsrBmfIf`, `set_TTL_Check`, `set_MDNS_TTL`, `IsNonOlsrBmfIf` |
| lib/mdns/src/Packet.c | MdnsRelay | `GetIpHeaderLength` | `GetIpTotalLength` | `IsIpFragment`, `GetTtl`, `SaveTtlAndChecksum`, `RestoreTtlAndChecksum`, `DecreaseTtlAndUpdateHeaderChecksum`, `GetIpHeader`, `GetIpPacket` |
| lib/mdns/src/RouterElection.c | MdnsElect | `ParseElectionPacket`, `ParseElectionPacket6`, `UpdateRouterList`, `UpdateRouterList6`, `helloTimer`, `electTimer`, `initTimer`, `set_Network_ID`, `InitRouterList` |  |  |
| lib/mdns/src/mdns.c | MdnsElect, MdnsRelay | `ip_checksum`, `PacketReceivedFromOLSR`, `olsr_parser`, `olsr_mdns_gen`, `BmfPacketCaptured`, `DoMDNS`, `DoElection` |  | `BmfPError`, `MainAddressOf`, `InitMDNS`, `CloseMDNS` |
| lib/nameservice/src/mapwrite.c | NameSvc |  | `mapwrite_work` | `lookup_position_latlon`, `mapwrite_poll`, `mapwrite_init`, `mapwrite_exit` |
| lib/nameservice/src/nameservice.c | NameSvc, Regex | `add_name_to_list`, `olsr_namesvc_delete_db_entry`, `olsr_nameservice_expire_db_timer`, `olsr_namesvc_gen`, `olsr_parser`, `encap_namemsg`, `create_packet`, `decap_namemsg`, `update_name_entry`, `insert_new_name_in_list`, `select_best_nameserver`, `write_resolv_file`, `free_name_entry_list`, `allowed_ip`, `is_name_wellformed`, `allowed_hostname_or_ip_in_service`, `is_mac_wellformed`, `is_latlon_wellformed` | `name_lazy_init`, `remove_nonvalid_names_from_list`, `write_hosts_file`, `write_services_file` | `name_constructor`, `set_nameservice_server`, `set_nameservice_name`, `set_nameservice_host`, `set_nameservice_float`, `olsrd_get_plugin_parameters`, `name_init`, `name_destructor`, `free_all_list_entries`, `olsr_expire_write_file_timer`, `olsr_start_write_file_timer`, `send_sighup_to_pidfile`, `allowed_service`, `is_service_wellformed`, `get_isdefhna_latlon`, `lookup_defhna_latlon`, `lookup_name_latlon`, `write_latlon_file` |
| lib/netjson/src/olsrd_netjson.c | Json | `output_start`, `output_end` |  | `get_supported_commands_mask`, `isCommand`, `determine_mime_type`, `output_error`, `ipc_print_network_routes`, `ipc_print_network_graph`, `ipc_print_network_collection` |
| lib/p2pd/src/Packet.c | P2pd | `IsMulticastv6` | `IsIpv6Fragment` | `IsIpFragment`, `GetIpTotalLength`, `IsIpv4Fragment`, `IsMulticastv4`, `GetIpHeaderLength`, `GetIpPacket`, `GetTtl`, `SaveTtlAndChecksum`, `RestoreTtlAndChecksum`, `DecreaseTtlAndUpdateHeaderChecksum` |
| lib/p2pd/src/PacketHistory.c | P2pd | `PacketCrc32`, `CheckAndMarkRecentPacket`, `PrunePacketHistory` |  | `GenerateCrc32Table`, `CalcCrc32`, `Hash`, `InitPacketHistory` |
| lib/p2pd/src/dllist.c | P2pd | `append_node`, `remove_node` |  | `clear_list` |
| lib/p2pd/src/p2pd.c | P2pd | `PacketReceivedFromOLSR`, `p2pd_message_seen`, `p2pd_is_duplicate_message`, `olsr_parser`, `olsr_p2pd_gen`, `InUdpDestPortList`, `recomputeIPv4HeaderChecksum`, `P2pdPacketCaptured`, `DoP2pd`, `check_and_mark_recent_packet` | `p2pd_store_message` | `P2pdPError`, `MainAddressOf`, `InitP2pd`, `CloseP2pd`, `SetP2pdTtl`, `SetP2pdUseHashFilter`, `SetP2pdUseTtlDecrement`, `AddUdpDestPort`, `get_ipv4_str`, `get_ipv6_str`, `is_broadcast`, `is_multicast`, `dump_packet` |
| lib/pud/src/configTools.c | PosFile, PudId | `readULL` |  | `readBool`, `readUC`, `readUS` |
| lib/pud/src/configuration.c | PudId, PudState | `setNodeId`, `intSetupNodeIdBinaryString`, `intSetupNodeIdBinaryIp`, `setupNodeIdBinaryAndValidate`, `getUpdateIntervalStationary`, `getUpdateIntervalMoving`, `getUplinkUpdateIntervalStationary`, `getUplinkUpdateIntervalMoving`, `getHysteresisCountToStationary`, `getHysteresisCountToMoving`, `getGatewayHysteresisCountToStationary`, `getGatewayHysteresisCountToMoving` |  | `getNodeIdTypeNumber`, `setNodeIdType`, `getNodeId`, `getNodeIdBinary`, `intSetupNodeIdBinaryMAC`, `getPositionFile`, `getPositionFilePeriod`, `isTxNonOlsrInterface`, `getTxNonOlsrInterfaceCount`, `getTxNonOlsrInterfaceName`, `getTxMcAddr`, `setTxMcAddr`, `getTxMcPort`, `setTxMcPort`, `getTxTtl`, `setTxTtl`, `getTxNmeaMessagePrefix`, `getPositionOutputFile`, `isUplinkAddrSet`, `getUplinkAddr`, `setUplinkAddr`, `getUplinkPort`, `setUplinkPort`, `getDownlinkPort`, `getOlsrTtl`, `setOlsrTtl`, `getGatewayDeterminationInterval`, `getMovingSpeedThreshold`, `getMovingDistanceThreshold`, `getDopMultiplier`, `getDefaultHdop`, `getDefaultVdop`, `getAverageDepth`, `getUseDeDup`, `getDeDupDepth`, `getUseLoopback`, `getGpsdUse`, `setGpsdUse`, `getGpsd`, `setGpsd`, `checkConfig`, `checkRunSetup` |
| lib/pud/src/dedup.c | PudRx | `initDeDupList`, `addToDeDup`, `isInDeDupList` |  | `destroyDeDupList` |
| lib/pud/src/gpsConversion.c | PudId, PudRx |  |  |  |
| lib/pud/src/posFile.c | PosFile | `readPositionFile` |  | `startPositionFile`, `stopPositionFile`, `regexMatch` |
| lib/pud/src/pud.c | PudRx, PudState | `packetReceivedFromDownlink` | `initPud` | `pudError`, `pud_read_position_file`, `closePud` |
| lib/pud/src/receiver.c | PudId, PudState | `positionValid`, `txToAllOlsrInterfaces`, `pud_gpsd_fetch_timer_callback`, `pud_olsr_tx_timer_callback`, `pud_uplink_timer_callback`, `restartOlsrTimer`, `restartUplinkTimer`, `doImmediateTransmit`, `pud_gateway_timer_callback`, `receiverProcessIncomingEntry`, `startReceiver` |  | `clearMovementType`, `writePositionOutputFile`, `restartGpsdTimer`, `detemineMovingFromPosition`, `nmea_errors`, `updatePositionFromFile`, `stopReceiver` |
| lib/pud/src/state.c | PudState | `initState` |  | `getExternalState`, `getInternalState` |
| lib/pud/src/timers.c | PudState |  | `startOlsrTxTimer`, `startUplinkTxTimer` | `startGpsdFetchTimer`, `stopGpsdFetchTimer`, `restartGpsdFetchTimer`, `initGpsdFetchTimer`, `destroyGpsdFetchTimer`, `stopOlsrTxTimer`, `restartOlsrTxTimer`, `initOlsrTxTimer`, `destroyOlsrTxTimer`, `stopUplinkTxTimer`, `restartUplinkTxTimer`, `initUplinkTxTimer`, `destroyUplinkTxTimer`, `startGatewayTimer`, `stopGatewayTimer`, `restartGatewayTimer`, `initGatewayTimer`, `destroyGatewayTimer` |
| lib/pud/src/uplinkGateway.c | PudState | `gw_speed`, `getBestUplinkGateway` |  |  |
| lib/quagga/src/client.c | Quagga | `zclient_reconnect`, `zclient_write`, `zclient_read` | `zclient_connect` |  |
| lib/quagga/src/packet.c | Quagga |  |  |  |
| lib/quagga/src/parse.c | Quagga | `zparse` |  | `free_zroute` |
| lib/quagga/src/quagga.c | Quagga | `zebra_addroute`, `zebra_delroute`, `zebra_redistribute`, `zebra_hello` |  | `zebra_init`, `zebra_fini` |
| lib/secure/src/md5.c | Md5 | `Encode`, `Decode`, `MD5Transform`, `MD5Init`, `MD5Update`, `MD5Final` |  |  |
| lib/secure/src/olsrd_secure.c | Md5, Secure | `MD5_checksum`, `secure_preprocessor`, `check_auth`, `add_signature`, `validate_packet`, `check_timestamp`, `send_challenge`, `parse_cres`, `parse_rres`, `parse_challenge`, `send_cres`, `send_rres`, `lookup_timestamp_entry`, `timeout_timestamps` |  | `secure_plugin_init`, `plugin_ipc_init`, `secure_plugin_exit`, `read_key_from_file` |
| lib/sgwdynspeed/src/speedFile.c | SpeedFile | `readUL`, `stripEols`, `readSpeedFile` | `regexMatch` | `startSpeedFile`, `stopSpeedFile` |
| src/build_msg.c | BuildHna, BuildMsg, CreateMsg, GwHna, RfcMsg | `queue_hello`, `queue_tc`, `queue_mid`, `queue_hna`, `check_buffspace`, `serialize_hello4`, `serialize_hello6`, `serialize_tc4`, `serialize_mid4`, `serialize_hna4`, `serialize_hna6` | `serialize_tc6`, `serialize_mid6` | `set_empty_tc_timer`, `get_empty_tc_timer` |
| src/cfgparser/olsrd_conf.c | Cli, ConfCheck, ConfIf, ConfScan, DynGw, Hna, HystSpec, LqCostSpec, MultiGw, Quagga | `loadConfig`, `olsrd_parse_cnf`, `olsrd_sanity_check_rtpolicy`, `olsrd_sanity_check_interface_cnf`, `olsrd_sanity_check_cnf`, `olsrd_get_default_cnf`, `set_default_cnf`, `get_default_if_config`, `ip_prefix_list_add`, `ip_prefix_list_remove`, `ip_prefix_list_find` | `ip_prefix_list_clear` | `main`, `olsrd_print_interface_cnf`, `olsrd_free_cnf`, `olsrd_print_cnf`, `win32_stdio_hack`, `win32_olsrd_malloc`, `win32_olsrd_free`, `update_has_gateway_fields`, `set_derived_cnf` |
| src/cfgparser/olsrd_conf_checksum.c | ConfSum | `olsrd_config_checksum_final`, `olsrd_config_checksum_add_cli`, `olsrd_config_checksum_add` |  | `olsrd_config_checksum_init`, `olsrd_config_checksum_get` |
| src/cli.c | Cli | `olsr_process_arguments` |  | `print_version`, `print_usage` |
| src/common/autobuf.c | Autobuf | `ROUND_UP_TO_POWER_OF_2`, `abuf_init`, `autobuf_enlarge`, `abuf_vappendf`, `abuf_puts`, `abuf_concat`, `abuf_memcpy`, `abuf_memcpy_prefix`, `abuf_pull` |  | `abuf_free`, `abuf_appendf`, `abuf_strftime` |
| src/common/list.c | DList, Timers | `list_head_init`, `list_node_init`, `list_node_on_list`, `list_is_empty`, `list_add_after`, `list_add_before`, `list_remove` |  |  |
| src/common/olsrd_avl.c | Avl, Compare | `olsrd_avl_comp_ipv4`, `olsrd_avl_comp_ipv6`, `olsrd_avl_comp_mac`, `olsrd_avl_init`, `olsrd_avl_find_rec_ipv4`, `olsrd_avl_find_rec`, `olsrd_avl_find`, `olsrd_avl_rotate_right`, `olsrd_avl_rotate_left`, `post_insert`, `olsrd_avl_insert_before`, `olsrd_avl_insert_after`, `olsrd_avl_remove`, `olsrd_avl_insert`, `olsrd_avl_post_delete`, `olsrd_avl_local_min`, `olsrd_avl_delete_worker`, `olsrd_avl_delete` |  |  |
| src/common/string_handling.c | Strings | `_internal_strscpy`, `strscpy`, `strscat` |  |  |
| src/duplicate_handler.c | SeqNo | `handle_duplicate_spam_timer`, `olsr_test_originator_collision` | `olsr_handle_hna_collision`, `olsr_handle_mid_collision` | `olsr_duplicate_handler_init`, `olsr_add_duplicate_handler`, `olsr_remove_duplicate_handler` |
| src/duplicate_set.c | DupSet | `olsr_init_duplicate_set`, `olsr_cleanup_duplicates`, `olsr_create_duplicate_entry`, `olsr_cleanup_duplicate_entry`, `olsr_seqno_diff`, `olsr_message_is_duplicate` |  | `olsr_print_duplicate_table` |
| src/egressFile.c | Egress, MultiGw | `readIPAddress`, `readULL`, `stripEols`, `findEgressInterface`, `egressBwCalculateCosts`, `egressBwClear`, `egress_file_timer_callback`, `readEgressFileClear`, `readEgressFile` | `startEgressFile` | `egressFileError`, `findEgressInterfaceByIndex`, `stopEgressFile` |
| src/gateway.c | ConfCheck, EgressSpec, Gateway, GwHna, GwSpeed, MultiGw | `hna_mask_to_hna_pointer`, `deserialize_gw_speed`, `serialize_gw_speed`, `multiGwRulesOlsrInterfaces`, `multiGwRulesSgwServerTunnel`, `doEgressInterface`, `smartgw_tunnel_monitor`, `expire_gateway_handler`, `cleanup_gateway_handler`, `removeGatewayFromList`, `takeDownExpensiveGateways`, `olsr_init_gateways`, `olsr_shutdown_gateways`, `olsr_modifiy_inetgw_netmask`, `refresh_smartgw_netmask`, `olsr_is_smart_gateway`, `olsr_update_gateway_entry`, `olsr_delete_gateway_tree_entry`, `olsr_trigger_gatewayloss_check`, `olsr_set_inet_gateway`, `olsr_get_inet_gateway`, `determineBestEgressLink`, `determineBestOverallLink`, `isInterfaceUp`, `programRoute`, `determineBestOverallLinkRoutes`, `setupDefaultGatewayOverrideRoutes`, `configureBestEgressLinkRoute`, `configureEgressLinkRoutes`, `doRoutesMultiGw` | `olsr_startup_gateways` | `allOlsrInterfacesDown`, `server_tunnel_name`, `find_interfaceName`, `get_unused_iptunnel_name`, `set_unused_iptunnel_name`, `multiGwRunScript`, `multiGwTunnelsCleanup`, `multiGwRulesCleanup`, `multiGwRulesGeneric`, `multiGwRulesEgressInterfaces`, `multiGwRulesSgwTunnels`, `gw_takedown_timer_callback`, `olsr_cleanup_gateways`, `olsr_trigger_inetgw_startup`, `olsr_print_gateway_entries`, `olsr_delete_gateway_entry`, `printDate`, `isEgressSelected`, `writeProgramStatusFile`, `reportNewGateway` |
| src/gateway_costs.c | GwSpeed | `gw_costs_weigh` |  | `get_gwcost_scaled`, `get_gwcost_text` |
| src/gateway_default_handler.c | Gateway | `gw_default_calc_threshold`, `gw_default_choose_gateway`, `gw_default_timer`, `gw_default_lookup_gateway`, `gw_default_init`, `gw_default_startup_handler`, `gw_default_getcosts`, `gw_default_choosegw_handler`, `gw_default_update_handler`, `gw_default_delete_handler` |  | `gw_default_cleanup` |
| src/gateway_list.c | Gateway | `olsr_gw_list_find`, `olsr_gw_list_add`, `olsr_gw_list_update`, `olsr_gw_list_remove` |  | `olsr_gw_list_init`, `olsr_gw_list_cleanup` |
| src/generate_msg.c | RfcMsg | `generate_hello`, `generate_tc` | `generate_mid` | `generate_hna`, `generate_stdout_pulse` |
| src/hashing.c | Hna |  | `olsr_ip_hashing` | `jenkins_hash` |
| src/hna_set.c | Gateway, GwHna, Hna, Loop, TcGraph | `olsr_init_hna_set`, `olsr_lookup_hna_net`, `olsr_lookup_hna_gw`, `olsr_add_hna_entry`, `olsr_add_hna_net`, `olsr_expire_hna_net_entry`, `olsr_update_hna_entry`, `olsr_input_hna` |  | `olsr_print_hna_set` |
| src/hysteresis.c | Hyst, LinkSet | `olsr_hyst_calc_stability`, `olsr_hyst_calc_instability`, `olsr_process_hysteresis`, `update_hysteresis_incoming` |  | `olsr_update_hysteresis_hello` |
| src/interfaces.c | Cli, IpcFront, LinkSet, Niit, PolicyRules, ProcFs, Secure | `if_ifwithaddr`, `if_ifwithindex_name`, `olsr_create_olsrif`, `olsr_remove_interface` | `olsr_init_interfacedb`, `olsr_trigger_ifchange` | `if_ifwithsock`, `if_ifwithname`, `olsrif_ifwithname`, `if_ifwithindex`, `olsr_add_ifchange_handler`, `olsr_remove_ifchange_handler` |
| src/ipc_frontend.c | IpcFront | `ipc_accept`, `ipc_check_allowed_ip`, `frontend_msgparser`, `ipc_send_all_routes`, `ipc_send_net_info` | `ipc_route_send_rtentry`, `shutdown_ipc` | `ipc_init` |
| src/ipcalc.c | ConfIf, IpCalc | `prefix_to_netmask`, `netmask_to_prefix`, `prefix_to_netmask4`, `ip_in_net`, `is_prefix_inetgw` |  | `olsr_ip_prefix_to_string` |
| src/link_set.c | ConfIf, Hyst, LinkSet, Loop, LqCost, LqCostSpec, PropSpf, RfcMsg, TcGraph, TwoHop | `olsr_init_link_set`, `olsr_reset_all_links`, `lookup_link_status`, `get_neighbor_status`, `get_best_link_to_neighbor`, `set_loss_link_multiplier`, `olsr_delete_link_entry`, `olsr_delete_link_entry_by_ip`, `olsr_expire_link_loss_timer`, `olsr_expire_link_sym_timer`, `olsr_expire_link_hello_timer`, `olsr_expire_link_entry`, `olsr_set_link_timer`, `add_link_entry`, `check_neighbor_link`, `lookup_link_entry`, `update_link_entry`, `replace_neighbor_link_set`, `check_link_status`, `olsr_update_packet_loss_hello_int`, `olsr_received_hello_handler` |  | `signal_link_changes`, `olsr_print_link_set` |
| src/linux/apm.c | Apm | `apm_init`, `apm_read`, `apm_read_apm`, `apm_read_acpi`, `acpi_probe` |  | `apm_printinfo` |
| src/linux/kernel_routes_nl.c | Gateway, MultiGw, Niit, NlRoute, PolicyRules, Rib | `netlink_process_link`, `olsr_netlink_addreq`, `olsr_netlink_send`, `olsr_os_policy_rule`, `olsr_os_niit_6to4_route`, `olsr_os_niit_4to6_route`, `olsr_os_inetgw_tunnel_route`, `olsr_os_process_rt_entry` |  | `rtnetlink_register_socket`, `rtnetlink_read`, `olsr_add_ip`, `olsr_os_localhost_if`, `olsr_os_ifip`, `olsr_ioctl_add_route`, `olsr_ioctl_add_route6`, `olsr_ioctl_del_route`, `olsr_ioctl_del_route6` |
| src/linux/kernel_tunnel.c | Gateway | `olsr_os_add_ipip_tunnel`, `olsr_os_del_ipip_tunnel` |  | `olsr_os_init_iptunnel`, `olsr_os_cleanup_iptunnel`, `os_ip_tunnel` |
| src/linux/net.c | ProcFs | `writeToProc`, `restoreProc`, `is_at_least_linuxkernel_2_6_31`, `net_os_set_ifoptions`, `net_os_restore_ifoptions` | `bind_socket_to_device` | `gethemusocket`, `getsocket`, `getsocket6`, `join_mcast`, `get_ipv6_address`, `olsr_sendto`, `olsr_recvfrom`, `olsr_select`, `check_wireless_interface`, `calculate_if_metric`, `olsr_if_isup`, `olsr_if_set_state` |
| src/lock_file.c | RunFiles | `olsr_create_lock_file_internal`, `olsr_create_lock_file`, `olsr_remove_lock_file` |  | `olsrd_get_default_lockfile` |
| src/lq_mpr.c | Loop, Mpr | `olsr_calculate_lq_mpr` |  |  |
| src/lq_packet.c | BuildMsg, CreateMsg, Loop, Tc | `neigh_find`, `create_lq_hello`, `create_lq_tc`, `common_size`, `serialize_common`, `serialize_lq_hello`, `calculate_border_flag`, `serialize_lq_tc`, `olsr_output_lq_tc` |  | `destroy_lq_hello`, `destroy_lq_tc`, `olsr_output_lq_hello` |
| src/lq_plugin.c | Loop, LqCost | `olsr_malloc_link_entry`, `olsr_relevant_linkcost_change` |  | `olsrd_avl_strcasecmp`, `activate_lq_handler`, `init_lq_handler_tree`, `register_lq_handler`, `olsr_calc_tc_cost`, `olsr_serialize_hello_lq_pair`, `olsr_deserialize_hello_lq_pair`, `olsr_serialize_tc_lq_pair`, `olsr_deserialize_tc_lq_pair`, `olsr_update_packet_loss_worker`, `olsr_memorize_foreign_hello_lq`, `get_link_entry_text`, `get_tc_edge_entry_text`, `get_linkcost_text`, `get_linkcost_scaled`, `olsr_copy_hello_lq`, `olsr_copylq_link_entry_2_tc_mpr_addr`, `olsr_copylq_link_entry_2_tc_edge_entry`, `olsr_clear_hello_lq`, `olsr_clear_tc_lq`, `olsr_malloc_hello_neighbor`, `olsr_malloc_tc_mpr_addr`, `olsr_malloc_lq_hello_neighbor`, `olsr_sizeof_hello_lqdata`, `olsr_sizeof_tc_lqdata` |
| src/lq_plugin_default_ff.c | Hello, LqCost, Tc | `default_lq_parser_ff`, `default_lq_ff_timer`, `default_lq_calc_cost_ff`, `default_lq_deserialize_hello_lq_pair_ff`, `default_lq_deserialize_tc_lq_pair_ff`, `default_lq_packet_loss_worker_ff`, `default_lq_memorize_foreign_hello_ff`, `default_lq_clear_ff_hello` | `default_lq_initialize_ff` | `default_lq_serialize_hello_lq_pair_ff`, `default_lq_serialize_tc_lq_pair_ff`, `default_lq_copy_link2neigh_ff`, `default_lq_copy_link2tc_ff`, `default_lq_clear_ff`, `default_lq_print_ff`, `default_lq_get_cost_scaled` |
| src/lq_plugin_default_ffeth.c | LqCost | `default_lq_parser_ffeth`, `default_lq_ffeth_timer`, `default_lq_calc_cost_ffeth`, `default_lq_clear_ffeth_hello` |  | `default_lq_initialize_ffeth`, `default_lq_serialize_hello_lq_pair_ffeth`, `default_lq_deserialize_hello_lq_pair_ffeth`, `default_lq_serialize_tc_lq_pair_ffeth`, `default_lq_deserialize_tc_lq_pair_ffeth`, `default_lq_packet_loss_worker_ffeth`, `default_lq_memorize_foreign_hello_ffeth`, `default_lq_copy_link2neigh_ffeth`, `default_lq_copy_link2tc_ffeth`, `default_lq_clear_ffeth`, `default_lq_print_ffeth`, `default_lq_get_cost_scaled` |
| src/lq_plugin_default_fpm.c | BuildMsg, LqCost | `default_lq_calc_cost_fpm`, `default_lq_serialize_hello_lq_pair_fpm`, `default_lq_packet_loss_worker_fpm`, `default_lq_memorize_foreign_hello_fpm`, `default_lq_clear_fpm` | `default_lq_initialize_fpm` | `default_lq_deserialize_hello_lq_pair_fpm`, `default_lq_serialize_tc_lq_pair_fpm`, `default_lq_deserialize_tc_lq_pair_fpm`, `default_lq_copy_link2tc_fpm`, `default_lq_print_fpm`, `default_lq_get_cost_scaled` |
| src/main.c | Cli, ConfCheck, ConfCheckSpec, ConfSum, FilterGw, Gateway, LinkSet, Mid, Niit, PolicyRules, ProcFs, PropCreateMsg, RfcMsg, RunFiles | `set_default_ifcnfs` | `olsr_shutdown`, `main` | `printStacktrace`, `olsr_reconfigure`, `olsr_shutdown_messages`, `olsr_segv_handler`, `get_argc_argv` |
| src/mantissa.c | Mantissa | `reltime_to_me`, `me_to_reltime` |  | `reltime_minimum_interval` |
| src/mid_set.c | LinkSet, Mid, TcGraph, TwoHop | `olsr_init_mid_set`, `olsr_delete_all_mid_entries`, `olsr_cleanup_mid`, `olsr_expire_mid_entry`, `olsr_set_mid_timer`, `insert_mid_tuple`, `insert_mid_alias`, `mid_lookup_main_addr`, `mid_lookup_entry_bymain`, `mid_lookup_aliases`, `olsr_update_mid_table`, `olsr_prune_aliases`, `olsr_delete_mid_entry`, `olsr_input_mid` |  | `olsr_print_mid_set` |
| src/mpr.c | Loop, Mpr | `olsr_find_2_hop_neighbors_with_1_link`, `olsr_chosen_mpr`, `olsr_find_maximum_covered`, `olsr_clear_mprs`, `olsr_check_mpr_changes`, `olsr_calculate_two_hop_neighbors`, `add_will_always_nodes`, `olsr_calculate_mpr`, `olsr_optimize_mpr_set` | `olsr_clear_two_hop_processed` | `olsr_print_mpr_set` |
| src/mpr_selector_set.c | Loop | `olsr_init_mprs_set`, `increase_local_ansn`, `olsr_expire_mpr_sel_entry`, `olsr_lookup_mprs_set`, `olsr_update_mprs_set` |  | `get_local_ansn`, `olsr_is_mpr`, `olsr_set_mpr_sel_timer`, `olsr_add_mpr_selector`, `olsr_print_mprs_set` |
| src/neighbor_table.c | LinkSet, Loop, TwoHop | `olsr_init_neighbor_table`, `olsr_del_nbr2_list`, `olsr_delete_neighbor_2_pointer`, `olsr_lookup_my_neighbors`, `olsr_update_neighbor_main_addr`, `olsr_delete_neighbor_table`, `olsr_insert_neighbor_table`, `olsr_lookup_neighbor_table`, `olsr_lookup_neighbor_table_alias`, `update_neighbor_status`, `olsr_expire_nbr2_list` |  | `olsr_print_neighbor_table` |
| src/net_olsr.c | BuildMsg, NetBuf, Parser | `init_net`, `net_add_buffer`, `net_remove_buffer`, `net_reserve_bufspace`, `net_output_pending`, `net_outbuffer_push`, `net_outbuffer_push_reserved`, `net_outbuffer_bytes_left`, `add_ptf`, `del_ptf`, `net_output`, `olsr_add_invalid_address`, `olsr_validate_address` |  |  |
| src/olsr.c | Apm, BuildMsg, DupSet, Forward, HttpInfo, Loop, ProcFs, PudRx, Rib, SeqNo, Tc | `init_msg_seqno`, `get_msg_seqno`, `register_pcf`, `olsr_process_changes`, `olsr_init_tables`, `olsr_forward_message`, `set_buffer_timer`, `olsr_calculate_willingness`, `olsr_exit`, `olsr_malloc` | `olsr_printf` | `olsr_startup_sleep`, `olsr_do_startup_sleep`, `olsr_init_willingness`, `olsr_update_willingness`, `olsr_msgtype_to_string`, `olsr_link_to_string`, `olsr_status_to_string`, `olsr_realloc` |
| src/olsr_cookie.c | Cookie | `olsr_alloc_cookie`, `olsr_free_cookie`, `olsr_cookie_valid`, `olsr_cookie_usage_incr`, `olsr_cookie_usage_decr`, `olsr_cookie_name`, `olsr_cookie_malloc`, `olsr_cookie_free` |  | `olsr_delete_all_cookies`, `olsr_cookie_set_memory_size` |
| src/olsr_niit.c | Niit | `olsr_init_niit`, `olsr_setup_niit_routes`, `olsr_cleanup_niit_routes`, `olsr_niit_handle_route`, `refresh_niit4to6_routes` |  |  |
| src/olsr_spf.c | Compare, Gateway, Loop, Rib, Spf, TcGraph | `olsrd_avl_comp_etx`, `olsr_spf_add_cand_tree`, `olsr_spf_del_cand_tree`, `olsr_spf_relax`, `olsr_spf_run_full`, `olsr_expire_spf_backoff`, `timer_sub`, `olsr_calculate_routing_table` |  | `olsr_spf_add_path_list`, `olsr_spf_extract_best` |
| src/packet.c | Loop, RfcMsg | `olsr_build_hello_packet`, `olsr_build_tc_packet` |  | `olsr_free_hello_packet`, `olsr_free_tc_packet`, `olsr_free_mid_packet` |
| src/parser.c | FilterGw, Hyst, Parser, PudRx | `olsr_parser_add_function`, `olsr_parser_remove_function`, `parse_packet` | `olsr_input` | `olsr_init_parser`, `olsr_preprocessor_add_function`, `olsr_preprocessor_remove_function`, `olsr_packetparser_add_function`, `olsr_packetparser_remove_function`, `olsr_input_hostemu` |
| src/pid_file.c | RunFiles | `writePidFile`, `removePidFile` |  |  |
| src/plugin_loader.c | PluginUtil | `olsr_load_plugins`, `olsr_load_dl`, `try_old_versions`, `olsr_add_dl`, `init_olsr_plugin` |  | `olsr_close_plugins` |
| src/plugin_util.c | PluginUtil | `set_plugin_port`, `set_plugin_boolean`, `set_plugin_int`, `set_plugin_long`, `set_plugin_string` |  | `set_plugin_ipaddress` |
| src/process_package.c | FilterGw, Hello, LinkSet, Loop, Mid, TwoHop | `process_message_neighbors`, `linking_this_2_entries`, `deserialize_hello`, `olsr_input_hello` | `olsr_init_package_process`, `olsr_hello_tap` | `lookup_mpr_status` |
| src/process_routes.c | Niit, NlRouteSpec, Rib | `olsr_delete_all_kernel_routes`, `olsr_enqueue_rt`, `olsr_delete_kernel_route`, `olsr_add_kernel_route`, `olsr_chg_kernel_routes`, `olsr_delete_outdated_routes`, `olsr_update_rib_routes` |  | `olsr_rt_flags`, `olsr_init_export_route`, `olsr_update_kernel_routes` |
| src/rebuild_packet.c | Mid | `mid_chgestruct` |  |  |
| src/routing_table.c | Compare, Loop, Rib, RtBest, TcGraph | `olsrd_avl_comp_ipv4_prefix`, `olsrd_avl_comp_ipv6_prefix`, `olsr_update_rt_path`, `olsr_alloc_rt_path`, `olsr_insert_rt_path`, `olsr_delete_rt_path`, `olsr_nh_change`, `olsr_hopcount_change`, `olsr_get_nh`, `olsr_cmp_rtp`, `olsr_rt_best`, `olsr_insert_routing_table`, `olsr_delete_routing_table` | `olsr_lookup_routing_table`, `olsr_alloc_rt_entry` | `olsr_bump_routingtree_version`, `olsr_init_routing_table`, `olsr_fib_metric`, `olsr_cmp_rt`, `olsr_rt_to_string`, `olsr_rtp_to_string`, `olsr_print_routing_table` |
| src/scheduler.c | Compare, LinkSet, Loop, Mid, Niit, PudState, SchedTime, Timers, TwoHop | `olsr_times`, `olsr_getTimestamp`, `olsr_getTimeDue`, `olsr_isTimedOut`, `olsr_scheduler`, `calc_jitter`, `olsr_init_timers`, `walk_timers`, `walk_timers_cleanup`, `olsr_start_timer`, `olsr_stop_timer`, `olsr_cleanup_timer`, `olsr_change_timer`, `olsr_set_timer` | `OLSRD_AVLNODE2STRUCT`, `olsr_flush_timers` | `add_olsr_socket`, `remove_olsr_socket`, `enable_olsr_socket`, `disable_olsr_socket`, `olsr_flush_sockets`, `poll_sockets`, `handle_fds`, `olsr_scheduler_is_stopped`, `olsr_scheduler_stop`, `olsr_get_timezone`, `olsr_wallclock_string`, `olsr_clock_string` |
| src/superfasthash.c | ConfSum | `hash_inc` |  | `hash` |
| src/tc_set.c | Gateway, Hna, Loop, Mid, PropTcGraph, Spf, Tc, TcGraph | `olsr_seq_inrange_low`, `olsr_seq_inrange_high`, `olsr_add_tc_entry`, `olsr_init_tc`, `olsr_delete_all_tc_entries`, `olsr_change_myself_tc`, `olsr_lock_tc_entry`, `olsr_unlock_tc_entry`, `olsr_delete_tc_entry`, `olsr_lookup_tc_entry`, `olsr_locate_tc_entry`, `olsr_expire_tc_entry`, `olsr_expire_tc_edge_gc`, `olsr_add_tc_edge_entry`, `olsr_delete_tc_edge_entry`, `olsr_delete_outdated_tc_edges`, `olsr_delete_revoked_tc_edges`, `olsr_tc_update_edge`, `olsr_lookup_tc_edge`, `olsr_print_tc_table`, `olsr_calculate_tc_border`, `olsr_input_tc` |  | `olsr_tc_edge_to_string`, `olsr_calc_tc_edge_entry_etx` |
| src/two_hop_neighbor_table.c | TwoHop | `olsr_init_two_hop_table`, `olsr_delete_neighbor_pointer`, `olsr_delete_two_hop_neighbor_table`, `olsr_lookup_two_hop_neighbor_table`, `olsr_lookup_two_hop_neighbor_table_mid` |  | `olsr_insert_two_hop_neighbor_table`, `olsr_print_two_hop_neighbor_table` |
| src/unix/ifnet.c | IpcFront, NetBuf, PolicyRules, ProcFs | `add_hemu_if`, `if_basename`, `chk_if_up` | `chk_if_changed` | `check_interface_updates`, `getInterfaceLinkState` |
<!-- end coverage -->

### Files no part of which is modelled

<!-- begin untouched -->
`lib/dot_draw/src/olsrd_dot_draw.c`, `lib/dot_draw/src/olsrd_plugin.c`, `lib/dyn_gw/src/olsrd_plugin.c`, `lib/filtergw/src/olsrd_plugin.c`, `lib/httpinfo/src/admin_interface.c`, `lib/httpinfo/src/olsrd_plugin.c`, `lib/jsoninfo/src/olsrd_plugin.c`, `lib/mdns/src/olsrd_plugin.c`, `lib/mini/src/mini_plugin.c`, `lib/nameservice/src/compat.c`, `lib/nameservice/src/olsrd_plugin.c`, `lib/netjson/src/olsrd_netjson_helpers.c`, `lib/netjson/src/olsrd_plugin.c`, `lib/p2pd/src/NetworkInterfaces.c`, `lib/p2pd/src/olsrd_plugin.c`, `lib/pgraph/src/olsrd_pgraph.c`, `lib/poprouting/src/olsrd_plugin.c`, `lib/poprouting/src/olsrd_poprouting.c`, `lib/pud/src/gpsdclient.c`, `lib/pud/src/netTools.c`, `lib/pud/src/networkInterfaces.c`, `lib/pud/src/posAvg.c`, `lib/pud/src/pudOlsrdPlugin.c`, `lib/quagga/src/olsrd_plugin.c`, `lib/quagga/src/plugin.c`, `lib/secure/src/olsrd_plugin.c`, `lib/sgwdynspeed/src/configuration.c`, `lib/sgwdynspeed/src/olsrdPlugin.c`, `lib/sgwdynspeed/src/sgwDynSpeed.c`, `lib/txtinfo/src/olsrd_plugin.c`, `lib/txtinfo/src/olsrd_txtinfo.c`, `lib/watchdog/src/olsrd_plugin.c`, `src/cfgparser/cfgfile_gen.c`, `src/fpm.c`, `src/linux/lq_plugin_ffeth_nl80211.c`, `src/linux/nl80211_link_info.c`, `src/lq_plugin_default_float.c`, `src/unix/log.c`, `src/unix/misc.c`.
<!-- end untouched -->

## Conventions

* If the code does not have a property, the full statement is refuted by a theorem named `..._refuted` with a witness, and the part that holds is proved as `..._partial`.
* Theorems quantify over all inputs, states and histories; examples and executors with concrete values only serve as witnesses and as checks that hypotheses can be met.
* Wrong programs: every definition of the model is changed in several ways (`seeded/LOG.jsonl`); a change that makes a property false and that no theorem notices leads to a stronger theorem (`tightened` in the log).
