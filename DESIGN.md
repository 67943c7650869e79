# DESIGN: formal model of edgecomllc/eupf in Rocq (Coq 8.16.1)

## Approach
Shallow embedding. Each modelled Go/C function is a total Gallina function on explicit state records; every
definition carries a comment citing the file and lines in /repo. Machine integers are `N` with explicit `mod 2^k`
where the code can wrap. Go maps and BPF maps are std++ `gmap`s; Go's random map iteration order is an explicit
argument (a *shuffle*: any function returning a permutation of its input), universally quantified in the theorems.
Frames are lists of bytes; every access made by the XDP program is checked and yields `Fault` when out of bounds.
Nil dereferences / index panics in Go are an explicit `Crash` outcome.

Properties that the code violates are kept in full in properties.jsonl and answered by a theorem `*_refuted`
(a concrete reachable counter-example checked by the kernel) plus, where there is one, a `*_partial` theorem
saying what does hold. MANIFEST.json says `partial` for those.

## Trusted base
* Coq 8.16.1 kernel (and vm_compute's reduction machine, part of the kernel).
* std++ definitions of finite maps (library code, no axioms; checked by the kernel).
* Print Assumptions for each theorem: see the section at the end of this file.
* The correspondence model <-> code is by reading: the model is hand-written from the sources cited.

## Per-property plan
* **C01 Rule ids are exclusive while held** — IdTracker.v: tracker = strictly increasing list of free ids + size. Induction over histories; theorem about the log of grants/releases.
* **C02 Rule id pool is complete and recycles** — IdTracker.v: same model; exhaustion iff all ids outstanding, from the partition invariant free + held = [0,size).
* **C03 Allocated TEIDs are unique and valid** — ResourceManager.v: FIFO list + two-level map; invariant over all histories, release order arbitrary (shuffle argument).
* **C04 Allocated UE IP addresses are unique and in the pool** — ResourceManager.v: pool = explicit enumeration of an IPv4 prefix minus first address; same invariant.
* **C05 Pools do not shrink** — Refuted: witness history (re-allocating a busy key leaks); positive partial: conservation for histories that never reuse a busy key.
* **C06 Session identifiers are never reused** — Pfcp.v + PfcpHistory.v: run over events; invariant live SEIDs <= counter; theorem on the response log.
* **C07 Session table follows the responses** — PfcpHistory.v: abstract live-set computed from the log only; theorem: equals the session table domain.
* **C08 Requests out of context have no effect** — PfcpProps.v: per-handler theorem, state equality.
* **C09 Responses answer their request** — PfcpProps.v: case analysis of dispatch.
* **C10 Control-plane isolation between sessions** — PfcpProps.v: frame theorem.
* **C11 Data-plane isolation between sessions** — PfcpProps.v: refuted by witness run (update of unknown FAR id hits id 0); partial for requests naming known ids (from C12's invariant).
* **C12 Data plane mirrors session rules** — PfcpInv.v: ownership+mirror invariant, induction over histories of well-referenced requests and arbitrary packet effects on QER windows/URR counters.
* **C13 An accepted establishment installs its forwarding rules** — PfcpProps.v: fold over PDR list with distinct keys.
* **C14 Created-PDR report is exact** — PfcpProps.v: list equality between created IEs and allocated PDRs + installed entries.
* **C15 An accepted deletion removes the session's data-plane state** — PfcpProps.v: partial (TEIDs of a session must not collide mod 256) + refutation witness for colliding TEIDs.
* **C16 A rejected establishment leaves nothing behind** — Refuted witness + partial (no session, control-plane state of others unchanged).
* **C17 A rejected modification changes nothing** — Refuted witness + partial (other sessions unchanged).
* **C18 Live sessions never share an allocated TEID** — PfcpTeid.v: refuted by a run; partial: invariant over teid_history (conditions on control planes) that live TEIDs are distinct.
* **C19 Deleting a session returns its TEIDs and UE addresses** — PfcpTeid.v: TEIDs for the histories of C18; UE addresses refuted (allocated under the CP SEID, released under the UP SEID).
* **C20 Usage reports carry the counted volumes** — PfcpProps.v: deletion/removal reports vs data-plane counters.
* **C21 Traffic is charged to the URR of its PDR** — Refuted witness (URR ids never copied into the data-plane PDR); partial: counters changed are exactly those of the stored PDR. Billing.v: the same for every frame, pings of the UPF and their answers (Pong.v) included.
* **C22 Association setup keeps existing sessions** — PfcpProps.v
* **C23 Invalid association requests are rejected without effect** — PfcpProps.v
* **C24 An association is pruned exactly after the configured number of unanswered heartbeats** — Heartbeat.v: scheduler as automaton over timeouts/answers; spec on the event list only.
* **C25 Heartbeat handling never blocks the UPF** — Heartbeat.v: two-task transition system with rendezvous channels; refuted: reachable deadlock; and with heartbeat_timeout=0.
* **C26 SDF filter syntax** — SdfParser.v/SdfProps.v: tokenizer model of the anchored regex; theorem parse = Some t <-> t well-formed and rendering t gives the string.
* **C27 SDF filter meaning** — SdfProps.v
* **C28 SDF matching of IPv4 packets** — SdfMatch.v: from Go filter through Copy16Ip and C matching to prefix semantics.
* **C29 SDF matching of IPv6 packets** — SdfMatch.v: refuted with a concrete filter and packet; partial for 'any' filters.
* **C30 Traffic without a session goes to the kernel untouched** — XdpProps.v
* **C31 Only permitted traffic is forwarded** — XdpProps.v
* **C32 Downlink encapsulation is well-formed** — XdpProps.v
* **C33 Uplink decapsulation returns the inner packet** — XdpProps.v
* **C34 Encapsulation and decapsulation are inverse** — XdpProps.v
* **C35 N9 relaying rewrites only the tunnel** — XdpProps.v
* **C36 GTP echo requests are answered** — XdpProps.v
* **C37 Ping replies have a correct checksum** — Csum.v, Ping.v
* **C38 IP header checksum computation is correct** — Csum.v
* **C39 Maximum bit rate is enforced** — Qer.v: induction over packet sequence with window invariant; XdpRate.v: lifted to histories of frames (every frame; the answer to a ping of the UPF is a downlink leg of its own, Pong.v).
* **C40 Traffic below the bit rate is not dropped** — Qer.v, XdpRate.v
* **C41 The requested MBR reaches the data plane** — Qer.v: refuted (mod 2^32 wrap; rate > 10^9 unlimited) + partial range.
* **C42 Every packet is counted once** — XdpProps.v
* **C43 Statistics reports equal the sum of per-CPU counters** — Stats.v: sum theorem per counter; refuted for rx_gtp_unexp and for the metrics delta.
* **C44 REST FAR/QER write-then-read** — Rest.v: byte-level layout of struct in Go and C.
* **C45 REST uplink PDR read reflects the data plane** — Rest.v: refuted by layouts.
* **C46 REST session lookup is sound and complete** — Rest.v
* **C47 Configuration defaults** — Config.v
* **C48 A refused configuration edit changes nothing** — Config.v: refuted.
* **C49 Packet processing stays inside the frame** — Xdp.v: all packet accesses checked in a fault monad; theorem: never faults.
* **C50 GTP path probing sequence numbers** — GtpPath.v
* **C51 Malformed PFCP messages cannot crash the UPF** — Refuted witness + partial for well-formed IEs.
* **C52 Pruning an association removes its sessions** — PfcpProps.v
* **C53 CHOOSE_ID shares a TEID within a request** — PfcpProps.v
* **C54 Advertised features match configuration** — Config.v
* **C55 Uplink forwarding honours GTP optional fields** — Refuted witness + partial for the 16-byte PSC layout and no flags.
* **C56 Signalling drives forwarding end to end** — EndToEnd.v: composition of Pfcp.v and Xdp.v.
* **C57 Updating a PDR moves its key** — Refuted witness.
* **C58 Adding an SDF PDR keeps the default PDR** — XdpProps.v/MapOps
* **C59 Gate, rate and QFI of a rule apply per direction** — XdpProps.v
* **C60 Session and association counts** — PfcpHistory.v
* **C61 The order in which PDRs are installed does not matter** — MapOps.v/PfcpRules.v: refuted (default PDR installed after an SDF PDR wipes the filter) + partial.
* **C62 Missing associations are requested** — Config.v: RefreshAssociations as a function of state and configuration.
* **C63 A valid configuration starts** — Config.v: refuted (association_setup_timeout = 0 panics) + partial.
* **C64 A GTP path probe succeeds only if the peer answered that probe** — GtpPath.v: refuted (sequence number not compared) + partial.
* **C65 An eUPF answers another eUPF's path probe** — GtpPath.v + XdpEcho.v: composition of the prober with the data plane of the other side.
* **C66 Forwarding follows the live sessions** — PfcpKeys.v: the PDRs of the live sessions computed from the log alone (pdrs_in); invariant over tidy logs: data-plane entries are exactly those, and refer to the FARs/QERs of PfcpAsked.v; a filtered PDR that was updated is stored in the mode that captures unmatched packets (ak_again). EndToEndLog.v: composition with the packet theorems of XdpRules/XdpFrames.
* **C67 PFCP message counters are exact** — Metrics.v: every increment site of the three counter families next to the handler of Pfcp.v; induction over runs: counters = tallies over the log.
* **C68 A retransmitted request is harmless** — PfcpAgain.v: the handler applied twice; case analysis over messages; concrete run for establishments.
* **C69 A restarted control plane loses its sessions** — PfcpAgain.v: setup on an existing association is the identity; concrete run.
* **C70 Only rules named by the PDR act on a packet** — EndToEndLog.v for PDRs that name their rules; PfcpAgain.v: concrete run through PFCP model and XDP model for one that does not.
* **C71 Volume counters are exact with several CPUs** — Smp.v: load, store, lookup and clear of one counter as separate steps, any interleaving; tied to charge (Xdp.v) and delete_urr (MapOps.v).
* **C72 Sessions can be listed at any time** — Race.v: the listing as a Go map iteration in steps, interleaved with events of the PFCP model; the fatal error of the Go runtime when a map is read while it is written.
* **C73 Handling a message does not disturb the packets of other sessions** — InFlight.v: the handlers of Pfcp.v as lists of single map writes (theorem states_are_the_handlers: same first and last state); what a packet sees = its PDR from one state, FAR and QER fields from any later state. Proof: runs of requests cut short keep the invariants of PfcpInv.v and PfcpKeys.v for all other sessions.
* **C74 A packet sees the old rules of its session or the new ones** — InFlight.v: same model; positive part by the order FAR, QER, URR, PDR of an establishment and by case analysis of single updates; refutations by concrete runs.
* **C75 The rule tables are tables: each operation changes the entry it names and nothing else** — Maps.v: the operations of MapOps.v against a specification of tables (lookup after the operation; everything else unchanged).
* **C76 A packet comes out of a chain of UPFs as it went in** — Chain.v: frames passed from one UPF (environment and rules) to the next with other MAC addresses; induction over the chain using C35 for each hop, C32 at the beginning, C33 at the end.
* **C77 Session answers carry the control plane's own session id** — Seid.v: the announced ids read off the log; invariant that every live session remembers the last one; every handler's answer compared with it.
* **C78 The control plane is never told of more traffic than was carried** — Usage.v: packets (Xdp.v) and messages (Pfcp.v) interleaved in one history; potential argument - counters plus reports never grow by more than twice the bytes let through; the factor two is reached (refutation).
* **C79 The optional route cache is transparent** — RouteCache.v: the routing function with the cache; a cached destination answers as a routing table would, the packet program depends on the routing table only through its answers; induction over the history. Refuted when a route changes.
* **C80 A packet cannot circulate forever** — Ttl.v: exactly what becomes of the time to live in every way of forwarding; refuted by two UPFs that hand a packet to each other, by induction over the number of hops.
* **C81 A packet is handled by a PDR it matches** — Filters.v: the exact choice for every sequence of installations and removals, by induction over the sequence; hence the property where an unfiltered PDR stands or only one PDR; refuted by a session with two filters, through which a packet that matches neither is forwarded.
* **C82 Packets of a flow, and fragments of a datagram, are treated alike** — Flows.v: same direction, key and 5-tuple give the same rule (proved for every table); fragments alike unless the filter has port ranges; refuted with a port filter, both ways.
* **C83 The volume charged is the user's** — Flows.v: the volume added, exactly, as user packet plus everything in front of it; refuted by one user packet in two tunnel headers.
* **C84 A UE can be reached with every IP protocol** — Flows.v: reached with ICMP, TCP, UDP (IPv4), TCP, UDP (IPv6); every other protocol passes to the kernel in every state; refuted by SCTP.
* **C85 An accepted configuration edit takes effect** — Config.v: two histories that differ only in the contents of edits (but for the UE address feature) send the same and have the same sessions; refuted by an edit that adds a control-plane node.
* **C86 A restart of the UPF is visible to the control plane** — Lives.v: the process is killed, crashes and is started again at given seconds; every answer carries the start of its life; refuted for two starts within one second (the stamp has seconds).
* **C87 Nothing of an earlier life acts after a restart** — Lives.v: the state in a life is that of an uninterrupted run over what was exchanged since its start, so C08, C66 apply to it; right after a start nothing is left. Refuted: session ids start at 2 again.
* **C88 A live session can be deleted** — Deletion.v: deletePDR in closed form; a deletion succeeds when every PDR, FAR and QER of the session is installed and no two PDRs detect the same UE address, which C66's invariant gives for tidy histories. Refuted, for every number of attempts and every iteration order: a session with two PDRs on one UE address (accepted) is never deleted.
* **C89 Go's map iteration order has no effect** — Deletion.v: the loops of a deletion commute up to the order of reports and of the free TEID list (swap lemmas plus a permutation lemma for loops over maps); pruning by C52's effect theorem. Refuted: TEIDs 1 and 257 of one session.
* **C90 The configured number of sessions fits, at any time** — Ids.v, Capacity.v: invariant over histories - every id of a map is free or in the table of a live session (monotone under every rule operation whose new ids are new) - and C66's keyed invariant for the PDR maps; counting gives free room; a request asking nothing wrong succeeds while there is room (established_if_room), and fails with cause 73 without ids. Refuted: 3 URRs per session (documented) do not fit, pruning leaks URR ids, a failed establishment leaks all ids.
* **C91 A packet is never forwarded with another subscriber's rules, however many messages overlap it** — Window.v: the states of InFlight.v for a whole sequence of events; induction over it keeps what the invariants of PfcpInv.v and PfcpKeys.v say of a session that is left alone. Refuted for a session that is deleted meanwhile: its FAR number is given to the next session at once, and the packet reads it.
* **C92 Writing a rule over REST changes the rule the URL names and nothing else** — RestWrites.v on Rest.v, Pong.v: JSON bodies with optional members, the PUT handlers (URL id unused) as functions on the maps. packet_depends_on_own_rules shows that verdict and frame of a packet depend on its own match entry, FAR and QER (and those of the answer, if it pings the UPF) only; put_far_partial and put_qer_partial (body repeats the id) follow with the read-back theorems of C44; put_without_id_refuted, put_other_rule_refuted (a subscriber loses its downlink by a write to another FAR).
* **C93 The cause of a rejection says why, as documented** — Causes.v: due l addr m, the causes the document allows for request m of addr after the log l (through peers and live, which read the log only); cause_says_why by the table theorems of C07. causes_documented_refuted, present_called_missing_refuted: deviations. When 73 is not due is C90 (sound requests within capacity are accepted).
* **C94 A peer becomes associated only by an exchange with the UPF** — Causes.v: associated_by_exchange_partial (log characterisation: set up and not pruned since); unsolicited_association_refuted: a UPF configured with no remote node, which never sent a request, serves a stranger that sends a setup response.
* **C95 The REST listings show the sessions and associations as the control plane asked for them** — RestJson.v: a small model of encoding/json on Go values (numbers, text, maps with decimal keys, channels that cannot be encoded) and of the IndentedJSON of gin; the session and association values as in the code. The documents are compared, path by path, with what the log says (announced, asked_far, asked_qer, pdr_asked, peers, nodes) through tidy_run and careful_mirror. Left out: the order of members, the text of IPv6 addresses and base64 masks (parameters).
* **C96 The socket, the message loop, the heartbeat tasks and the session state work together as their separate descriptions say** — Whole.v: one timed state (clock, connection, loop phase, socket queue, task per association with the time of its last transition) and one step relation for the select loop, the heartbeat tasks and the data plane, built from handle and prune (Pfcp.v) and sched_step (Heartbeat.v). Invariant: tasks and associations have the same peers, the loop passes answers only to known peers. Refinement to run by projecting the log. Configuration fixed during the run; datagrams that are lost or cannot be decoded do not arrive.
* **C97 A peer is given up in time and only when it is silent** — Whole.v: prompt, silent_since and punctual are read off the log of heartbeats with their times. Invariants over wrun: the last thing seen of a task is its state (last_beat), the failures counted are time-outs since the last matching answer (early_inv), a potential of remaining time bounds the report from above. The two refutations are executions with the default configuration; the second is closed by an invariant of the stopped loop.
* **C98 Heartbeat requests are paced** — Whole.v: apart over the log of heartbeats with times; invariant that all requests so far are no later than the last transition of the task and that calm answers always match. Refutation: for every n an execution of n milliseconds with n requests, by induction over one cycle (answer p-1 while p is pending, request p+1).
* **C99 Editing the configuration over the API does not cost a served peer its sessions** — Reconf.v: Whole.v with the global configuration in the state, an edit event (edit_config of Config.v, no validation) and for each heartbeat task the time its current timer was set to run (the code reads the time-out when it makes the timer, the retries when it fires, the interval when it pauses). Projection to the node of Config.v (live_is_node) and, if edits leave the four parameters alone, to Whole.v (harmless_edits). Invariant: the timer of a waiting task was set to the time-out in force when its last request was sent. Refutations: an execution with the default configuration, and for every reachable state with zero time-out the timer step is possible at once. An edit in the middle of the handling of one message is not modelled.
* **C100 An Update PDR that asks for nothing new changes nothing** — SdfAgain.v: from the invariant of C66 for the log with and without the modification: both data planes have entries for the same keys, equal up to the mode of filtered PDRs (updates_nearly); a packet depends on its own rules only (RestWrites.v). Captured packets: rule_for is FAR 0, QER 0 (captured_rule). Refuted on an execution with two sessions, where a UDP packet that a TCP filter does not match goes into the tunnel of the other session after an Update PDR that carries a Source Interface only.
* **C101 What becomes of a packet depends on what the live sessions ask for, not on how that came about** — Forgets.v: what becomes of a packet depends on the decision of its rules (is there one, does it let the packet through, with which FAR, QFI and header removal), for the packet and the answer to a ping (packet_depends_on_decision); the decision is that of any PDR in the log that applies (C66), and without maximum bit rate is a function of what this PDR asks for. Two logs that want the same thus give the same decision (past_is_forgotten_partial). Ended sessions: log events about other sessions do not touch the tables of a session (only_about_keeps). Refuted for captured packets on a pair of executions that differ in an Update PDR that asks for nothing new.
* **C102 One subscriber's packets have no influence on what becomes of another's** — Neighbours.v: one pass through the rules changes URR counters and, of QERs, only the window start of the QER of the rule in the direction of the frame (leg_reads; packet_reads for pings, which pass twice). The QER of a rule is that of a PDR of the log that applies (rule_policed, from key_owner, C66), and two sessions never share a data-plane QER (mirror invariant), so packets that are not policed together read other window starts; the decision, hence the fate (C101), stays. Induction over the packets. Refuted without the requirement that each PDR names a QER, on two sessions with 100 kbit/s, one of whose PDRs names none.
* **C103 The order in which a request lists its rules does not matter** — Order.v: the tables of what the live sessions ask for (C12, C66) are folds over the lists of the requests; each fold is invariant under permutation of a list without repeated ids (shuffled_foldl, by induction on the permutation), so the two logs ask for the same and C101 applies. Refuted on an Establishment Request with a dropping PDR without filter and a forwarding PDR with one, in either order.
* **C104 Every GTP peer is probed once per interval, whatever the other peers do** — GtpTime.v: a transition system with a clock, the ticker (a channel of one tick, further ones dropped), the sweep under way and the 3 s read deadline. When 3 s per peer fit into the interval, an invariant (on_time) says that at tick k all intervals before k have a permutation of the peers, and that a sweep started at tick k is over by tick k+1 (probed_every_interval_partial). In general an invariant with the start of the last sweep bounds the wait for the next probe (no_peer_waits_longer). Refuted for five peers, four of them silent, and the default interval.
* **C105 A documented parameter that is set is used** — Settings.v: the table of keys, flags and defaults of config.go, viper lookup order, the environment name of a key, the default of n9_address computed before environment and file are read, pflag and UnmarshalExact refusing unknown names; the documentation table as a separate specification. The names of 20 of the 22 documented parameters agree with the code (computed once over the finite table); the theorems then hold for all values and all combinations. Refutations are for all values too. Not modelled: how a text parses into a value, and viper splitting of lists.
* **C106 Which message ends the process, exactly** — Fatal.v: fatal messages are specified by the contents of the request and, for the FARs before the broken one, by the answer the UPF would give to the request cut off there. A list of rules crashes exactly at the first element that does, those before it having succeeded (each_crash); only FAR creation and update can crash when the PDRs are whole (est_crash, mod_crash). Lifted to the running process with the invariant of C96 (process_ends_exactly_by_fatal_message). That the process survives is refuted for every reachable state in which the loop reads and the socket is empty, with one datagram of an arbitrary sender.
* **C107 Two UPFs set up alike treat the same traffic alike, maximum bit rates included** — Stream.v: before the first packet every rate limiter window is zero (invariant of the PFCP loop, run_blank). For a packet both UPFs have the rule of the same PDR (twin_rules), whose QER has the same name (peer, SEID, QER id) on both (named). Invariant sync: QERs of the same name read the same on both data planes; each pass of a packet through the rules bumps the QER with the same name on both, and, names and data-plane numbers being in bijection (mirror, C12), no other (sync_leg). The fate of a packet depends on the decision only (C101), hence induction over the stream.
* **C108 A new bit rate limit starts unused, and an update that repeats it does not reset it** — Fresh.v: fresh H s d says that the windows of the QERs of session s with ids in H are zero. Creating and updating a QER adds its id to H and every other rule operation keeps it (est_fresh, mod_fresh, each by induction over the rules of the request), from any state. On the data plane the rule for a packet a PDR applies to has the QER number of the PDR (rule_gid), so the limiter starts from zero and passes the packet once the machine has been up for its transmission time (rest_passes). The second half is refuted: after a packet that used the rate, an accepted Update QER with the same values lets the next packet pass that is dropped without it.
* **C109 What a subscriber has used of his bit rate is touched by nobody else** — Quota.v: about_others says which events are not about a session, same_allowance what every packet gets of its FARs and QERs. The invariant of PfcpInv.v (C11) is used again with a kind of rule that also shows the limiter windows of one slot g0 that another session owns (win_kind): each rule operation keeps the slot because it writes only to slots that were free or that its own session has (create_win_moves, update_win_moves, remove_win_moves, est_win_moves, mod_win_moves). Deletion and the end of a peer follow from session_deletion_partial and association_pruned_partial. The run theorem is by induction over the events. Without the restriction to careful modifications it is refuted: Update QER with an id the session does not have writes slot 0, which zeroes the windows of the session that owns it.

## What is modelled
| source (/repo/cmd) | model | scope |
|---|---|---|
| ebpf/objects.go IdTracker | IdTracker.v | complete |
| core/service/resource_manager.go | ResourceManager.v | complete (IPv4 pool as enumeration of the prefix, as ipnetgen does) |
| core/sdf_filter_parser.go | SdfParser.v | the anchored regular expression as a hand-written matcher, ParseIP/CIDR for IPv4 and IPv6, ports |
| ebpf/pdr.go, ebpf/objects.go (map operations), pdr_creation_context.go, session.go | MapOps.v, Pfcp.v | all Put/Update/Delete/New operations on PDR, FAR, QER, URR maps; Copy16Ip; CombinePdrWithSdf |
| core/pfcp_handlers.go, pfcp_session_handlers.go, pfcp_connection.go, node_association.go, pdr.go | Pfcp.v | dispatch, all request handlers, association setup, heartbeat answers, association pruning, gauges |
| core/pfcp_hearbeat.go, node_association.go (goroutines) | Heartbeat.v | per-association scheduler and the two-task channel protocol |
| ebpf/xdp/n3n6_entrypoint.c with utils/*.h, sdf_filter.h, qer.h, urr.h, statistics.h | Xdp.v, SdfMatch.v, Qer.v, Csum.v | whole program at byte level: parsing, lookup, SDF match, FAR/QER/URR, encapsulation, decapsulation, relay, echo, ICMP, routing, counters |
| ebpf/stats.go, core/metrics.go (collectors of counters) | Stats.v | per-CPU sums, deltas |
| api/rest/*.go, ebpf/pdr.go layouts | Rest.v, RestSessions.v, Layout.v | map reads and writes, session and association queries, struct layouts on both sides |
| config/*.go, core/config_edit.go, main.go, RefreshAssociations | Config.v | validation, defaults used by the code, edits, start-up, association requests |
| core/gtp_path_manager.go | GtpPath.v | probes, answers, failure counting |

Each definition cites its lines. EndToEnd.v and EndToEndLog.v compose the control plane (Pfcp.v) with the data plane (Xdp.v).

## Simplifications and what is not modelled (assumed)
* go-pfcp (decoding/encoding of PFCP bytes): requests enter the model as decoded IEs; each decoded field is an
  option (None = the accessor returns an error).  gopacket's GTPv1U encode/decode is modelled from its documented layout.
* Roaring bitmap, ipnetgen, regexp, strconv, net: modelled by their documented behaviour.
* Kernel BPF maps: ARRAY = total table of max_entries zero-initialised entries; HASH = finite map refusing new keys
  when full. Other syscall failures (ENOMEM, EPERM) are not modelled. bpf_fib_lookup and bpf_xdp_adjust_head are
  oracles (arbitrary results). bpf_csum_diff = 32-bit ones' complement accumulation.
* One packet, one PFCP message and one REST request are each handled atomically with respect to the maps: data races
  between REST readers, heartbeat goroutines and the PFCP loop, and between CPUs updating one BPF value, are outside the model,
  except for the volume counters (Smp.v), the listing of sessions (Race.v) and packets handled while a message is processed
  or several messages are processed (InFlight.v, Window.v), which are modelled step by step.
* The XDP program is modelled as built by default (ENABLE_ROUTE_CACHE off); RouteCache.v models the option. n3/n6/zero entry points and the program array
  are not attached by main.go and are not modelled.
* Logging, Prometheus registry, HTTP server and JSON text, signal handling, viper's file/flag parsing.

## Print Assumptions
`Print Assumptions` was run on each of the 352 theorems named in MANIFEST.json. Every one answers "Closed under the global context".
No axiom is declared in the development; vcheck's listing shows only standard-library constants.

## Where the theorems are
* C01 (proved): IdTracker.id_grant_exclusive, IdTracker.id_grant_smallest
* C02 (proved): IdTracker.id_refused_iff_exhausted, IdTracker.id_granted_when_available, IdTracker.release_idempotent, IdTracker.release_out_of_range
* C03 (proved): ResourceManager.teid_grant_exclusive, ResourceManager.teid_outstanding_distinct, ResourceManager.teid_loop_terminates, ResourceManager.release_returns_teids
* C04 (proved): ResourceManager.ip_grant_exclusive
* C05 (partial): ResourceManager.teid_no_loss_partial, ResourceManager.teid_no_loss_refuted, ResourceManager.ip_no_loss_partial, ResourceManager.ip_no_loss_refuted
* C06 (proved): PfcpHistory.fseid_never_reused, PfcpHistory.fseid_never_replaces_live
* C07 (proved): PfcpHistory.session_table_follows_log, PfcpHistory.association_table_follows_log
* C08 (proved): PfcpProps.est_missing_ids_no_effect, PfcpProps.no_association_no_effect, PfcpProps.unknown_seid_no_effect
* C09 (proved): PfcpProps.response_answers_request, PfcpProps.unknown_message_ignored, PfcpProps.request_without_reply
* C10 (proved): PfcpHistory.other_sessions_untouched
* C100 (partial): SdfAgain.idle_update_partial, SdfAgain.captured_dropped_partial, SdfAgain.captured_misdirected_partial, SdfAgain.idle_update_refuted
* C101 (partial): Forgets.past_is_forgotten_partial, Forgets.ended_sessions_leave_no_trace_partial, Forgets.packet_depends_on_decision, Forgets.past_is_forgotten_refuted
* C102 (partial): Neighbours.neighbours_harmless_partial, Neighbours.neighbours_refuted
* C103 (partial): Order.order_of_rules_irrelevant_partial, Order.order_of_rules_irrelevant_refuted
* C104 (partial): GtpTime.probed_every_interval_partial, GtpTime.no_peer_waits_longer, GtpTime.probed_every_interval_refuted
* C105 (partial): Settings.documented_parameter_used_partial, Settings.documented_parameters_accepted_partial, Settings.documented_default_used_partial, Settings.n9_default_partial, Settings.documented_parameter_used_refuted, Settings.documented_peers_refuted, Settings.documented_example_refuted, Settings.n9_default_refuted
* C106 (partial): Fatal.fatal_exactly, Fatal.process_ends_exactly_by_fatal_message, Fatal.stranger_fatal, Fatal.whole_rules_not_fatal, Fatal.process_survives_refuted
* C107 (partial): Stream.same_packets_same_fate_partial
* C108 (partial): Fresh.fresh_rate_partial, Fresh.update_forgives_refuted
* C109 (partial): Quota.quota_through_others_partial, Quota.quota_isolated_partial, Quota.quota_isolated_refuted
* C11 (partial): PfcpInv.isolation_partial, PfcpInv.isolation_refuted, Quota.quota_isolated_partial
* C12 (proved): PfcpAsked.dataplane_follows_requests, PfcpInv.dataplane_mirrors_sessions
* C13 (proved): PfcpRules.establishment_installs
* C14 (proved): PfcpRules.establishment_installs, PfcpCreate.modification_reports
* C15 (partial): PfcpRemove.session_deletion_partial, PfcpRemove.deletion_leaves_key_refuted
* C16 (partial): PfcpReject.rejected_establishment_partial, PfcpReject.rejected_establishment_leaks_refuted
* C17 (partial): PfcpReject.rejected_modification_partial, PfcpReject.rejected_modification_changes_refuted
* C18 (partial): PfcpTeid.live_teids_distinct_partial, PfcpTeid.granted_teid_fresh_partial, PfcpTeid.granted_teid_held, PfcpTeid.live_teids_distinct_refuted
* C19 (partial): PfcpTeid.deletion_returns_teids_partial, PfcpTeid.deletion_returns_address_partial, PfcpTeid.deletion_returns_address_refuted
* C20 (partial): PfcpRemove.deletion_reports_partial, PfcpReject.removal_reports_partial, PfcpRemove.update_urr_loses_volume_refuted
* C21 (partial): Billing.every_frame_charged, Billing.every_frame_charged_to_urr0_partial, XdpAccount.entry_urrs_charged, XdpAccount.charged_to_urr0_partial, XdpAccount.traffic_charged_refuted
* C22 (proved): PfcpProps.setup_accepted, PfcpProps.setup_response_effect
* C23 (proved): PfcpProps.setup_rejected, PfcpProps.update_effect
* C24 (partial): Heartbeat.failure_exactly_when_due_partial, Heartbeat.pruned_exactly_when_due_partial, Heartbeat.peers_independent, Heartbeat.failure_after_wrap_refuted
* C25 (partial): Heartbeat.stuck_iff_partial, Heartbeat.late_answer_blocks_refuted, Heartbeat.heartbeats_off_blocks_refuted, Heartbeat.unknown_peer_never_blocks
* C26 (proved): SdfProps.tokenize_is_the_regexp, SdfProps.sdf_accepts_only_flow_texts, SdfProps.sdf_text_one_reading, SdfProps.sdf_regexp_one_reading
* C27 (partial): SdfProps.sdf_meaning, SdfProps.sdf_ports_in_range, SdfProps.parse_ipv4_spec, SdfProps.stored_prefix_meaning, SdfProps.ipv4_prefix_stored, SdfProps.any_prefix_stored, SdfProps.sdf_oversized_mask_refuted
* C28 (proved): SdfMatch.sdf_ipv4_match
* C29 (partial): SdfMatch.sdf_ipv6_match_refuted, SdfMatch.sdf_ipv6_match_partial, SdfMatch.sdf_ipv6_prefix_ignored
* C30 (proved): XdpRules.no_rule_passes_untouched, XdpAccount.no_session_untouched
* C31 (proved): XdpRules.not_permitted_dropped, XdpRules.forwarded_is_permitted
* C32 (proved): XdpFrames.downlink_encapsulated
* C33 (proved): XdpFrames.uplink_decapsulated, XdpEx.inner_delivered_partial
* C34 (proved): XdpFrames.tunnel_round_trip
* C35 (partial): XdpFrames.uplink_relayed_partial, XdpEx.uplink_relayed_refuted
* C36 (partial): XdpEcho.echo_answered_partial, XdpEx.echo_answered_refuted, XdpEx.echo_length_refuted
* C37 (partial): Ping.ping_answered_partial, Ping.other_icmp_discarded, Ping.ping_answered_refuted, Csum.ping_reply_checksum_partial, Csum.ping_reply_checksum_refuted
* C38 (proved): Csum.ip_checksum_correct
* C39 (partial): XdpRate.frames_within_mbr_partial, Qer.airtime_bounded, Qer.mbr_enforced_partial, Qer.mbr_above_1g_refuted, Qer.mbr_rounded_refuted, Qer.mbr_race_refuted
* C40 (proved): XdpRate.conforming_frames_pass, XdpRate.unlimited_frames_pass, Qer.conforming_never_dropped, Qer.unlimited_never_dropped, Qer.packet_passes_iff
* C41 (partial): Qer.mbr_installed_partial, Qer.mbr_wraps_refuted, Qer.mbr_rounded_refuted
* C42 (proved): XdpProps.every_packet_counted
* C43 (partial): Stats.statistics_are_sums_partial, Stats.statistics_count_packets_partial, Stats.deltas_add_up_partial, Stats.route_deltas_add_up, Stats.gtp_unexp_refuted, Stats.metrics_count_again_refuted, Stats.metrics_sum_totals_refuted, Stats.first_scrape_partial
* C44 (partial): Rest.rest_far_write_read, Rest.rest_qer_write_read, Rest.rest_write_refused, Rest.rest_read_refused_partial, Rest.rest_list_complete, Rest.rest_read_wraps_refuted
* C45 (partial): Rest.rest_pdr_read_exact, Rest.rest_pdr_write_exact, Rest.rest_pdr_read_refuted
* C46 (partial): RestSessions.all_sessions_listed, RestSessions.session_by_ip, RestSessions.session_by_teid_partial, RestSessions.associations_listed, RestSessions.listing_status_partial, RestSessions.session_by_teid_refuted, RestSessions.listing_answered_once_refuted
* C47 (partial): Config.config_defaults, Config.invalid_config_refused, Config.config_defaults_refuted
* C48 (partial): Config.unreadable_edit_changes_nothing_partial, Config.edit_status, Config.refused_edit_changes_refuted, Config.partial_edit_resets_refuted
* C49 (proved): XdpProps.never_outside_frame
* C50 (proved): GtpPath.probe_sequence, GtpPath.probe_only_configured, GtpPath.tick_probes_all
* C51 (partial): PfcpProps.malformed_crash_refuted, PfcpProps.missing_manager_crash_refuted, PfcpProps.no_crash_partial, Fatal.fatal_exactly
* C52 (partial): PfcpRemove.association_pruned_partial, PfcpRemove.pruning_leaves_key_refuted
* C53 (proved): PfcpCreate.choose_id_sharing
* C54 (partial): Config.octets_spec, Config.features_as_started_partial, Config.setup_answer_sent, Config.features_after_edit_refuted
* C55 (partial): XdpEx.inner_located_partial, XdpEx.inner_delivered_partial, XdpEx.inner_located_refuted
* C56 (proved): EndToEnd.downlink_end_to_end, EndToEnd.uplink_end_to_end, EndToEnd.downlink_after_deletion
* C57 (partial): PfcpReject.update_pdr_partial, PfcpUpdate.updates_change_what_they_say_partial, PfcpReject.update_pdr_leaves_old_key_refuted
* C58 (proved): XdpAccount.sdf_beside_default, XdpAccount.sdf_other_keys
* C59 (proved): XdpAccount.direction_independent, XdpAccount.other_direction_untouched
* C60 (proved): PfcpHistory.counts_follow_log, PfcpHistory.session_count_changes
* C61 (partial): XdpAccount.install_order_refuted, XdpAccount.sdf_beside_default, XdpAccount.default_put
* C62 (partial): Config.refresh_asks_missing_partial, Config.asked_are_configured, Config.refresh_asks_only_configured, Config.refresh_hostname_refuted
* C63 (partial): Config.valid_config_starts_partial, Config.starts_exactly_partial, Config.valid_config_starts_refuted
* C64 (partial): GtpPath.accepted_is_response_partial, GtpPath.wrong_sequence_accepted_refuted
* C65 (proved): GtpPath.probe_answered
* C66 (partial): PfcpKeys.pdrs_follow_requests_partial, EndToEndLog.unclaimed_untouched_partial, EndToEndLog.blocked_dropped_partial, EndToEndLog.downlink_follows_requests_partial, EndToEndLog.uplink_follows_requests_partial, PfcpKeys.forwarding_follows_sessions_refuted
* C67 (partial): Metrics.pfcp_counters_exact, Metrics.causes_told_apart, Metrics.transmitted_all_counted_refuted
* C68 (partial): PfcpAgain.repeat_harmless_partial, PfcpAgain.repeat_deletion, PfcpAgain.repeat_rule_updates, PfcpAgain.repeat_establishment_twice, PfcpAgain.repeat_establishment_refuted
* C69 (partial): PfcpAgain.setup_again_changes_nothing, PfcpAgain.restart_drops_sessions_refuted
* C70 (partial): EndToEndLog.downlink_follows_requests_partial, EndToEndLog.uplink_follows_requests_partial, PfcpAgain.unnamed_qer_refuted
* C71 (partial): Smp.never_counted_twice_partial, Smp.uninterrupted_exact_partial, Smp.parallel_packets_refuted, Smp.reported_again_refuted, Smp.lost_between_calls_refuted
* C72 (partial): Race.listing_while_changing_partial, Race.listing_survives_partial, Race.listing_is_safe_refuted, Race.listing_killed_refuted
* C73 (partial): InFlight.states_are_the_handlers, InFlight.other_sessions_served_partial, InFlight.others_blocked_meanwhile_partial, InFlight.others_downlink_meanwhile_partial, InFlight.others_uplink_meanwhile_partial, InFlight.others_disturbed_refuted
* C74 (partial): InFlight.established_whole_partial, InFlight.far_update_old_or_new_partial, InFlight.qer_update_old_or_new_partial, InFlight.handover_torn_refuted, InFlight.deletion_opens_gate_refuted
* C75 (proved): Maps.pdr_put, Maps.pdr_update, Maps.pdr_remove, Maps.far_new, Maps.qer_new, Maps.urr_new, Maps.rule_update, Maps.rule_remove
* C76 (proved): Chain.chain_keeps_payload, Chain.chain_delivers, Chain.downlink_chain_delivers
* C77 (partial): Seid.answers_addressed_partial, Seid.announced_kept, Seid.answers_addressed_refuted
* C78 (partial): Usage.reported_at_most_twice_partial, Usage.reported_at_most_carried_refuted
* C79 (partial): RouteCache.cached_route_is, RouteCache.route_cache_transparent_partial, RouteCache.cached_never_looked_up, RouteCache.route_cache_transparent_refuted
* C80 (partial): Ttl.ttl_kept_partial, Ttl.packet_never_stops_refuted
* C81 (partial): Filters.handled_by_exactly_partial, Filters.handled_by_match_partial, Filters.match_is_handled, Filters.filters_bypassed_refuted
* C82 (partial): Flows.same_flow_same_rule, Flows.fragments_alike_partial, Flows.fragments_alike_refuted
* C83 (partial): Flows.volume_exact_partial, Flows.volume_refuted
* C84 (partial): Flows.ue_reached_partial, Flows.other_protocols_not_forwarded, Flows.every_protocol_refuted
* C85 (partial): Config.edit_only_ueip_partial, Config.edit_takes_effect_refuted
* C86 (partial): Lives.stamp_is_last_start, Lives.restart_detected_partial, Lives.restart_detected_refuted
* C87 (partial): Lives.sessions_since_start, Lives.rules_since_start_partial, Lives.start_is_clean, Lives.stale_session_id_refuted
* C88 (partial): Deletion.deletion_accepted_partial, Deletion.tidy_session_deletable_partial, Deletion.shared_address_never_deleted, Deletion.session_can_be_deleted_refuted
* C89 (partial): Deletion.deletion_order_irrelevant_partial, Deletion.pruning_order_irrelevant_partial, Deletion.iteration_order_irrelevant_refuted
* C90 (partial): Capacity.established_if_room, Capacity.refused_if_no_ids, Capacity.sessions_fit_partial, Capacity.configured_sessions_fit_partial, Capacity.capacity_returns_partial, Capacity.configured_sessions_fit_refuted
* C91 (partial): Window.untouched_served_partial, Window.untouched_blocked_partial, Window.untouched_downlink_partial, Window.another_subscribers_tunnel_refuted
* C92 (partial): RestWrites.packet_depends_on_own_rules, RestWrites.put_far_partial, RestWrites.put_qer_partial, RestWrites.put_without_id_refuted, RestWrites.put_other_rule_refuted
* C93 (partial): Causes.cause_says_why, Causes.causes_documented_refuted, Causes.present_called_missing_refuted
* C94 (partial): Causes.associated_by_exchange_partial, Causes.unsolicited_association_refuted
* C95 (partial): RestJson.sessions_shown_partial, RestJson.associations_shown, RestJson.associations_full_refuted, RestJson.no_sessions_null_refuted, RestJson.usage_shown_refuted
* C96 (partial): Whole.task_per_association, Whole.failure_finds_association, Whole.whole_is_run, Whole.handled_in_order, Whole.never_crashes_partial, Fatal.process_ends_exactly_by_fatal_message, Fatal.process_survives_refuted
* C97 (partial): Whole.prompt_peer_kept, Whole.prompt_peer_sessions_kept, Whole.given_up_not_early_partial, Whole.silent_peer_reported_partial, Whole.reported_then_given_up, Whole.late_answer_ends_service_refuted, Whole.answering_peer_given_up_refuted
* C98 (partial): Whole.request_rate_partial, Whole.heartbeat_storm_refuted
* C99 (partial): Reconf.live_is_node, Reconf.harmless_edits, Reconf.edits_never_crash_partial, Reconf.prompt_peer_kept_edits_partial, Reconf.zero_timeout_drops_anyone, Reconf.never_probed, Reconf.level_edit_drops_peer_refuted, Reconf.enabling_heartbeats_refuted
