{"id": "C01", "title": "Rule ids are exclusive while held", "statement": "The id under which a FAR, QER or URR is stored in the data plane is never handed out to a second rule while a first rule still holds it, and is always smaller than the configured map size.", "quantifier": "every map size and every interleaving-free history of id requests and releases", "why_tests_cant": "Depends on the whole history of allocations and releases; a test can only sample histories.", "anchors": ["cmd/ebpf/objects.go:IdTracker", "cmd/ebpf/objects.go:GetNext", "cmd/ebpf/objects.go:Release"]}
{"id": "C02", "title": "Rule id pool is complete and recycles", "statement": "An id request fails if and only if every id of the map is currently held; a released id becomes available again; releasing an id twice, or releasing an id beyond the map size, has no additional effect.", "quantifier": "every map size and history of requests and releases", "why_tests_cant": "Universal over histories and pool sizes.", "anchors": ["cmd/ebpf/objects.go:IdTracker"]}
{"id": "C03", "title": "Allocated TEIDs are unique and valid", "statement": "Two TEIDs obtained from the TEID pool and not yet returned are different; every TEID obtained lies in 1..pool size, so TEID 0 is never allocated.", "quantifier": "every pool size and every history of allocations and releases under any session/PDR keys, and every order in which a release returns TEIDs", "why_tests_cant": "Depends on all histories and on Go's random map iteration order.", "anchors": ["cmd/core/service/resource_manager.go:FTEIDM", "cmd/core/service/resource_manager.go:AllocateTEID", "cmd/core/service/resource_manager.go:ReleaseTEID"]}
{"id": "C04", "title": "Allocated UE IP addresses are unique and in the pool", "statement": "Two UE addresses obtained from the address pool and not yet returned are different, every address is in the configured CIDR and the network address itself is never handed out.", "quantifier": "every IPv4 CIDR and every history of allocations and releases", "why_tests_cant": "Universal over histories and prefixes.", "anchors": ["cmd/core/service/resource_manager.go:IPAM", "cmd/core/service/resource_manager.go:AllocateIP", "cmd/core/service/resource_manager.go:ReleaseIP", "cmd/core/service/resource_manager.go:NewResourceManager"]}
{"id": "C05", "title": "Pools do not shrink", "statement": "At any time every TEID (UE address) of the pool is either free or recorded as in use, so repeated allocate/release cycles never lose capacity.", "quantifier": "every history of allocations and releases", "why_tests_cant": "A leak shows only after particular histories.", "anchors": ["cmd/core/service/resource_manager.go:AllocateTEID", "cmd/core/service/resource_manager.go:AllocateIP"]}
{"id": "C06", "title": "Session identifiers are never reused", "statement": "Every accepted Session Establishment returns a UP F-SEID that differs from every other F-SEID given to the same peer since its association was created, and never replaces a live session.", "quantifier": "every history of PFCP messages and prunings (fewer than 2^64-2 establishments)", "why_tests_cant": "Needs all histories.", "anchors": ["cmd/core/node_association.go:NewLocalSEID", "cmd/core/pfcp_session_handlers.go:HandlePfcpSessionEstablishmentRequest"]}
{"id": "C07", "title": "Session table follows the responses", "statement": "After any history, a session exists exactly when it was accepted by an establishment response and has since neither been deleted by an accepted deletion nor been pruned with its association.", "quantifier": "every history of PFCP messages and prunings", "why_tests_cant": "Universal over histories.", "anchors": ["cmd/core/pfcp_session_handlers.go", "cmd/core/pfcp_connection.go:DeleteAssociation"]}
{"id": "C08", "title": "Requests out of context have no effect", "statement": "A session request from a peer without an association is answered with cause 72, a modification or deletion naming an unknown SEID with cause 65, an establishment missing Node ID or CP F-SEID with cause 66; in each case no session, pool, counter or forwarding state changes.", "quantifier": "every state, every message content", "why_tests_cant": "Universal over states and messages.", "anchors": ["cmd/core/pfcp_session_handlers.go:HandlePfcpSessionEstablishmentRequest", "cmd/core/pfcp_session_handlers.go:HandlePfcpSessionDeletionRequest", "cmd/core/pfcp_session_handlers.go:HandlePfcpSessionModificationRequest", "cmd/core/pfcp_session_handlers.go:validateRequest"]}
{"id": "C09", "title": "Responses answer their request", "statement": "Every response sent has the response type of the request, carries the sequence number of the request, goes to the sender, and its cause is one of 1,64,65,66,69,72,73; unknown message types are ignored without effect and without response.", "quantifier": "every state and message", "why_tests_cant": "Universal over states and messages.", "anchors": ["cmd/core/pfcp_handlers.go:Handle", "cmd/core/pfcp_session_handlers.go", "cmd/core/pfcp_handlers.go"]}
{"id": "C10", "title": "Control-plane isolation between sessions", "statement": "Handling a session request for one session leaves the record (SEIDs, PDRs, FARs, QERs, URRs) of every other session of every peer unchanged.", "quantifier": "every state and message", "why_tests_cant": "Universal over states and messages.", "anchors": ["cmd/core/pfcp_session_handlers.go", "cmd/core/session.go"]}
{"id": "C11", "title": "Data-plane isolation between sessions", "statement": "A session request never changes a FAR or QER in the data plane that belongs to another live session.", "quantifier": "every history of requests", "why_tests_cant": "Violations need particular histories (unknown rule ids).", "anchors": ["cmd/core/pfcp_session_handlers.go", "cmd/ebpf/pdr.go:DeleteFar", "cmd/ebpf/pdr.go:UpdateFar"]}
{"id": "C12", "title": "Data plane mirrors session rules", "statement": "For every live session, the data-plane entry under the id of each of its FARs equals the FAR most recently requested for it, likewise gates, bit rates and QFI of each QER; ids of different rules of live sessions are different.", "quantifier": "every history in which modifications only update or remove rules that exist in their session and none is rejected, interleaved with any packet processing", "why_tests_cant": "Inductive invariant over histories.", "anchors": ["cmd/core/pfcp_session_handlers.go", "cmd/ebpf/pdr.go:NewFar", "cmd/ebpf/pdr.go:UpdateFar", "cmd/ebpf/pdr.go:DeleteFar", "cmd/ebpf/pdr.go:NewQer"]}
{"id": "C13", "title": "An accepted establishment installs its forwarding rules", "statement": "After an accepted establishment with pairwise different packet-detection keys and without SDF filters, the data plane maps every PDR's key (TEID or UE address) to the FAR and QER that the request named for that PDR.", "quantifier": "every state and every such request", "why_tests_cant": "Universal over requests and states.", "anchors": ["cmd/core/pfcp_session_handlers.go:HandlePfcpSessionEstablishmentRequest", "cmd/core/pdr_creation_context.go:extractPDR", "cmd/core/pdr.go:applyPDR", "cmd/ebpf/pdr.go:PutPdrUplink"]}
{"id": "C14", "title": "Created-PDR report is exact", "statement": "An accepted establishment or modification response lists, in request order, exactly the created PDRs for which the UPF allocated a TEID or UE IPv4 address, each with the TEID or address that is installed for it.", "quantifier": "every state and request", "why_tests_cant": "Universal over requests.", "anchors": ["cmd/core/pdr.go:processCreatedPDRs", "cmd/core/pfcp_session_handlers.go"]}
{"id": "C15", "title": "An accepted deletion removes the session's data-plane state", "statement": "After an accepted deletion no data-plane lookup key of any PDR of the session remains installed, all its FAR, QER and URR ids are free again and their entries are zeroed, for every iteration order.", "quantifier": "every state, session and Go map iteration order", "why_tests_cant": "Map iteration order is random in Go; universal over sessions.", "anchors": ["cmd/core/pfcp_session_handlers.go:HandlePfcpSessionDeletionRequest", "cmd/core/pdr_creation_context.go:deletePDR"]}
{"id": "C16", "title": "A rejected establishment leaves nothing behind", "statement": "An establishment answered with cause 73 creates no session and leaves all pools and the data plane as before.", "quantifier": "every state and request", "why_tests_cant": "Needs every failure point of every request.", "anchors": ["cmd/core/pfcp_session_handlers.go:HandlePfcpSessionEstablishmentRequest"]}
{"id": "C17", "title": "A rejected modification changes nothing", "statement": "A modification answered with cause 73 leaves the session and the data plane as they were before.", "quantifier": "every state and request", "why_tests_cant": "Needs every failure point.", "anchors": ["cmd/core/pfcp_session_handlers.go:HandlePfcpSessionModificationRequest"]}
{"id": "C18", "title": "Live sessions never share an allocated TEID", "statement": "Two PDRs of live sessions that received UPF-allocated TEIDs in different requests have different TEIDs.", "quantifier": "every history of PFCP requests", "why_tests_cant": "Collisions need long particular histories.", "anchors": ["cmd/core/pdr_creation_context.go:extractPDR", "cmd/core/pdr_creation_context.go:deletePDR", "cmd/core/pfcp_connection.go:ReleaseResources"]}
{"id": "C19", "title": "Deleting a session returns its TEIDs and UE addresses", "statement": "After an accepted deletion the TEIDs and the UE addresses that were allocated for the session are available for allocation again.", "quantifier": "every history", "why_tests_cant": "Needs histories.", "anchors": ["cmd/core/pfcp_connection.go:ReleaseResources", "cmd/core/pfcp_session_handlers.go:HandlePfcpSessionDeletionRequest"]}
{"id": "C20", "title": "Usage reports carry the counted volumes", "statement": "The usage report produced when a URR is removed or its session is deleted carries exactly the uplink and downlink byte counts accumulated in the data plane for that URR since its creation, total = uplink + downlink mod 2^64, report number 1, one report per URR.", "quantifier": "every state, counters and iteration order", "why_tests_cant": "Universal over counter values and orders.", "anchors": ["cmd/core/pfcp_session_handlers.go", "cmd/ebpf/pdr.go:DeleteUrr"]}
{"id": "C21", "title": "Traffic is charged to the URR of its PDR", "statement": "Bytes of a forwarded packet are added to the counters of the URRs named by the PDR that matched it, once each, and to no other URR.", "quantifier": "every packet and state", "why_tests_cant": "Universal over packets.", "anchors": ["cmd/ebpf/xdp/n3n6_entrypoint.c", "cmd/ebpf/pdr.go:ToIpEntrypointPdrInfo", "cmd/ebpf/pdr.go:CombinePdrWithSdf", "cmd/ebpf/xdp/urr.h"]}
{"id": "C22", "title": "Association setup keeps existing sessions", "statement": "A valid Association Setup Request is accepted (cause 1) with the UPF's node id and features; if the peer already had an association its sessions and counters are unchanged, otherwise exactly one empty association is added; other peers are unaffected.", "quantifier": "every state and request", "why_tests_cant": "Universal over states.", "anchors": ["cmd/core/pfcp_handlers.go:HandlePfcpAssociationSetupRequest"]}
{"id": "C23", "title": "Invalid association requests are rejected without effect", "statement": "An Association Setup/Update Request with missing or undecodable mandatory IEs gets cause 66 / 69 (72 for update without association) and changes nothing.", "quantifier": "every state and request", "why_tests_cant": "Universal.", "anchors": ["cmd/core/pfcp_handlers.go:HandlePfcpAssociationSetupRequest", "cmd/core/pfcp_handlers.go:HandlePfcpAssociationUpdateRequest"]}
{"id": "C24", "title": "An association is pruned exactly after the configured number of unanswered heartbeats", "statement": "The heartbeat procedure reports a peer as failed exactly when the configured number of consecutive heartbeat timeouts has occurred without an answer carrying the pending sequence number in between; answers with other sequence numbers neither reset nor advance the count. Only then is its association given up, whatever the other peers do.", "quantifier": "every sequence of timeouts and answers, every retry limit", "why_tests_cant": "Universal over event sequences.", "anchors": ["cmd/core/node_association.go:ScheduleHeartbeat"]}
{"id": "C25", "title": "Heartbeat handling never blocks the UPF", "statement": "Receiving a heartbeat response never makes the PFCP message loop wait forever.", "quantifier": "every schedule of the message loop and heartbeat tasks", "why_tests_cant": "Deadlocks depend on scheduling.", "anchors": ["cmd/core/node_association.go:HandleHeartbeat", "cmd/core/node_association.go:ScheduleHeartbeat", "cmd/core/pfcp_connection.go:Run"]}
{"id": "C26", "title": "SDF filter syntax", "statement": "A flow description is accepted only if it has the form 'permit out <proto> from <addr>[/mask][ ports] to <addr>[/mask][ ports]'; every text of that form is read in exactly one way.", "quantifier": "every string", "why_tests_cant": "Infinitely many strings.", "anchors": ["cmd/core/sdf_filter_parser.go:ParseSdfFilter"]}
{"id": "C27", "title": "SDF filter meaning", "statement": "An accepted flow description yields the protocol, the address and prefix with host bits cleared, and the port ranges written in it (0-65535 when absent), with lower port <= upper port <= 65535; IPv4 prefixes written a.b.c.d/n denote exactly the addresses sharing the first n bits.", "quantifier": "every string / every rendered filter", "why_tests_cant": "Infinitely many strings.", "anchors": ["cmd/core/sdf_filter_parser.go"]}
{"id": "C28", "title": "SDF matching of IPv4 packets", "statement": "For an IPv4 filter installed from a flow description, the data plane applies the filter's FAR/QER to a packet exactly when protocol, source prefix, destination prefix and both port ranges match.", "quantifier": "every filter and every IPv4 packet", "why_tests_cant": "Universal over filters and packets.", "anchors": ["cmd/ebpf/xdp/sdf_filter.h:match_sdf_filter_ipv4", "cmd/ebpf/pdr.go:CombinePdrWithSdf", "cmd/ebpf/pdr.go:Copy16Ip"]}
{"id": "C29", "title": "SDF matching of IPv6 packets", "statement": "For an IPv6 filter the data plane matches exactly the IPv6 packets inside the written prefixes.", "quantifier": "every filter and every IPv6 packet", "why_tests_cant": "Universal.", "anchors": ["cmd/ebpf/xdp/sdf_filter.h:match_sdf_filter_ipv6", "cmd/ebpf/pdr.go:Copy16Ip"]}
{"id": "C30", "title": "Traffic without a session goes to the kernel untouched", "statement": "A frame that is not IP, or whose TEID / UE address has no PDR, or that only has an SDF PDR whose filter does not match, is passed (XDP_PASS) with every byte unchanged and no FAR, QER or URR state changed.", "quantifier": "every frame and every map content", "why_tests_cant": "Universal over frames.", "anchors": ["cmd/ebpf/xdp/n3n6_entrypoint.c:handle_gtp_packet", "cmd/ebpf/xdp/n3n6_entrypoint.c:handle_n6_packet_ipv4", "cmd/ebpf/xdp/n3n6_entrypoint.c:process_packet"]}
{"id": "C31", "title": "Only permitted traffic is forwarded", "statement": "A packet matching a PDR is dropped unless its FAR exists and has the FORW flag, its QER exists and its gate for that direction is open (and, downlink, outer header creation GTP-U/UDP/IPv4 is requested); a packet dropped for that reason or by the rate limiter is charged to no URR.", "quantifier": "every frame and every map content", "why_tests_cant": "Universal over frames and maps.", "anchors": ["cmd/ebpf/xdp/n3n6_entrypoint.c:handle_gtp_packet", "cmd/ebpf/xdp/n3n6_entrypoint.c:handle_n6_packet_ipv4", "cmd/ebpf/xdp/n3n6_entrypoint.c:handle_n6_packet_ipv6"]}
{"id": "C32", "title": "Downlink encapsulation is well-formed", "statement": "A forwarded downlink packet leaves as Ethernet/IPv4/UDP/GTP-U with the FAR's TEID and remote address, N3 source address, ToS and QFI of the rules, ports 2152, consistent length fields, correct IPv4 header checksum, followed by the unmodified original IP packet.", "quantifier": "every packet and rule content", "why_tests_cant": "Universal over packets.", "anchors": ["cmd/ebpf/xdp/utils/gtp_utils.h:add_gtp_over_ip4_headers", "cmd/ebpf/xdp/n3n6_entrypoint.c:send_to_gtp_tunnel"]}
{"id": "C33", "title": "Uplink decapsulation returns the inner packet", "statement": "A forwarded uplink G-PDU with 20-byte outer IP header leaves with its Ethernet header (type set to the inner IP version) followed by exactly the inner IP packet.", "quantifier": "every such frame", "why_tests_cant": "Universal over frames.", "anchors": ["cmd/ebpf/xdp/utils/gtp_utils.h:remove_gtp_header"]}
{"id": "C34", "title": "Encapsulation and decapsulation are inverse", "statement": "Removing the tunnel headers that the UPF itself adds gives back the original IP packet, byte for byte.", "quantifier": "every IP packet", "why_tests_cant": "Universal.", "anchors": ["cmd/ebpf/xdp/utils/gtp_utils.h:add_gtp_over_ip4_headers", "cmd/ebpf/xdp/utils/gtp_utils.h:remove_gtp_header"]}
{"id": "C35", "title": "N9 relaying rewrites only the tunnel", "statement": "A G-PDU relayed to another UPF keeps its length and payload; only TEID, outer addresses, outer IP checksum (correct again) and UDP checksum (0) change.", "quantifier": "every frame", "why_tests_cant": "Universal.", "anchors": ["cmd/ebpf/xdp/utils/gtp_utils.h:update_gtp_tunnel"]}
{"id": "C36", "title": "GTP echo requests are answered", "statement": "An Echo Request to the UPF's N3/N9 address is sent back as Echo Response with addresses, ports and MACs exchanged, same TEID and sequence bytes, length fields consistent and a correct IP checksum when a Recovery IE is added.", "quantifier": "every frame", "why_tests_cant": "Universal.", "anchors": ["cmd/ebpf/xdp/utils/gtp_utils.h:handle_echo_request", "cmd/ebpf/xdp/utils/gtpu.h:insert_recovery"]}
{"id": "C37", "title": "Ping replies have a correct checksum", "statement": "The ICMP echo reply produced for a ping to the UPF's own address has a checksum that verifies whenever the request's checksum verified.", "quantifier": "every ICMP packet", "why_tests_cant": "Universal over contents.", "anchors": ["cmd/ebpf/xdp/utils/icmp.h:prepare_icmp_echo_reply", "cmd/ebpf/xdp/utils/csum.h:ipv4_csum_replace"]}
{"id": "C38", "title": "IP header checksum computation is correct", "statement": "The checksum written into generated IPv4 headers makes the header verify (ones' complement sum all ones).", "quantifier": "every header content", "why_tests_cant": "2^160 headers.", "anchors": ["cmd/ebpf/xdp/utils/csum.h:csum_fold_helper", "cmd/ebpf/xdp/utils/csum.h:ipv4_csum"]}
{"id": "C39", "title": "Maximum bit rate is enforced", "statement": "Over any interval, the transmission time of the packets a QER lets through in one direction never exceeds the length of the interval plus the 5 ms window (or plus one packet, if that takes longer to send), so the rate never exceeds the configured MBR beyond that burst.", "quantifier": "every sequence of packet sizes and arrival times", "why_tests_cant": "Universal over traffic.", "anchors": ["cmd/ebpf/xdp/qer.h:limit_rate_sliding_window"]}
{"id": "C40", "title": "Traffic below the bit rate is not dropped", "statement": "A stream of packets in which every run of packets takes no longer to send than the time between its first and last arrival plus the 5 ms window is passed without loss; MBR 0 means unlimited.", "quantifier": "every sequence", "why_tests_cant": "Universal.", "anchors": ["cmd/ebpf/xdp/qer.h:limit_rate_sliding_window"]}
{"id": "C41", "title": "The requested MBR reaches the data plane", "statement": "The bit rate enforced for a QER is the MBR requested over PFCP (kilobits per second times 1000).", "quantifier": "every MBR value", "why_tests_cant": "40-bit value space.", "anchors": ["cmd/core/pfcp_session_handlers.go:updateQer", "cmd/ebpf/xdp/qer.h"]}
{"id": "C42", "title": "Every packet is counted once", "statement": "For every processed frame exactly one XDP verdict counter grows by one, the one of the returned verdict; the receive counters grow according to the frame's protocols.", "quantifier": "every frame and state", "why_tests_cant": "Universal.", "anchors": ["cmd/ebpf/xdp/n3n6_entrypoint.c:upf_ip_entrypoint_func", "cmd/ebpf/xdp/statistics.h"]}
{"id": "C43", "title": "Statistics reports equal the sum of per-CPU counters", "statement": "Packet statistics returned by the API are, for each counter, the sum over CPUs (mod 2^64); the deltas of successive reads add up to the total.", "quantifier": "every list of per-CPU counters and read sequence", "why_tests_cant": "Universal.", "anchors": ["cmd/ebpf/stats.go"]}
{"id": "C44", "title": "REST FAR/QER write-then-read", "statement": "Writing a FAR or QER over the REST API and reading the same id back returns the written fields; other ids are unaffected; ids outside the map are refused without effect.", "quantifier": "every element and map", "why_tests_cant": "Universal over values.", "anchors": ["cmd/api/rest/far_map.go", "cmd/api/rest/qer_map.go"]}
{"id": "C45", "title": "REST uplink PDR read reflects the data plane", "statement": "Reading an uplink PDR over REST returns the outer header removal, FAR id and QER id that the data plane uses for that TEID.", "quantifier": "every entry", "why_tests_cant": "Depends on memory layout for every value.", "anchors": ["cmd/api/rest/uplink_pdr.go", "cmd/ebpf/xdp/pdr.h:pdr_info"]}
{"id": "C46", "title": "REST session lookup is sound and complete", "statement": "Session queries return all live sessions; filtering by IPv4 address or TEID returns a session having a PDR with that address/TEID iff one exists, for every iteration order.", "quantifier": "every session table and iteration order", "why_tests_cant": "Random iteration order.", "anchors": ["cmd/api/rest/pfcp_sessions.go"]}
{"id": "C47", "title": "Configuration defaults", "statement": "Exactly the configurations whose fields have the documented form are accepted. After successful validation, disabled features have empty pools, explicitly configured map sizes are kept and unset ones are derived from max_sessions.", "quantifier": "every configuration", "why_tests_cant": "Universal.", "anchors": ["cmd/config/config.go:Validate"]}
{"id": "C48", "title": "A refused configuration edit changes nothing", "statement": "A configuration edit answered with an error leaves the configuration as it was.", "quantifier": "every configuration and edit", "why_tests_cant": "Universal.", "anchors": ["cmd/api/rest/config.go:editConfig", "cmd/core/config_edit.go"]}
{"id": "C49", "title": "Packet processing stays inside the frame", "statement": "Processing a frame never reads or writes a byte outside the frame (no out-of-bounds access) and never divides by zero.", "quantifier": "every frame of any length and every map content", "why_tests_cant": "Universal over frames.", "anchors": ["cmd/ebpf/xdp/n3n6_entrypoint.c", "cmd/ebpf/xdp/utils/parsers.h", "cmd/ebpf/xdp/utils/gtp_utils.h"]}
{"id": "C50", "title": "GTP path probing sequence numbers", "statement": "The sequence number used for a peer's next echo request is the number of successful probes of that peer so far mod 2^16, independent of other peers.", "quantifier": "every history of probe outcomes", "why_tests_cant": "Universal.", "anchors": ["cmd/core/gtp_path_manager.go"]}
{"id": "C51", "title": "Malformed PFCP messages cannot crash the UPF", "statement": "Handling any decodable PFCP message never terminates the process.", "quantifier": "every state and message", "why_tests_cant": "Universal over messages.", "anchors": ["cmd/core/pfcp_session_handlers.go:composeFarInfo", "cmd/core/pfcp_hearbeat.go"]}
{"id": "C52", "title": "Pruning an association removes its sessions", "statement": "When an association is pruned all its sessions disappear, their FAR and QER ids are free again, their PDR keys are removed, and other associations keep their sessions.", "quantifier": "every state and iteration order", "why_tests_cant": "Universal.", "anchors": ["cmd/core/pfcp_connection.go:DeleteAssociation", "cmd/core/pfcp_connection.go:DeleteSession"]}
{"id": "C53", "title": "CHOOSE_ID shares a TEID within a request", "statement": "PDRs of one request that ask for UPF-allocated TEIDs with the same CHOOSE_ID get the same TEID, consuming one TEID; PDRs with different CHOOSE_IDs or without one get different TEIDs.", "quantifier": "every request", "why_tests_cant": "Universal over PDR lists.", "anchors": ["cmd/core/pdr_creation_context.go:extractPDR"]}
{"id": "C54", "title": "Advertised features match configuration", "statement": "The UP Function Features sent to peers contain FTUP exactly if configured, UEIP exactly if configured, and no other configurable feature.", "quantifier": "every configuration", "why_tests_cant": "Universal (small).", "anchors": ["cmd/core/pfcp_connection.go:NewPfcpConnection"]}
{"id": "C55", "title": "Uplink forwarding honours GTP optional fields", "statement": "The inner packet of an uplink G-PDU is located correctly for every valid combination of the E, S and PN flags and extension headers.", "quantifier": "every G-PDU", "why_tests_cant": "Universal over header layouts.", "anchors": ["cmd/ebpf/xdp/utils/gtp_utils.h:parse_gtp", "cmd/ebpf/xdp/utils/gtp_utils.h:remove_gtp_header"]}
{"id": "C56", "title": "Signalling drives forwarding end to end", "statement": "After an accepted establishment with a PDR without SDF filter for a UE address or TEID, its FAR (forward; for downlink through a tunnel with TEID, remote address, traffic class) and its QER (gate open, QFI, maximum bit rate up to 4294967 kbit/s), and after any packets processed since, every unfragmented IPv4 TCP/UDP/ICMP packet to that UE address which passes the rate limit is sent into that tunnel with that QFI, every uplink packet of that TEID is decapsulated and routed, and what exceeds the rate limit is dropped; after the session is deleted packets to the UE address go to the kernel untouched.", "quantifier": "every reachable state, request, intermediate packets and packet", "why_tests_cant": "Composition over all states and packets.", "anchors": ["cmd/core/pfcp_session_handlers.go", "cmd/ebpf/xdp/n3n6_entrypoint.c:handle_n6_packet_ipv4", "cmd/ebpf/xdp/n3n6_entrypoint.c:handle_gtp_packet"]}
{"id": "C57", "title": "Updating a PDR moves its key", "statement": "After a modification that changes the TEID or UE address of a PDR the old key is no longer installed.", "quantifier": "every state and update", "why_tests_cant": "Universal.", "anchors": ["cmd/core/pfcp_session_handlers.go:HandlePfcpSessionModificationRequest", "cmd/core/pdr.go:applyPDR"]}
{"id": "C58", "title": "Adding an SDF PDR keeps the default PDR", "statement": "Installing a PDR with SDF filter on a key that already has a default PDR leaves non-matching traffic with the default PDR's FAR/QER and gives matching traffic the new PDR's FAR/QER, for packets with complete IP and transport headers; traffic of other keys is unaffected.", "quantifier": "every pair of PDRs and every packet", "why_tests_cant": "Universal.", "anchors": ["cmd/ebpf/pdr.go:CombinePdrWithSdf", "cmd/ebpf/xdp/n3n6_entrypoint.c"]}
{"id": "C59", "title": "Gate, rate and QFI of a rule apply per direction", "statement": "Uplink traffic is governed only by the uplink gate and bit rate of its QER, downlink only by the downlink ones, and traffic in one direction does not use up the other direction's bit rate (a ping to the UPF itself inside an uplink packet is answered, and the answer is downlink traffic).", "quantifier": "every packet and QER", "why_tests_cant": "Universal.", "anchors": ["cmd/ebpf/xdp/n3n6_entrypoint.c", "cmd/ebpf/xdp/qer.h"]}
{"id": "C60", "title": "Session and association counts", "statement": "The session and association gauges equal the number of live sessions and associations, and the session count changes by exactly +1 on accepted establishment and -1 on accepted deletion.", "quantifier": "every history", "why_tests_cant": "Universal over histories.", "anchors": ["cmd/core/pfcp_connection.go:GetSessionCount", "cmd/core/pfcp_connection.go:GetAssiciationCount"]}
{"id": "C61", "title": "The order in which PDRs are installed does not matter", "statement": "The rules that apply to the traffic of a tunnel or UE address do not depend on the order in which the PDRs for it were installed.", "quantifier": "every pair of PDRs, state and packet", "why_tests_cant": "Universal over install orders and packets.", "anchors": ["cmd/ebpf/pdr.go:CombinePdrWithSdf", "cmd/ebpf/pdr.go:PutPdrUplink"]}
{"id": "C62", "title": "Missing associations are requested", "statement": "On every tick of the association timer an Association Setup Request, with the UPF's node id, recovery time stamp and features, is sent to exactly those configured remote nodes with which there is no association, and at no other time.", "quantifier": "every state and configuration", "why_tests_cant": "Universal over states.", "anchors": ["cmd/core/pfcp_connection.go:RefreshAssociations", "cmd/core/pfcp_connection.go:sendAssociationSetupRequest"]}
{"id": "C63", "title": "A valid configuration starts", "statement": "With every configuration that passes validation the UPF starts and serves, in the state the configuration describes.", "quantifier": "every configuration", "why_tests_cant": "Universal over configurations.", "anchors": ["cmd/config/config.go:Validate", "cmd/main.go:main", "cmd/core/service/resource_manager.go:NewResourceManager"]}
{"id": "C64", "title": "A GTP path probe succeeds only if the peer answered that probe", "statement": "A probe of a GTP peer counts as successful only if an Echo Response to the Echo Request of that probe was received.", "quantifier": "every datagram received", "why_tests_cant": "Universal over datagrams.", "anchors": ["cmd/core/gtp_path_manager.go:sendEcho"]}
{"id": "C65", "title": "An eUPF answers another eUPF's path probe", "statement": "When the data plane receives a frame carrying another eUPF's path probe, the frame it sends back goes to the prober and is accepted by it, with the sequence number of the probe.", "quantifier": "every frame carrying a probe, every sequence number, every map content", "why_tests_cant": "Composition over all frames.", "anchors": ["cmd/core/gtp_path_manager.go:sendEcho", "cmd/ebpf/xdp/utils/gtp_utils.h:handle_echo_request"]}
{"id": "C66", "title": "Forwarding follows the live sessions", "statement": "At any time the data plane treats packets as the live sessions ask: a packet detected by a PDR of a live session is forwarded, dropped, encapsulated or decapsulated as the FAR and QER the PDR names say (with their latest values), and a packet no PDR of a live session detects is left to the kernel unchanged.", "quantifier": "every history of PFCP requests, responses, timeouts and packets; every packet", "why_tests_cant": "Universal over histories of the control plane composed with all packets.", "anchors": ["cmd/core/pfcp_session_handlers.go:HandlePfcpSessionModificationRequest", "cmd/core/pdr.go:applyPDR", "cmd/ebpf/pdr.go:CombinePdrWithSdf", "cmd/ebpf/xdp/n3n6_entrypoint.c:upf_ip_entrypoint"]}
{"id": "C67", "title": "PFCP message counters are exact", "statement": "upf_pfcp_rx counts exactly the messages received, by type; upf_pfcp_tx exactly the messages transmitted, by type; upf_pfcp_rx_errors exactly the answered requests by type and cause (plus deletions that fail without an answer and useless association setup answers), and different causes have different labels.", "quantifier": "every history of messages, types and causes", "why_tests_cant": "Universal over histories.", "anchors": ["cmd/core/metrics.go", "cmd/core/pfcp_handlers.go:Handle", "cmd/core/pfcp_session_handlers.go:causeToString"]}
{"id": "C68", "title": "A retransmitted request is harmless", "statement": "PFCP runs over UDP and requests are retransmitted: a second copy of a request (same peer, same sequence number) gets the same answer and changes nothing.", "quantifier": "every request and state", "why_tests_cant": "Universal over requests and states.", "anchors": ["cmd/core/pfcp_handlers.go:Handle", "cmd/core/pfcp_session_handlers.go:HandlePfcpSessionEstablishmentRequest"]}
{"id": "C69", "title": "A restarted control plane loses its sessions", "statement": "When a control plane sets up its association again with a new recovery time stamp, the sessions of its former life are released and their packets no longer forwarded.", "quantifier": "every state and recovery time stamp", "why_tests_cant": "Universal over histories.", "anchors": ["cmd/core/pfcp_handlers.go:HandlePfcpAssociationSetupRequest"]}
{"id": "C70", "title": "Only rules named by the PDR act on a packet", "statement": "A packet detected by a PDR is judged only by the FAR, QER and URR the PDR names; rules of other sessions do not influence it.", "quantifier": "every history and packet", "why_tests_cant": "Universal over histories and packets.", "anchors": ["cmd/core/pdr.go:applyPDR", "cmd/ebpf/xdp/n3n6_entrypoint.c:upf_ip_entrypoint"]}
{"id": "C71", "title": "Volume counters are exact with several CPUs", "statement": "The bytes reported for a usage reporting rule over its life are the bytes of the packets charged to it, however the CPUs that process packets and the control plane that reads and clears the counter interleave.", "quantifier": "every interleaving of packets on any number of CPUs with reports", "why_tests_cant": "The loss needs two CPUs (or a CPU and the control plane) between a load and a store; no unit test controls that.", "anchors": ["cmd/ebpf/xdp/urr.h:update_urr", "cmd/ebpf/pdr.go:DeleteUrr"]}
{"id": "C72", "title": "Sessions can be listed at any time", "statement": "A REST listing of all sessions that runs while control planes establish, change and delete sessions lists every session that is there throughout exactly once, lists nothing that never was there, and does not disturb the UPF.", "quantifier": "every interleaving of a listing with the handling of PFCP messages", "why_tests_cant": "The Go map iteration and the message loop are not synchronised: the schedule decides.", "anchors": ["cmd/api/rest/pfcp_sessions.go:GetAllSessions", "cmd/core/pfcp_session_handlers.go:HandlePfcpSessionEstablishmentRequest", "cmd/core/pfcp_connection.go:DeleteAssociation"]}
{"id": "C73", "title": "Handling a message does not disturb the packets of other sessions", "statement": "While the UPF is in the middle of handling a PFCP message or an association failure - some map entries written, others not yet, a rule half written - packets of every session the message is not about are treated exactly as before it.", "quantifier": "every history, message, moment during its handling (any mixture of the map states before, between and after the writes) and packet", "why_tests_cant": "The moment is chosen by the scheduler of the other CPUs.", "anchors": ["cmd/core/pfcp_session_handlers.go:HandlePfcpSessionModificationRequest", "cmd/core/pfcp_connection.go:DeleteSession", "cmd/ebpf/pdr.go:UpdateFar", "cmd/ebpf/xdp/n3n6_entrypoint.c:upf_ip_entrypoint"]}
{"id": "C74", "title": "A packet sees the old rules of its session or the new ones", "statement": "A packet of a session whose establishment, modification or deletion is under way is treated by the session's rules from before the message or by those from after it, never by a mixture.", "quantifier": "every history, message, moment during its handling and packet", "why_tests_cant": "The moment is chosen by the scheduler of the other CPUs.", "anchors": ["cmd/core/pfcp_session_handlers.go:HandlePfcpSessionModificationRequest", "cmd/core/pfcp_session_handlers.go:HandlePfcpSessionDeletionRequest", "cmd/ebpf/pdr.go:UpdateFar", "cmd/ebpf/xdp/n3n6_entrypoint.c:handle_n6_packet_ipv4"]}
{"id": "C75", "title": "The rule tables are tables: each operation changes the entry it names and nothing else", "statement": "Adding, updating or removing a PDR, FAR, QER or URR through the data plane interface makes a lookup of that rule return what was asked for (or nothing after a removal), and leaves every other rule of every kind, and the set of free ids except the one taken or returned, as it was; an operation that reports failure changes no rule.", "quantifier": "all states of the tables, all rule contents and all ids", "why_tests_cant": "the space of table contents is unbounded; tests look at the entry they wrote", "anchors": ["cmd/ebpf/objects.go: NewFar, UpdateFar, DeleteFar, NewQer, UpdateQer, DeleteQer, NewUrr, UpdateUrr, DeleteUrr", "cmd/ebpf/pdr.go: PutPdrUplink, UpdatePdrUplink, DeletePdrUplink, PutPdrDownlink, PutDownlinkPdrIp6"]}
{"id": "C76", "title": "A packet comes out of a chain of UPFs as it went in", "statement": "A packet sent through any number of UPFs in a row (N9), each told by its FAR which tunnel at which address comes next, arrives at the address and tunnel the last one was told to use with a correct outer header and its payload unchanged; a UPF at the end of the chain that is told to remove the tunnel delivers exactly that payload; and a downlink packet put into a tunnel by the first UPF arrives at the end of the chain as the payload, unchanged.", "quantifier": "every length of the chain, packet, rule set and routing table, without IPv4 options in the outer header", "why_tests_cant": "the number of hops is not bounded, and each UPF rewrites the frame the one before it wrote", "anchors": ["cmd/ebpf/xdp/n3n6_entrypoint.c:handle_n3_packet", "cmd/ebpf/xdp/utils/gtp_utils.h:update_gtp_tunnel, add_gtp_over_ip4_headers, remove_gtp_header", "cmd/ebpf/xdp/utils/routing.h:route_ipv4"]}
{"id": "C77", "title": "Session answers carry the control plane's own session id", "statement": "For every history of messages, an answer to a session request that refers to a session (accepted, or rejected because of its rules) carries in its header the session id the control plane itself announced last for that session; an answer that refers to no session carries 0. Established sessions, created PDRs and usage reports are announced only in the answers that may hold them.", "quantifier": "every history of PFCP messages, peers, sessions and announced ids", "why_tests_cant": "the id is announced in one message, may be changed by later ones and has to be remembered for any number of interleaved messages of other sessions and peers", "anchors": ["cmd/core/pfcp_session_handlers.go:HandlePfcpSessionEstablishmentRequest, HandlePfcpSessionModificationRequest, HandlePfcpSessionDeletionRequest"]}
{"id": "C78", "title": "The control plane is never told of more traffic than was carried", "statement": "Over every history of packets and messages, the uplink, downlink and total volumes in all usage reports the control plane was sent, together with what the data plane still holds, never exceed the bytes of the packets that rules let through in that direction: each packet is counted at most once for a usage reporting rule.", "quantifier": "every history of packets, environments, messages, peers, sessions and usage reporting rules", "why_tests_cant": "volumes add up over a history without bound; a counter counted twice, reported twice or not cleared at a report shows only against the traffic of the whole history", "anchors": ["cmd/ebpf/xdp/urr.h:update_urr", "cmd/core/pfcp_session_handlers.go:HandlePfcpSessionDeletionRequest, HandlePfcpSessionModificationRequest", "cmd/ebpf/pdr.go:DeleteUrr, UpdateUrr"]}
{"id": "C79", "title": "The optional route cache is transparent", "statement": "A UPF built with the route cache treats every packet of every history exactly as one built without it: same verdict, frame and rule tables.", "quantifier": "every history of packets, each with the routing table and rules of its time, and every behaviour of the LRU map", "why_tests_cant": "the cache is a memory of earlier packets and earlier routing tables; a test sees one short history", "anchors": ["cmd/ebpf/xdp/utils/routing.h:route_ipv4, do_route_ipv4, upf_route_cache_ip4", "Dockerfile: BPF_ENABLE_ROUTE_CACHE"]}
{"id": "C80", "title": "A packet cannot circulate forever", "statement": "Every UPF that sends a packet on lowers the time to live (hop limit) of the packet's outermost IP header on arrival by one and does not send on a packet whose time to live is used up, so that no arrangement of UPFs and routes keeps a packet on its way for ever.", "quantifier": "every packet, rule set and routing table; every number of hops", "why_tests_cant": "the packet circulates for ever only in an arrangement of several UPFs, and ever is not a number of steps a test can run", "anchors": ["cmd/ebpf/xdp/utils/routing.h:do_route_ipv4, route_ipv6", "cmd/ebpf/xdp/n3n6_entrypoint.c", "cmd/ebpf/xdp/utils/gtp_utils.h:fill_ip_header"]}
{"id": "C81", "title": "A packet is handled by a PDR it matches", "statement": "Whatever sequence of PDR installations and removals a tunnel or UE address has seen, a packet for it is handled by the rules of one of the PDRs that stand, and only by one whose filter (if any) it matches; a packet that matches none of them is not forwarded.", "quantifier": "every sequence of installations and removals of PDRs with and without filters, for this and other tunnels and addresses, and every packet", "why_tests_cant": "the stored entry is built from the previous one, so its meaning depends on the whole sequence; tests install one or two PDRs", "anchors": ["cmd/ebpf/pdr.go:PreprocessPdrWithSdf, CombinePdrWithSdf, ToIpEntrypointPdrInfo", "cmd/core/pdr.go:applyPDR", "cmd/ebpf/xdp/n3n6_entrypoint.c:handle_n6_packet_ipv4, handle_n6_packet_ipv6, handle_gtp_packet"]}
{"id": "C82", "title": "Packets of a flow, and fragments of a datagram, are treated alike", "statement": "Two packets for the same tunnel or UE address with the same 5-tuple get the same rule, whatever else is in them; all fragments of an IPv4 datagram to a UE get the same rule.", "quantifier": "every rule table and every pair of packets or fragments", "why_tests_cant": "ranges over pairs of packets that agree in their headers and differ arbitrarily in their payload", "anchors": ["cmd/ebpf/xdp/utils/parsers.h:parse_ip4, parse_udp, parse_tcp", "cmd/ebpf/xdp/sdf_filter.h"]}
{"id": "C83", "title": "The volume charged is the user's", "statement": "A forwarded packet adds the size of the user's IP packet to the usage of its PDR's URR, independently of the headers it was tunnelled with.", "quantifier": "every packet, tunnel header and rule table", "why_tests_cant": "ranges over all frames that carry the same packet", "anchors": ["cmd/ebpf/xdp/n3n6_entrypoint.c:handle_gtp_packet, handle_n6_packet_ipv4", "cmd/ebpf/xdp/urr.h:update_urr"]}
{"id": "C84", "title": "A UE can be reached with every IP protocol", "statement": "A packet to the address of a UE with an unfiltered downlink PDR is handled by that PDR, whatever protocol it carries.", "quantifier": "every packet, protocol and rule table", "why_tests_cant": "there are 256 protocols for each IP version and the behaviour depends on a default branch", "anchors": ["cmd/ebpf/xdp/n3n6_entrypoint.c:handle_ip4, handle_ip6"]}
{"id": "C85", "title": "An accepted configuration edit takes effect", "statement": "After a configuration edit that was answered with 200 the UPF behaves towards its peers as one that was started with the new configuration.", "quantifier": "every history of messages, edits and timer ticks", "why_tests_cant": "compares a history with an edit in it to a history from a different start", "anchors": ["cmd/api/rest/config.go:editConfig", "cmd/main.go", "cmd/core/pfcp_connection.go:NewPfcpConnection, RefreshAssociations", "cmd/core/pdr_creation_context.go"]}
{"id": "C86", "title": "A restart of the UPF is visible to the control plane", "statement": "Two answers that carry a recovery time stamp (heartbeat responses, accepted association setups) carry the same one exactly if the UPF was not restarted between them, wherever it was killed or crashed.", "quantifier": "every history of messages, kills, crashes and starts, and every pair of answers in it", "why_tests_cant": "kills and crashes may come at any point of any history, and the claim compares answers of different lives", "anchors": ["cmd/core/pfcp_connection.go:NewPfcpConnection", "cmd/core/pfcp_handlers.go:HandlePfcpHeartbeatRequest, HandlePfcpAssociationSetupRequest", "cmd/main.go:main"]}
{"id": "C87", "title": "Nothing of an earlier life acts after a restart", "statement": "After a restart, the sessions and associations are exactly those established since; a packet is handled by the rules asked for since; and a session id handed out before the restart does not name another session after it.", "quantifier": "every history of messages, kills, crashes and starts, and every packet and request after it", "why_tests_cant": "the state at a crash is the result of an arbitrary history, cut at an arbitrary point", "anchors": ["cmd/main.go:main", "cmd/ebpf/objects.go:Load", "cmd/core/pfcp_connection.go:NewPfcpConnection", "cmd/core/association.go:NewLocalSEID"]}
{"id": "C88", "title": "A live session can be deleted", "statement": "A Session Deletion Request that names a live session is answered with cause Request Accepted, and the session is gone afterwards: no sequence of requests leaves a session that the control plane cannot delete.", "quantifier": "every history of messages, every live session after it, and every order in which Go visits the session's maps", "why_tests_cant": "which rules a session holds when it is deleted is the result of its whole history", "anchors": ["cmd/core/pfcp_session_handlers.go:HandlePfcpSessionDeletionRequest", "cmd/core/pdr.go:deletePDR", "cmd/ebpf/pdr.go:DeleteFar"]}
{"id": "C89", "title": "Go's map iteration order has no effect", "statement": "The outcome of a session deletion, and what is left after an association is pruned, does not depend on the order in which Go iterates over maps: the same sessions, rules, identifiers and addresses are left, and the same usage is reported.", "quantifier": "every reachable state, every session, and every two iteration orders", "why_tests_cant": "the iteration order of a Go map is random; a test sees one order per run", "anchors": ["cmd/core/pfcp_session_handlers.go:HandlePfcpSessionDeletionRequest", "cmd/core/pfcp_connection.go:DeleteSession", "cmd/core/pdr.go:deletePDR", "cmd/core/resource_manager.go:ReleaseTEID"]}
{"id": "C90", "title": "The configured number of sessions fits, at any time", "statement": "With max_sessions = N and no individual map sizes, whenever fewer than N sessions are live a well-formed Session Establishment Request of the documented size (up to 2 PDRs, 2 FARs, 1 QER, 3 URRs) from an associated peer is accepted, provided the TEID and UE address pools have what it leaves to the UPF to choose - no matter how many sessions were established, modified, deleted or lost before. When no session is live, every rule id is free again and the PDR maps are empty.", "quantifier": "every validated configuration, every history of PFCP messages, failed heartbeats and traffic, every later well-formed request", "why_tests_cant": "a test establishes N sessions once on a fresh UPF; that capacity never erodes has to hold after every history of creations, changes, failures and deletions", "anchors": ["docs/Configuration.md (max_sessions)", "cmd/config/config.go Validate", "cmd/ebpf/objects.go IdTracker", "cmd/ebpf/pdr.go NewFar NewQer NewUrr DeleteFar DeleteQer DeleteUrr", "cmd/core/pfcp_session_handlers.go HandlePfcpSessionEstablishmentRequest", "cmd/core/pfcp_connection.go DeleteSession"]}
{"id": "C91", "title": "A packet is never forwarded with another subscriber's rules, however many messages overlap it", "statement": "A packet that is being processed while the UPF handles any number of control messages is dropped, or forwarded as the rules of its own session say: never sent into the tunnel of another subscriber. If none of the messages concerns its session it is treated as if nothing was going on.", "quantifier": "every history of messages, every sequence of messages handled while the packet is under way, and every interleaving of the packet's map reads with the map writes of the handlers", "why_tests_cant": "the data plane runs concurrently with the control plane; which reads fall between which writes cannot be scheduled in a test", "anchors": ["cmd/core/pfcp_connection.go:Run", "cmd/ebpf/objects.go:ReleaseFar, IdTracker", "cmd/ebpf/xdp/n3n6_entrypoint.c", "cmd/core/pfcp_session_handlers.go"]}
{"id": "C92", "title": "Writing a rule over REST changes the rule the URL names and nothing else", "statement": "A PUT on far_map/:id or qer_map/:id answered 201 leaves rule id exactly as the body says (and a later GET reads it back so, also after traffic); every other rule, every match entry and every counter is as it was, and what becomes of every packet that is not handled by this rule (verdict and bytes sent) is what it would have been without the write. Any other answer changes nothing. Violated when the body does not carry the id: the id of the URL is ignored and rule 0 is overwritten.", "quantifier": "all URLs, bodies, data-plane states, packets and clocks", "why_tests_cant": "the effect on packets ranges over every frame and every map state; a unit test sees one write and one read", "anchors": ["cmd/api/rest/far_map.go:setFarValue", "cmd/api/rest/qer_map.go:setQerValue", "cmd/api/rest/handler.go:InitRouter", "cmd/ebpf/xdp/n3n6_entrypoint.c:upf_ip_entrypoint_func"]}
{"id": "C93", "title": "The cause of a rejection says why, as documented", "statement": "Over every history of messages and prunes, the cause in the answer to a request is the one docs/PfcpCauseCodes.md gives for its situation: 72 exactly if the sender has no association, 65 exactly if the session named is not one of the sender's live sessions, 66 if a mandatory element is missing, 73 only for requests in order that carry rules, 1 only for requests in order. Violated in details: 69, listed as not in use, is sent for unreadable elements of association requests, unreadable ids of an establishment are reported as missing, and 64, listed as in use, is never sent.", "quantifier": "all histories, peers, requests", "why_tests_cant": "which cause is due depends on the whole history of the association and its sessions", "anchors": ["docs/PfcpCauseCodes.md", "cmd/core/pfcp_handlers.go:HandlePfcpAssociationSetupRequest", "cmd/core/pfcp_handlers.go:HandlePfcpAssociationUpdateRequest", "cmd/core/pfcp_session_handlers.go:HandlePfcpSessionEstablishmentRequest", "cmd/core/pfcp_session_handlers.go:HandlePfcpSessionModificationRequest", "cmd/core/pfcp_session_handlers.go:HandlePfcpSessionDeletionRequest", "cmd/core/pfcp_session_handlers.go:convertErrorToIeCause"]}
{"id": "C94", "title": "A peer becomes associated only by an exchange with the UPF", "statement": "At every time, a peer is associated exactly if it sent an Association Setup Request that was accepted, or accepted an Association Setup Request of the UPF, and has not been declared dead since. Violated: an Association Setup Response is accepted from anybody, whether or not the UPF asked.", "quantifier": "all histories of messages, ticks, prunes; all peers", "why_tests_cant": "ranges over all histories; a stranger's message at any point", "anchors": ["cmd/core/pfcp_handlers.go:HandlePfcpAssociationSetupResponse", "cmd/core/pfcp_handlers.go:HandlePfcpAssociationSetupRequest", "cmd/core/pfcp_connection.go:RefreshAssociations"]}
{"id": "C95", "title": "The REST listings show the sessions and associations as the control plane asked for them", "statement": "GET /pfcp_sessions answers 200 with one document per live session: its own SEID, the SEID the peer announced last, and exactly the PDRs, FARs and QERs that the accepted requests ask for, under their ids, with the values asked for (addresses in dotted form), and with the number under which the data plane has each FAR and QER - the PDRs refer to these numbers. GET /pfcp_associations answers 200 with exactly the associated peers, each with its address and node id.  In the code the list of no sessions is null instead of an empty list, the volumes shown with a URR stay 0 whatever is measured, and GET /pfcp_associations/full answers 200 with an empty body whenever a peer is associated.", "quantifier": "every history of PFCP messages, heartbeat failures and packets (tidy for the rules of a session, any for the associations), every map iteration order", "why_tests_cant": "The documents are produced by reflection from state that every past message changed; a test compares a few documents, and the one route whose value cannot be encoded fails only with an association present.", "anchors": ["cmd/api/rest/pfcp_sessions.go:listPfcpSessionsFiltered", "cmd/api/rest/pfcp_associations.go:listPfcpAssociations,listPfcpAssociationsFull", "cmd/ebpf/pdr.go:FarInfo.MarshalJSON", "cmd/core/session.go:Session", "cmd/core/node_association.go:NodeAssociation"]}
{"id": "C96", "title": "The socket, the message loop, the heartbeat tasks and the session state work together as their separate descriptions say", "statement": "Whatever the interleaving of arriving datagrams, timers, hand-overs between the loop and the heartbeat tasks, failures and traffic: each datagram is handled at most once and in the order of arrival, those not yet handled stay in the socket; exactly the associated peers have a heartbeat task (if heartbeats are on); a reported heartbeat failure always finds its association; what happens to the session state is a run of the PFCP model, so every property stated for PFCP histories holds of the running process; and no interleaving ends the process unless one of the known malformed messages (C51) arrives.", "quantifier": "every configuration, every timed interleaving of arrivals, loop steps, timers, pauses, failure reports, ticks and traffic, of any length and any number of peers", "why_tests_cant": "The parts run concurrently and meet on unbuffered channels; a test exercises one interleaving, and the dereference of a missing association at a failure report depends on the order of three goroutines.", "anchors": ["cmd/core/pfcp_connection.go:Run,DeleteAssociation", "cmd/core/node_association.go:ScheduleHeartbeat,HandleHeartbeat", "cmd/core/pfcp_hearbeat.go:HandlePfcpHeartbeatResponse", "cmd/core/pfcp_handlers.go:HandlePfcpAssociationSetupRequest,HandlePfcpAssociationSetupResponse"]}
{"id": "C97", "title": "A peer is given up in time and only when it is silent", "statement": "A peer whose answers reach its heartbeat task within the time-out is never given up, whatever the other peers do, and its sessions are exactly those it established and did not delete. A peer is given up no earlier than the configured number of time-outs after a request, with no answer to the last request in between; a peer that falls silent is reported within one pause and that number of time-outs (plus the delays of the timers), and then given up before the loop handles more than one further message. In the code an answer that arrives in time at the socket is not enough: a peer that answers every request in the same millisecond is given up when another peer repeats its answers, and an answer taken after the last time-out stops the loop so that no message of any peer is handled any more.", "quantifier": "every configuration, every timed interleaving of any length and any number of peers", "why_tests_cant": "It is a claim about real time and about all interleavings of three kinds of goroutines; the failing cases need a datagram to arrive in a particular window or another peer to repeat one.", "anchors": ["cmd/core/node_association.go:ScheduleHeartbeat,HandleHeartbeat", "cmd/core/pfcp_connection.go:Run,DeleteAssociation", "cmd/core/pfcp_hearbeat.go:HandlePfcpHeartbeatResponse"]}
{"id": "C98", "title": "Heartbeat requests are paced", "statement": "Two heartbeat requests to the same peer within one association are at least the smaller of the heartbeat time-out and the heartbeat interval apart. In the code this holds as long as every answer taken answers the request last sent; a single late (or repeated) answer makes the task send a request for every answer it receives, at once and without end, although every request is answered exactly once and in order.", "quantifier": "every configuration, every timed interleaving with fewer than 2^24 - 1 requests to the peer; for the refutation every number of requests below 2^24 - 4", "why_tests_cant": "The storm starts only after an answer that misses its time-out by a moment and then feeds itself; a test with a fast peer never sees it.", "anchors": ["cmd/core/node_association.go:ScheduleHeartbeat"]}
{"id": "C99", "title": "Editing the configuration over the API does not cost a served peer its sessions", "statement": "However the configuration is edited through the API while peers are served: the process goes on; an edit that says about heartbeats and UE addresses what the configuration already says changes nothing for any peer; a peer whose answers reach its heartbeat task within the time-out in force when the request was sent is never given up. In the code an edit replaces the whole configuration, so a body that mentions only the logging level sets the heartbeat time-out and retries to 0: it is answered 200, and from then on each request to any peer may be counted as failed the moment it is sent, so that the association and all sessions of a peer that answers every request at once are removed at its next heartbeat. Switching heartbeats on has no effect on the peers already associated: they are never sent one.", "quantifier": "every configuration, every sequence of edits (any body, validated or not) interleaved in any way with datagrams, timers, hand-overs, failures and traffic, of any length and any number of peers", "why_tests_cant": "It needs an edit in the middle of the life of an association and the timing of the next heartbeat; a test of the configuration handler sees only status 200 and the new document.", "anchors": ["cmd/api/rest/config.go:editConfig", "cmd/core/config_edit.go:SetConfig", "cmd/core/node_association.go:ScheduleHeartbeat", "cmd/core/pfcp_handlers.go:HandlePfcpAssociationSetupRequest", "cmd/core/pfcp_connection.go:Run"]}
{"id": "C100", "title": "An Update PDR that asks for nothing new changes nothing", "statement": "An accepted modification that consists of Update PDRs repeating what was asked for these PDRs before (the same FAR, QER, header removal, filter, tunnel or address, or saying nothing about them) leaves what becomes of every packet as it was: same verdict, same bytes. In the code, each update of a PDR with an SDF filter stores it as if a PDR without filter were installed underneath, with FAR 0, QER 0: from then on the packets of the same tunnel or UE that the filter does not match are no longer left to the kernel but are handled by whatever session was given the FAR with number 0, e.g. sent into the GTP tunnel of a different subscriber.", "quantifier": "every history of requests (tidy, C66) and traffic of any length, every modification of this kind with any number of Update PDRs, every packet and environment; and every packet captured by an updated filtered PDR in every later data-plane state", "why_tests_cant": "The update must follow a particular history and the packet must be one that the filter does not match; tests compare the PDRs in the session with the request and mock the maps.", "anchors": ["cmd/ebpf/pdr.go:PreprocessPdrWithSdf", "cmd/ebpf/pdr.go:CombinePdrWithSdf", "cmd/core/pdr_creation_context.go:applyPDR", "cmd/core/pfcp_session_handlers.go:HandlePfcpSessionModificationRequest", "cmd/ebpf/xdp/n3n6_entrypoint.c:handle_gtp_packet"]}
{"id": "C101", "title": "What becomes of a packet depends on what the live sessions ask for, not on how that came about", "statement": "Two UPFs whose live sessions ask for the same (the same tunnels and UE addresses, filters, header removals, forwarding and QoS values, whatever the peers, sessions, rule numbers, order of requests, number of modifications, and whatever else has come and gone) do the same to every packet: same verdict, same bytes. In particular sessions that have been deleted, and peers that have been given up, leave no trace. Exceptions: a maximum bit rate (the limiter remembers earlier packets), and in the code packets that an updated PDR with a filter captures (C100): there the past shows.", "quantifier": "any two histories of requests (tidy, C66) and traffic of any length, on different UPFs with different pools and map sizes; every packet and environment; any number of sessions and peers that come and go in between", "why_tests_cant": "Ranges over pairs of histories of any length; tests run one short history against mocked maps.", "anchors": ["cmd/core/pfcp_session_handlers.go:HandlePfcpSessionModificationRequest", "cmd/core/pfcp_session_handlers.go:HandlePfcpSessionDeletionRequest", "cmd/core/pfcp_connection.go:DeleteAssociation", "cmd/ebpf/pdr.go:PutPdrUplink", "cmd/ebpf/xdp/n3n6_entrypoint.c:upf_ip_entrypoint_func"]}
{"id": "C102", "title": "One subscriber's packets have no influence on what becomes of another's", "statement": "However many packets pass for other subscribers, at whatever times and rates (pings of the UPF included), a packet gets the same verdict and leaves with the same bytes as if they had not passed, as long as none of them is policed by the same QER in the same direction. A maximum bit rate slows down only the traffic of the QER that has it. In the code this needs every PDR to name a QER: PDRs that name none share the QER with data-plane number 0, which belongs to whichever session asked for a QER first, so their packets use up the rate of that session.", "quantifier": "any history of requests (tidy, C66, each PDR naming a QER) and any number of packets of any other subscribers in any environments, before any packet", "why_tests_cant": "Ranges over histories, sequences of packets of any length and their times; tests process one packet at a time on fresh maps.", "anchors": ["cmd/ebpf/xdp/n3n6_entrypoint.c:upf_ip_entrypoint_func", "cmd/ebpf/xdp/qer.h:limit_rate_sliding_window", "cmd/core/pdr_creation_context.go:PDRCreationContext.getFARID", "cmd/core/pdr_creation_context.go:PDRCreationContext.getQERID", "cmd/core/pfcp_session_handlers.go:HandlePfcpSessionEstablishmentRequest"]}
{"id": "C103", "title": "The order in which a request lists its rules does not matter", "statement": "Two UPFs that get the same requests, except that the FARs, QERs, URRs and PDRs of a request are listed in another order (PFCP gives the order of grouped IEs no meaning), and that answer them alike (same causes, same F-SEIDs, same TEID and UE address reported for each PDR), do the same to every packet: same verdict, same bytes. In the code this fails when a PDR without filter and a PDR with one share a tunnel or UE address: listed last, the one without filter wipes the filter.", "quantifier": "every pair of histories of requests of any length (tidy, C66, no rule id twice in one list) that differ in these orders; every packet without maximum bit rate and environment", "why_tests_cant": "Ranges over all permutations of all lists of all requests of a history; tests send one order.", "anchors": ["cmd/core/pfcp_session_handlers.go:HandlePfcpSessionEstablishmentRequest", "cmd/core/pfcp_session_handlers.go:HandlePfcpSessionModificationRequest", "cmd/ebpf/pdr.go:CombinePdrWithSdf", "cmd/ebpf/pdr.go:PutPdrDownlink"]}
{"id": "C104", "title": "Every GTP peer is probed once per interval, whatever the other peers do", "statement": "After the first echo interval has passed, every configured GTP peer gets exactly one Echo Request in every interval, however late or never the peers answer. In the code the peers are probed one after the other and a peer that does not answer holds up the rest for 3 seconds: with more peers than fit into the interval at 3 seconds each, whole intervals pass without a probe of a peer that answers promptly.", "quantifier": "every interval, every set of peers, every order in which Go visits them, every schedule of answers, silences and ticks, of any length", "why_tests_cant": "Ranges over schedules of real time; tests have one peer and one answer.", "anchors": ["cmd/core/gtp_path_manager.go:Run", "cmd/core/gtp_path_manager.go:sendEcho", "cmd/main.go:main"]}
{"id": "C105", "title": "A documented parameter that is set is used", "statement": "Every parameter of docs/Configuration.md, given under its documented name on the command line, in the environment or in the configuration file, with any value and whatever else is given, is accepted and used, the command line before the environment before the file; not given, it has its documented default; and the documented example starts. In the code the echo interval and the remote PFCP nodes have other names (an entry of the file under the documented name ends the UPF, a variable is ignored), the documented example ends the UPF, and the default of the N9 address is the N3 address only if that comes from the command line.", "quantifier": "every documented parameter, every value, every combination of arguments, variables and entries", "why_tests_cant": "Ranges over all values and all combinations of the three sources; there is no test of the configuration sources.", "anchors": ["cmd/config/config.go:init", "cmd/config/config.go:Unmarshal", "cmd/config/startup.go:Init", "docs/Configuration.md"]}
{"id": "C106", "title": "Which message ends the process, exactly", "statement": "The process goes on whatever arrives. In the code it ends if and only if the loop takes a fatal message from the socket: a heartbeat request or response without Recovery Time Stamp (from anybody); an Establishment Request with Node ID and F-SEID of an associated peer, or a Modification Request for an established session, with a PDR to create or update whose PDI has no Source Interface, or with a FAR to create or update that has an empty Apply Action or undecodable Forwarding Parameters and is reached, that is, the FARs before it would be accepted. Nothing else that is decoded, no timer, no failure report and no traffic ends it.", "quantifier": "every state with a resource manager, every message; every configuration and timed interleaving of arrivals, loop steps, timers and traffic of any length", "why_tests_cant": "Needs all states and all contents of requests, including the state in which the rules before the broken one are processed; the tests send no broken FAR or PDR.", "anchors": ["cmd/core/pfcp_session_handlers.go:composeFarInfo", "cmd/core/display_utils.go:displayPdr", "cmd/core/pfcp_hearbeat.go:HandlePfcpHeartbeatRequest", "cmd/core/pfcp_connection.go:Run"]}
{"id": "C107", "title": "Two UPFs set up alike treat the same traffic alike, maximum bit rates included", "statement": "Two UPFs that got the same requests, up to the order in which each request lists its rules, and gave the same answers, then treat the same stream of packets, each arriving at the same time and with the same routes on both, the same: packet by packet the same verdict and the same bytes. This holds for any number of packets, of any subscribers, in both directions, pings of the UPF included, and with maximum bit rates: what the rate limiter of one has seen is what that of the other has seen, though the internal numbers of FARs and QERs differ.", "quantifier": "every two tidy histories with the same requests in which each PDR names a FAR and a QER; every stream of packets, of any length, at any times, that no updated filtered PDR captures", "why_tests_cant": "Needs all request histories, all permutations of rules and all packet streams with their arrival times; no test runs two instances or the limiter over more than one packet.", "anchors": ["cmd/core/pfcp_session_handlers.go:HandlePfcpSessionEstablishmentRequest", "cmd/core/pfcp_session_handlers.go:HandlePfcpSessionModificationRequest", "cmd/ebpf/xdp/qer.h:limit_rate_sliding_window", "cmd/ebpf/xdp/n3n6_entrypoint.c:upf_ip_entrypoint_func"]}
{"id": "C108", "title": "A new bit rate limit starts unused, and an update that repeats it does not reset it", "statement": "When a session is set up, or a modification creates or updates a QER, its maximum bit rate starts unused: the first packet after it is not held back by the limit, whatever earlier sessions in the same slot of the QER map, or the same QER before the update, have used. Conversely an Update QER that asks for what the QER already has should not change what becomes of the next packet.", "quantifier": "every tidy history that ends with an accepted request that sets the QER, with any traffic before it; every PDR of the session that names the QER, every packet it applies to, every time since boot that is at least the transmission time of the packet", "why_tests_cant": "Needs all histories in which QER slots are reused after traffic, and all packets; the tests never combine the PFCP handlers with the data plane.", "anchors": ["cmd/core/pfcp_session_handlers.go:HandlePfcpSessionEstablishmentRequest", "cmd/core/pfcp_session_handlers.go:HandlePfcpSessionModificationRequest", "cmd/ebpf/pdr.go:NewQer", "cmd/ebpf/pdr.go:UpdateQer", "cmd/ebpf/xdp/qer.h:limit_rate_sliding_window"]}
{"id": "C109", "title": "What a subscriber has used of his bit rate is touched by nobody else", "statement": "Requests about other sessions, of the same or of other peers, the end of another peer, and packets that other rules handle leave the QERs of a session as they are, including how much of its maximum bit rates its own packets have used: every later packet of the session is let through or dropped by gate and bit rate as if the others had done nothing.", "quantifier": "every history in which modifications name only FARs and QERs that exist, followed by any number of events that are not about the session; every FAR and QER of the session, every direction, time and packet length", "why_tests_cant": "Needs all interleavings of several sessions' requests and traffic; the tests run one session against a mock data plane without a rate limiter.", "anchors": ["cmd/core/pfcp_session_handlers.go:HandlePfcpSessionEstablishmentRequest", "cmd/core/pfcp_session_handlers.go:HandlePfcpSessionModificationRequest", "cmd/core/pfcp_session_handlers.go:HandlePfcpSessionDeletionRequest", "cmd/ebpf/pdr.go:NewQer", "cmd/ebpf/pdr.go:UpdateQer", "cmd/ebpf/pdr.go:DeleteQer"]}
