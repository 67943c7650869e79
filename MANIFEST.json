{
 "claims": [
  {
   "property": "C01",
   "status": "proved",
   "theorems": [
    "id_grant_exclusive",
    "id_grant_smallest"
   ],
   "note": ""
  },
  {
   "property": "C02",
   "status": "proved",
   "theorems": [
    "id_refused_iff_exhausted",
    "id_granted_when_available",
    "release_idempotent",
    "release_out_of_range"
   ],
   "note": ""
  },
  {
   "property": "C03",
   "status": "proved",
   "theorems": [
    "teid_grant_exclusive",
    "teid_outstanding_distinct",
    "teid_loop_terminates",
    "release_returns_teids"
   ],
   "note": "The pool constructor loops forever for a pool size of 2^32-1 (teid_loop_diverges_at_max), so pool sizes are below that."
  },
  {
   "property": "C04",
   "status": "proved",
   "theorems": [
    "ip_grant_exclusive"
   ],
   "note": ""
  },
  {
   "property": "C05",
   "status": "partial",
   "theorems": [
    "teid_no_loss_partial",
    "teid_no_loss_refuted",
    "ip_no_loss_partial",
    "ip_no_loss_refuted"
   ],
   "note": "Refuted by the code: allocating again for a busy key loses the earlier resource. The partial theorems give conservation for histories that never do so."
  },
  {
   "property": "C06",
   "status": "proved",
   "theorems": [
    "fseid_never_reused",
    "fseid_never_replaces_live"
   ],
   "note": ""
  },
  {
   "property": "C07",
   "status": "proved",
   "theorems": [
    "session_table_follows_log",
    "association_table_follows_log"
   ],
   "note": ""
  },
  {
   "property": "C08",
   "status": "proved",
   "theorems": [
    "est_missing_ids_no_effect",
    "no_association_no_effect",
    "unknown_seid_no_effect"
   ],
   "note": ""
  },
  {
   "property": "C09",
   "status": "proved",
   "theorems": [
    "response_answers_request",
    "unknown_message_ignored",
    "request_without_reply"
   ],
   "note": ""
  },
  {
   "property": "C10",
   "status": "proved",
   "theorems": [
    "other_sessions_untouched"
   ],
   "note": ""
  },
  {
   "property": "C100",
   "status": "partial",
   "theorems": [
    "idle_update_partial",
    "captured_dropped_partial",
    "captured_misdirected_partial",
    "idle_update_refuted"
   ],
   "note": "False of the code for packets in the tunnel or to the UE of an updated PDR with an SDF filter that the filter does not match: FAR 0 and QER 0 handle them, whoever they belong to. Proved for all other packets, after tidy histories (C66)."
  },
  {
   "property": "C101",
   "status": "partial",
   "theorems": [
    "past_is_forgotten_partial",
    "ended_sessions_leave_no_trace_partial",
    "packet_depends_on_decision",
    "past_is_forgotten_refuted"
   ],
   "note": "Tidy histories (C66) in which each PDR names a FAR and a QER; false of the code for packets captured by an updated PDR with a filter (C100). With a maximum bit rate the limiter remembers earlier packets, so these are excluded."
  },
  {
   "property": "C102",
   "status": "partial",
   "theorems": [
    "neighbours_harmless_partial",
    "neighbours_refuted"
   ],
   "note": "Tidy histories (C66) in which each PDR names a QER, and no packet captured by an updated PDR with a filter (C100). False of the code when a PDR names no QER: its packets use up the rate of the QER with data-plane number 0, which is that of another subscriber."
  },
  {
   "property": "C103",
   "status": "partial",
   "theorems": [
    "order_of_rules_irrelevant_partial",
    "order_of_rules_irrelevant_refuted"
   ],
   "note": "Tidy histories (C66) in which each PDR names a FAR and a QER; packets without maximum bit rate (see C107 for those with) that no updated filtered PDR captures (C101). False of the code for a PDR without filter beside one with a filter on the same tunnel or UE address (see C61)."
  },
  {
   "property": "C104",
   "status": "partial",
   "theorems": [
    "probed_every_interval_partial",
    "no_peer_waits_longer",
    "probed_every_interval_refuted"
   ],
   "note": "Proved when 3 seconds per peer fit into the interval; false of the code otherwise. For any number of peers the wait is at most an interval or a sweep, whichever is longer, and a sweep without the peer. Sending and computing take no time in the model."
  },
  {
   "property": "C105",
   "status": "partial",
   "theorems": [
    "documented_parameter_used_partial",
    "documented_parameters_accepted_partial",
    "documented_default_used_partial",
    "n9_default_partial",
    "documented_parameter_used_refuted",
    "documented_peers_refuted",
    "documented_example_refuted",
    "n9_default_refuted"
   ],
   "note": "Proved for all documented parameters but the echo interval and the remote PFCP nodes, and for the defaults that the documentation states as the code has them. False of the code for these two, for the documented example, and for the default of the N9 address."
  },
  {
   "property": "C106",
   "status": "partial",
   "theorems": [
    "fatal_exactly",
    "process_ends_exactly_by_fatal_message",
    "stranger_fatal",
    "whole_rules_not_fatal",
    "process_survives_refuted"
   ],
   "note": "Exact for every state and message, and for every run of the process; survival itself is false of the code."
  },
  {
   "property": "C107",
   "status": "partial",
   "theorems": [
    "same_packets_same_fate_partial"
   ],
   "note": "Tidy histories (C66) in which each PDR names a FAR and a QER, all requests before the first packet, no packet captured by an updated filtered PDR (C100)."
  },
  {
   "property": "C108",
   "status": "partial",
   "theorems": [
    "fresh_rate_partial",
    "update_forgives_refuted"
   ],
   "note": "First half proved for tidy histories (C66) and packets no earlier after boot than their transmission time at the limit. Second half false of the code: Update QER writes zero windows, so a peer that repeats it gives the subscriber more than the limit."
  },
  {
   "property": "C109",
   "status": "partial",
   "theorems": [
    "quota_through_others_partial",
    "quota_isolated_partial",
    "quota_isolated_refuted"
   ],
   "note": "Proved for orderly histories (C12), which the code does not enforce: a modification that updates a QER its session does not have resets the limiter of whoever owns slot 0 (quota_isolated_refuted)."
  },
  {
   "property": "C11",
   "status": "partial",
   "theorems": [
    "isolation_partial",
    "isolation_refuted",
    "quota_isolated_partial"
   ],
   "note": "Refuted: an Update or Remove of a FAR or QER id the session does not have acts on data-plane id 0. Proved for histories whose modifications name only existing FARs and QERs; quota_isolated_partial adds that the whole QER slot, limiter windows included, stays as it is."
  },
  {
   "property": "C12",
   "status": "proved",
   "theorems": [
    "dataplane_follows_requests",
    "dataplane_mirrors_sessions"
   ],
   "note": "dataplane_follows_requests: histories whose modifications are accepted; dataplane_mirrors_sessions: also rejected ones, in terms of the session's record."
  },
  {
   "property": "C13",
   "status": "proved",
   "theorems": [
    "establishment_installs"
   ],
   "note": "for every accepted establishment from a reachable state"
  },
  {
   "property": "C14",
   "status": "proved",
   "theorems": [
    "establishment_installs",
    "modification_reports"
   ],
   "note": "the reported TEIDs / UE addresses are the keys of the installed entries; establishment and modification"
  },
  {
   "property": "C15",
   "status": "partial",
   "theorems": [
    "session_deletion_partial",
    "deletion_leaves_key_refuted"
   ],
   "note": "Refuted by the code (TEIDs are remembered by their low octet while deleting); the partial theorem covers sessions whose uplink TEIDs differ in the low octet."
  },
  {
   "property": "C16",
   "status": "partial",
   "theorems": [
    "rejected_establishment_partial",
    "rejected_establishment_leaks_refuted"
   ],
   "note": "Refuted: a rejected establishment keeps the rule ids it took. Proved: no session appears and no rule in use is disturbed."
  },
  {
   "property": "C17",
   "status": "partial",
   "theorems": [
    "rejected_modification_partial",
    "rejected_modification_changes_refuted"
   ],
   "note": "Refuted: rules changed before the failing one stay changed."
  },
  {
   "property": "C18",
   "status": "partial",
   "theorems": [
    "live_teids_distinct_partial",
    "granted_teid_fresh_partial",
    "granted_teid_held",
    "live_teids_distinct_refuted"
   ],
   "note": "The property is false of the code: TEIDs are booked under the control plane's SEID but a deletion releases under the UP SEID, so deleting one session can free the TEID of another (live_teids_distinct_refuted, a concrete run). Proved for all histories in which control planes do not use one SEID for two live sessions, deletions are answered and name no other session's control plane SEID, and modifications keep F-TEIDs and the CP F-SEID (teid_history)."
  },
  {
   "property": "C19",
   "status": "partial",
   "theorems": [
    "deletion_returns_teids_partial",
    "deletion_returns_address_partial",
    "deletion_returns_address_refuted"
   ],
   "note": "TEIDs: proved for the histories of C18 in which PDR ids are not created twice. UE addresses: false of the code (booked under the CP SEID, released under the UP SEID); the exact effect of a deletion on the pool is proved and a run shows the leak."
  },
  {
   "property": "C20",
   "status": "partial",
   "theorems": [
    "deletion_reports_partial",
    "removal_reports_partial",
    "update_urr_loses_volume_refuted"
   ],
   "note": "Refuted: Update URR resets the counters. Proved: the reports carry exactly the counters at the time of removal."
  },
  {
   "property": "C21",
   "status": "partial",
   "theorems": [
    "every_frame_charged",
    "every_frame_charged_to_urr0_partial",
    "entry_urrs_charged",
    "charged_to_urr0_partial",
    "traffic_charged_refuted"
   ],
   "note": "Refuted: the control plane never stores URR ids, so all traffic is charged twice to URR 0. Proved: the data plane charges exactly the URRs of the entry, for every frame, the answer to a ping of the UPF included."
  },
  {
   "property": "C22",
   "status": "proved",
   "theorems": [
    "setup_accepted",
    "setup_response_effect"
   ],
   "note": ""
  },
  {
   "property": "C23",
   "status": "proved",
   "theorems": [
    "setup_rejected",
    "update_effect"
   ],
   "note": ""
  },
  {
   "property": "C24",
   "status": "partial",
   "theorems": [
    "failure_exactly_when_due_partial",
    "pruned_exactly_when_due_partial",
    "peers_independent",
    "failure_after_wrap_refuted"
   ],
   "note": "Proved for the first 2^24 - 2 heartbeats of an association; refuted afterwards (the counter is 32 bits, the wire field 24)."
  },
  {
   "property": "C25",
   "status": "partial",
   "theorems": [
    "stuck_iff_partial",
    "late_answer_blocks_refuted",
    "heartbeats_off_blocks_refuted",
    "unknown_peer_never_blocks"
   ],
   "note": "Refuted: exact characterisation of when the loop is stuck."
  },
  {
   "property": "C26",
   "status": "proved",
   "theorems": [
    "tokenize_is_the_regexp",
    "sdf_accepts_only_flow_texts",
    "sdf_text_one_reading",
    "sdf_regexp_one_reading"
   ],
   "note": ""
  },
  {
   "property": "C27",
   "status": "partial",
   "theorems": [
    "sdf_meaning",
    "sdf_ports_in_range",
    "parse_ipv4_spec",
    "stored_prefix_meaning",
    "ipv4_prefix_stored",
    "any_prefix_stored",
    "sdf_oversized_mask_refuted"
   ],
   "note": "Everything but one corner: see sdf_oversized_mask_refuted."
  },
  {
   "property": "C28",
   "status": "proved",
   "theorems": [
    "sdf_ipv4_match"
   ],
   "note": "Flow descriptions whose protocol is icmp, ip, tcp or udp; a filter with numeric protocol 58 matches no IPv4 packet (sdf_proto58_matches_nothing)."
  },
  {
   "property": "C29",
   "status": "partial",
   "theorems": [
    "sdf_ipv6_match_refuted",
    "sdf_ipv6_match_partial",
    "sdf_ipv6_prefix_ignored"
   ],
   "note": "Refuted by the code; see the theorems."
  },
  {
   "property": "C30",
   "status": "proved",
   "theorems": [
    "no_rule_passes_untouched",
    "no_session_untouched"
   ],
   "note": ""
  },
  {
   "property": "C31",
   "status": "proved",
   "theorems": [
    "not_permitted_dropped",
    "forwarded_is_permitted"
   ],
   "note": ""
  },
  {
   "property": "C32",
   "status": "proved",
   "theorems": [
    "downlink_encapsulated"
   ],
   "note": "the frame handed to the routing step, and the frame that leaves, for every payload below 65492 bytes and whenever there is headroom"
  },
  {
   "property": "C33",
   "status": "proved",
   "theorems": [
    "uplink_decapsulated",
    "inner_delivered_partial"
   ],
   "note": "for packets whose inner packet is located correctly, see C55"
  },
  {
   "property": "C34",
   "status": "proved",
   "theorems": [
    "tunnel_round_trip"
   ],
   "note": ""
  },
  {
   "property": "C35",
   "status": "partial",
   "theorems": [
    "uplink_relayed_partial",
    "uplink_relayed_refuted"
   ],
   "note": "Proved for outer IPv4 headers without options; refuted with options (the checksum is computed over 20 bytes)."
  },
  {
   "property": "C36",
   "status": "partial",
   "theorems": [
    "echo_answered_partial",
    "echo_answered_refuted",
    "echo_length_refuted"
   ],
   "note": "Everything but the checksum with IPv4 options is proved for IHL >= 5. Refuted: header checksum with IPv4 options; a request with information elements gets them overwritten and the lengths exceed the frame."
  },
  {
   "property": "C37",
   "status": "partial",
   "theorems": [
    "ping_answered_partial",
    "other_icmp_discarded",
    "ping_answered_refuted",
    "ping_reply_checksum_partial",
    "ping_reply_checksum_refuted"
   ],
   "note": "Refuted in one corner: identifier, sequence number and payload all zero."
  },
  {
   "property": "C38",
   "status": "proved",
   "theorems": [
    "ip_checksum_correct"
   ],
   "note": "for every behaviour of the kernel helper bpf_csum_diff that returns the word sum modulo 65535"
  },
  {
   "property": "C39",
   "status": "partial",
   "theorems": [
    "frames_within_mbr_partial",
    "airtime_bounded",
    "mbr_enforced_partial",
    "mbr_above_1g_refuted",
    "mbr_rounded_refuted",
    "mbr_race_refuted"
   ],
   "note": "Proved for packets handled one at a time: exact for MBRs dividing 10^9 bit/s, within a factor two up to 10^9. Refuted above 10^9, for rates that do not divide 10^9, and for several CPUs updating one window."
  },
  {
   "property": "C40",
   "status": "proved",
   "theorems": [
    "conforming_frames_pass",
    "unlimited_frames_pass",
    "conforming_never_dropped",
    "unlimited_never_dropped",
    "packet_passes_iff"
   ],
   "note": "Stated for the limiter (Qer.v) and for histories of frames with other traffic and control messages in between (XdpRate.v)."
  },
  {
   "property": "C41",
   "status": "partial",
   "theorems": [
    "mbr_installed_partial",
    "mbr_wraps_refuted",
    "mbr_rounded_refuted"
   ],
   "note": "Refuted: the value wraps at 2^32 bit/s (4294968 kbit/s becomes 704 bit/s)."
  },
  {
   "property": "C42",
   "status": "proved",
   "theorems": [
    "every_packet_counted"
   ],
   "note": ""
  },
  {
   "property": "C43",
   "status": "partial",
   "theorems": [
    "statistics_are_sums_partial",
    "statistics_count_packets_partial",
    "deltas_add_up_partial",
    "route_deltas_add_up",
    "gtp_unexp_refuted",
    "metrics_count_again_refuted",
    "metrics_sum_totals_refuted",
    "first_scrape_partial"
   ],
   "note": "All counters except RxGtpUnexp are 64-bit sums over the CPUs and count exactly the packets processed (tied to the XDP model by statistics_count_packets_partial); deltas add up for every field but that one. Refuted: RxGtpUnexp is always reported 0 (Add and Delta omit it), and the Prometheus counters add the whole total again on every scrape because GatherMetrics gets the statistics object by value."
  },
  {
   "property": "C44",
   "status": "partial",
   "theorems": [
    "rest_far_write_read",
    "rest_qer_write_read",
    "rest_write_refused",
    "rest_read_refused_partial",
    "rest_list_complete",
    "rest_read_wraps_refuted"
   ],
   "note": "Proved through the byte layouts of the Go and C structs. Refuted only for GET: ids in the URL are taken modulo 2^32."
  },
  {
   "property": "C45",
   "status": "partial",
   "theorems": [
    "rest_pdr_read_exact",
    "rest_pdr_write_exact",
    "rest_pdr_read_refuted"
   ],
   "note": "Refuted: the Go PdrInfo written and read by the REST handler does not have the layout of the C pdr_info; exact characterisation of what is read and written."
  },
  {
   "property": "C46",
   "status": "partial",
   "theorems": [
    "all_sessions_listed",
    "session_by_ip",
    "session_by_teid_partial",
    "associations_listed",
    "listing_status_partial",
    "session_by_teid_refuted",
    "listing_answered_once_refuted"
   ],
   "note": "Refuted for the TEID search: TEID 0 finds sessions that have only downlink rules, and the parameter is taken modulo 2^32; a parameter that does not parse is answered twice."
  },
  {
   "property": "C47",
   "status": "partial",
   "theorems": [
    "config_defaults",
    "invalid_config_refused",
    "config_defaults_refuted"
   ],
   "note": "Proved for max_sessions < 2^31; refuted above (the doubled size wraps modulo 2^32)."
  },
  {
   "property": "C48",
   "status": "partial",
   "theorems": [
    "unreadable_edit_changes_nothing_partial",
    "edit_status",
    "refused_edit_changes_refuted",
    "partial_edit_resets_refuted"
   ],
   "note": "Refuted: an edit refused because of its logging level has already replaced the configuration, and omitted fields are reset."
  },
  {
   "property": "C49",
   "status": "proved",
   "theorems": [
    "never_outside_frame"
   ],
   "note": ""
  },
  {
   "property": "C50",
   "status": "proved",
   "theorems": [
    "probe_sequence",
    "probe_only_configured",
    "tick_probes_all"
   ],
   "note": ""
  },
  {
   "property": "C51",
   "status": "partial",
   "theorems": [
    "malformed_crash_refuted",
    "missing_manager_crash_refuted",
    "no_crash_partial",
    "fatal_exactly"
   ],
   "note": "Refuted by the code; fatal_exactly says exactly which messages are fatal; no_crash_partial covers every message outside the listed malformations."
  },
  {
   "property": "C52",
   "status": "partial",
   "theorems": [
    "association_pruned_partial",
    "pruning_leaves_key_refuted"
   ],
   "note": "Refuted: see C15; URR ids are not released."
  },
  {
   "property": "C53",
   "status": "proved",
   "theorems": [
    "choose_id_sharing"
   ],
   "note": "chosen TEIDs are equal iff both PDRs give the same CHOOSE_ID; pool consumption counted"
  },
  {
   "property": "C54",
   "status": "partial",
   "theorems": [
    "octets_spec",
    "features_as_started_partial",
    "setup_answer_sent",
    "features_after_edit_refuted"
   ],
   "note": "Proved with respect to the configuration the UPF was started with, over every history; refuted with respect to the current configuration after an edit over REST."
  },
  {
   "property": "C55",
   "status": "partial",
   "theorems": [
    "inner_located_partial",
    "inner_delivered_partial",
    "inner_located_refuted"
   ],
   "note": "Exact characterisation; refuted for the S and PN flags and for other extension headers."
  },
  {
   "property": "C56",
   "status": "proved",
   "theorems": [
    "downlink_end_to_end",
    "uplink_end_to_end",
    "downlink_after_deletion"
   ],
   "note": ""
  },
  {
   "property": "C57",
   "status": "partial",
   "theorems": [
    "update_pdr_partial",
    "updates_change_what_they_say_partial",
    "update_pdr_leaves_old_key_refuted"
   ],
   "note": "Refuted: the old key stays installed."
  },
  {
   "property": "C58",
   "status": "proved",
   "theorems": [
    "sdf_beside_default",
    "sdf_other_keys"
   ],
   "note": ""
  },
  {
   "property": "C59",
   "status": "proved",
   "theorems": [
    "direction_independent",
    "other_direction_untouched"
   ],
   "note": ""
  },
  {
   "property": "C60",
   "status": "proved",
   "theorems": [
    "counts_follow_log",
    "session_count_changes"
   ],
   "note": ""
  },
  {
   "property": "C61",
   "status": "partial",
   "theorems": [
    "install_order_refuted",
    "sdf_beside_default",
    "default_put"
   ],
   "note": "Refuted: a PDR without filter wipes the filters installed before it."
  },
  {
   "property": "C62",
   "status": "partial",
   "theorems": [
    "refresh_asks_missing_partial",
    "asked_are_configured",
    "refresh_asks_only_configured",
    "refresh_hostname_refuted"
   ],
   "note": "Refuted for nodes configured by host name (associations are stored by IP address)."
  },
  {
   "property": "C63",
   "status": "partial",
   "theorems": [
    "valid_config_starts_partial",
    "starts_exactly_partial",
    "valid_config_starts_refuted"
   ],
   "note": "Refuted: association_setup_timeout 0, max_sessions 0 and teid_pool 2^32-1 pass validation but the UPF panics, exits or hangs."
  },
  {
   "property": "C64",
   "status": "partial",
   "theorems": [
    "accepted_is_response_partial",
    "wrong_sequence_accepted_refuted"
   ],
   "note": "Refuted: the sequence number of the answer is not compared."
  },
  {
   "property": "C65",
   "status": "proved",
   "theorems": [
    "probe_answered"
   ],
   "note": ""
  },
  {
   "property": "C66",
   "status": "partial",
   "theorems": [
    "pdrs_follow_requests_partial",
    "unclaimed_untouched_partial",
    "blocked_dropped_partial",
    "downlink_follows_requests_partial",
    "uplink_follows_requests_partial",
    "forwarding_follows_sessions_refuted"
   ],
   "note": "False of the code in general: two live sessions may share a TEID or UE address, and deleting one removes the other's rule (a concrete run). Proved for all tidy histories (a condition on the log alone: rule ids and keys used once, named rules exist, updates keep the key and do not give a filter to a PDR without one, removed TEIDs of a session differ in the low octet), for every packet; an updated PDR with a filter captures the packets of its tunnel or UE that the filter does not match (captures; see C100)."
  },
  {
   "property": "C67",
   "status": "partial",
   "theorems": [
    "pfcp_counters_exact",
    "causes_told_apart",
    "transmitted_all_counted_refuted"
   ],
   "note": "Proved for received messages, answers and causes over every history. Refuted: requests the UPF sends itself (association setup, heartbeat) are not counted in upf_pfcp_tx."
  },
  {
   "property": "C68",
   "status": "partial",
   "theorems": [
    "repeat_harmless_partial",
    "repeat_deletion",
    "repeat_rule_updates",
    "repeat_establishment_twice",
    "repeat_establishment_refuted"
   ],
   "note": "Proved for everything except session requests that were carried out, and for accepted modifications that only update FARs and QERs (same answer, nothing changes). A repeated accepted deletion changes nothing but is answered with another cause. Refuted: a repeated establishment makes a second session (the UPF does not detect retransmissions)."
  },
  {
   "property": "C69",
   "status": "partial",
   "theorems": [
    "setup_again_changes_nothing",
    "restart_drops_sessions_refuted"
   ],
   "note": "Refuted: a second setup changes nothing whatever its recovery time stamp."
  },
  {
   "property": "C70",
   "status": "partial",
   "theorems": [
    "downlink_follows_requests_partial",
    "uplink_follows_requests_partial",
    "unnamed_qer_refuted"
   ],
   "note": "Proved for PDRs that name a FAR and a QER of their session (tidy histories). Refuted: a PDR that names no QER is judged by whatever QER has data-plane id 0, possibly of another session."
  },
  {
   "property": "C71",
   "status": "partial",
   "theorems": [
    "never_counted_twice_partial",
    "uninterrupted_exact_partial",
    "parallel_packets_refuted",
    "reported_again_refuted",
    "lost_between_calls_refuted"
   ],
   "note": "False of the code: the counter is a shared value updated by a load and a store, and a report is a lookup and an update. n packets handled at once are counted as one (for every n); bytes charged between the two calls of a report are lost; a store that was pending when the counter was cleared makes reported bytes be reported again. Proved: without the latter nothing is counted twice, and the counts are exact when packets and reports do not interrupt each other."
  },
  {
   "property": "C72",
   "status": "partial",
   "theorems": [
    "listing_while_changing_partial",
    "listing_survives_partial",
    "listing_is_safe_refuted",
    "listing_killed_refuted"
   ],
   "note": "Proved for every interleaving that does not hit a map in the middle of a write. Refuted: a listing that does ends the process (Go's fatal error: concurrent map iteration and map write)."
  },
  {
   "property": "C73",
   "status": "partial",
   "theorems": [
    "states_are_the_handlers",
    "other_sessions_served_partial",
    "others_blocked_meanwhile_partial",
    "others_downlink_meanwhile_partial",
    "others_uplink_meanwhile_partial",
    "others_disturbed_refuted"
   ],
   "note": "Proved for tidy histories (DESIGN.md, C66) whose last message is the one being handled, for what a packet can see of any mixture of the intermediate states: its PDR from one state, each FAR and QER field from any state since. Refuted without tidiness: a modification of one session that removes a QER it does not have opens another session's closed gate. Element reuse inside the kernel's hash maps is not modelled."
  },
  {
   "property": "C74",
   "status": "partial",
   "theorems": [
    "established_whole_partial",
    "far_update_old_or_new_partial",
    "qer_update_old_or_new_partial",
    "handover_torn_refuted",
    "deletion_opens_gate_refuted"
   ],
   "note": "False of the code: a handover (Update FAR with a new tunnel) can send a packet to the new address with the old TEID; during a deletion the QER is cleared while a packet that found its PDR is still on its way, so that a closed gate is open for it. Proved: each PDR of a session being established is absent or works entirely as asked, and updates that change one field of one FAR or QER are old-or-new."
  },
  {
   "property": "C75",
   "status": "proved",
   "theorems": [
    "pdr_put",
    "pdr_update",
    "pdr_remove",
    "far_new",
    "qer_new",
    "urr_new",
    "rule_update",
    "rule_remove"
   ],
   "note": ""
  },
  {
   "property": "C76",
   "status": "proved",
   "theorems": [
    "chain_keeps_payload",
    "chain_delivers",
    "downlink_chain_delivers"
   ],
   "note": "The outer IPv4 header has no options (with options see C35, refuted). That each UPF sends the packet on is part of the journey; when it does is C30-C35."
  },
  {
   "property": "C77",
   "status": "partial",
   "theorems": [
    "answers_addressed_partial",
    "announced_kept",
    "answers_addressed_refuted"
   ],
   "note": "Refuted: without an association a modification is answered with the UPF's own session id in the header."
  },
  {
   "property": "C78",
   "status": "partial",
   "theorems": [
    "reported_at_most_twice_partial",
    "reported_at_most_carried_refuted"
   ],
   "note": "Refuted: the entry of a PDR in the data plane never holds its usage rules, both fields are 0, and each packet is counted twice for data-plane rule 0: one packet of a UPF with a single usage rule is reported with twice its size. Proved: never more than twice, over every history of messages and packets (the answer to a ping of the UPF counted as a downlink packet); the two volumes separately and together."
  },
  {
   "property": "C79",
   "status": "partial",
   "theorems": [
    "cached_route_is",
    "route_cache_transparent_partial",
    "cached_never_looked_up",
    "route_cache_transparent_refuted"
   ],
   "note": "Proved while the routes of the destinations do not change; refuted otherwise: a cached destination is never looked up again."
  },
  {
   "property": "C80",
   "status": "partial",
   "theorems": [
    "ttl_kept_partial",
    "packet_never_stops_refuted"
   ],
   "note": "False of the code: the decrement is commented out. Proved what happens instead (relayed, decapsulated and encapsulated packets keep their time to live, a new outer header gets 64), and that a packet with a time to live of 1 circulates between two UPFs for every number of hops."
  },
  {
   "property": "C81",
   "status": "partial",
   "theorems": [
    "handled_by_exactly_partial",
    "handled_by_match_partial",
    "match_is_handled",
    "filters_bypassed_refuted"
   ],
   "note": "False of the code when two PDRs with filters meet on one tunnel or address: the older filter is lost and packets that match neither are handled by FAR 0 and QER 0. Proved the exact choice for every sequence of installations and removals, the property itself where an unfiltered PDR stands (or at most one PDR), and that a packet with readable headers that matches some PDR is handled."
  },
  {
   "property": "C82",
   "status": "partial",
   "theorems": [
    "same_flow_same_rule",
    "fragments_alike_partial",
    "fragments_alike_refuted"
   ],
   "note": "First half proved. Second half false of the code for filters with port ranges: payload bytes of later fragments are taken for ports. Proved for entries without port ranges."
  },
  {
   "property": "C83",
   "status": "partial",
   "theorems": [
    "volume_exact_partial",
    "volume_refuted"
   ],
   "note": "False of the code: the whole frame as received is charged. Proved the exact volume for a usage rule that the entry names once; see C21 for which rules an entry names."
  },
  {
   "property": "C84",
   "status": "partial",
   "theorems": [
    "ue_reached_partial",
    "other_protocols_not_forwarded",
    "every_protocol_refuted"
   ],
   "note": "False of the code. Proved for ICMP, TCP and UDP over IPv4 and TCP and UDP over IPv6, and that packets of every other protocol go to the kernel unchanged in every state."
  },
  {
   "property": "C85",
   "status": "partial",
   "theorems": [
    "edit_only_ueip_partial",
    "edit_takes_effect_refuted"
   ],
   "note": "False of the code: everything but the UE address feature, the heartbeat parameters and the logging level is read once at the start. Proved that the rest of an edit influences neither messages nor sessions. Heartbeat timing is not part of this node model (C24, C25)."
  },
  {
   "property": "C86",
   "status": "partial",
   "theorems": [
    "stamp_is_last_start",
    "restart_detected_partial",
    "restart_detected_refuted"
   ],
   "note": "False of the code for starts within one second: the time stamp is in seconds and nothing else in the answers tells the lives apart. Proved for starts at least a second apart, with kills and crashes anywhere."
  },
  {
   "property": "C87",
   "status": "partial",
   "theorems": [
    "sessions_since_start",
    "rules_since_start_partial",
    "start_is_clean",
    "stale_session_id_refuted"
   ],
   "note": "Sessions, associations and (for tidy histories as in C66) rules are those since the last start, wherever the process was killed or crashed. False of the code: session ids are handed out from 2 again, so a stale id names another session."
  },
  {
   "property": "C88",
   "status": "partial",
   "theorems": [
    "deletion_accepted_partial",
    "tidy_session_deletable_partial",
    "shared_address_never_deleted",
    "session_can_be_deleted_refuted"
   ],
   "note": "False of the code: a session with two PDRs on one UE address (accepted at establishment) is never deleted by any number of deletion requests, which are not answered either. Proved that deletion is accepted whenever the rules of the session are installed under different addresses, in particular for every live session of a tidy history (C66)."
  },
  {
   "property": "C89",
   "status": "partial",
   "theorems": [
    "deletion_order_irrelevant_partial",
    "pruning_order_irrelevant_partial",
    "iteration_order_irrelevant_refuted"
   ],
   "note": "False of the code for TEIDs of one session with equal last octets: the order decides which rule stays behind. Proved for accepted deletions and for pruning otherwise."
  },
  {
   "property": "C90",
   "status": "partial",
   "theorems": [
    "established_if_room",
    "refused_if_no_ids",
    "sessions_fit_partial",
    "configured_sessions_fit_partial",
    "capacity_returns_partial",
    "configured_sessions_fit_refuted"
   ],
   "note": "False of the code: the URR map gets 2 entries per session where the documentation says 3; pruning an association leaks the ids of its URRs; an establishment answered 73 leaks the ids taken so far. Proved: for up to 2 URRs, after every history that is tidy (C66) and frugal (new rules have new ids, no establishment failed half way, no association with URRs was pruned)."
  },
  {
   "property": "C91",
   "status": "partial",
   "theorems": [
    "untouched_served_partial",
    "untouched_blocked_partial",
    "untouched_downlink_partial",
    "another_subscribers_tunnel_refuted"
   ],
   "note": "False of the code: a packet that found its PDR before its session was deleted may read the FAR of the session established next, which gets the freed number, and is sent into the tunnel of another UE. Proved: sessions that no message names are served as if nothing was going on, over any number of messages (tidy histories as in C66)."
  },
  {
   "property": "C92",
   "status": "partial",
   "theorems": [
    "packet_depends_on_own_rules",
    "put_far_partial",
    "put_qer_partial",
    "put_without_id_refuted",
    "put_other_rule_refuted"
   ],
   "note": "The URL id is ignored; holds when the body repeats it."
  },
  {
   "property": "C93",
   "status": "partial",
   "theorems": [
    "cause_says_why",
    "causes_documented_refuted",
    "present_called_missing_refuted"
   ],
   "note": "The codes 1, 65, 66, 72, 73 mean what the document says, over every history; deviations for 64, 69 and unreadable ids."
  },
  {
   "property": "C94",
   "status": "partial",
   "theorems": [
    "associated_by_exchange_partial",
    "unsolicited_association_refuted"
   ],
   "note": "Holds if answers count without the request; refuted for answers nobody asked for."
  },
  {
   "property": "C95",
   "status": "partial",
   "theorems": [
    "sessions_shown_partial",
    "associations_shown",
    "associations_full_refuted",
    "no_sessions_null_refuted",
    "usage_shown_refuted"
   ],
   "note": "sessions_shown_partial needs a tidy log (C66); the empty list, the URR volumes and the full listing are refuted; associations_shown is full"
  },
  {
   "property": "C96",
   "status": "partial",
   "theorems": [
    "task_per_association",
    "failure_finds_association",
    "whole_is_run",
    "handled_in_order",
    "never_crashes_partial",
    "process_ends_exactly_by_fatal_message",
    "process_survives_refuted"
   ],
   "note": "That no interleaving ends the process is false of the code for the malformed messages of C51 (process_survives_refuted); with a resource manager it is proved that exactly these end it (C106); the rest is full."
  },
  {
   "property": "C97",
   "status": "partial",
   "theorems": [
    "prompt_peer_kept",
    "prompt_peer_sessions_kept",
    "given_up_not_early_partial",
    "silent_peer_reported_partial",
    "reported_then_given_up",
    "late_answer_ends_service_refuted",
    "answering_peer_given_up_refuted"
   ],
   "note": "given_up_not_early_partial: fewer than 2^24 - 1 requests; silent_peer_reported_partial: the report, with the loop free to act on it (it may be stopped, see the refutations); retries below 2^32"
  },
  {
   "property": "C98",
   "status": "partial",
   "theorems": [
    "request_rate_partial",
    "heartbeat_storm_refuted"
   ],
   "note": "holds for peers whose answers are neither late nor repeated (calm); refuted in general"
  },
  {
   "property": "C99",
   "status": "partial",
   "theorems": [
    "live_is_node",
    "harmless_edits",
    "edits_never_crash_partial",
    "prompt_peer_kept_edits_partial",
    "zero_timeout_drops_anyone",
    "never_probed",
    "level_edit_drops_peer_refuted",
    "enabling_heartbeats_refuted"
   ],
   "note": "edits that keep heartbeats and the UE address feature are harmless; refuted for a body that omits the heartbeat fields; crash freedom excludes the malformed messages of C51 and a missing resource manager; edits happen between messages"
  }
 ]
}