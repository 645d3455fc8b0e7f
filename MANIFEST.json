{
 "claims": [
  {
   "property": "C01",
   "status": "proved",
   "theorems": [
    "C01_write_then_read",
    "C01_write_bulk"
   ],
   "note": ""
  },
  {
   "property": "C02",
   "status": "partial",
   "theorems": [
    "C02_histories_refine_window_semantics",
    "C02_constructors_well_formed",
    "C02_xor_bit_leaves_window_refuted"
   ],
   "note": "All window operations refine the tape semantics for every history. False for xor_bit, which ignores the window end (refuted witness)."
  },
  {
   "property": "C03",
   "status": "partial",
   "theorems": [
    "C03_conversions_lossless",
    "C03_copy_bits_lossless",
    "C03_into_bitvec_partial",
    "C03_into_bitvec_refuted"
   ],
   "note": "Lossless for all conversions except into_bitvec, which reads from bit 0 instead of the window start (refuted witness; true when the window starts at 0)."
  },
  {
   "property": "C04",
   "status": "partial",
   "theorems": [
    "C04_autoexpand_partial",
    "C04_autoexpand_growth_refuted"
   ],
   "note": "Proved for writes in append mode or inside the window; the general growth claim is false (refuted witness: overshoot after seeking back)."
  },
  {
   "property": "C05",
   "status": "partial",
   "theorems": [
    "C05_body_roundtrip_partial",
    "C05_type3_long_refuted",
    "C05_type4_count_refuted"
   ],
   "note": "Round trip proved for bodies whose type-3 element lengths fit 11 bits and type-4 counts fit 6 bits; without those bounds the writer truncates or the reader mis-parses (refuted witnesses)."
  },
  {
   "property": "C06",
   "status": "partial",
   "theorems": [
    "C06_type2_type3_no_panic_partial",
    "C06_type3_generic_panics_exactly_partial",
    "C06_type4_struct_panics_exactly_partial",
    "C06_type4_generic_panics_exactly_partial",
    "C06_type4_hostile_refuted",
    "C06_type3_hostile_refuted"
   ],
   "note": "Type-2 and struct type-3 parsing never panics; for type-3 generic and type-4 parsing the exact panic condition is proved and hostile witnesses show it is reachable, so the property is false of the code."
  },
  {
   "property": "C07",
   "status": "proved",
   "theorems": [
    "C07_conversions_and_addition",
    "C07_difference_is_shortest",
    "C07_forward_to_timeslot",
    "C07_age_and_validity"
   ],
   "note": ""
  },
  {
   "property": "C08",
   "status": "proved",
   "theorems": [
    "C08_formulas",
    "C08_one_per_multiframe",
    "C08_each_timeslot_once_in_four",
    "C08_sent"
   ],
   "note": ""
  },
  {
   "property": "C09",
   "status": "proved",
   "theorems": [
    "C09_every_history"
   ],
   "note": ""
  },
  {
   "property": "C10",
   "status": "proved",
   "theorems": [
    "C10_only_allowed_moves",
    "C10_competing_marks",
    "C10_second_stage_winner",
    "C10_unacked_never_acked_or_lost",
    "C10_observers"
   ],
   "note": ""
  },
  {
   "property": "C11",
   "status": "proved",
   "theorems": [
    "C11_membership_exact",
    "C11_accepts_exactly_disjoint",
    "C11_order_irrelevant",
    "C11_empty_range_order_matters"
   ],
   "note": ""
  },
  {
   "property": "C12",
   "status": "partial",
   "theorems": [
    "C12_frequencies_partial",
    "C12_standard_table",
    "C12_spacing_used",
    "C12_downlink_injective",
    "C12_offset_conversions",
    "C12_negative_downlink_refuted",
    "C12_uplink_underflow_refuted"
   ],
   "note": "True for every accepted setting whose nominal downlink is non-negative and whose uplink is representable (always the case from band 1 with the standard table); accepted settings outside that wrap or panic (refuted witnesses)."
  },
  {
   "property": "C13",
   "status": "proved",
   "theorems": [
    "C13_padding_removed",
    "C13_no_padding",
    "C13_length_beyond_window",
    "C13_padding_amount",
    "C13_padding_written"
   ],
   "note": ""
  },
  {
   "property": "C14",
   "status": "partial",
   "theorems": [
    "C14_reassembly_partial",
    "C14_terminates_partial",
    "C14_report_partial",
    "C14_last_octet_refuted"
   ],
   "note": "Every piece fits, the receiver gets exactly the SDU and the process terminates, for all block sequences in which header+SDU does not end inside an incomplete last octet; in that case (e.g. 268 bits in a 268-bit slot) the length indication is rounded down and bits are lost (refuted witness)."
  },
  {
   "property": "C15",
   "status": "partial",
   "theorems": [
    "C15_reassembly_partial",
    "C15_collection_unique",
    "C15_independent_of_others",
    "C15_stale_discarded",
    "C15_encryption_flag",
    "C15_empty_delivery_refuted",
    "C15_no_timeout_without_tick_refuted"
   ],
   "note": "Exact reassembly for every history. False of the code: after a timeout or overflow the end of an SDU still hands out an empty SDU with address 0, and age_buffers is never called by the base station so nothing times out (refuted witnesses)."
  },
  {
   "property": "C16",
   "status": "partial",
   "theorems": [
    "C16_grants_never_collide",
    "C16_refused_only_when_full",
    "C16_first_slot_after_grant",
    "C16_delay_code_refuted",
    "C16_request15_refuted"
   ],
   "note": "Proved for every history of slots and requests (codes 0..14): grants never overlap, have the size asked for, lie in the future and within the horizon, and ownership lookup agrees with what radios were told. Two aspects are false of the code and shown as _refuted theorems: delays 14 and more collide with special codes, and request code 15 panics."
  },
  {
   "property": "C17",
   "status": "partial",
   "theorems": [
    "C17_slot",
    "C17_history",
    "C17_order",
    "C17_mixed_refuted",
    "C17_grants_refuted",
    "C17_leftover_refuted"
   ],
   "note": "C17_slot: one slot after any history (block size, each ready message served or left, progress, reports). C17_history: heard + queued = asked for, over every history of events on the timeslot (no stealing and no end of hang time on it, which discard the queue by design). C17_order: exact order when the MAC headers have one size. False of the code, with witnesses: C17_mixed_refuted (two fragmented messages interleave), C17_grants_refuted (of two grants to one station only the last is sent), C17_leftover_refuted (panic). Nothing in the code creates a broadcast element, so its precedence is vacuous. Messages whose last octet would be cut by the 268-bit slot are excluded (see C14)."
  },
  {
   "property": "C18",
   "status": "partial",
   "theorems": [
    "C18_mac_resource",
    "C18_mac_frag",
    "C18_mac_end_dl",
    "C18_mac_end_length_refuted",
    "C18_mac_end_ul_partial",
    "C18_mac_end_hu",
    "C18_mac_access",
    "C18_mac_data",
    "C18_mac_blocks",
    "C18_access_assign",
    "C18_access_assign_width",
    "C18_sync",
    "C18_sysinfo_partial",
    "C18_sysinfo_ts_mode_refuted",
    "C18_access_define",
    "C18_field_values_refuted",
    "C18_uplink_readers_total"
   ],
   "note": "All PDUs round-trip for every value meaningful in the format tables. False of the code: MAC-END with slot grant announces a header two bits short; SYSINFO option 0/1 variants; MAC-END-UL reservation requests; grant delays 14+ (refuted witnesses)."
  },
  {
   "property": "C19",
   "status": "partial",
   "theorems": [
    "C19_reservation_partial",
    "C19_mac_end_ul_refuted",
    "C19_slot_counts"
   ],
   "note": "True for MAC-ACCESS, MAC-DATA and MAC-END-HU; false for MAC-END on the uplink, where every request is refused (0x110000 instead of 0b110000)."
  },
  {
   "property": "C20",
   "status": "partial",
   "theorems": [
    "C20_block_partial",
    "C20_damage_refuted",
    "C20_request",
    "C20_queue",
    "C20_slot",
    "C20_owed"
   ],
   "note": "A message whose header (43 bits, 49 with a usage marker) and SDU fill whole octets is recovered exactly; the choice of timeslot, the order of half slots and their place on the air hold for every history. False otherwise (C20_damage_refuted, for every such SDU): the header announces fill bits but none are written, so the receiver removes the end of the SDU; sizes 121-124 announce 16 octets in a block of 124 bits and cannot be read; longer SDUs panic."
  },
  {
   "property": "C21",
   "status": "proved",
   "theorems": [
    "C21_blocks_in_order",
    "C21_nothing_when_closed",
    "C21_total"
   ],
   "note": ""
  },
  {
   "property": "C22",
   "status": "proved",
   "theorems": [
    "C22_labels"
   ],
   "note": "The event label module has no lifetimes; the theorem is for label cycles. It also characterises exactly when the store stops (asked to label an SSI with a live label). The module is not called by the base station at this commit."
  },
  {
   "property": "C23",
   "status": "partial",
   "theorems": [
    "C23_stop_and_wait",
    "C23_tick_end_settles",
    "C23_numbers_alternate",
    "C23_panics_partial",
    "C23_panic_after_drops_refuted"
   ],
   "note": "Stop-and-wait order, retry limit, alternation and progress are proved for every history of calls (C23_stop_and_wait, C23_tick_end_settles, C23_numbers_alternate). Panic freedom holds only while the MAC reports no message dropped: with drops the link layer panics when it gives a message up (C23_panic_after_drops_refuted)."
  },
  {
   "property": "C24",
   "status": "partial",
   "theorems": [
    "C24_one_ack_each",
    "C24_in_its_tick_refuted",
    "C24_once_refuted"
   ],
   "note": "One acknowledgement per received numbered PDU, piggybacked or stand-alone, is proved for every history. 'In the tick in which it was scheduled' and 'exactly once on air' are false for piggybacked ones: they wait behind an outstanding message and are repeated with retransmissions (two _refuted witnesses)."
  },
  {
   "property": "C25",
   "status": "partial",
   "theorems": [
    "C25_accepted_partial",
    "C25_burst_rejected",
    "C25_too_short_rejected",
    "C25_empty_message_refuted"
   ],
   "note": "True for every non-empty message; a frame check sequence over an empty message panics (C25_empty_message_refuted)."
  },
  {
   "property": "C26",
   "status": "partial",
   "theorems": [
    "C26_scramble",
    "C26_sequence",
    "C26_codes_distinct",
    "C26_colour0_refuted"
   ],
   "note": "Proved for all codes and colour codes 1..63; false for colour code 0: scramb_get_init returns 0, so all such networks share a code and nothing is scrambled (C26_colour0_refuted; the standard's BSCH initial value is 3)."
  },
  {
   "property": "C27",
   "status": "proved",
   "theorems": [
    "C27_block",
    "C27_matrix",
    "C27_reorder",
    "C27_reorder_back"
   ],
   "note": ""
  },
  {
   "property": "C28",
   "status": "proved",
   "theorems": [
    "C28_accepts",
    "C28_rejects"
   ],
   "note": "Also proved: every odd number of errors and, up to 32767 bits, any one to three errors are rejected."
  },
  {
   "property": "C29",
   "status": "proved",
   "theorems": [
    "C29_rm3014",
    "C29_rm3014_single_error",
    "C29_aach"
   ],
   "note": ""
  },
  {
   "property": "C30",
   "status": "proved",
   "theorems": [
    "C30_most_likely",
    "C30_error_free",
    "C30_generators"
   ],
   "note": ""
  },
  {
   "property": "C31",
   "status": "proved",
   "theorems": [
    "C31_encode",
    "C31_roundtrip",
    "C31_total"
   ],
   "note": "t = 1 for every control channel (the rate 2/3 punctured code has free distance 4). Decoding is also total for every received block."
  },
  {
   "property": "C32",
   "status": "proved",
   "theorems": [
    "C32_roundtrip",
    "C32_total"
   ],
   "note": "Also with one flipped bit on air: protected bits and the good-frame report are unaffected. The half-slot form used when the first half is stolen (block number 2) is only modelled."
  },
  {
   "property": "C33",
   "status": "proved",
   "theorems": [
    "C33_registry"
   ],
   "note": "Affiliating or deaffiliating an unknown subscriber also registers it, and the specification says so."
  },
  {
   "property": "C34",
   "status": "partial",
   "theorems": [
    "C34_registry",
    "C34_calls_partial",
    "C34_calls_refuted",
    "C34_network_told"
   ],
   "note": "The registry part (C34_registry) is proved for all histories. The call-control part is proved for all histories of requests that do not detach a group and attach it again further on in the same list (C34_calls_partial), once the updates on their way are delivered in order; it is false otherwise (C34_calls_refuted). C34_network_told adds what the network is told."
  },
  {
   "property": "C35",
   "status": "partial",
   "theorems": [
    "C35_coherent_partial",
    "C35_release_partial",
    "C35_umac_partial",
    "C35_coherent_refuted"
   ],
   "note": "Proved for every history in which fewer than 1023 other calls are set up during the life of a call (call identifiers then cannot wrap onto a live call). False in general: C35_coherent_refuted reaches, by repeated network calls during one long call, a state in which the long call is overwritten, its timeslot stays taken and no call owns it. Panics of the event handler are excluded by the hypothesis that the step returns."
  },
  {
   "property": "C36",
   "status": "partial",
   "theorems": [
    "C36_hang_no_speaker",
    "C36_hang_begins",
    "C36_silence_partial",
    "C36_silence_elsewhere",
    "C36_hang_released",
    "C36_hang_bounded",
    "C36_hang_runs",
    "C36_hang_kept_partial",
    "C36_end_reason_partial",
    "C36_listened",
    "C36_floor_kept",
    "C36_floor_granted"
   ],
   "note": "Hang time, floor control and listener statements hold in every reachable state. That nothing else ends a call (C36_hang_kept_partial, C36_end_reason_partial) is proved under the bound of 1023 other calls set up during the life of a call, because beyond it call identifiers are reused (C35_coherent_refuted). The list of reasons also contains the maximum call duration and U-RELEASE by any radio, which the English property does not mention."
  },
  {
   "property": "C37",
   "status": "partial",
   "theorems": [
    "C37_ids_partial",
    "C37_usages_partial",
    "C37_usages_refuted",
    "C37_ids_refuted"
   ],
   "note": "Proved for call identifiers when fewer than 1023, and for usage markers when fewer than 60, other calls are set up during the life of a call. Refuted without these bounds."
  },
  {
   "property": "C38",
   "status": "partial",
   "theorems": [
    "C38_short_data",
    "C38_short_data_read",
    "C38_short_data_dropped",
    "C38_status_partial",
    "C38_status_dropped",
    "C38_status_refuted",
    "C38_status_group_refuted"
   ],
   "note": "Short data (U-SDS-DATA) proved in full for every registry history and configuration; status messages proved except that (refuted) pre-coded status 31743 panics the base station and statuses addressed to local groups are not delivered to them. Received/consumed status reports become the same report on the network (reports_merged). Over-long type 3 elements, which panic the parser, belong to C47."
  },
  {
   "property": "C39",
   "status": "partial",
   "theorems": [
    "C39_no_crash",
    "C39_parse",
    "C39_parse_error",
    "C39_subscriber_partial",
    "C39_group_tx",
    "C39_group_idle",
    "C39_short_transfer",
    "C39_frames",
    "C39_query",
    "C39_register_refuted"
   ],
   "note": "Parser characterised exactly (message iff the bytes are that message by an independent wire specification incl. UTF-8; never panics); every builder read back with its fields, except that build_subscriber_register drops its groups argument (refuted; the only caller passes none). The clock and serde_json's number printing are modelled."
  },
  {
   "property": "C40",
   "status": "proved",
   "theorems": [
    "C40_account",
    "C40_drops_oldest",
    "C40_playout"
   ],
   "note": ""
  },
  {
   "property": "C41",
   "status": "proved",
   "theorems": [
    "C41_group",
    "C41_individual",
    "C41_service",
    "C41_active"
   ],
   "note": ""
  },
  {
   "property": "C42",
   "status": "proved",
   "theorems": [
    "C42_order",
    "C42_exactly_once",
    "C42_tick_end_phases",
    "C42_main_loop"
   ],
   "note": ""
  },
  {
   "property": "C43",
   "status": "partial",
   "theorems": [
    "C43_normal_burst",
    "C43_sync_burst",
    "C43_normal_blocks_recoverable",
    "C43_sync_blocks_recoverable",
    "C43_request_sync",
    "C43_request_half_slots",
    "C43_request_full_slot",
    "C43_normal_phase_partial",
    "C43_sync_phase_partial",
    "C43_phase_refuted",
    "C43_received_full_slot",
    "C43_received_half_slots",
    "C43_received_control"
   ],
   "note": "Layout, lengths and recoverability proved for every block content, also through the lower MAC request and for received uplink bursts. The phase claim is false of the code: PHASE2BITS swaps the bits of +3 and -1, so the adjustment is half a turn wrong for half of all bursts (exact residue proved, refuted witness)."
  },
  {
   "property": "C44",
   "status": "proved",
   "theorems": [
    "C44_bl_ack",
    "C44_bl_adata",
    "C44_bl_data",
    "C44_bl_udata"
   ],
   "note": "All four basic link PDUs of crates/tetra-pdus/src/llc/pdus; reader and writer against the wire layout."
  },
  {
   "property": "C45",
   "status": "partial",
   "theorems": [
    "C45_d_lu_proceeding",
    "C45_u_attach_detach",
    "C45_u_attach_detach_ack",
    "C45_u_itsi_detach",
    "C45_u_lu_demand",
    "C45_d_attach_detach",
    "C45_d_attach_detach_parsed",
    "C45_d_attach_detach_ack",
    "C45_d_attach_detach_ack_parsed",
    "C45_d_lu_accept",
    "C45_d_lu_accept_parsed",
    "C45_u_mm_status",
    "C45_function_not_supported",
    "C45_d_lu_reject_written",
    "C45_d_lu_command_written",
    "C45_d_mm_status_written",
    "C45_function_not_supported_written",
    "C45_d_lu_reject_refuted",
    "C45_d_lu_command_refuted",
    "C45_d_mm_status_refuted",
    "C45_function_not_supported_refuted",
    "C45_u_mm_status_refuted",
    "C45_energy_saving_refuted",
    "C45_group_identity_uplink_refuted",
    "C45_type4_refuted"
   ],
   "note": "Eleven PDUs and their group identity elements proved to follow their documented layout bit for bit, written and read, for every representable value. False of the code: energy saving information never round-trips, D-LOCATION-UPDATE-REJECT/COMMAND and D-MM-STATUS are written correctly but their parsers always panic, type 4 elements of unspecified content are read but not written, U-MM-STATUS with more than 64 bits is refused, a function-not-supported sub-type is refused by the parser (_refuted theorems)."
  },
  {
   "property": "C46",
   "status": "partial",
   "theorems": [
    "C46_cmce_function_not_supported",
    "C46_d_alert",
    "C46_d_call_proceeding",
    "C46_d_call_restore",
    "C46_d_connect",
    "C46_d_connect_acknowledge",
    "C46_d_disconnect",
    "C46_d_facility",
    "C46_d_info",
    "C46_d_release",
    "C46_d_sds_data",
    "C46_d_setup",
    "C46_d_status",
    "C46_d_tx_ceased",
    "C46_d_tx_continue",
    "C46_d_tx_granted",
    "C46_d_tx_interrupt",
    "C46_d_tx_wait",
    "C46_u_alert",
    "C46_u_call_restore",
    "C46_u_connect",
    "C46_u_disconnect",
    "C46_u_facility",
    "C46_u_info",
    "C46_u_release",
    "C46_u_sds_data",
    "C46_u_setup",
    "C46_u_status",
    "C46_u_tx_ceased",
    "C46_u_tx_demand",
    "C46_status_refuted",
    "C46_function_not_supported_refuted"
   ],
   "note": "All 30 PDUs proved to follow their documented layout bit for bit, written and read, for every representable value. Missing: type 3 elements longer than 64 bits (the code keeps 64 bits only), pre-coded status 31743 and a non-zero CMCE-FUNCTION-NOT-SUPPORTED pointer, for which the parser panics (two _refuted witnesses)."
  },
  {
   "property": "C47",
   "status": "partial",
   "theorems": [
    "C47_lower_mac_partial",
    "C47_lower_mac_refuted",
    "C47_every_tick_partial",
    "C47_requests_partial",
    "C47_encrypted_access_refuted",
    "C47_late_grant_refuted",
    "C47_left_behind_refuted",
    "C47_mobility_partial",
    "C47_mobility_refuted",
    "C47_short_data_partial",
    "C47_short_data_refuted",
    "C47_call_control_partial",
    "C47_call_control_refuted",
    "C47_network_speaker_refuted",
    "C47_upper_mac_partial",
    "C47_upper_mac_refuted",
    "C47_reservation_15_refuted",
    "C47_layers_partial",
    "C47_layers_refuted",
    "C47_fates_refuted",
    "C47_too_long_refuted"
   ],
   "note": "Upper MAC, link layer and mobile link entity: exact characterisation of the blocks that stop the program (C47_upper_mac_*, C47_layers_partial); refuted: reserved or too short lengths, MAC-U-BLCK, reservation requirement 15, link layer PDU types 13/14, BL-UDATA, data without data, packet data, lone FCS. Lower MAC: no burst stops it except by such a block, or by a first half slot whose MAC-DATA announces a stolen second half where no speech is due (C47_lower_mac_partial, C47_lower_mac_refuted). Layer 3: mobility management, the short data service and call control survive every message that is not hostile in the sense of Layer3Spec, told on the bits alone (C47_mobility_partial, C47_short_data_partial, C47_call_control_partial: call control over whole histories of radio, network and timer events); refuted: over-long type 3 elements, type 4 lists shorter than their count, status 31743, a network speaker above 24 bits. The base station goes on: after any history every tick makes its burst unless what waits for the timeslot jams it (a header no radio could read, or a stolen half slot without a circuit), and every proper request of the layers above is taken (C47_every_tick_partial, C47_requests_partial); refuted without the restriction: an encrypted MAC-ACCESS, a grant sixteen opportunities away, a stolen half slot left behind. C47_too_long_refuted (Props_Uplink): a message above 4096 bits whose last part asks for a slot stops the next tick."
  },
  {
   "property": "C48",
   "status": "partial",
   "theorems": [
    "C48_any_block",
    "C48_block_as_sent",
    "C48_sdus_in_order",
    "C48_after_empty_access_refuted",
    "C48_after_encrypted_refuted",
    "C48_after_stray_end_refuted"
   ],
   "note": "Proved for every reachable state and every bit string (C48_any_block against the independent bit-list description UlBlockSpec; C48_block_as_sent against the layouts of the standard; C48_sdus_in_order). Refuted as stated: PDUs behind a random access without SDU, behind an encrypted PDU and behind a stray MAC-END are ignored although they fit the block."
  },
  {
   "property": "C49",
   "status": "proved",
   "theorems": [
    "C49_loopback",
    "C49_network",
    "C49_packed",
    "C49_short_rejected",
    "C49_accepted_blocks_fill"
   ],
   "note": "A 36-byte uplink block is taken as already framed for the network; the theorems cover the block forms the MAC produces (one byte per bit) and the packed forms."
  },
  {
   "property": "C50",
   "status": "partial",
   "theorems": [
    "C50_no_crash",
    "C50_uplink",
    "C50_sessions",
    "C50_downlink",
    "C50_owner_partial",
    "C50_one_call_partial",
    "C50_one_call_refuted",
    "C50_owner_refuted",
    "C50_downlink_owner_refuted",
    "C50_speaker_change_refuted",
    "C50_session_end_refuted",
    "C50_requests",
    "C50_end",
    "C50_answer_partial",
    "C50_answer_refuted"
   ],
   "note": "worker.rs and entity.rs of net_brew are modelled and composed with the call control model through a FIFO of messages. Entity alone, all histories: never crashes; uplink speech forwarded exactly for the relayed turn, under a session announced with its talker and group and used by no other timeslot; each session is a well-formed sequence; play-out exact. Composite: forwarded speech belongs to the call owning the timeslot, for histories without a radio taking over a network call and without circuit expiry during speech (partial); at most one local call per network call if the network names one group per call and no two calls share a group (partial). Refuted in general by five concrete histories: two calls for one network call, speech of a local-only group leaking to the network, network speech sent on another call's timeslot, a speaker change silencing the call, a session never ended. Requests of the network reach call control and are answered (C50_requests, C50_answer_partial, C50_end); with no free timeslot there is no answer (C50_answer_refuted)."
  },
  {
   "property": "C51",
   "status": "proved",
   "theorems": [
    "C51_network_time",
    "C51_broadcast_pdu",
    "C51_broadcast_once"
   ],
   "note": ""
  },
  {
   "property": "C52",
   "status": "proved",
   "theorems": [
    "C52_delivered"
   ],
   "note": "The frame check sequence is not stripped from the SDU handed on: the bits delivered are all bits after the header."
  },
  {
   "property": "C53",
   "status": "proved",
   "theorems": [
    "C53_unacknowledged_sent_once"
   ],
   "note": ""
  },
  {
   "property": "C54",
   "status": "partial",
   "theorems": [
    "C54_setups_true_partial",
    "C54_announced_partial"
   ],
   "note": "Proved under the bound of C35 (fewer than 1023 other calls set up during the life of a call), beyond which call identifiers are reused."
  },
  {
   "property": "C55",
   "status": "partial",
   "theorems": [
    "C55_location_update_partial",
    "C55_location_refused",
    "C55_location_mode_refuted",
    "C55_group_request",
    "C55_group_request_stranger",
    "C55_detach",
    "C55_status",
    "C55_ignored"
   ],
   "note": "Proved for every request of every supported kind; the detach-all mode of a location update is not observed by the code (C55_location_mode_refuted), so that clause is missing from C55_location_update_partial. Messages whose parser panics are the subject of C47."
  },
  {
   "property": "C56",
   "status": "partial",
   "theorems": [
    "C56_from_network_partial",
    "C56_disabled",
    "C56_to_network",
    "C56_offline",
    "C56_control_partial",
    "C56_length_refuted",
    "C56_source_refuted",
    "C56_control_length_refuted",
    "C56_control_source_refuted",
    "C56_control_group_refuted"
   ],
   "note": "Proved for frames that hold as many bits as they announce and senders of 24 bits (C56_from_network_partial, C56_to_network, C56_control_partial). Refuted otherwise: a network frame or control command that announces more bits than it carries, or a sender number of more than 24 bits, panics the base station; the control link cannot reach groups."
  },
  {
   "property": "C57",
   "status": "partial",
   "theorems": [
    "C57_view",
    "C57_registry_partial"
   ],
   "note": "C57_view is the full statement relative to what mobility management reports; C57_registry_partial ties it to mobility management's own tables for orderly requests (see C34 for the requests after which those reports themselves are wrong)."
  },
  {
   "property": "C58",
   "status": "partial",
   "theorems": [
    "C58_any_block",
    "C58_sent",
    "C58_understood",
    "C58_fcs_refuted",
    "C58_history"
   ],
   "note": "Proved for whole histories; false for messages with a frame check sequence (C58_fcs_refuted): its 32 bits are left on the message."
  },
  {
   "property": "C59",
   "status": "partial",
   "theorems": [
    "C59_every_slot",
    "C59_assignment_partial",
    "C59_hang_time_refuted"
   ],
   "note": "C59_every_slot holds for every history of the upper MAC (UmacBs.v) that does not end in a panic; the statement is SlotSpec.slot_true. The agreement of the access assignment with the slot (C59_assignment_partial) is restricted to slots outside hang time because it is false there: with a stolen half slot pending in hang time the slot carries STCH and traffic and the uplink is received as traffic, but the access assignment announces an assigned control channel (C59_hang_time_refuted). Observation: on timeslot 1 the access assignment offers random access also in uplink slots granted to one radio (it never depends on the grants). What the signalling blocks hold is the subject of C17 and C20."
  },
  {
   "property": "C60",
   "status": "proved",
   "theorems": [
    "C60_every_burst",
    "C60_whole_slot",
    "C60_never_stuck",
    "C60_right_timeslot",
    "C60_access_burst",
    "C60_signalling_burst",
    "C60_burst_to_link",
    "C60_speech_burst",
    "C60_half_slots"
   ],
   "note": "The base station is BsMac.v: the upper MAC (UmacBs.v), the lower MAC (LmacBs.v) and the framing (Slotter.v) joined as the message router joins them; the modem itself and the search for training sequences are C43 or outside. Every theorem is about any history that does not end in a panic (bs_reached). The radio is specified in AirSpec.v independently of the encoder (part, on_air, arrives). Correction of wrong bits is stated for at most one per block (the guarantee C30/C31 proves; more may be corrected). For uplink: stolen_since = false says that no first half slot of the same tick has already announced a stolen second half; the physical side detects at most one burst per slot except for false training sequences."
  },
  {
   "property": "C61",
   "status": "partial",
   "theorems": [
    "C61_heard_once_partial",
    "C61_all_heard_partial",
    "C61_in_order_partial",
    "C61_mixed_refuted"
   ],
   "note": "C61_heard_once: over every history of the whole base station (bs_history), what radios decode from the bursts (receives: on_air of AirSpec.v; hear: reassembly of DlSchedSpec.v) plus what is queued is a permutation of what was asked for. C61_all_heard: after at most 8 slots per bit and header that waits, all of it is heard. C61_in_order: same order when nothing is granted meanwhile and headers have one size. Assumed of the timeslot (proper): buffers at their start, reports pending, no message cut in the half octet of C14, nothing stolen from it, no floor change or call end on it (these discard the queue by design; C36, C17). hopeful: nothing waits that C47 shows to stop the tick. False of the code, with a witness: C61_mixed_refuted (pieces of two long messages interleave when their headers differ in size)."
  },
  {
   "property": "C62",
   "status": "partial",
   "theorems": [
    "C62_settings_taken",
    "C62_unknown_refused_partial",
    "C62_unknown_in_command_refuted",
    "C62_in_order_accepted",
    "C62_documented_setting_refuted",
    "C62_on_frequency_partial",
    "C62_mode_checked_refuted",
    "C62_starts_and_runs_partial",
    "C62_widths_checked_refuted",
    "C62_neighbours_used_refuted",
    "C62_gain_order_refuted"
   ],
   "note": "C62_settings_taken: every setting of an accepted file, each section (ConfigSpec.means lists them with types and defaults). C62_unknown_refused, C62_in_order_accepted: which files are refused and accepted; parsed: no name twice, which the TOML parser ensures. C62_on_frequency: what a radio computes from the broadcast SYSINFO (EN 300 392-2 21.4.4.1, TS 100 392-15) is the tuned frequency up to a fraction of a Hz and the ppm correction; for mode Bs and bands from 100 MHz; the uplink without a custom spacing. C62_starts_and_runs: for settings that fit their fields (widths_fit). False of the code, each with a witness: widths not checked (eight settings, the first timeslot panics), stack mode not checked, unknown settings in section command accepted, a documented setting refused, neighbour cell broadcast setting unused, gain names differing in case. Not modelled: TOML syntax, rounding of floats."
  },
  {
   "property": "C63",
   "status": "partial",
   "theorems": [
    "C63_every_history",
    "C63_every_upper_history",
    "C63_acts_explained",
    "C63_only_what_was_sent",
    "C63_begun",
    "C63_continued",
    "C63_undisturbed",
    "C63_whole_message_partial",
    "C63_unfinished_forgotten_refuted",
    "C63_too_long_dropped_refuted"
   ],
   "note": "C63_every_history: every history of the whole base station is a history of acts of received PDUs (UplinkSpec.lived; an act is what UlBlockSpec says a PDU on plain bits does). C63_acts_explained: what every act hands up in terms of the acts before it; C63_only_what_was_sent: every SDU in the log has an origin. C63_begun, C63_continued, C63_undisturbed, C63_whole_message_partial: the message in parts, step by step; whole_message is for messages of at most 4096 bits whose last part is the first PDU of its block (no limit on the number of parts, radios or the time between). False of the code, each with a witness: an unfinished message is never forgotten and is joined with a later one (the timeout has no caller); a message above 4096 bits is replaced by an empty SDU from address 0, and if its last part asks for a slot the base station stops (C47_too_long_refuted)."
  },
  {
   "property": "C64",
   "status": "proved",
   "theorems": [
    "C64_exactly",
    "C64_not_while_heard",
    "C64_noticed",
    "C64_once"
   ],
   "note": "C64_exactly: over every history of the whole base station the notices of every tick are exactly those of SilenceSpec.reported, a count of ticks since the last sign of life over plain events. C64_not_while_heard, C64_noticed, C64_once: the three readings of the English. Assumed: the downlink of a circuit is never opened or closed alone (both_ways); call control uses both directions only, which C65_proper and C65_each_alone prove. What call control does with the notice is C36_silence_partial."
  },
  {
   "property": "C65",
   "status": "proved",
   "theorems": [
    "C65_agree",
    "C65_delivered",
    "C65_bursts",
    "C65_proper",
    "C65_each_alone",
    "C65_no_endless_silence",
    "C65_notice_true",
    "C65_report_ends_turn"
   ],
   "note": "C65_agree is the agreement, C65_bursts the same for what is sent on the air (burst_true is C60's reading of a burst), C65_delivered: everything on its way can be delivered, C65_proper: the messages themselves, C65_each_alone: the joint histories are histories of C60/C64 and C33-C38 so those theorems apply without further assumptions, C65_no_endless_silence, C65_notice_true and C65_report_ends_turn: silence. Messages between the two arrive in order (one queue in messagerouter.rs); everything else may come at any time. Bound of C35 kept: fewer than 1023 calls set up during the life of one call."
  },
  {
   "property": "C66",
   "status": "partial",
   "theorems": [
    "C66_every_message_partial",
    "C66_recovers_partial",
    "C66_base_to_mobile_partial",
    "C66_all_in_the_end_partial",
    "C66_access_assignment",
    "C66_frame_18_partial",
    "C66_frame_18_refuted",
    "C66_sysinfo",
    "C66_scrambling_code_refuted",
    "C66_cut_header_refuted",
    "C66_stolen_refuted"
   ],
   "note": "C66_every_message_partial: over every history of blocks on all four timeslots whose slots can be put together (receiver of C17), whose messages are addressed, clear and at most 4096 bits, and in which no PDU ends within its own header. C66_recovers_partial: the same from every state an earlier history, of any blocks whatever, leads to. C66_base_to_mobile_partial and C66_all_in_the_end_partial: the same with the base station of C60/C61 at the other end. C66_access_assignment and C66_sysinfo hold for all inputs. False in general: C66_cut_header_refuted and C66_stolen_refuted (what the base station sends brings the mobile station down), C66_frame_18_refuted, C66_scrambling_code_refuted (no scrambling code is ever worked out)."
  },
  {
   "property": "C67",
   "status": "partial",
   "theorems": [
    "C67_every_burst_partial",
    "C67_overheard",
    "C67_base_to_mobile_partial",
    "C67_deaf_refuted",
    "C67_hyperframe_refuted"
   ],
   "note": "C67_every_burst_partial: every burst of every history, to a mobile station with the scrambling code and the time of the cell, unless there is a circuit on timeslot 1 or a half slot stolen in hang time; what is in stolen half slots is never decoded. C67_base_to_mobile_partial: every history of a base station as in C61 on all four timeslots and no call on timeslot 1, from the queues of the base station to the link layer of the mobile station. C67_overheard: every history can be listened to. False in general: C67_deaf_refuted (a mobile station that starts from scratch never takes over code or time, and nothing ever leaves its upper MAC), C67_hyperframe_refuted (another hyperframe stops the program at the next tick)."
  },
  {
   "property": "C68",
   "status": "partial",
   "theorems": [
    "C68_base_to_user_partial",
    "C68_unacknowledged_written",
    "C68_acknowledged_written_partial",
    "C68_fcs_refuted"
   ],
   "note": "C68_base_to_user_partial: composition of C67 with the link layer of llc_bs_ms.rs, for every history of the base station as in C61 on all four timeslots and every reached state of the mobile link layer, if the messages are not of the kind that stops a link layer (C52). C68_unacknowledged_written and C68_acknowledged_written_partial: what the sending link layer makes of a request carries its data. False in general: C68_fcs_refuted (a frame check sequence that is asked for is announced and never appended, so the receiver throws the message away, or stops on data of 32 bits); order is that of the bursts heard, which need not be the order asked (C16)."
  },
  {
   "property": "C69",
   "status": "partial",
   "theorems": [
    "C69_stolen_heard_partial",
    "C69_stolen_begun_partial",
    "C69_stolen_next",
    "C69_all_stolen_heard_partial",
    "C69_stale_refuted"
   ],
   "note": "C69_stolen_heard_partial and C69_all_stolen_heard_partial: every history of the base station, every timeslot, for messages that fill whole octets with their header (others are damaged: C20_damage_refuted). C69_stolen_begun_partial: other messages that with their header have at most 120 bits are heard once, in order, with their address and the beginning of their data. C69_stolen_next: for all messages that fit half a slot. False in general: C69_stale_refuted (a message whose call ends before it is sent waits and is sent in the next call on the timeslot)."
  }
 ]
}