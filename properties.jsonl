{"id": "C01", "title": "Bit buffer: what is written is what is read, and nothing else changes", "statement": "Writing a value of n bits (n<=64, value < 2^n) at the cursor of a bit buffer that has room makes exactly those n bits of the window equal to the big-endian binary expansion of the value, advances the cursor by n, leaves every other bit of the buffer and the window bounds unchanged; reading n bits back at that position returns the value.", "quantifier": "every buffer content, window start/end, cursor position and alignment, every width 0..64 and every value that fits", "why_tests_cant": "the byte-wise head/full-byte/tail paths depend on the cursor alignment and width; a test samples a few of the 8x65 shapes and no test covers all contents", "anchors": ["crates/tetra-core/src/bitbuffer.rs: BitBuffer::write_bits, write_bit, write_zeroes, write_ones, read_bits, peek_bits_startoffset, read_bits_at_unchecked"]}
{"id": "C02", "title": "Bit buffer: reads and writes never leave the window", "statement": "On every buffer reachable through the public constructors and operations, a read/peek of n<=64 bits succeeds exactly when n bits remain before the end of the window, never touches a byte outside the allocation, and a failed read leaves the buffer unchanged; a write to a fixed-size buffer beyond the end of the window is refused (error/panic) rather than corrupting neighbouring bits.", "quantifier": "every sequence of buffer operations with arbitrary arguments", "why_tests_cant": "out-of-window access depends on the history of seeks, start/end moves and expansions; tests exercise a handful of histories", "anchors": ["crates/tetra-core/src/bitbuffer.rs: peek_bits*, read_*, write_*, seek, seek_rel, set_raw_*, _move_end, xor_bit"]}
{"id": "C03", "title": "Bit buffer conversions are lossless", "statement": "Constructing a buffer from a bit array, bit string, byte vector or another buffer and converting it back (bit array, bit string, bytes, bit vector), or copying n bits from one buffer to another, preserves the sequence of bits in the window.", "quantifier": "every bit sequence, every window, every source/target alignment", "why_tests_cant": "64-bit chunking and alignment make the interesting cases depend on length mod 64 and position mod 8 jointly", "anchors": ["crates/tetra-core/src/bitbuffer.rs: from_vec, from_bytes, from_bitstr, from_bitarr, from_bitbuffer, from_bitbuffer_pos, to_bitarr, to_bitstr, into_bytes, into_bitvec, copy_bits, copy_bits_from_bitarr"]}
{"id": "C04", "title": "Auto-expanding buffers grow exactly as needed", "statement": "A write on an auto-expanding buffer always succeeds, and afterwards the window ends at max(old end, cursor after the write), with all bits that were not written preserved.", "quantifier": "every history of writes, seeks and reads on an auto-expanding buffer", "why_tests_cant": "the over/under-growth only shows for particular seek-back-then-write histories", "anchors": ["crates/tetra-core/src/bitbuffer.rs: new_autoexpand, _move_end, _realloc_tail, write_bits, write_bit"]}
{"id": "C05", "title": "TETRA optional-field codecs (type 2, type 3, type 4 elements) round-trip", "statement": "For every PDU body made of type-2, type-3 and type-4 elements, what the writers produce is parsed back to the same field values, with the cursor exactly after the body, whatever follows in the buffer.", "quantifier": "every combination of present/absent fields, every field value that fits its width, every number of repeated elements, every following bits", "why_tests_cant": "the presence of each element changes the position of all later ones; the number of combinations is exponential in the number of fields", "anchors": ["crates/tetra-core/src/typed_pdu_fields.rs: delimiters, typed (parse_/write_ type2/type3/type4)"]}
{"id": "C06", "title": "Parsing optional fields of a hostile PDU never brings the receiver down", "statement": "For every bit string received over the air the type-2/3/4 field parsers return a value or an error; they do not panic.", "quantifier": "every bit string and every field id", "why_tests_cant": "crash inputs are single points in an exponentially large input space", "anchors": ["crates/tetra-core/src/typed_pdu_fields.rs: parse_type3_generic, parse_type3_struct, parse_type4_header, parse_type4_struct, parse_type4_generic"]}
{"id": "C07", "title": "TDMA time is a faithful clock", "statement": "Conversion of TDMA time (timeslot, frame, multiframe, hyperframe) to a timeslot count and back is the identity on valid times; adding a and then b timeslots equals adding a+b; the difference of two times is the unique shortest signed number of slots between them; advancing one slot moves to the next slot with the right carries; forwarding to a timeslot number moves 0..3 slots and lands on it.", "quantifier": "every valid TDMA time and every offset, including across frame, multiframe, hyperframe and wrap-around of the hyperframe counter", "why_tests_cant": "there are 283 million slot times and wrap-arounds occur after ~46 days of operation", "anchors": ["crates/tetra-core/src/tdma_time.rs: TdmaTime::to_int, from_int, add_timeslots, diff, age, forward_to_timeslot, time_int_diff, is_valid"]}
{"id": "C08", "title": "Mandatory broadcast slots recur exactly as the standard's formula says", "statement": "In each multiframe exactly one frame-18 timeslot is a mandatory BSCH and exactly one a mandatory BNCH, never the same, and over every 4 consecutive multiframes each timeslot gets each of them exactly once; mandatory CLCH slots are exactly frame 18 slots given by the standard's formula.", "quantifier": "every TDMA time", "why_tests_cant": "periodicity over the whole counter space cannot be sampled exhaustively by a unit test of a few times", "anchors": ["crates/tetra-core/src/tdma_time.rs: is_mandatory_bsch, is_mandatory_bnch, is_mandatory_clch"]}
{"id": "C09", "title": "Traffic timeslots have one owner", "statement": "After any sequence of allocate/reserve/release calls, each of timeslots 2..4 has at most one owner, only its owner can release it, allocation never returns an owned slot and succeeds exactly when a slot is free, and a failed call changes nothing.", "quantifier": "every sequence of operations by any owners with any arguments", "why_tests_cant": "depends on history of operations", "anchors": ["crates/tetra-core/src/timeslot_alloc.rs: TimeslotAllocator::allocate_any, reserve, release, owner, is_free"]}
{"id": "C10", "title": "Transmission receipts follow one life cycle even under concurrent marking", "statement": "A receipt moves only Pending->Discarded, Pending->Transmitted, Transmitted->Acknowledged or Transmitted->Lost; with any interleaving of holders trying to mark it, exactly one of two competing marks succeeds, final states are never left except by an explicit reset, and a receipt that does not expect an acknowledgement never becomes acknowledged or lost.", "quantifier": "every interleaving of any number of concurrent mark operations", "why_tests_cant": "thread schedules cannot be enumerated by tests", "anchors": ["crates/tetra-core/src/tx_receipt.rs: TxReporter, TxReceipt"]}
{"id": "C11", "title": "Subscriber range filter", "statement": "A set of SSI ranges accepted by the constructor contains exactly the SSIs that lie in one of the configured ranges (start inclusive, end exclusive, as documented), whatever the order in which the ranges were given; any list of non-empty ranges is accepted if and only if no two of them overlap.", "quantifier": "every list of ranges and every SSI", "why_tests_cant": "acceptance and binary search depend on the whole list", "anchors": ["crates/tetra-core/src/ranges.rs: SortedDisjointSsiRanges"]}
{"id": "C12", "title": "Carrier/frequency numbering is consistent", "statement": "For every accepted frequency configuration the downlink frequency is 100 MHz per band plus 25 kHz per carrier plus the offset; two accepted configurations with the same downlink frequency have the same band, carrier and offset; the uplink frequency lies exactly one duplex spacing below it (above it in reverse operation); offset indices and offsets in Hz convert back and forth without loss.", "quantifier": "every band, carrier, offset, duplex index and spacing", "why_tests_cant": "the domain is the product of all settings; unit tests check a few operating points", "anchors": ["crates/tetra-core/src/freqs.rs: FreqInfo::from_components, get_default_duplex_spacing, get_freqs, freq_offset_id_to_hz, freq_offset_hz_to_id"]}
{"id": "C13", "title": "Fill bits are stripped exactly", "statement": "If the sender pads an SDU with a 1 bit followed by zero or more 0 bits, the receiver's fill-bit computation removes exactly the padding, so the SDU is recovered bit-exactly.", "quantifier": "every SDU and every amount of padding", "why_tests_cant": "SDUs ending in arbitrary 0/1 runs are the error-prone cases", "anchors": ["crates/tetra-entities/src/umac/subcomp/fillbits.rs: addition / removal", "crates/tetra-entities/src/umac/subcomp/bs_frag.rs"]}
{"id": "C14", "title": "Downlink fragmentation loses, reorders or duplicates no bits", "statement": "Whatever sequence of slot capacities the scheduler offers, the fragments produced for an SDU (MAC-RESOURCE, MAC-FRAG..., MAC-END) fit their slots, parse back, and when a receiver strips headers and fill bits and concatenates them it obtains exactly the SDU; the process terminates.", "quantifier": "every SDU, every resource header, every sequence of slot capacities", "why_tests_cant": "boundary cases depend on SDU length vs. capacity mod 8 at every fragment", "anchors": ["crates/tetra-entities/src/umac/subcomp/bs_frag.rs: BsFragger::get_resource_chunk, get_frag_or_end_chunk, get_next_chunk", "crates/tetra-pdus/src/umac/pdus/mac_frag_dl.rs", "crates/tetra-pdus/src/umac/pdus/mac_end_dl.rs"]}
{"id": "C15", "title": "Uplink reassembly returns exactly the transmitted fragments", "statement": "A delivered reassembled SDU is the in-order concatenation of the fragments received on that timeslot since the matching start, tagged with the start's address; timeslots do not influence each other; stale reassemblies are discarded after the timeout and never delivered.", "quantifier": "every sequence of fragment starts, continuations, ends and clock ticks on all timeslots", "why_tests_cant": "interleavings of fragments and time-outs over timeslots", "anchors": ["crates/tetra-entities/src/umac/subcomp/bs_defrag.rs", "crates/tetra-entities/src/umac/subcomp/defrag.rs"]}
{"id": "C16", "title": "An uplink slot is never granted to two radios", "statement": "When the scheduler grants uplink capacity, every sub-slot of the grant was free before and belongs to the requester after, no other reservation changes, the grant lies strictly in the future and within the schedule horizon and the delay signalled to the radio points at the first granted slot.", "quantifier": "every schedule state, timeslot, requester and requested capacity, and every history of requests and clock ticks", "why_tests_cant": "the schedule is a 4x18 table cleared as time passes, conflicts depend on history", "anchors": ["crates/tetra-entities/src/umac/subcomp/bs_sched.rs: ul_find_grant_opportunity, ul_reserve_grant, ul_process_cap_req, finalize_ts_for_tick"]}
{"id": "C17", "title": "The downlink scheduler fills each slot exactly and loses nothing", "statement": "Building a downlink signalling slot from the queue produces a block no longer than the slot capacity; each queued resource is either transmitted completely, started as fragmentation with the rest queued, or left queued in its original order; broadcast elements take precedence; nothing is transmitted twice or dropped.", "quantifier": "every queue content and history of enqueues and ticks", "why_tests_cant": "depends on arbitrary queue contents/lengths", "anchors": ["crates/tetra-entities/src/umac/subcomp/bs_sched.rs: dl_build_block_from_signalling_schedule, dl_take_prioritized_sched_item, dl_integrate_sched_elems_for_timeslot, dl_take_all_grants_and_acks"]}
{"id": "C18", "title": "MAC PDU headers round-trip", "statement": "Serialising a MAC PDU header (MAC-RESOURCE, MAC-ACCESS, MAC-DATA, MAC-FRAG, MAC-END up/down/half, MAC-U-SIGNAL, MAC-U-BLCK, MAC-D-BLCK, ACCESS-ASSIGN, SYNC, SYSINFO with its elements) and parsing it returns the same header and leaves the cursor at its end; the announced header length equals the number of bits written.", "quantifier": "every header value within field widths and every trailing bits", "why_tests_cant": "header space is a product of conditional fields; unit tests use a few captured PDUs", "anchors": ["crates/tetra-pdus/src/umac/pdus/*.rs", "crates/tetra-pdus/src/umac/fields/*.rs"]}
{"id": "C19", "title": "A radio's request for more uplink capacity is understood in every MAC PDU that can carry it", "statement": "A reservation request carried in MAC-ACCESS, MAC-DATA, MAC-END-HU or MAC-END (uplink) is decoded as that reservation request.", "quantifier": "every reservation requirement value and every PDU", "why_tests_cant": "single wrong constant affects only one of four code paths", "anchors": ["crates/tetra-pdus/src/umac/pdus/mac_end_ul.rs: MacEndUl::from_bitbuf", "crates/tetra-pdus/src/umac/pdus/mac_end_hu.rs", "crates/tetra-pdus/src/umac/pdus/mac_access.rs", "crates/tetra-pdus/src/umac/pdus/mac_data.rs", "crates/tetra-pdus/src/umac/enums/reservation_requirement.rs"]}
{"id": "C20", "title": "Signalling stolen from a voice slot reaches the radio unchanged", "statement": "An SDU sent by stealing a half slot is recovered bit-exactly by a receiver that parses the MAC-RESOURCE header and removes fill bits.", "quantifier": "every SDU length and content that fits a half slot", "why_tests_cant": "depends on trailing bits and length mod 8", "anchors": ["crates/tetra-entities/src/umac/umac_bs.rs: rx_ul_tma_unitdata_req"]}
{"id": "C21", "title": "Voice blocks are sent in order on their own circuit", "statement": "Voice blocks queued for a timeslot's circuit are taken in the order queued, each at most once, only while that circuit is active, and never on another timeslot; closing a circuit drops its backlog.", "quantifier": "every history of open/close/put/take over all timeslots and directions", "why_tests_cant": "histories", "anchors": ["crates/tetra-entities/src/umac/subcomp/circuit_mgr.rs", "crates/tetra-entities/src/cmce/components/circuit_mgr.rs: put_block, take_block, open_circuit, close_circuit"]}
{"id": "C22", "title": "Event labels identify at most one radio", "statement": "An event label assigned to a radio resolves to that radio until the label is reassigned or its lifetime passes; two live assignments are never confused within one label cycle.", "quantifier": "every history of assignments and lookups", "why_tests_cant": "label counter wrap-around needs hundreds of assignments", "anchors": ["crates/tetra-entities/src/umac/subcomp/event_label_store.rs"]}
{"id": "C23", "title": "Acknowledged link service is stop-and-wait per radio and in order", "statement": "For each radio at most one acknowledged message is outstanding at any time; messages to a radio are submitted in the order requested; consecutive new messages to one radio carry alternating sequence numbers; each message is transmitted at most 1+3 times, then declared lost.", "quantifier": "every interleaving of requests, acknowledgements, lower-layer transmissions and clock ticks, for any number of radios", "why_tests_cant": "protocol histories with loss and several radios interleaved", "anchors": ["crates/tetra-entities/src/llc/llc_bs_ms.rs: submit_for_acknowledged_transmission, submit_free_messages_to_umac, submit_retransmissions_to_umac, process_incoming_ack"]}
{"id": "C24", "title": "Every acknowledged message received is acknowledged once with its own number", "statement": "Each received numbered PDU produces exactly one acknowledgement to its sender with the received sequence number, either piggybacked or stand-alone, in the tick in which it was scheduled; no acknowledgement is produced otherwise.", "quantifier": "every history of received PDUs and outgoing traffic", "why_tests_cant": "piggybacking races with outgoing traffic", "anchors": ["crates/tetra-entities/src/llc/llc_bs_ms.rs: schedule_outgoing_ack, get_out_ack_seq_if_any, submit_ack_replies_to_umac"]}
{"id": "C25", "title": "LLC frame check sequence detects errors", "statement": "A message with its frame check sequence appended is accepted; any message altered by a non-zero error pattern confined to 32 consecutive bits is rejected.", "quantifier": "every message length and content and every burst error of up to 32 bits", "why_tests_cant": "2^n messages x error patterns", "anchors": ["crates/tetra-entities/src/llc/components/fcs.rs: compute_fcs, check_fcs"]}
{"id": "C26", "title": "Scrambling is undone by descrambling and touches only the block", "statement": "Applying the scrambler twice with the same code restores the block; the scrambling sequence depends only on the code; scrambling codes of distinct (MCC, MNC, colour code) networks are distinct.", "quantifier": "every block length, content and scrambling code", "why_tests_cant": "space of codes is 2^30 and of blocks 2^432", "anchors": ["crates/tetra-entities/src/lmac/components/scrambler.rs"]}
{"id": "C27", "title": "Interleavers are permutations undone by the deinterleavers", "statement": "For every channel, deinterleaving an interleaved block returns the block and vice versa; every position is used exactly once.", "quantifier": "every block content, all block sizes/parameters used by the channels", "why_tests_cant": "unit tests do a single block", "anchors": ["crates/tetra-entities/src/lmac/components/interleaver.rs", "crates/tetra-entities/src/lmac/components/tch_reorder.rs"]}
{"id": "C28", "title": "CRC accepts valid blocks and detects corruption", "statement": "A block with appended CRC is accepted; any non-zero error pattern confined to a burst of at most 16 bits is rejected for every block length.", "quantifier": "every block length and content and all bursts up to 16 bits", "why_tests_cant": "cannot enumerate blocks", "anchors": ["crates/tetra-entities/src/lmac/components/crc16.rs"]}
{"id": "C29", "title": "Access-assignment channel code corrects a bit error", "statement": "For every 14-bit access-assign message, decoding the encoded 30-bit block returns the message, also when any single bit of the block was flipped.", "quantifier": "all 2^14 messages and all 31 error patterns, all scrambling codes for the full AACH chain", "why_tests_cant": "the shipped tests sample few messages", "anchors": ["crates/tetra-entities/src/lmac/components/rm3014.rs", "crates/tetra-entities/src/lmac/components/errorcontrol.rs: encode_aach, decode_aach"]}
{"id": "C30", "title": "The Viterbi decoder returns a most likely message", "statement": "For every received block, the decoded message's re-encoding is at minimum distance from the received soft/hard bits among all terminated messages; the path metrics never overflow their 16-bit storage; decoding an error-free block returns the encoded message.", "quantifier": "every received sequence (erasures included) and every message", "why_tests_cant": "optimality is a statement over 2^n competing messages", "anchors": ["crates/tetra-entities/src/lmac/components/viterbi.rs", "crates/tetra-entities/src/lmac/components/convenc.rs"]}
{"id": "C31", "title": "Control-channel coding is the identity over a perfect channel and corrects bounded errors", "statement": "For every control channel type, every message and every scrambling code, decoding the encoded block returns the message with CRC ok; this remains true for any pattern of at most t flipped bits, with t depending on the channel.", "quantifier": "every message, channel, scrambling code, error pattern of weight <= t", "why_tests_cant": "exponentially many messages and error patterns", "anchors": ["crates/tetra-entities/src/lmac/components/errorcontrol.rs: encode_cp, decode_cp", "crates/tetra-entities/src/lmac/components/errorcontrol_params.rs"]}
{"id": "C32", "title": "Speech-channel coding round-trips", "statement": "For every pair of 137-bit speech frames and scrambling code, decoding the encoded TCH/S block returns the same frames and reports no bad frame.", "quantifier": "every 274-bit speech block and every scrambling code", "why_tests_cant": "exponentially many", "anchors": ["crates/tetra-entities/src/lmac/components/errorcontrol.rs: encode_tp, decode_tp, speech_crc", "crates/tetra-entities/src/lmac/components/tch_reorder.rs"]}
{"id": "C33", "title": "Group membership registry answers correctly", "statement": "After any history of registrations, deregistrations, affiliations and deaffiliations, a group is reported to have members exactly when some currently registered subscriber is affiliated to it.", "quantifier": "every history", "why_tests_cant": "depends on histories over unbounded sets of subscribers and groups", "anchors": ["crates/tetra-config/src/bluestation/state.rs: SubscriberRegistry"]}
{"id": "C34", "title": "Mobility management, call control and registry agree on who listens where", "statement": "After any sequence of location updates, group attach/detach requests and ITSI detaches, the groups recorded by mobility management for each radio, the shared subscriber registry and call control's listener sets agree.", "quantifier": "every sequence of MM messages from any radios with any group lists", "why_tests_cant": "cross-component state over histories", "anchors": ["crates/tetra-entities/src/mm/mm_bs.rs: rx_u_location_update_demand, rx_u_attach_detach_group_identity, rx_u_itsi_detach, try_attach_detach_groups", "crates/tetra-entities/src/mm/components/client_state.rs", "crates/tetra-entities/src/cmce/subentities/cc_bs.rs: handle_subscriber_update"]}
{"id": "C35", "title": "Active group calls own distinct timeslots and resources are returned", "statement": "After any history, active calls, their cached set-up messages, their circuits and the timeslot ownership table correspond one to one: distinct calls have distinct timeslots, a timeslot held by call control belongs to exactly one active call, and ending a call releases its timeslot and circuit.", "quantifier": "every history of set-up, demand, cease, release, disconnect, subscriber updates, network events and clock ticks", "why_tests_cant": "leaks and double allocation only show for particular histories", "anchors": ["crates/tetra-entities/src/cmce/subentities/cc_bs.rs", "crates/tetra-entities/src/cmce/components/circuit_mgr.rs", "crates/tetra-core/src/timeslot_alloc.rs"]}
{"id": "C36", "title": "Floor control and hang time", "statement": "A call in hang time has no active speaker; a call whose floor is not taken within the hang time is released and not before; a call nobody listens to is released.", "quantifier": "every history of floor requests and ticks", "why_tests_cant": "timing histories", "anchors": ["crates/tetra-entities/src/cmce/subentities/cc_bs.rs: check_hangtime_expiry, rx_u_tx_ceased, rx_u_tx_demand, drop_group_calls_if_unlistened"]}
{"id": "C37", "title": "Live calls have distinct call identifiers and usage markers", "statement": "Two simultaneously active calls never share a call identifier or usage marker.", "quantifier": "every history of call set-ups and ends", "why_tests_cant": "wrap-around of the identifier counters needs many calls while one is held", "anchors": ["crates/tetra-entities/src/cmce/components/circuit_mgr.rs: get_next_call_id, get_next_usage_number"]}
{"id": "C38", "title": "Short data goes to the right place exactly once", "statement": "A short data message from a radio is delivered to a registered local radio, else to a local group with members, else to the network if routable, else dropped; exactly one of these happens and content is unchanged.", "quantifier": "every message, registry state and configuration", "why_tests_cant": "routing depends on registry state and configuration", "anchors": ["crates/tetra-entities/src/cmce/subentities/sds_bs.rs"]}
{"id": "C39", "title": "Network (Brew) messages: encoding round-trips and parsing never crashes", "statement": "Parsing any byte string returns a message or an error (no crash), and parsing what the encoder builds returns the same fields.", "quantifier": "every byte string; every message", "why_tests_cant": "crash inputs are isolated points", "anchors": ["crates/tetra-entities/src/net_brew/protocol.rs"]}
{"id": "C40", "title": "Voice jitter buffer is bounded and order preserving", "statement": "Frames leave the jitter buffer in arrival order, each at most once; frames dropped are always the oldest, the backlog never exceeds its bound, and play-out starts only after the pre-buffer target is reached.", "quantifier": "every interleaving of arrivals and play-out ticks", "why_tests_cant": "timing interleavings", "anchors": ["crates/tetra-entities/src/net_brew/components/jitter_buffer.rs"]}
{"id": "C41", "title": "Network routing policy", "statement": "A group or subscriber address is routed to the network exactly when the network is configured and the address satisfies the configured rules.", "quantifier": "every configuration and address", "why_tests_cant": "2^24 addresses x configurations", "anchors": ["crates/tetra-entities/src/net_brew/components/brew_routable.rs"]}
{"id": "C42", "title": "Messages between components are delivered in order", "statement": "Messages are dispatched first-in first-out except that immediate-priority messages precede those waiting; every message sent to an existing component is delivered exactly once, and none is delivered otherwise.", "quantifier": "every sequence of sends and deliveries", "why_tests_cant": "reentrant sends during delivery", "anchors": ["crates/tetra-entities/src/messagerouter.rs"]}
{"id": "C43", "title": "Downlink bursts carry every block bit at its standard position", "statement": "The normal and synchronisation downlink bursts are 510 bits with every input block, training sequence and AACH bit at its prescribed place, every input recoverable; the phase-adjustment bits compensate the accumulated phase as the standard requires.", "quantifier": "every block content", "why_tests_cant": "2^432 contents", "anchors": ["crates/tetra-entities/src/phy/components/slotter.rs", "crates/tetra-entities/src/phy/components/burst_consts.rs"]}
{"id": "C44", "title": "LLC PDU headers round-trip", "statement": "Serialising and parsing BL-ACK, BL-DATA, BL-ADATA, BL-UDATA headers returns the same header.", "quantifier": "every header value, any following bits", "why_tests_cant": "small but conditional on buffer context", "anchors": ["crates/tetra-pdus/src/llc/pdus/*.rs"]}
{"id": "C45", "title": "Mobility-management PDUs round-trip", "statement": "Serialising and parsing the MM PDUs and their structured elements used by the base station returns the same PDU.", "quantifier": "every PDU value within field widths, any following bits", "why_tests_cant": "optional elements make the space exponential", "anchors": ["crates/tetra-pdus/src/mm/pdus/*.rs", "crates/tetra-pdus/src/mm/fields/*.rs"]}
{"id": "C46", "title": "Call-control PDUs round-trip", "statement": "Serialising and parsing the CMCE PDUs used by the base station returns the same PDU.", "quantifier": "every PDU value within field widths, any following bits", "why_tests_cant": "optional elements make the space exponential", "anchors": ["crates/tetra-pdus/src/cmce/pdus/*.rs", "crates/tetra-pdus/src/cmce/fields/*.rs"]}
{"id": "C47", "title": "A hostile uplink transmission cannot crash the base station", "statement": "No bit string received on the air interface makes the receive path (lower MAC, UMAC, LLC, MLE) or the layer 3 entities behind it (mobility management, call control, short data) panic.", "quantifier": "every received burst, block and layer 3 message, in every reachable state", "why_tests_cant": "crash inputs are isolated points", "anchors": ["crates/tetra-entities/src/umac/umac_bs.rs", "crates/tetra-entities/src/llc/llc_bs_ms.rs", "crates/tetra-entities/src/mle/mle_bs.rs", "crates/tetra-pdus/src/umac/pdus/*.rs", "crates/tetra-entities/src/mm/mm_bs.rs", "crates/tetra-entities/src/cmce/subentities/cc_bs.rs", "crates/tetra-entities/src/cmce/subentities/sds_bs.rs", "crates/tetra-core/src/typed_pdu_fields.rs"]}
{"id": "C48", "title": "Every MAC PDU in an uplink block is processed once and parsing a block terminates", "statement": "A received block is consumed left to right: each MAC PDU is handed on once with exactly its own SDU bits, processing always terminates, and bits after the last PDU are ignored.", "quantifier": "every received block", "why_tests_cant": "loops over attacker controlled lengths", "anchors": ["crates/tetra-entities/src/umac/umac_bs.rs: rx_tmv_sch, rx_mac_data, rx_mac_access"]}
{"id": "C49", "title": "Uplink voice packing preserves the speech bits", "statement": "Converting uplink speech bits to the transport representation and back returns the same 274 bits; short blocks are rejected.", "quantifier": "every block", "why_tests_cant": "exponentially many blocks", "anchors": ["crates/tetra-entities/src/umac/umac_bs.rs: pack_ul_acelp_bits", "crates/tetra-entities/src/net_brew/entity.rs: handle_ul_voice, handle_voice_frame"]}
{"id": "C50", "title": "Network calls and local calls stay in step", "statement": "For every interleaving of network and radio events, a network call known to the network side corresponds to at most one local call, and media is forwarded to the network only for the call that owns the timeslot.", "quantifier": "every interleaving", "why_tests_cant": "races between network and air events", "anchors": ["crates/tetra-entities/src/net_brew/entity.rs", "crates/tetra-entities/src/cmce/subentities/cc_bs.rs: rx_network_call_start, rx_network_call_end"]}
{"id": "C51", "title": "Network time broadcast encodes the time", "statement": "The 48-bit network time element decodes to the UTC time (to 2 s), local offset sign and magnitude (to 15 min) and year from which it was built.", "quantifier": "every instant within the representable years and every offset", "why_tests_cant": "many instants/offsets incl. negative offsets", "anchors": ["crates/tetra-entities/src/mle/components/network_time.rs"]}
{"id": "C52", "title": "Received link-layer data is delivered once and unchanged", "statement": "Every received basic link PDU that carries data and passes its frame check is handed to the mobile link entity exactly once, with exactly the bits that follow its header; an acknowledgement-only or rejected PDU delivers nothing, and a rejected PDU changes nothing.", "quantifier": "all received bit strings and all states of the link layer", "why_tests_cant": "Every PDU type, length and link state has to be covered.", "anchors": ["crates/tetra-entities/src/llc/llc_bs_ms.rs: rx_tma_unitdata_ind, rx_tma_unitdata_ind_bl"]}
{"id": "C53", "title": "Unacknowledged messages are sent once and in order", "statement": "Every unacknowledged message asked of the link layer is handed to the MAC exactly once, at the next end of a tick, in the order requested, with its data, address and channel allocation unchanged, and no other unacknowledged message is.", "quantifier": "all histories of requests, indications, reports and ticks", "why_tests_cant": "All interleavings with acknowledged traffic.", "anchors": ["crates/tetra-entities/src/llc/llc_bs_ms.rs: rx_tla_tlunitdata_req_bl, submit_udata_messages, tick_end"]}
{"id": "C54", "title": "Calls are announced truthfully", "statement": "Every call set-up message sent to a group, at set-up or for late entry, carries the identifier of a call in progress in that group and directs the radios to that call's timeslot and usage marker, and is sent only while somebody speaks; a call that begins is announced to its group with the speaker's identity, and the radio that set it up is given the floor on the same timeslot.", "quantifier": "every history of subscriber updates, uplink call messages, network call messages and clock ticks", "why_tests_cant": "The announcement must match the call tables after any interleaving of set-ups, releases, expiries and late-entry repetitions.", "anchors": ["crates/tetra-entities/src/cmce/subentities/cc_bs.rs: rx_u_setup, rx_network_call_start, tick_start, build_d_setup_prim", "crates/tetra-entities/src/cmce/components/circuit_mgr.rs: tick_start"]}
{"id": "C55", "title": "Registration and group requests are answered truthfully", "statement": "Every location update of a supported kind and every request to attach or detach groups is answered to the radio that sent it, with one entry for each group it named by GSSI; afterwards the radio is known and attached to exactly what the answer and the requested mode say, and nothing changes for any other radio. A detaching radio is forgotten; unsupported requests change nothing.", "quantifier": "all states, all radios and all requests the parsers accept", "why_tests_cant": "Every combination of group lists, modes, location update types and prior states.", "anchors": ["crates/tetra-entities/src/mm/mm_bs.rs: rx_u_location_update_demand, rx_u_attach_detach_group_identity, rx_u_itsi_detach, rx_u_mm_status, try_attach_detach_groups", "crates/tetra-entities/src/mm/components/client_state.rs"]}
{"id": "C56", "title": "Short data of the network and the control link reaches the radio it names, unchanged", "statement": "A short message that arrives from the network (a header that names sender and receiver, then a frame with the data, in between anything else) or over the control link is sent, bit for bit and under the sender's number, to the radio it names if that radio is registered, and is dropped otherwise; a frame without a header is dropped. Short data for the network leaves as a header and a frame with the same identifier, sender, receiver and bits. No such message crashes the base station.", "quantifier": "every history of network messages, expiries and commands, every registry state, every message", "why_tests_cant": "headers and frames of many messages interleave with expiry and other traffic; lengths and numbers come from outside", "anchors": ["crates/tetra-entities/src/net_brew/worker.rs: handle_call_control, handle_frame, SendSds", "crates/tetra-entities/src/net_brew/entity.rs: handle_sds_transfer, handle_sds_send", "crates/tetra-entities/src/cmce/subentities/sds_bs.rs: rx_sds_from_brew, rx_sds_from_control"]}
{"id": "C57", "title": "The network server knows exactly the radios and memberships that are here", "statement": "After the connection to the network is (re)made, the registrations and group memberships the server can deduce from the messages it was sent are, at every moment and for the radios and groups the routing rules let it know about, exactly those of the base station, no matter what happened on earlier connections or what was still queued when the connection was made.", "quantifier": "every history of registrations, attachments, detachments, disconnections and reconnections, every routing configuration", "why_tests_cant": "the view must agree after any interleaving, including queued commands and the resynchronisation", "anchors": ["crates/tetra-entities/src/net_brew/entity.rs: handle_subscriber_update, resync_subscribers", "crates/tetra-entities/src/net_brew/worker.rs: process_commands", "crates/tetra-entities/src/mm/mm_bs.rs"]}
{"id": "C58", "title": "Messages between the radios and layer 3 go to the right entity, once, in order and unchanged", "statement": "Every layer 3 message a radio sends as acknowledged data reaches exactly the entity its protocol discriminator names, once, in the order received, with its own bits, time and sender address and a new handle; every message of mobility management or call control is passed to the link layer exactly once, its discriminator in front, with the same address, service, channel allocation and delivery reporter; nothing else is sent except the network time broadcast.", "quantifier": "every received block in every reachable state; every history of the mobile link entity", "why_tests_cant": "arbitrary payloads and interleavings of requests, receptions and ticks", "anchors": ["crates/tetra-entities/src/mle/mle_bs.rs", "crates/tetra-entities/src/mle/components/broadcast.rs", "crates/tetra-entities/src/mle/components/mle_router.rs", "crates/tetra-entities/src/llc/llc_bs_ms.rs", "crates/tetra-entities/src/umac/umac_bs.rs: rx_tmv_unitdata_ind"]}
{"id": "C59", "title": "Every downlink slot is complete and describes itself truthfully", "statement": "After every tick of the base station's clock exactly one downlink slot is handed to the physical side. Its time is that of the tick plus one slot; its blocks are one of the shapes a radio can decode (full-slot traffic, stolen half plus traffic, full-slot signalling, synchronisation plus network broadcast, half-slot signalling plus broadcast) with the right number of bits and the right scrambling code; frame 18 always carries synchronisation and broadcast; the broadcasts, decoded as a radio decodes them, give the configured cell identity, frequencies, location area and services, the current state of the network link and the time of this very slot; and the access assignment says what the slot and its uplink are, namely control on timeslot 1, the usage marker of the open circuits on the other timeslots, or assigned control in hang time.", "quantifier": "all cell configurations whose values fit their fields, all start times, and all histories of ticks, received uplink blocks (any bits), requests from above, voice frames and call-control commands", "why_tests_cant": "the content of a slot depends on the whole history of circuits, floor changes, queued signalling and the position in a cycle of 18x60x65536 frames; a wrong marker or a missing broadcast shows only in particular combinations", "anchors": ["crates/tetra-entities/src/umac/subcomp/bs_sched.rs: finalize_ts_for_tick, generate_bbk_block, generate_default_blks, dl_build_block_from_traffic_queue", "crates/tetra-entities/src/umac/umac_bs.rs: tick_start, generate_precomps, rx_control", "crates/tetra-pdus/src/umac/pdus: mac_sync.rs, mac_sysinfo.rs, access_assign.rs", "crates/tetra-pdus/src/mle/pdus: d_mle_sync.rs, d_mle_sysinfo.rs"]}
{"id": "C60", "title": "What is on the air is what the MAC meant, both ways", "statement": "Every tick of the base station's clock puts exactly one burst of 510 bits on the air, for the next timeslot, and nothing else does. What a radio decodes from it (training sequence, synchronisation or normal burst, descrambling, deinterleaving, channel decoding, checksum, access assignment), even with one bit of each block received wrong, is bit for bit the slot the upper MAC made, and it says what the configuration, the clock and the calls require. In the other direction a burst received from a radio, looked at two timeslots later, is taken for the kind of channel the slot made for that very timeslot expects; the upper MAC gets the message exactly once, as it was sent, with the time, block number and scrambling code of that burst; a message whose checksum is wrong is dropped; speech always arrives, unchanged if no bit was wrong; two half slots are treated as signalling or stolen according to what the first one announces.", "quantifier": "all cell configurations whose values fit their fields, all start times, all histories of ticks, received bursts (any bits), requests from above, voice frames and call-control commands, all messages and all single-bit errors per block", "why_tests_cant": "it combines all histories of the upper MAC with all messages and all positions of a wrong bit; the channel a received burst is decoded as depends on a slot made four ticks earlier", "anchors": ["crates/tetra-entities/src/lmac/lmac_bs.rs: rx_tmv_unitdata_req_slot, rx_tp_prim, determine_logical_channel_ul, rx_blk_traffic, rx_blk_control", "crates/tetra-entities/src/phy/phy_bs.rs", "crates/tetra-entities/src/phy/components: slotter, train_consts", "crates/tetra-entities/src/umac/umac_bs.rs: tick_start, signal_lmac_second_half_stolen"]}
{"id": "C61", "title": "What is asked for is heard", "statement": "A radio that decodes the bursts of a timeslot hears every message the layer above the MAC asked to send there, with its address and its exact bits, exactly once and nothing else; what it has not heard yet is in the queue. When time passes, no call occupies the timeslot and the clock keeps ticking, everything that waits is heard after a bounded number of slots. Messages with headers of the same size are heard in the order in which they were asked for.", "quantifier": "all cell configurations whose values fit their fields, all histories of ticks, received bursts, requests, voice frames and call-control commands that do not end in a panic, every timeslot, every number and length of messages", "why_tests_cant": "it relates the requests of an unbounded history, through the queue, the fragmentation, the channel coding and the framing, to what a radio reassembles from the bursts; no finite set of histories covers the interleavings with calls, grants and acknowledgements", "anchors": ["crates/tetra-entities/src/umac/umac_bs.rs: rx_tma_unitdata_req, tick_start", "crates/tetra-entities/src/umac/subcomp/bs_sched.rs: dl_enqueue_tma, finalize_ts_for_tick", "crates/tetra-entities/src/umac/subcomp/bs_frag.rs", "crates/tetra-entities/src/lmac/lmac_bs.rs", "crates/tetra-entities/src/phy/phy_bs.rs"]}
{"id": "C62", "title": "The configuration file is what the base station does", "statement": "Every setting of an accepted configuration file takes effect with the value in the file, or with its documented default if it is left out; a file with an unknown setting, a wrong type, a missing setting or overlapping local ranges is refused, and a file in order is accepted. A base station that starts sends and listens on the frequencies its own broadcast names to the radios, and goes on sending a burst in every timeslot.", "quantifier": "all configuration files (all tables of names and values of any type and nesting), all time zone databases, all numbers of timeslots after the start", "why_tests_cant": "the files are unbounded and the frequency in the broadcast, the check at start-up and the tuning of the device are computed in three places from different settings; running for ever is not a finite test", "anchors": ["crates/tetra-config/src/bluestation/parsing.rs: from_toml_str", "crates/tetra-config/src/bluestation/config.rs: validate, SharedConfig::from_parts", "crates/tetra-config/src/bluestation/sec_cell.rs", "crates/tetra-config/src/bluestation/sec_phy.rs", "crates/tetra-config/src/bluestation/sec_brew.rs", "crates/tetra-config/src/bluestation/sec_telemetry.rs", "crates/tetra-entities/src/phy/components/soapyio.rs", "crates/tetra-core/src/freqs.rs", "bins/bluestation-bs/src/main.rs"]}
{"id": "C63", "title": "What a radio sends in pieces arrives whole", "statement": "When a radio sends a message in several parts, each in a slot granted to it, the base station hands up exactly the concatenation of the parts, once, with the address the radio gave in the first part, however many other radios send messages and parts of messages meanwhile and however long it takes; nothing is handed up that no radio sent, and the parts of different messages are never mixed.", "quantifier": "all cell configurations whose values fit their fields, all histories of ticks, received bursts, requests, voice frames and call-control commands that do not end in a panic, all radios, timeslots, numbers and sizes of parts", "why_tests_cant": "the message handed up depends on every block received before, on the grants and on the state of the reassembler; no finite set of interleavings of radios covers it", "anchors": ["crates/tetra-entities/src/umac/umac_bs.rs: rx_mac_access, rx_mac_data, rx_mac_frag_ul, rx_mac_end_ul, rx_mac_end_hu", "crates/tetra-entities/src/umac/subcomp/bs_defrag.rs", "crates/tetra-entities/src/umac/subcomp/bs_sched.rs: ul_get_slot_owner", "crates/tetra-entities/src/lmac/lmac_bs.rs", "crates/tetra-entities/src/phy/phy_bs.rs"]}
{"id": "C64", "title": "Silence on a call's timeslot is noticed, once, and speech never is taken for silence", "statement": "While somebody has the floor of a call, the base station tells call control that the timeslot has fallen silent exactly when three multiframes (216 timeslots) have passed since the last sign of life: speech received from a radio, speech from the network, the floor being granted or the circuit being opened. It does so at the next tick, once per silence, for that timeslot only, and never in hang time or after the end of the call.", "quantifier": "all cell configurations whose values fit their fields, all histories of ticks, received bursts, requests, voice frames and call-control commands that do not end in a panic (circuits opened and closed in both directions, as call control does), all four timeslots", "why_tests_cant": "the report depends on everything said on and about the timeslot before, over an unbounded time in which the clock wraps; no set of schedules covers it", "anchors": ["crates/tetra-entities/src/umac/umac_bs.rs: check_ul_inactivity, rx_tmd_prim, rx_control_circuit_open, rx_control_circuit_close, rx_control", "crates/tetra-core/src/tdma_time.rs: age", "crates/tetra-entities/src/cmce/subentities/cc_bs.rs: handle_ul_inactivity_timeout"]}
{"id": "C65", "title": "What radios find on the traffic timeslots is what call control knows about its calls", "statement": "Call control and the air interface agree: once the messages on their way have been delivered, the base station has open exactly the timeslots of the calls in progress, in both directions, under the usage marker of each call, and in hang time exactly where nobody has the floor; every burst sent then tells radios so. Every message call control sends to the air interface is accepted. Whoever has the floor of a call has spoken or was given the floor within the last three multiframes, or the report that they are silent is on its way; such a report is only ever made about a timeslot where somebody has the floor, ends just that turn, and touches no other call.", "quantifier": "all cell configurations whose values fit their fields, all configurations of routing, all interleavings of radio messages, network calls, ticks, received bursts, other requests and the delivery of messages between call control and the upper MAC, with any delay, as long as fewer than 1023 calls are set up during the life of one call", "why_tests_cant": "it relates the states of two entities that only exchange messages, over every interleaving and every delay; a test sees a few schedules", "anchors": ["crates/tetra-entities/src/cmce/subentities/cc_bs.rs: rx_call_control, handle_ul_inactivity_timeout, release_group_call, tick_start", "crates/tetra-entities/src/umac/umac_bs.rs: rx_control, check_ul_inactivity", "crates/tetra-entities/src/umac/subcomp/bs_sched.rs: finalize_ts_for_tick, set_hangtime", "crates/tetra-entities/src/messagerouter.rs: deliver_message, deliver_all_messages"]}
{"id": "C66", "title": "A mobile station gets every message the base station sends it, whole, once and in order", "statement": "The upper MAC of a mobile station that decodes the downlink hands its link layer every message sent on each of the four timeslots, put together from its pieces, once, in order and with its address; what is sent on one timeslot never disturbs another. With this base station at the other end these are the messages it was asked to send, and after enough time all of them. It tells the lower MAC that a slot carries speech exactly when the access assignment says so, and passes on the system information and the hyperframe of every SYSINFO. Nothing the base station sends brings it down, and it works out the scrambling code once it knows the network.", "quantifier": "all sequences of decoded blocks on all logical channels and timeslots, all contents, all states; all histories of the base station", "why_tests_cant": "messages are cut and joined over an unbounded sequence of slots with arbitrary interleaving of timeslots; tests see a few", "anchors": ["crates/tetra-entities/src/umac/umac_ms.rs: rx_tmv_unitdata_ind, rx_tmv_sch, rx_mac_resource, rx_mac_frag, rx_mac_end, rx_tmv_aach, rx_broadcast_sysinfo, update_scrambing_and_submit_to_lmac", "crates/tetra-entities/src/umac/subcomp/ms_defrag.rs: insert_first, insert_next, insert_last, take_defragged_buf"]}
{"id": "C67", "title": "A mobile station decodes the bursts of a base station and hands up every message", "statement": "A mobile station that listens to a base station makes of every burst, even with one bit of each block received wrong, exactly the access assignment and the messages of signalling and system information that were put into it, and takes nothing of speech for signalling. From the base station's queues to the link layer of the mobile station every message sent on each timeslot arrives whole, once, in order and with its address, while calls run on other timeslots. It keeps time with the base station over every history and is never brought down. Starting from scratch it finds the scrambling code, the time and the hyperframe of the cell by itself.", "quantifier": "all cell configurations, all histories of the base station, all bursts of them, all single bit errors per block, all earlier blocks received by the mobile station", "why_tests_cant": "whether a burst is decoded as speech or signalling depends on the access assignment of the same burst, hence on the whole history of the base station; there is no test with both ends", "anchors": ["crates/tetra-entities/src/lmac/lmac_ms.rs: determine_logical_channel_dl, rx_blk_bbk, rx_blk_cp, rx_tp_prim, rx_tmv_configure_req, tick_start", "crates/tetra-entities/src/umac/umac_ms.rs: rx_tmv_unitdata_ind, rx_tmv_aach, rx_broadcast_sysinfo", "crates/tetra-entities/src/lmac/components/errorcontrol.rs: decode_cp, decode_aach"]}
{"id": "C68", "title": "What a base station is asked to send reaches the user of a mobile station's link layer unchanged", "statement": "Over every history of a base station, the user of the link layer of a mobile station that listens to it gets, of each timeslot, the data of every message sent there, each once, bit for bit, in the order sent, with its address and its kind of service (acknowledged or not); nothing else is handed to it, and the link layer is never brought down, whatever it received before. Together with what waits in the base station this is exactly the data the base station was asked to send. What the link layer of a base station makes of a request, with or without a frame check sequence and with or without an acknowledgement in it, is understood by the link layer of a mobile station as the data of that request.", "quantifier": "all cell configurations, all histories of the base station, all single bit errors per block, all earlier states of the mobile station's upper MAC and link layer, all requests and all histories of the sending link layer", "why_tests_cant": "the property spans five layers at both ends and the channel between them; existing tests run one layer, or one message, at a time", "anchors": ["crates/tetra-entities/src/llc/llc_bs_ms.rs: rx_tla_tldata_req_bl, rx_tla_tlunitdata_req_bl, rx_tma_unitdata_ind, rx_tma_unitdata_ind_bl", "crates/tetra-entities/src/umac/umac_ms.rs: rx_mac_resource, rx_mac_end", "crates/tetra-entities/src/lmac/lmac_ms.rs: rx_tp_prim"]}
{"id": "C69", "title": "Signalling stolen from calls reaches the radios of the call, over whole histories", "statement": "Over every history of a base station, the messages that a radio in a call on a timeslot takes from the stolen half slots of the bursts there, followed by those that still wait for such a half slot, are exactly the messages the base station was asked to send by stealing from this timeslot: the first timeslot the request names, otherwise the first with a call. Each comes once, in the order asked, with its address and its bits. While there is a call on the timeslot, the message that has waited longest is in the next burst there outside frame 18, so that all are heard in the end. A message is only heard in the call it was meant for.", "quantifier": "all cell configurations, all histories of requests, calls, voice, received bursts and ticks, all timeslots", "why_tests_cant": "what is in a burst depends on all requests and calls before it; a message can be lost, doubled, reordered or sent in the wrong call by some interleaving of calls and requests that no test tries", "anchors": ["crates/tetra-entities/src/umac/umac_bs.rs: rx_ul_tma_unitdata_req", "crates/tetra-entities/src/umac/subcomp/bs_sched.rs: dl_enqueue_stealing, dl_drop_all_except_stolen, finalize_ts_for_tick", "crates/tetra-entities/src/lmac/lmac_bs.rs"]}
