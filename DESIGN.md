# Formal model of tetra-bluestation in Rocq (Coq 8.16.1)

## 1. Layout

* `properties.jsonl` – the English properties (C01…).
* `rocq/theories/<Part>.v` – models only: small total Gallina functions, each with a comment citing the file and lines of `/repo` it models and saying where it simplifies.
* `rocq/theories/<Part>Proofs.v` – specifications that do not use the model's helpers, and lemmas.
* `rocq/theories/Props_<Part>.v` – only property theorems, each closed by `exact lemma.` with `Print Assumptions` beneath, and next to each an `Example` showing that its hypotheses are met by a concrete, non-trivial case.
* `MANIFEST.json` – property -> theorem names and status. `seeded/LOG.jsonl` – mutation log.

## 2. Modelling conventions

* `res A := Ok a | Err e | Panic`.  `Err` is the code's `Result::Err`/`Option::None`; `Panic` is an explicit `panic!`, failed `assert!`, `unwrap` on `None`, index out of bounds, or an arithmetic overflow/underflow in a debug build (the workspace sets no profile, so the debug build checks overflow and the release build wraps; where the difference matters the comment says which one is modelled).
* `&mut self` functions return the new state.  Loops are structural recursion or folds.  Bytes are `N` below 256, machine words are `N`/`Z` with explicit wrap where the code can wrap, lengths and positions are `nat`.
* Logging (`tracing`) is not modelled; error payload strings (field names) are dropped.
* External world (clock, radio hardware, sockets, config file contents) appears as explicit inputs.

## 3. Plan per property

| id | modelled | proof |
|----|----------|-------|
| C01–C04 | `bitbuffer.rs` byte level: head/full/tail write and read paths, window, expansion | abstraction function bytes -> bit list; each operation is proved equal to its bit-list specification for every alignment and width; histories by induction over an operation list |
| C05–C06 | `typed_pdu_fields.rs` on the bit-buffer model | round-trip by composing the bit-buffer specifications; crash freedom decided by proof or by a refuting witness |
| C07–C08 | `tdma_time.rs` over Z with the real wrap constant | linear arithmetic with div/mod; finite case analysis on slot/frame |
| C09 | `timeslot_alloc.rs` | invariant + exact step specification, induction over operation lists |
| C10 | `tx_receipt.rs`, compare-exchange as atomic step, interleavings as arbitrary lists of (thread, op) | invariant over all schedules |
| C11 | `ranges.rs` incl. binary search as implemented | induction on ranges |
| C12 | `freqs.rs` | arithmetic |
| C13–C15 | `fillbits.rs`, `bs_frag.rs`, `bs_defrag.rs`, `defrag.rs` | strong induction on remaining SDU; reassembler specified separately; invariants over event lists |
| C16–C17 | `bs_sched.rs` | state invariants; list permutation/prefix statements over arbitrary queues |
| C18–C20 | `tetra-pdus/src/umac` | codec round-trips through the bit-buffer specification; refutations where the code is wrong |
| C21–C22 | circuits and event labels | invariants over op lists |
| C23–C24 | `llc_bs_ms.rs` | invariants over event lists; history (submission log) variables |
| C25, C28 | `fcs.rs`, `crc16.rs` | linearity of the register over GF(2), injectivity of the step map, burst argument by induction |
| C26–C27 | scrambler, interleaver, reorder | involution by induction; permutation by finite checks on indices lifted to all contents |
| C29 | `rm3014.rs` | linearity + finite check |
| C30–C32 | `convenc.rs`, `viterbi.rs`, `errorcontrol.rs` | dynamic-programming optimality by induction on the trellis; uniqueness of the zero-cost path; free distance by a potential function (finite check) + induction |
| C33–C34 | `state.rs`, `client_state.rs`, `mm_bs.rs` | refinement to a relation (issi, gssi); joint invariant |
| C35–C37 | `cc_bs.rs`, `circuit_mgr.rs`, `timeslot_alloc.rs` | invariant of the joint state over all event lists |
| C38, C41 | `sds_bs.rs`, `brew_routable.rs` | decision logic |
| C39 | `protocol.rs` | parser totality and codec round-trip |
| C40 | `jitter_buffer.rs` | invariant over event lists, subsequence statement |
| C42 | `messagerouter.rs` | delivery log invariant |
| C43 | `slotter.rs` | symbolic layout lemma over arbitrary lists |
| C44–C46 | `tetra-pdus` LLC/MM/CMCE | codec round-trips |
| C47–C48 | `umac_bs.rs`, `llc_bs_ms.rs`, `mle_bs.rs` receive path; layer 3 behind it (`Layer3Spec` tells the hostile messages on their bits, `CcSafeSpec` the acceptable events) | totality or refuting witness; termination measure; invariant of call control under which no handler panics; `AliveSpec` tells when what waits jams a slot, and every other tick and every proper request is shown to succeed by an invariant of the whole base station |
| C49 | packing functions | bit-list identity |
| C50 | `net_brew/entity.rs` + call control | joint invariant or refuting witness |
| C51 | `network_time.rs` | arithmetic |
| C52–C53 | `llc_bs_ms.rs` delivery upwards and unacknowledged service | case analysis of one step plus invariants over call lists |
| C54–C55 | answers and announcements of call control and mobility management | specification of the answer as a function of the request and the state before it; invariant over event lists |
| C56–C57 | `net_brew` entity and worker, control link, short data, subscriber view | composition of entity, worker and mobility models through FIFO queues |
| C58 | `umac_bs.rs` -> `llc_bs_ms.rs` -> `mle_bs.rs` | composition of three models for one received block in any reachable state |
| C59 | `bs_sched.rs` finalize, `umac_bs.rs`, precomputed broadcasts | invariant of the scheduler over whole histories of the upper MAC; broadcasts read back with the PDU readers |
| C60 | `lmac_bs.rs`, `phy_bs.rs`, `slotter.rs` joined to the upper MAC | history variables (slots sent, last tick) tied to the lower MAC's look-back queue by an invariant; channel coding theorems C26–C32 |
| C61 | the downlink from a request to the bursts: `umac_bs.rs`, `bs_sched.rs`, `bs_frag.rs`, `lmac_bs.rs`, `phy_bs.rs` | every step of the base station traced to scheduler events (`DlTrace.v`), then the scheduler's history invariant C17 and the burst theorem C60; a decreasing measure of the queue for liveness |
| C62 | the configuration file behind the TOML parser (`tetra-config`), the checks of `validate`, the tuning of the radio (`soapyio.rs`), the start of the base station | the settings, their types and defaults as tables in `ConfigSpec.v`; inversion of the reader in both directions; the frequency theorems C12; the total tick theorem C47 for an idle cell, by induction over the ticks |
| C63 | the uplink over whole histories: `phy_bs.rs`, `lmac_bs.rs`, `umac_bs.rs`, `bs_defrag.rs`, owners of slots from `bs_sched.rs` | every step of the base station traced to acts of PDUs (`UplinkSpec.lived`, from C48's description of a block); acts mapped to events of the reassembler, invariant that its state is the result of these events, then C15; induction over histories |
| C64 | the silence check of `umac_bs.rs` over whole histories of the station | a count over the upper MAC's events (`SilenceSpec`), invariant: the table of last signs of life is the current time minus the count, and the count stays below the limit while the check looks at it, so that the wrap of the clock does not matter; induction over histories |
| C65 | call control (`cc_bs.rs`) and the station of C60 joined by the two queues between them | a joint transition system (`CallAirSpec.joint_reached`); invariant of call control: the sum of all its messages shows its calls (`CallAirProofs.history_G`); the station's view is the same sum without the messages on their way; silence by adding the count of C64 to the invariant |
| C66 | `umac_ms.rs`, `ms_defrag.rs` (`UmacMs`) and the station of C60/C61 at the other end | the receiver of C17 (`DlSchedSpec.hear`) is the specification; invariant: the four reassembly buffers hold what the receiver has of the message in progress; induction over the PDUs of a slot and over the blocks, from every state an earlier history of any blocks can lead to (a buffer not in use is a new one). Composed with C61: what the base station sends is takeable (`UmacMsFacts.heard_plain`). Access assignment and SYSINFO by reading the bits |
| C67 | `lmac_ms.rs` (`LmacMs`) with `UmacMs`, and the station of C60/C61 at the other end | `MobileSpec`: the blocks a demodulator makes of a burst, one bit of each wrong (`demodulated`), and what the upper MAC is to get of it (`slot_brings`); the access assignment of the burst decides between speech and signalling, so `told_apart` says when call control's view allows that; each burst by the decoders of C01-C06 and the slots of C60; over a whole history it follows from the events alone: no call in timeslot 1, and nothing stolen, which `bs_history` already excludes (`nothing_stolen`, from the stealing invariant of C20); induction over the history: the clocks of both ends agree, SYSINFO never changes the time, and what the upper MAC gets is the history C66 speaks about |
| C68 | `llc_bs_ms.rs` (`Llc`) on top of the mobile station of C67 (`LinkMs`) | `LinkMsSpec`: what a message carries (`carried`) and what an indication says (`said`), both as address, kind of service and bits; C67 gives the messages handed up, which are shown to have valid times, C52 what the link layer makes of each, from any state it reaches; the sending side by the form of the PDUs (C44) and the invariant of the sequence numbers |
| C69 | no new code: the station of C60/C61 | `StolenSpec`: the timeslot a request steals from, by the events alone (`target`, `to_steal`), the half slots a radio decodes from stolen bursts (`snatches`), what it finds in one (`understood`, or only the beginning: `begun`); induction over the history: each step of the station is a run of scheduler events (as in C61) whose stealing requests are those asked for, then the queue invariant of C20 and its next-slot theorem; induction on the number that wait, of eight slots one is on the timeslot outside frame 18; finding by a computed run |

## 4. Trusted base

Coq 8.16.1's kernel (including its `vm_compute` reduction), the correctness of the reading of `/repo` recorded in the comments of the model files, and the axioms listed by `Print Assumptions` under each theorem (the aim is: none, "Closed under the global context").

`coqchk -o` additionally reports the axioms of `Coq.ssr.ssrunder.Under_rel` (part of Coq's own ssreflect library, loaded by the library files some proofs import). No theorem depends on them: `Print Assumptions` says "Closed under the global context" under every property theorem of every `Props_*.v`. No axiom, parameter, module type or functor of our own is declared.

Finite sub-domains (tables, permutations, generator matrices, trellis) are settled by `forallb … = true` proved by computation and lifted by `forallb_forall`; everything else is by induction, invariants or refinement.

## 5. What is modelled and what is not

### 5.1 Modelled (file of `/repo/crates` -> model file)

| code | model |
|------|-------|
| tetra-core `bitbuffer.rs`, `typed_pdu_fields.rs`, `tdma_time.rs`, `freqs.rs`, `ranges.rs`, `timeslot_alloc.rs`, `tx_receipt.rs`, `address.rs` | `BitBuffer`, `TypedFields`, `TdmaTime`, `Freqs`, `SsiRanges`, `TimeslotAlloc`, `TxReceipt`, `MacFields` |
| tetra-config: `parsing.rs`, `config.rs` and all sections `sec_*.rs`; `state.rs` (subscriber registry); the choice of frequencies in `soapyio.rs` and of the backend in the base station's `main.rs` | `Config`; `Registry`; `UmacPrecomps`, `BrewRoute` for the settings used |
| tetra-pdus umac (all PDUs), llc (basic link), mle (D-MLE-SYNC, D-MLE-SYSINFO, D-NWRK-BROADCAST), cmce (30 PDUs), mm (13 PDUs) | `MacFields`, `MacPdus`, `MacBroadcast`, `LlcPdus`, `MleBroadcast`, `MleBs`, `CmceFields`, `CmcePdus`, `MmFields`, `MmPdus` |
| lmac components (scrambler, interleaver, speech reordering, convolutional encoder, Viterbi decoder, CRC, Reed-Muller code, error control), `lmac_bs.rs` | `Scrambler`, `Interleaver`, `ConvEnc`, `Viterbi`, `Crc16`, `Rm3014`, `ErrorControl`, `LmacBs` |
| phy `slotter.rs`, training sequences, burst constants, the message side of `phy_bs.rs` | `Slotter`, `BsMac` |
| umac `bs_sched.rs`, `bs_frag.rs`, `bs_defrag.rs`, `defrag.rs`, `fillbits.rs`, `event_label_store.rs`, `circuit_mgr.rs`, `umac_bs.rs` | `UlSched`, `DlSched`, `BsFrag`, `Defrag`, `FillBits`, `EventLabels`, `UmacCircuits`, `UmacPrecomps`, `UmacBs` |
| umac `umac_ms.rs`, `ms_defrag.rs` (mobile station) | `UmacMs` |
| lmac `lmac_ms.rs` (mobile station), joined to `umac_ms.rs` by its queue | `LmacMs` |
| the link layer of a mobile station on top of its MAC | `LinkMs` |
| llc `llc_bs_ms.rs`, `fcs.rs` | `Llc`, `Fcs` |
| mle `mle_bs.rs`, `mle_router.rs`, `broadcast.rs`, `network_time.rs` | `MleBs`, `NetworkTime` |
| cmce `cc_bs.rs`, `circuit_mgr.rs`, `sds_bs.rs`, dispatch of `cmce_bs.rs` | `CallControl`, `CircuitMgr`, `Sds` |
| mm `mm_bs.rs`, `client_state.rs`, `not_supported.rs` | `Mobility` |
| net_brew `protocol.rs`, `worker.rs`, `entity.rs`, `jitter_buffer.rs`, `brew_routable.rs` | `BrewProtocol`, `BrewWorker`, `BrewEntity`, `JitterBuffer`, `BrewRoute`, `VoicePack` |
| `messagerouter.rs` | `Router`; the joints in `UpPath`, `BrewSystem`, `BsMac` follow its delivery order |

### 5.2 Not modelled

* The mobile-station half of the stack but for its lower and upper MAC (`mle_ms.rs`, `mm_ms.rs`, `cmce_ms.rs` and its sub-entities): the base station binary does not run it, and `mle_ms.rs` is not even part of the crate (`mle/mod.rs` does not list it), so that nothing above the shared link layer exists on the mobile side. Radios appear as independent specifications (layouts, `AirSpec`, `FragSpec`).
* The modem: `modulator.rs`, `demodulator.rs`, filters (`fir.rs`, `fcfb.rs`), `soapy*.rs`, `phy_io_file.rs`. Bursts are lists of bits with a training sequence already found.
* Sockets and transports (`websocket.rs`, `quic.rs`, `tcp.rs`), threads, the serialisation used by `net_control`/`net_telemetry` (serde), `bins/*`, logging, `debug.rs`.
* The TOML syntax of the configuration file: `Config.v` starts from the parsed table (names, integers, rationals for floats, strings, arrays, tables). That no name occurs twice is the parser's doing and appears as `parsed`/`unique`. Time zone names are an oracle.
* PDUs of the MLE that the base station never sends or reads (cell change), SNDCP (a stub).
* Real time: entities are driven by explicit tick and message events; the clock of the operating system is an input.
* Enums whose `try_from`/`into_raw` tables are the identity on the raw range are represented by their raw number; where a table has holes or is not the identity the model has the table.
* Debug-build arithmetic: overflow is a `Panic`; the comments say where a release build would wrap.

### 5.3 Findings: properties that are false of the code

Each has a theorem with a concrete or general witness (suffix `_refuted`); the manifest notes give the part that does hold.

* C02: `xor_bit` ignores the end of the window.
* C03: `into_bitvec` starts at bit 0, not at the window start.
* C04: a write behind the position after seeking back grows the buffer although it fits.
* C05/C06: type 3 lengths above 11 bits and type 4 counts above 6 bits are truncated; hostile type 3/type 4 lengths panic the reader.
* C12: accepted settings with a negative downlink or an unrepresentable uplink wrap or panic.
* C14: an SDU ending inside an incomplete last octet loses bits.
* C15: after a timeout an empty SDU with address 0 is handed up; nothing ever times out because `age_buffers` has no caller.
* C16/C18/C19: granting delays 14 and more collide with special codes; request code 15 panics; reservation requests in MAC-END are never understood; the MAC-END length with a slot grant is two bits short; SYSINFO option variants.
* C17: two fragmented messages interleave; of two grants to one radio only the last is sent; a leftover stolen half slot panics.
* C20: a stolen half slot loses the end of most SDUs (fill flag set, no fill bits written); 121–124 bit SDUs are unreadable.
* C23/C24: the link layer panics after the MAC dropped a message; piggybacked acknowledgements are delayed and repeated.
* C25/C58: a frame check sequence over nothing panics; the check sequence is never stripped from the message.
* C26: colour code 0 disables scrambling.
* C34/C55: detaching and attaching a group in one list loses it in call control; the detach-all mode of a location update is ignored.
* C35/C37: call identifiers and usage markers are reused while in use.
* C38/C46: pre-coded status 31743 panics; group statuses are not delivered.
* C39: registration drops its groups.
* C43: `PHASE2BITS` swaps two symbols.
* C45: energy saving information, three downlink parsers, type 4 writer and others.
* C47: blocks, bursts, link layer PDUs and layer 3 messages (over-long optional elements, type 4 lists shorter than their count, status 31743) by which any radio stops the base station; a network call with a speaker above 24 bits does so too.  Blocks taken without harm may stop a later tick (`Props_Alive.v`): an encrypted MAC-ACCESS is acknowledged before it is refused, and the acknowledgement with its encrypted address cannot be written; requests for 10, 6 and 1 slots in one slot give a grant sixteen opportunities later, which its four bits cannot say; a stolen half slot waiting when its circuit closes stops the first message that must be split; a message above 4096 bits forgets its address, so that the grant its MAC-END asks for goes to an address of unknown type, which cannot be written (`C47_too_long_refuted`).
* C48: PDUs behind an empty MAC-ACCESS, an encrypted PDU or a stray MAC-END are ignored.
* C50: speech of one call under the session of another, unanswered calls, sessions that do not end (five histories).
* C56: network or control messages announcing more bits than they carry, or senders above 24 bits, panic.
* C59: in hang time with a stolen half slot pending the access assignment contradicts the slot.
* C61: the pieces of two long messages interleave when the first has a longer header (a channel allocation), so that no radio can put either together.
* C62: eight settings are not checked against the width of their fields (MCC, MNC, location area, colour code, system code, sharing mode, reserved frames, duplex spacing with a spacing of one's own): the file is accepted and the base station stops in its first timeslot, in release builds too (`write_bits` asserts). The stack mode is not checked by the base station: with "Ms" it sends on the uplink frequency, with "Mon" it panics. Unknown settings are accepted in the section `command` (and refused everywhere else). `cell_load_ca`, described in the example file, is refused. The neighbour cell broadcast setting is not used. Two gain names that differ in case only: which counts depends on the order of a hash map.
* C63: an unfinished message is kept for ever and joined with the last part of a later one (`age_buffers` has no caller); a message above 4096 bits is handed up as an empty SDU from address 0.
* C66: the upper MAC of a mobile station goes down on what the base station sends: a PDU whose length ends within its own header (the acknowledgement after a message of 181 bits, the 44 bits left in the slot being said to be 40), and every short message that takes the place of speech (the rest of the half slot is zeros, read as a PDU of length 0). It goes down too on a MAC-END longer than its block, on an access assignment of frame 18 with a header of the fourth kind and no traffic, and on ACCESS-DEFINE, U-SIGNAL and supplementary PDUs. It never works out a scrambling code: the colour code is never set. The second half slot announced by a stolen half slot is not delivered; a PDU addressed by event label alone stops the reading of the slot; the size of a first fragment is not checked.
* C67: a mobile station never gets going: code and time of SYNC are not taken over, so nothing ever leaves its upper MAC (`C67_deaf_refuted`). Another hyperframe in SYSINFO than its own sets its time, and the next tick, which compares it with the time of the program, stops it (`C67_hyperframe_refuted`). What is in stolen half slots is never decoded: the two marks for them are never set.
* C68: a frame check sequence asked for with acknowledged data is announced in the header and never appended (`C68_fcs_refuted`): the receiver throws the message away, or takes the end of the data for it, and stops on data of 32 bits. The MLE never asks for one.
* C69: a message that waits for a stolen half slot when its call ends is kept (`dl_drop_all_except_stolen`) and sent in the next call on that timeslot (`C69_stale_refuted`).

The reader of slots in the specifications (`DlSchedSpec.slot_items`) is strict: a PDU said to have fill bits must have them and a length must be one that exists (C14, C17, C61). For a half slot taken from speech (C20) the base station does not write this, and the lenient reader `slot_items_lenient` is used.
