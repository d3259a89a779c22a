# Formal model of libosmo-gprs in Rocq (Coq 8.16.1)

## 1. Shape of the development

* The model is a set of small, total, computable Gallina functions over
  `list Z` (octet strings), `Z`, `nat`, `bool`, `option` and records.
  One directory per library of the repository:
  `theories/Lib` (list/bit lemmas), `theories/Llc`, `theories/Rlcmac`,
  `theories/Sndcp`, later `theories/Csn1`, `theories/Gmm`, `theories/Sm`.
* Every definition in a `*Model.v` file has a comment with file and lines of
  `/repo` that it models, and says what is simplified.
* `*Spec.v` files hold the small specification vocabulary in which the theorems
  are stated.  They do not use the model's helpers.
* `*Proofs.v` files hold lemmas.
* `*Properties.v` files hold only the property theorems (closed by `exact`),
  `Print Assumptions` under each, and non-vacuity `Example`s.
* Undefined behaviour of the C code (out-of-bounds access, failed
  `OSMO_ASSERT`, use after free) is a distinct outcome (`Crash`/`OOB`/`None` as
  documented at each definition), never silently totalised.
* C integer widths are written explicitly (`mod 2^k`) where values can wrap.

When the faithful model violates a property, the development contains
`…_refuted` (a concrete witness) and, where useful, a `…_partial` theorem for
the largest natural part that does hold.

## 2. Plan per property

| id | what is modelled | how it is proved |
|----|------------------|------------------|
| C01 | `crc24.c` table and loop; bit-serial LFSR as specification | table = 8 LFSR steps by a finite sweep over 256 entries; induction on the string; linearity of the register gives burst detection |
| C02 | `llc_pdu.c` encoder and decoder | header-by-header bit lemmas, list lemmas for the payload, FCS by C01 model; SACK/RNR and A-bit cases refuted |
| C03 | decoder with explicit read-bounds monitor | case analysis on the format; refutation for S-frame SACK bitmap |
| C04 | receive path of `llc.c` as a step function | case analysis |
| C05, C06 | `llc_xid.c` encoder/decoder | induction on the field list / on the octet string |
| C07–C09 | UI transmit/receive with V(U), V(UR), OC | induction over histories; refutations where code deviates |
| C10–C12 | LLME table, assign/suspend/resume | invariants by induction over operations |
| C13–C16 | uplink window (`rlc_window_ul.c`), ack bitmap decoding | invariant over histories, modular arithmetic |
| C17, C18 | downlink window and in-order forwarding | refinement to a list-prefix specification |
| C37, C38 | the same downlink model | completeness of delivery and of the end-of-TBF signal by the same invariant; refutation for a block 63 ahead |
| C19, C20, C29 | RLC data-block LI encoder/decoder, reassembly | induction on segmentation; refutation for exact fit |
| C39 | reassembly of blocks with any contents | exact characterisation: joining of pieces, or abort when a frame outgrows 1543 octets; refutation by 78 blocks |
| C21 | `coding_scheme.c` tables | finite sweep (the domain is the finite enum) |
| C22 | FN arithmetic of `sched.c/.h` | `lia` over div/mod for all FN |
| C23 | `pdch_ul_controller.c` over any order-preserving tree library | refinement to a calendar over unwrapped time |
| C24, C25 | `llc_queue.c`, `codel.c` | refinement to per-class FIFO lists; temporal invariant |
| C26 | countdown computation and block creation | blk_count = actual number of blocks; refutation for multislot |
| C27 | product of the uplink TBF and uplink assignment FSMs | one-step invariant, induction over event sequences; exact abort causes; refutations for aborts, unlimited retries, waiting for ever |
| C28, C41 | scheduler over all entities, TBFs and reservations; every event that changes them | ownership invariant by induction over event sequences; inclusion of every block sent in a separate grant relation; precedence as a nested specification; placement of reservations in unwrapped time; refutation for asserts |
| C30–C33 | SNDCP segmentation and reassembly (`sndcp.c`), from any reachable state of the tables | chunk induction on the sender, set-of-segments invariant on the receiver, invariant over histories for the tables; refutations (16+ segments, mixing, repetition, short first segment, number space) |
| C42, C45 | same model as C28 | per-entity life-cycle relation written separately, shown for every event; supervision by induction over histories; frame lemma for uplink TBFs; refutations (starting time, TFI on other timeslots, TFI 0) |
| C46 | same model as C28 | frame lemma: every operation keeps every reservation but those of its frame or of a TBF that ends; induction over histories; with C28 the answer at the frame |
| C47 | the decoder `csn1_dec.c`, the tables of all 25 downlink and 14 uplink messages and of 4 rest octets (generated from the C text with offsets and sizes), `decode_downlink`, `decode_uplink` | a checker over tables, proved sound by induction over the table (abstract interpretation: bounds of members known before, bits left, bits every entry takes); run on every table with each member widened to the rest of the structure |
| C48 | same model, member-wise | the same checker on the tables as they are, for the 15 types that pass; the other 10 refuted by a block each |
| C49 | `csn1_enc.c` as an interpreter of the same tables, the functions of `rlcmac_enc.c` that fill in the four messages | the encoding of a structure with variable contents is computed by the kernel and compared with a bit list written from TS 44.060; for ack/nacks composed with C18 |
| C50 | encoder and decoder models over all 14 uplink tables | simulation: for every table, the decoder run on the bits of the encoder restores every member, by induction over the table; conditions on a structure computed by `live`, discharged for the four messages of the MS; refuted for lists whose end is not counted |
| C51 | paging request handlers with libosmocore's identity decoder as a parameter, entities as a list of identities | symbolic execution of the decoder on a message given as a list of fields (`Csn1Step`: one lemma per kind of table entry), for all optional parts; soundness for arbitrary blocks by case analysis |
| C52 | immediate assignment handler up to the events of the TBF state machines | as C51; refuted: request reference never compared, TFI from the stack when absent |
| C53 | `gprs_rlcmac_handle_bcch_si13` | as C51; refuted for cells with PBCCH: abort |
| C54 | data indications on a PDCH: block size, header, decoder, dispatch, handlers up to the events of SchedModel and the report for UlTxModel | as C51, on the 23 octets with all optional header octets and parts of the message; refuted: the TLLI is never compared, EGPRS format taken for GPRS |
| C55 | as C54, with the starting time and the poll of `FnModel` | as C51 |
| C56 | as C54 | as C51 |
| C57 | the same functions on arbitrary octets; failed assertions and accesses outside are the outcome `PBad` | abstract interpretation of the decoder (`Csn1Values`: possible values of tracked members, proved sound by induction over the tables), so that the unions and lengths the handlers assert are in range |
| C58 | the writer of QoS profiles with its rate and delay coding | against the table of TS 24.008 written as a function from octets to kbit/s (`QosSpec`), best value below over all octets; refuted: order of the extended octets, gaps of the rate coding |
| C59 | the reader of QoS profiles on octets, out of range is `UB` | as C58; refuted: lengths 14 and 18 overread, several values, five octets not read back |
| C60 | the two timer functions | unit and value against table 10.5.172, optimality over all octets |
| C61 | GMM: entities, state machine, timers, all messages, on octets; aborts and overreads are `UB` | invariant over all executions; refuted: other protocol discriminators |
| C62 | as C61 | invariant (exclusion) and symbolic execution of the events; refuted: no timer after a short accept, timer after a detach |
| C63 | as C61 | invariant (requesters, T3310), symbolic execution, induction over the expiries; refuted: three ways to get no or a wrong answer |
| C64 | as C61 | symbolic execution; refuted: giving up, reject, failure to send, second update |
| C65 | as C61 | symbolic execution of the three messages, invariant of the TLLI; refuted: four cases |
| C66 | as C61 | octets of the requests; refuted: exactly which signatures survive |
| C67 | as C61 | symbolic execution; refuted: message type, repeated answer, reject |
| C68 | the builders of `gmm_pdu.c` | against a reader of optional elements after TS 24.007; refuted: detach and update requests |
| C69 | as C61 | "READY timer stopped" preserved by the rest of each handler; refuted: three messages, priorities, T3302 |
| C70 | as C61 | symbolic execution; refuted: two executions |
| C71 | as C61 | symbolic execution; refuted: two executions |
| C72 | SM: mobiles, contexts, state machine, T3380, all messages and primitives, on octets; aborts and overreads are `UB` | symbolic execution under the invariant, against a reader of the request after TS 24.008 |
| C73 | SM and GMM models, the primitive of one given to the other | symbolic execution, C71; refuted: identifiers mixed up |
| C74 | as C72 | invariant over all executions; refuted by induction over 2^32 requests |
| C75 | as C72 | counting argument: each entity confirms at most once (invariant) |
| C76 | as C72 | refuted; symbolic execution shows how |
| C77 | as C72 | what each step can emit, by composition over the handlers; refuted: REJECT with cause 0, answer of SNDCP without request |
| C78 | as C72 | symbolic execution of ACCEPT with all elements; refuted: other lengths of QoS |
| C79 | coding of the PDP address | case analysis; refuted: IPv4v6 with IPv6 alone |
| C80 | as C72 | invariant over all executions; refuted: eleven inputs |
| C81 | as C72 | symbolic execution; refuted: overlapping members of the primitive, repetition |
| C82 | as C72 | symbolic execution of the expiries; refuted: one repetition is missing |
| C83 | as C72 | symbolic execution; refuted: parameters kept |
| C84 | SM and SNDCP models, primitives given to one another | symbolic execution of both; refuted: three executions |
| C85 | as C72 | symbolic execution; refuted: two executions |
| C86 | as C72 | equality of the handlers on messages that differ in the first octet; refuted: one execution |
| C87 | compressor and decompressor on octets, ring of slots as indices; over-reads and writes beyond a buffer are `UB` | invariant relating both ends, per packet, then induction over the stream; refuted: two streams |
| C88 | as C87, a link that loses any packets | the same invariant, kept per connection; refuted without the condition |
| C89 | as C87 | refinement: the ring is a list with the last used first |
| C90 | as C87 | invariant of the compressor; refuted: two packets |
| C91 | as C87 | invariant of the decompressor over any input; refuted: the buffer of `sndcp.c:349` |
| C92 | as C87 | symbolic execution under the invariant |
| C93 | as C87 | noninterference: the functions commute with replacing the other half |
| C94 | decoder of the SNDCP-XID block on octets; TS 44.065 as a separate description of fields and their octets | each field is read from its octets, induction over fields and elements; refuted: three blocks |
| C95 | also the encoder, into a buffer | the encoder writes the octets of the description, then C94; refuted: 18 entities, a small buffer |
| C96 | also completion from the request | induction over the request; refuted: ROHC, equal numbers |
| C97 | an access outside the buffer is `UB` | bound on the octets one field may read, induction; refuted: blocks of 3 octets |
| C98 | SN-XID.req, LL-XID.ind, SN-XID.rsp, LL-XID.cnf, with the tables of entities; two ends that exchange the octets | request, answer and completion composed from C95 and C96; refuted: two exchanges, permissions |
| C99 | also header compression by the tables | C98 and C87; refuted: S0 = 255 |
| C100 | LL-XID.ind and SN-XID.rsp | induction over the proposals; the table by a look-up that a separate description gives; refuted: no S0, eleven proposals |
| C101 | also SNSM-ACTIVATE.ind; histories as an inductive relation | shape of what the decoder gives for any octets, invariant over histories; refuted: three octets, SN-XID.rsp |
| C102 | SN-XID.req and LL-XID.cnf | induction over the answer; refuted: three situations |
| C103 | look-up by PCOMP or DCOMP value and the two conversions | induction over the table; refuted: two proposals |
| C104 | v42bis.c, compressor and expander; the unitdata functions of sndcp_dcomp.c | invariant of the dictionary (lists of children without cycles); the expander follows the compressor step by step, with the same dictionary up to the last entry; bits packed and unpacked; induction over the N-PDU; for P1 above 4096 the same steps as with 4096, by a bound on the entries; refuted: P0 = 2 |
| C105 | also the table functions of sndcp_dcomp.c, `decompress_segment` | from C104; refuted: 800 equal octets |
| C106 | the expander on any octets | invariant over the steps: every entry leads to the root in at most P2 steps, each step takes an octet; refuted: four STEPUP codewords |
| C107 | what C87, C94, C99 and C104 model, together (`Comp/FlowSpec.v` puts sender and receiver together) | the invariants of both compressions for each direction, kept by each N-PDU of either; expansion needs only the memory the packet takes; refuted: 120 octets of headers |
| C108 | what C30, C31 and C35 model, together (`Stack/StackSpec.v` connects the call-backs of SNDCP and LLC) | sending: each SN-PDU is one UI frame with the next number; receiving: induction over the frames sent, with the number of frames lost since the last that arrived; then C31's reassembly; refuted: last frame of one and first frame of the next N-PDU lost |
| C109 | the same on top of C29's blocks | the frames RLC hands up are a prefix of those sent; a prefix is a pattern of losses as in C108 |
| C110 | the same on top of C19's transfer | as C109 |
| C111 | `create_ul_acked_block` with all it calls, down to the octets; on top of C110's transfer | the message computed in closed form for CS-1 to CS-4, its fields by division and remainder; sending again by induction over what is sent; the network's side is `heard` in `Rlcmac/AirSpec.v` |
| C112 | the header part of `gprs_rlcmac_dl_tbf_rcv_data_block`, `rlcmac_dec.c` and PdchModel's way there; on top of C109 | fields by division and remainder; for any octets by cases on size and payload type; then induction over what is on the air |
| C113 | `copy_from_aligned_buffer`, `copy_to_aligned_buffer` at any bit offset | messages as lists of bits, induction over the octets; C21's layout for the offsets |
| C114 | `gprs_rlcmac_rlc_mcs_cps`, `gprs_rlcmac_get_punct_scheme`, `gprs_rlcmac_update_punct_scheme` and `create_ul_acked_block` for EGPRS; the part of `take_next_bsn` that chooses the scheme of a block sent again | the tables of the standard written out; invariant of a block (18 pairs of first and current scheme, range of the puncturing scheme) over all transmissions. Partial: one block in a message |
| C115 | the same with `egprs_ul_get_data`, `get_egprs_ul_spb` | the same invariant with the first segment the network has; refuted for MCS-4 |
| C116 | `osmo_gprs_rlcmac_decode_uplink_data` (CS-1), composed with `create_new_bsn` and what is sent for a block (C111) | decoding of any split of the octets; the extension octets of a layout by induction; transfer by induction. Refuted for six extension octets |
| C117 | `osmo_gprs_rlcmac_encode_downlink_data` (CS-1), composed with what the mobile reads (C112) | the same extension octets the other way round; room for lawful blocks by counting. Refuted if no entry ends the extension octets |
| C118 | the dispatchers of all entry points of the five layers, as traces of what happens to the buffer of the primitive | case analysis over the C switches for all numbers; the exceptions as exact sets. Refuted for every member of them |
| C119 | the same, with the value returned and the assertions | the same. Refuted at eight entry points |
| C120 | the fourteen functions that call a callback, composed with the entry points | case analysis; composition by substitution of traces. Refuted for SM's two and LLC's upper one |
| C121 | the encoder of downlink control blocks with all its tables, and the decoder (C47) | the induction over CSN.1 tables of C50, from the end of the header on. Refuted for PSI13 |
| C122 | the encoder (C121), the decoder and the handlers (C54-C56), composed | the encoder evaluated on symbolic structures gives the layout of 44.060; then C54, C55, C56 |
| C123 | the list of entities, GMMRR-ASSIGN.req, GRR-UNITDATA.req up to the queue, the lookups for paging | refinement to a table from TLLIs to mobiles, by induction over the history. Refuted for an update to a TLLI in use, TLLI 0xffffffff and the reserved P-TMSI |
| C124 | the octet count of a channel request, over the queue of C24 | induction over the classes and frames. Refuted for an empty frame |
| C125 | the uplink TBF of C27 (`Rlcmac/UlTbfModel.v`): assignments, starting times, block requests | invariant over histories: the allocation in use, and those that wait, come from a message in the history since which no access was requested |
| C126 | the decoder of EGPRS Packet Channel Requests, over the CSN.1 decoder of C47 | calculation with symbolic bits, then arithmetic; both directions |
| C127 | the decoder and the encoder of MS radio access capabilities, over the CSN.1 decoder and encoder | the checker of C48 for the table; the round trip of C50 for the table |
| C128 | as C127 | invariant: the read index and the bits that are left add up to the end of the element; induction over the elements; refuted for length 0 |
| C129 | GMM INFORMATION and the decoder of network names, over libosmocore's tlv_parse as a parameter | case analysis on the table (refuted); arithmetic of seven-bit characters for the decoder |
| C130 | `Llc/LlcModel.v` at both ends (no new model) | concrete run of both ends (refuted); case analysis of every frame received; XID round trip for the frame sent |
| C131 | `Rlcmac/AirModel.v` (no new model); table of 9.3.2.1.1 in `PunctSpec.v` | what one message does to the block's scheme, then case analysis of all pairs of MCS; concrete run (refuted) |
| C132 | building an EGPRS data block; rules of 10.4.14a in `EFillSpec.v` | concrete block (refuted); induction over the queue (contained); equations for filling and for blocks without indicators |
| C133 | SNSM-ACTIVATE.ind and SNSM-DEACTIVATE.ind together with the XID primitives of `NegModel.v`, for one TLLI | induction over histories (which NSAPIs have an entity); concrete history (refuted) |
| C134 | `Csn1Model.v` on the descriptors of UTRAN cells; tables of 11.2.9b in `UtranSpec.v` | equations over all states of the decoder, induction over the words; concrete messages (refuted) |
| C135 | the requests that configure the physical layer, the numbers of TBFs, when TBFs are made, assigned and ended (`L1cfgModel.v`); what the physical layer does with requests is a specification of its own (`L1cfgSpec.v`) | invariant by induction over histories; concrete histories (refuted) |
| C136 | ciphering and deciphering of UI frames and the check of their FCS; the algorithm, its input and CRC-24 are parameters | equations for all parameters; the direction and the size by the same equations (refuted) |
| C43, C44 | tables of SNDCP entities, all primitives of `sndcp_prim.c` without the XID block | frame lemma for each primitive; refutations (colliding TLLI, shared SAPI) |
| C34 | the CCCH and BCCH handlers of `rlcmac.c` on top of the CSN.1 decoder; a read outside the 23 octets is a distinct outcome | case analysis over the handlers, composed with C47/C48 for the rest octets |

## 3. Trusted base

* Coq's kernel (and `coqchk`).
* The reading of the C code recorded in the comments of the model files.
* `Print Assumptions` stands under every property theorem.  Result for every
  theorem named in `MANIFEST.json`: "Closed under the global context", that is,
  no axiom at all, neither of the standard library nor of this development.
  (The standard library's `Coq.ssr.ssrunder`, loaded by its tactics for `lia`, declares
  seven opaque constants that a checker may list; no theorem here depends on them.)

## 4. What is modelled and what is not

Modelled (file of `/repo` -> model file):

| code | model |
|------|-------|
| `src/llc/crc24.c`, FCS part of `llc_pdu.c` | `Llc/Crc24Model.v` |
| `src/llc/llc_pdu.c` | `Llc/PduModel.v` |
| `src/llc/llc_xid.c` | `Llc/XidModel.v` |
| `src/llc/llc.c`, `llc_ll.c`, `llc_llgmm.c`, receive entry of `llc_grr.c`, `llc_bssgp.c` | `Llc/LlcModel.v` |
| `src/rlcmac/rlc_window.c`, `rlc_window_ul.c`, `rlcmac_dec.c` (ack bitmap), window part of `tbf_ul.c` | `Rlcmac/UlTxModel.v` |
| `src/rlcmac/rlc_window_dl.c`, window part of `tbf_dl.c` and the Ack/Nack description of `rlcmac_enc.c` | `Rlcmac/DlRxModel.v` |
| `src/rlcmac/rlcmac_enc.c` (append of LLC data), `rlcmac_dec.c` (length indicators, GPRS and EGPRS), block building of `tbf_ul.c` (GPRS coding schemes), reassembly of `tbf_dl.c` | `Rlcmac/RlcDataModel.v` |
| `src/rlcmac/coding_scheme.c` and the block layout functions of `rlc.c` (not the puncturing tables) | `Rlcmac/CsModel.v` |
| frame number arithmetic of `sched.c`, `sched.h`, `rlcmac_dec.c` (libosmocore's `gsm_rfn2fn` is outside) | `Rlcmac/FnModel.v` |
| countdown procedure of `tbf_ul.c` (GPRS coding schemes, K = 1) on top of block building | `Rlcmac/CountdownModel.v` |
| `codel.c` (times as whole nanoseconds) | `Rlcmac/CodelModel.v` |
| `llc_queue.c` without the delay statistics; its use in `gre.c`, `tbf_ul.c` (take, freeze, hand back) and `rlcmac_prim.c` | `Rlcmac/LlcQueueModel.v` |
| `tbf_ul_fsm.c`, `tbf_ul_ass_fsm.c` and the parts of `tbf_ul.c`, `rlcmac.c`, `sched.c` that drive them, for one uplink TBF (GPRS); block contents, window and queue are oracle arguments of the events | `Rlcmac/UlTbfModel.v` |
| `src/rlcmac/sched.c` (scheduler), `gre.c` (entities; not the queue), `tbf_dl_fsm.c`, `tbf_dl_ass_fsm.c`, timers and polls of `tbf_dl.c`, dispatch of `rlcmac.c`; the contents of blocks are oracle arguments of the events | `Rlcmac/SchedModel.v` |
| `src/rlcmac/pdch_ul_controller.c` (the red-black tree library is a parameter, the pool of nodes is left out) | `Rlcmac/UlcModel.v` |
| `src/sndcp/sndcp.c`, `sndcp_prim.c` (unacknowledged transfer, tables, LL and SNSM primitives; not SN-XID, no compression, which `sndcp.c:262-272` switches off) | `Sndcp/SndcpModel.v` |
| `src/csn1/csn1_dec.c`, `csn1.c` (decoder) | `Csn1/Csn1Model.v` |
| the tables of `csn1_ts_44_060.c`, `csn1_ts_44_018.c`, `csn1_ts_24_008.c` with the member offsets and sizes of `csn1_defs.h` (LP64, natural alignment; generated from the text by `tools/csn1/emit.py`, every entry shows its macro) | `Csn1/Csn1Tables.v` |
| `decode_downlink` of `csn1_ts_44_060.c`, rest octets of `csn1_ts_44_018.c` | `Csn1/Csn1DlModel.v` |
| `src/csn1/csn1_enc.c` (encoder; not: UNION_LH, EXIST, callbacks) | `Csn1/Csn1EncModel.v` |
| `encode_uplink`, `decode_uplink` of `csn1_ts_44_060.c`; `rlcmac_enc.c:280-419`; creation of the messages in `gre.c`, `tbf_dl.c`, `tbf_ul.c` | `Csn1/Csn1UlModel.v` |
| CCCH and BCCH in `rlcmac.c:137-165,207-613`, `rlcmac_prim.c:625-647`, contents of assignments in `tbf_ul_ass_fsm.c`, `tbf_dl_ass_fsm.c` (`rsl_dec_chan_nr`, `osmo_mobile_identity_decode`, `gsm_rfn2fn` are parameters) | `Rlcmac/CcchModel.v` |
| Blocks on PDCHs: `rlcmac_prim.c:587-623`, `rlcmac.c:167-193,615-804,832-855`, `rlcmac_dec.c:466-476`, contents of assignments in `tbf_ul_ass_fsm.c:196-263`, `tbf_dl_ass_fsm.c:98-119`, arguments of the report in `tbf_ul.c:307-351` | `Rlcmac/PdchModel.v` |
| QoS profile: `qos.c` | `Common/QosModel.v` |
| GPRS timer: `gmm/misc.c:41-82` | `Gmm/TmrModel.v` |
| `gmm.c`, `gmm_ms_fsm.c`, `gmm_pdu.c`, `gmm_prim.c` (libosmocore's `tlv_parse`, mobile identity coding and the return codes of the call-backs are parameters; primitives of unknown types and log output left out) | `Gmm/GmmModel.v` |
| `sm.c`, `sm_ms_fsm.c`, `sm_pdu.c`, `sm_prim.c` (call-backs do not call back into SM and their return codes are ignored as the code does; libosmocore's `tlv_parse`, `osmo_apn_from_str`, `osmo_sockaddr_is_any` and state machines are modelled from knowledge of them, their source is not in /repo; reading beyond a received message is `UB` although the buffer may be longer; log output and `misc.c` left out) | `Sm/SmModel.v` |
| `slhc.c` (`slhc_init`, `slhc_compress`, `slhc_uncompress`, `slhc_remember`, `slhc_toss`), `slhc.h`, `sndcp_pcomp.c` (`rfc1144_compress`, `rfc1144_expand`); statistics and log output left out, allocation never fails | `Comp/SlhcModel.v` |
| `sndcp_xid.c` (`gprs_sndcp_compile_xid`, `gprs_sndcp_parse_xid` and all functions they use; not the dump functions), `tlv_put` and `tlv_parse_one` of libosmocore from memory | `Comp/XidModel.v` |
| `sndcp_comp.c`, `sndcp_pcomp.c`, the parameters of `sndcp_dcomp.c`, `sndcp.c:732-1187` (XID primitives), `sndcp_prim.c` (SNSM-ACTIVATE.ind, SN-XID) | `Comp/NegModel.v` |
| `v42bis.c` (dynamic mode, all functions that N-PDUs use), `sndcp_dcomp.c`, `sndcp.c:335-379`, `sndcp.c:646-674` | `Comp/V42Model.v`, `Comp/DataModel.v` |
| nothing new: the models of SNDCP, LLC and RLC data connected to each other; that SNDCP's and LLC's call-backs are connected in this way is up to the library's user | `Stack/StackSpec.v` |
| `llc_prim.c:127-221`, `llc_ll.c:231-355`, `llc_llgmm.c:364-410`, `llc_grr.c:77-149`, `llc_bssgp.c:81-142`, `sndcp_prim.c:294-798`, `sm_prim.c:198-659`, `gmm_prim.c:468-1012`, `rlcmac_prim.c:373-741`: control flow, freeing and return values only; what the handlers do is in the other models | `Stack/PrimModel.v` |
| `csn1_ts_44_060.c:4862-5069` | `Csn1/Csn1DnModel.v` |
| `csn1_ts_44_060.c:4353-4406, 5209-5236` | `Csn1/ChReqModel.v` |
| `csn1_ts_24_008.c:343-392` | `Csn1/RaCapModel.v` |
| `misc.c:88-108`, `gmm.c:1429-1453` (names), `gmm_pdu.c:146-175` (tags) | `Gmm/NameModel.v` |
| `llc.c:776-813,826-866` (`gprs_cipher_run`, `gprs_cipher_gen_input_ui`, CRC-24 are parameters) | `Llc/GeaModel.v` |
| `tbf_ul.c:53,127-155`, `tbf_dl.c:48,138-161`, `tbf_ul_fsm.c:65-82,140-153,443-448`, `rlcmac_prim.c:323-344`, `gre.c:39-44` (the requests and numbers only; which assignment comes when is arbitrary) | `Rlcmac/L1cfgModel.v` |
| `sndcp.c:82-90,113-129,155-164`, `sndcp_prim.c:699-730` | `Comp/DeactModel.v` |
| `rlcmac_enc.c:195-225`, `tbf_ul.c:728-775` (EGPRS) | `Rlcmac/EFillModel.v` |
| `rlcmac_prim.c:390-401, 458-514`, `rlcmac.c:137-165`, `gre.c:46-95` (the list), `gre.c:263-284` | `Rlcmac/RegModel.v` |
| `csn1_ts_44_060.c:5071-5207` | `Rlcmac/BlockModel.v` |
| `tbf_ul.c:838-867` (EGPRS part), `tbf_ul.c:925-1182`, `rlc.c:133-271`, `rlcmac_enc.c:31-64,240-278`, `rlcmac_dec.c:250-349`, `rlcmac.c:806-830`, the header part of `tbf_dl.c:281-343` | `Rlcmac/AirModel.v` (octets on the air; the message buffer is taken to be zero at first; counters and state machines are in UlTbfModel) |

Not modelled: memory allocation failure, talloc hierarchies, logging, and the
message buffer library of libosmocore; callbacks that re-enter a layer before
they return; ciphering algorithms (dead in LLC: `algo` is never set).

## 5. Findings (properties the code does not have)

LLC:

1. The encoder writes `(func - RR) & 3` into the S bits, the decoder reads them
   as RR, ACK, RNR, SACK; RNR and SACK are swapped (C02).
2. The A bit of S frames is written to an octet the decoder does not read it from (C02).
3. U frames other than those sent with the PROT flag (all XID frames sent by
   the layer) carry an FCS over header plus N202, so the peer, which follows PM, rejects
   frames over seven octets (C02).
4. S frames with a SACK bitmap above 32 octets overrun the decoded header (C03, C36).
5. An I+SACK frame whose bitmap length reaches past the frame gives a huge payload length (C03).
6. The first repetition of a UI frame is delivered again; the window is 31 wide (C08).
7. The sender's overflow counter advances one frame early (C09).
8. TLLI 0xffffffff finds the first subscriber without an old TLLI (C10).
9. User data received while suspended is delivered (C12).
10. A corrupted frame with an unknown TLLI may allocate an entity (C04, C11).

RLC/MAC, uplink window (behaviour shown by the model, within the claims C13-C16):

11. A later report may turn an acknowledged block that is still inside the window
    back into one to be sent again; an SSN more than 64 ahead of V(A) is ignored silently.
12. A final acknowledgement clears the window whatever it contains, also while data is left.

RLC/MAC, downlink window:

13. `raise_v_r` accepts a block only up to 62 ahead of V(R); one that is exactly 63 ahead is stored
    and marked received but V(R) stays.  Such a block is later reported as missing (C18), and if no
    higher block follows it is never delivered however often it is repeated (C37).

RLC data blocks:

14. When several frames fill the final uplink block exactly, the encoder ends the list of length
    indicators without M = 1; the reader takes the last frame for filling octets and loses it (C19).
15. The end-of-data test of both length-indicator parsers is `offs > data_len` (should be `>=`); it is
    harmless only because the chunk array has 16 entries and every block has more than 16 octets (C20).
16. A block with more than 16 pieces is dropped as a whole; LLC frames are too long for that to happen (C29).
17. Blocks that never end a frame make reassembly run past its 1543-octet buffer; `msgb_put` then
    aborts the process (C39).

Coding schemes, frame numbers, reservations:

18. `gprs_rlcmac_mcs_get_by_size_dl` compares downlink sizes with the wrong table entries: blocks of
    MCS-5 to MCS-9 are not recognised (C21; only GPRS is used today).
19. `fn_next_block` skips a block when called with an idle frame; all callers pass block starts (C22).
20. A reservation for a frame that is already taken leaves its node in the pool of the timeslot; the pool
    only grows (C23).  Freeing an entity leaves its DL_ASS reservation behind with a dangling pointer.

Countdown:

21. With more than one uplink timeslot the countdown value is decremented for every block although it
    counts block periods: data follow a block with value 0, with values 255, 254, ... (C26).

LLC queue:

22. When CoDel decides to drop a frame, `gprs_rlcmac_llc_queue_dequeue` frees it and then returns it: the
    caller transmits freed memory (C24).  CoDel is on by default; a queue that stays behind for two
    intervals (8 s) with more than 512 octets is enough.
23. Handing a frozen queue back reverses the order of frames within a class (C24).
24. An empty GRR-UNITDATA.req frame makes the octet counter arbitrary and aborts on the next dequeue (C24).
25. The queue allocated when the countdown starts does not get the CoDel parameters: CoDel is off from
    then on.  Not a violation of a listed property.
26. `pq[i][j].sapi` is set to `i + 1` and `gre.c:220` asks for the radio priority where it wants the SAPI;
    both are without effect today.

Uplink TBF (C27):

27. An Uplink ACK/NACK that arrives in FLOW of a one-phase access before the first data block was sent
    reaches an assertion and ends the process.
28. A Packet Uplink Assignment without timeslots (also: one of an unsupported kind) that asks for an answer
    or has a starting time is accepted; the next block tick ends the process on `num_ts > 0`.
29. After the access was started again (allocation zeroed, so TFI 0 and no timeslot) an ACK/NACK for TFI 0
    that changes the coding scheme during the countdown ends the process on the same assertion.
30. When the lower layer refuses the channel request that follows the N3104 limit, the TBF is freed and then
    used: T3180 is started on freed memory (`tbf_ul.c:1222`).
31. Restarts caused by the N3104 limit are not counted: without acknowledgements the access is repeated for
    ever.
32. No timer runs while waiting for the Immediate Assignment, for the starting time or for the turn to send
    the Packet Resource Request: an unanswered channel request leaves the TBF waiting for ever.
33. After a single block allocation the Packet Resource Request may only be sent in the allocated frame, so the
    retry after T3168 is never sent and the TBF stays without a timer.

Scheduler:

34. The poll of a final Packet Uplink Ack/Nack that allows a new TBF ends the process (`sched.c:202`) when the
    polled block has another USF than the TBF had, although a reserved block needs no USF (C28).
35. An entity released by GMMRR-ASSIGN.req keeps its reservations for answers to Packet Downlink Assignments; the
    scheduler then uses freed memory (C28).
36. A second Packet Uplink Assignment without starting time completes the assignment before the poll of the
    first is answered; the polled block carries data and the network gets no answer (C28).
37. The assignment machine of downlink TBFs never sets its timeslot: an assignment with a starting time takes
    effect only if timeslot 0 gets an indication for exactly that frame.

SNDCP:

38. Segment numbers are taken modulo 15 although the field has 16 values: the sixteenth segment is numbered 0
    again and the receiver delivers a wrong N-PDU of the right length.  The segment counter has 8 bits, so the
    257th segment carries the F bit again (C30).
39. Eight of the sixteen SAPIs (none of those meant for SNDCP) have no default N201-U; for them (and for any N201-U below 4) `n201_u - header` wraps and
    SN-PDUs have no limit (C30).
40. A segment whose N-PDU number differs from the one under reassembly is only logged (`sndcp.c:497-501`) and
    then added: octets of two N-PDUs are delivered as one (C31).
41. A repeated segment is counted in `tot_len` again: the N-PDU is delivered with zeros appended, and the
    queue grows without limit until `msgb_alloc` cannot hold the N-PDU and the process ends (C31, C32).
42. A first segment of exactly three octets passes the length check and its fourth octet is read (C32).
43. N-PDU numbers are taken modulo 4095 instead of 4096 (C33).  An unsegmented N-PDU refused by LLC uses up a
    number, a segmented one does not (C33).
44. LL-ASSIGN to a TLLI already in the table hides the entities that had it (C43).
45. LL-XID updates only the first entity on the SAPI (C44).
46. SNSM-ACTIVATE for an NSAPI that exists, with another SAPI, keeps the old SAPI; when the QoS profile cannot
    be parsed the entity stays allocated although the activation fails.  Not a violation of a listed property.
47. A downlink assignment with starting time starts only on a ready-to-send indication of timeslot 0 (`ts_nr` of the
    assignment context is never set) in exactly that frame; on any other timeslot, or when that indication is
    missed, the TBF never starts (C42).
48. Downlink and uplink TBFs are looked up by TFI without the timeslot, although a TFI is unique only per PDCH: a
    block reaches the TBF of another entity with the same TFI (C42).
49. An uplink TBF without assignment has TFI 0 in the lookup: a Packet Uplink Ack/Nack for the TBF of another
    entity with TFI 0 is lost on it (C45).
50. A poll for a block that is reserved already is ignored (the result of the reservation is not looked at), also when
    it comes from another TBF or another kind of message; nothing is sent for it (C46).
51. Ten of the 25 downlink message types have a block that makes the decoder store beyond a member (C48): arrays filled
    by a length from the message with nothing checked against their size (frequency lists `RFL_NUMBER[4]`, `ARFCN_INDEX`,
    Mobile Identity of Packet Paging Request, mobile allocations) and members narrower than the field (LSA_ID with
    24 bits and the ARFCN of a handover in a `guint8`).  Later members are overwritten; the structure of
    osmo_gprs_rlcmac_decode_downlink is large enough to contain all of it (C47).
52. The same happens in the rest octets of IMMEDIATE ASSIGNMENT (access technology list of 12), SI13 (`RFL_NUMBER`) and
    PAGING REQUEST 1 (mobile allocation of a group call).
53. `PACKET PHYSICAL INFORMATION` is decoded into the member of the union for PACKET HANDOVER COMMAND
    (`csn1_ts_44_060.c:4697-4701`), harmless because of the union.
54. The length of a downlink block is fixed at 23 octets (`csn1_ts_44_060.c:4594`), so that the header of a longer block or a
    shorter message is not noticed.
55. The count of octets in a PACKET RESOURCE REQUEST is the length of the LLC queue cut to 16 bits (`rlcmac_enc.c:326`):
    65541 queued octets are announced as 5, 65536 as 0 (C49).  PACKET DOWNLINK ACK/NACK uses a function that stops at 65535.
56. The encoder does not count the end mark of a recursive list (CSN_RECURSIVE_TARRAY in `csn1_enc.c`): padding comes out one
    bit too long per list, and a full message is accepted whose last bits do not fit the block (C50, refuted by an
    ADDITIONAL MS RADIO ACCESS CAPABILITIES of 188 bits).
57. For CSN_EXIST and CSN_NEXT_EXIST_LH the encoder executes `writeIndex--` on the pointer (`csn1_enc.c:812,821,888,890`) and
    then reads and writes through it: undefined behaviour.  No uplink table uses them, the downlink ones do.
58. The flag of an optional part is written by its lowest bit but tested for being non-zero (`csn1_enc.c` CSN_NEXT_EXIST): a
    flag of 2 sends the part without announcing it.
59. PACKET PAUSE has a table whose message type has two bits and comes first: what is encoded cannot be decoded, and its
    bitmap RAI of 48 bits is copied as 8 octets into a member of 6.
60. The lists of PACKET MEASUREMENT REPORT, PACKET CELL CHANGE NOTIFICATION and PACKET ENHANCED MEASUREMENT REPORT have less
    room than their counters allow (6 for 7, 9 for 31, 6 for 8 elements); the counter of the reporting quantities is never
    decoded.
61. SI 13 of a cell with PBCCH: `rlcmac.c:605,609` read `u.PBCCH_Not_present` though the decoder filled in
    `u.PBCCH_present`; the octet taken for T3192 is the low octet of the ARFCN of the PBCCH, and a value above 7 fails the
    assertion in line 580: any cell can abort the process with one block (C53, refuted).
62. SI 13 rest octets that begin with L (no GPRS information) are accepted and the timers are set from what the
    structure held before.
63. An immediate assignment of a downlink TBF without the part that holds the TFI starts the TBF with a TFI from
    uninitialised stack memory (`rlcmac.c:267`, `tbf_dl_ass_fsm.c:62-96`; C52, refuted).
64. The request reference of an immediate assignment is never compared with the mobile's own request: the answer to
    any other mobile's request makes this one leave for the channel given there, and hands the assignment to its first waiting
    uplink TBF (C52, refuted).  The channel is established even if the TLLI of a downlink assignment is unknown.
65. `mob_alloc_len` of an immediate assignment is not checked: from 12 on the length of the rest octets wraps around
    to 2^64 - n (`rlcmac.c:269`).  Only because 8 times that becomes a negative int does the decoder return at once
    (C34 holds by that accident).
66. The L2 pseudo length is compared with 22 without taking off its two low bits (`rlcmac.c:409,516`); for valid messages the
    comparison is never true.  It is not used to find the end of the identities: rest octets that begin with L L H 101 L L
    (0x17) are taken for a second identity.
67. In a paging request type 1 with the first indication set and a first identity that is neither IMSI nor TMSI the page of the
    second identity is dropped.  Suspected from memory of 44.018: the two alternatives of the frequencies of a group call are
    swapped in the table (`csn1_ts_44_018.c`).
68. The contention resolution TLLI of a Packet Uplink Ack/Nack is never compared with the TLLI of the mobile
    (`tbf_ul_fsm.c:212-213,254-255`): the answer to another mobile that got the same assignment ends the contention
    resolution of this one, and both go on sending on the same blocks (C54, refuted).
69. A Packet Uplink Ack/Nack in EGPRS format is evaluated as if it were in GPRS format (`tbf_ul.c:311`, `UnionType` is not
    looked at): the channel coding command becomes part of the bitmap of received blocks (C54, refuted).
70. The frequency parameters of packet uplink and downlink assignments are decoded and ignored; an assignment without TFI, or with
    fixed allocation, leaves a pending allocation with TFI 0 and no timeslots, with which the machine goes on.
71. Between the extension bits and the additions of release 99 the table of Packet Uplink Ack/Nack has a bit and, in the
    branch without fixed allocation, one more (`FixedAllocationDummy`).  Whether the standard has the second one could not be
    looked up here; C54 takes it as part of the format, as both sides of Osmocom do.
72. `sm_qos.h:13-18` puts the extended rates of the uplink in front of those of the downlink; in figure 10.5.138 of TS 24.008
    (from memory) the downlink is in front.  As a profile of 14 or 18 octets is also taken to hold the downlink's, the reader
    looks for them two octets past the end, always (C59, refuted); the writer cuts the downlink's extension off when only the downlink
    needs one (10 Mbit/s is sent as 8640 kbit/s) and otherwise exchanges uplink and downlink for a reader of the standard
    (C58, refuted).
73. `enc_mbr_kbps` does not round down in the gaps between its stretches: 16.1 to 17 Mbit/s give up to 25 Mbit/s, 129 gives 130,
    258 to 260 a reserved octet, 504 to 510 Mbit/s 510 or 520, and from 510 to 1600 Mbit/s the base 0x2d stands for 0x3d (C58, refuted).
74. Reading: from 0x80 to 0xfd the unmasked octet is multiplied (576 kbit/s are read as 8768), 0xff gives 4294967295 instead of 0, and
    delays up to 150 ms are a tenth of what was sent (C59, refuted).
75. A profile without octets 6 to 13 is written with five octets; the reader accepts only three (C59, refuted).

GMM (the structure of the messages of TS 24.008 is from memory, section 9.4):

76. `gmm_prim.c:948-950`: a message with a protocol discriminator other than GMM or SM fails an assertion; two octets from the
    network stop the process (C61, refuted).
77. The READY timer's value is only set while optional elements of an accept are read (`gmm.c:913-928`): after an accept without
    any it is 0, the READY timer never starts and so the periodic timer does not either (C62, refuted).  The READY
    timer is not stopped when the mobile is detached; its expiry starts the periodic timer in DEREGISTERED (C62, refuted).
78. If LLC refuses the first Attach Request, or the upper layer detaches while the attach is under way, nobody gets an answer; a reject
    with cause 0 reaches session management as an acceptance (`gmm_prim.c:417-426`) (C63, refuted).
79. LLC stays suspended in a registered mobile after an update was given up, rejected with cause 13, 15 or 25, or could not be
    sent (`gmm_ms_fsm.c`: only the accept resumes) (C64, refuted).
80. The counter of T3330 is never set back: a second update without answer is repeated some 250 times (C64, refuted).
81. `gmm.c:1087-1110`: the P-TMSI of an update accept is taken over before the IMEISV is looked at; if that is not one the accept is
    dropped, but the new TLLI is used although LLC does not know it (C65, refuted).
82. After a detach the TLLI is 0xffffffff and stays so: the next Attach Request is sent under it (C65, refuted).  Accepts nobody
    asked for are processed in every state (C65, refuted).
83. `gmm.c:1266`: a reallocation command must have exactly 15 octets, so one with a signature is dropped (C65, refuted).
84. The P-TMSI signature is put together with shifts by 8 and 4 (`gmm.c:908`, 1082, 1301) instead of 16 and 8: it is sent back
    right only if its first two octets are 0 (C66, refuted).  A session establishment replaces it by the primitive's (C66, refuted).
85. Authentication failures are sent with the message type of P-TMSI Reallocation Complete (`gmm_pdu.c:329`); after an answer the
    reference is 255, and an answer with that reference is accepted again, with 15 in the message; a mobile that is registered ignores
    Authentication and Ciphering Reject (C67, refuted).
86. Detach Request: type and power-off in the upper half of the octet, DRX parameter that the message does not have, P-TMSI without
    identifier; update request: DRX parameter and network capability without identifiers, the latter's length behind its first octet;
    the radio access capability is empty in all requests; the key sequence number of an Attach Request is always 0 (C68, refuted).
87. Force to standby is looked for in the wrong half octet of Detach Accept, update reject and reallocation command; the radio
    priorities for SMS and TOM8 are exchanged; T3302 and T3346 are kept as octets (C69, refuted).
88. Switching GPRS off has no effect on a mobile that is not in DEREGISTERED; a power-off detach takes a mobile from NULL to
    DEREGISTERED, from where it attaches while GPRS is off (C70, refuted).
89. Session management is not told the P-TMSI of a reallocation command; one mobile has one session identifier only (C71, refuted).
90. `gmm_prim.c:604` with 471 and 708: an unsupported primitive on the GMMREG SAP is freed twice (read from the code; not modelled).

SM (TS 24.008 from memory, section 9.5 and 6.1.3):

91. `sm.c:144`: the session id is a counter of 32 bits that is not checked: after 2^32 requests an id in use is given again (C74, refuted).
92. GMM's refusal or release of the connection ends a context without a word to the user; nor is SNDCP told (C76, C84, refuted).
93. ACTIVATE PDP CONTEXT REJECT with cause 0 is confirmed as accepted (`sm.c:206-237`); SNDCP's answer activates a context the network
    has not accepted (C77, refuted).
94. The length of the QoS granted is not taken over (`sm.c:333-345`): the QoS passed on is cut off, or mixed with the one asked for; with a QoS of one
    octet, as in the test, SNDCP refuses it and the context never becomes active (C78, C84, refuted).  Without
    options from the network the user gets their own back (C78, refuted).
95. `sm_pdu.c:101-171`: type IPv4v6 with 16 octets is read from the wrong place, four octets too far (C79, C80, refuted).
96. Aborts: NSAPI outside 5 to 15 in a request or in SNDCP's answer, more than 253 octets of options from the user or the network, a
    QoS longer than 22, a PDP address of one octet, any SMREG or SNSM primitive not supported (freed twice) (C80, refuted).
97. `sm.c:239-256`: the options of a deactivation indication are written to the member of the confirmation, over tear-down
    indicator and cause; a repeated answer of SNDCP repeats the indication (C81, refuted).
98. T3380 gives up on the fourth expiry (`sm_ms_fsm.c:165-198`), TS 24.008 6.1.3.1.5, which the code quotes, says the fifth (C82, refuted).
99. An ACCEPT refused for a bad element has already replaced SAPI, QoS, priority and address; the request sent again carries
    them (C83, refuted).
100. `sm.c:296-297` gives GMM the number of the mobile, GMM looks for a session id (`gmm_prim.c:647`): the request is dropped, or sent under the
    TLLI of another mobile (C73, refuted).  Both layers' tests pass since each stubs the other.
101. The octet with the SAPI is used with its spare bits; SNDCP then reads beyond its table (C84, refuted).  SNDCP keeps the SAPI of a
    context that was released, so the next one cannot send (C84, refuted).
102. An NSAPI cannot be used again from within the call-back that reports its end, contrary to `sm_ms_fsm.c:48-52`: the request is
    refused before the state machine sees it (C85, refuted).  A request replaces P-TMSI, signature and routing area of all
    contexts of the mobile; `attach_with_imsi` of the request is ignored (C85, refuted).
103. All requests carry transaction identifier 0 with the flag set (`sm_pdu.c:181-184`), and the identifier of a message received is not
    looked at (C86, refuted).

Header compression (RFC 1144 from memory):

104. URG that is cleared while the rest matches one of the two special encodings stays set at the receiver (`slhc.c:630-650` does not touch it) (C87, refuted).
105. ECE, CWR, the reserved bits of TCP and of the fragment word are neither compared nor sent, so the receiver keeps those of an earlier
    packet (C87, refuted).  RFC 1144 is older than ECN; current TCP stacks use it.
106. `slhc.c:639`: with more than 32767 octets of data the increment of the special encoding turns negative (`short`); a total length
    that differs from the size of the packet, or a checksum of 0xFFFF, is not restored (why C87 asks for `exact`).
107. After a loss wrong packets are handed up until the next whole header, only TCP's checksum protects the user; `slhc_toss`, made for this,
    is not called by SNDCP even if it knows of a loss (C88, refuted without its condition).
108. `slhc_compress` does not check that the header lengths are at least 5 words and reads the TCP header before it checks the size (C90, refuted).  With
    both lengths 0 it writes 28 octets into a buffer of 20 on the heap (C90, refuted).  Packets come from the user's IP stack.
109. `rfc1144_compress` reads `data_o[0]` of an empty packet; a packet that is not IP version 4 and begins with a bit 0x80 or with 0x7 is taken for a
    compressed one; an IPv6 packet whose octet 9 is 6 is treated as TCP over IPv4.
110. `slhc_uncompress` reads the change list before it checks the length, and uses a slot nothing was ever stored in (within the buffer, part of
    C91).
111. The buffer for a decompressed packet is ten times its length and 64 octets (`sndcp.c:349`): a segment with 120 octets of headers and no data,
    compressed to 5 octets, does not fit and is written beyond it (C91, refuted).
112. `pcomp_init` with `s01` = 255 asks for 256 slots, `slhc_init` returns NULL, which is used at the first packet.
113. `gprs_sndcp_comp_delete` does not end a data compression (leak).
114. At this commit `any_pcomp_or_dcomp_active` is constantly false (`sndcp.c:262-272`), so SNDCP does not call the compression; 104 to 113 are
    about the functions as such.  An N-PDU that a peer marks as compressed is handed up as it is.

The SNDCP-XID block:

115. `sndcp_xid.c:867`: the number of ROHC profiles is set to 0 inside the loop that reads them and so stays 0 unless there are 16 (C94, refuted).
116. `sndcp_xid.c:978-1003`: V.44 codebooks must have 265 codewords, in TS 44.065 and the encoder 256 (C94, refuted).
117. After the parameters it knows, or after one out of range, the decoder goes on with the next octet, not after the length of the
    field, so the rest of a field is taken for more fields (C94, refuted): later versions of the protocol and slips of a
    peer give entities nobody asked for.
118. `tlv_put` has one octet for the length and `gprs_sndcp_compile_xid` counts all octets: beyond 255 the block is garbage; `dst_maxlen` is
    only compared with 3 (C95, refuted).
119. `sndcp_xid.c:1505`: profiles are taken from the request only if the answer has some (C96, refuted); `sndcp_xid.c:1564-1589` looks for the entity
    number without the class (C96, refuted; TS 44.065 numbers both kinds on their own).
120. `decode_comp_field` reads up to three octets of header without looking at the length, subtracts the octets of the PCOMP values from an
    unsigned length, and so may read 41 octets beyond the block; an empty version element gives an octet of the next one (C97,
    refuted).
121. The error path of the RFC 2507 decoder frees `rfc1144_params` (sndcp_xid.c:1143); an unknown algorithm in a proposal makes the whole
    block fail, though TS 44.065 wants the entity rejected.

The negotiation of compression:

122. The responder keeps entities of an earlier negotiation that are not asked for again, while the requester drops all of its own with each
    SN-XID.req (sndcp.c:796-803), those of other NSAPIs too: the tables differ and packets of the responder arrive garbled (C98, C102,
    refuted).  The dropped entities are not freed, only their contexts.
123. LL-XID.cnf is handled with the permissions for requests of the peer (`passive_accept`); these are set nowhere in the
    library, so that what was asked for and granted is not set up (C98, refuted).
124. S0 = 255, a valid value, gives a NULL context which the first packet dereferences (C99, refuted).
125. Parameters a peer leaves out stay -1: the context is made from -1 and the answer fails an assertion (C100, refuted).
126. The answer is written to a buffer of 256 octets without a bound (C100, refuted).
127. LL-XID.ind and LL-XID.cnf are given to the first entity with the SAPI, not to the one that asked (C102, refuted).
128. An answer that is empty or cannot be decoded gives no SN-XID.cnf and leaves the request pending; an empty request gets no answer at all, so
    that with another end of this library an SN-XID.req without compression is never confirmed (C102, refuted).
129. PCOMP values that are equal or 0 are accepted from a peer (C103, refuted).
130. An entity with an NSAPI below 5 can be activated, and SN-XID.req for it fails an assertion of the encoder.

Data compression:

131. P0 = 2 asks for compression in one direction; both ends take the bits for their own side, so that the sender compresses and the
    receiver hands up compressed octets (C104, refuted).
132. Expansion has ten times the octets received and 64 more; V.42bis can do better than that, and writes behind the memory
    (C105, refuted).
133. The expander takes codewords of up to P1 / 8 bits, while the dictionary has 4096 entries (C106, refuted).
134. P1 may be negotiated up to 65535, and the memory of the dictionary ends at 4096; the length of an N-PDU is what keeps the
    entries below it. Up to 1918 octets every step is proved to be the same as with P1 = 4096 (C104).

Layers together, and blocks on the air:

135. If the last frame of one N-PDU and the first frame of the next are lost, SNDCP hands out an N-PDU that nobody sent (C108, refuted).
136. A block of MCS-4 in two segments: if MCS-4 is commanded after the first segment was sent in MCS-1, 44 octets from the 23rd on are
    sent as second segment, half of which are not part of the block (`tbf_ul.c:945-966` looks at the status of the block and not at the
    scheme; C115, refuted).
137. The header of EGPRS blocks is not written: `gprs_rlcmac_rlc_write_ul_data_header` returns -ENOTSUP and `create_ul_acked_block` does
    not look at it (C111 is about CS-1 to CS-4).
138. The decoder of uplink data blocks writes behind its arrays when a block announces six or more extension octets, which any 23 octets
    from the air can do (`csn1_ts_44_060.c:5107-5122`, arrays of MAX_NUMBER_LLC_PDU = 5 entries; C116, refuted). The blocks of a mobile that
    sends LLC frames of at least five octets never do.
139. The encoder of downlink data blocks likewise reads behind the arrays if no entry has M = 0 or E = 1 (C117, refuted).
140. Primitives that a layer does not implement are freed twice at seven entry points, because the default of the inner switch frees them
    and the caller does so again: GRR-DATA.ind at LLC (`llc_grr.c:77-81`, `llc_prim.c:214-216`), SN-DATA.req at SNDCP
    (`sndcp_prim.c:345-347`), unknown LL and SNSM primitives at SNDCP (`sndcp_prim.c:580-582`, `788-794`; among them SNSM-MODIFY.ind,
    SNSM-SEQUENCE.ind and SNSM-STOP-ASSIGN.ind), unknown SMREG and SNSM primitives at SM (`sm_prim.c:303-304`, `423-424`; among them the
    declared SMREG-PDP-DEACTIVATE.req), unknown GMMREG primitives at GMM (`gmm_prim.c:603-604`) (C118, refuted).
141. GRR and GMMRR primitives that RLC/MAC does not implement are never freed (`rlcmac_prim.c:452-453`, `524-525`; C118, refuted).
142. Eight entry points report success (0) for primitives that they dropped: the 1 that stops the second free replaces the error
    (e.g. `gmm_prim.c:867-875`; C119, refuted).
143. LLGMM-RESET.req or LLGMM-IOV.req at an MS, LLGMM-TRIGGER.req at an SGSN, and frames from the SAP of the other side stop the process
    (`llc_llgmm.c:374`, `378`, `392`, `llc_prim.c:203`, `207`; C119).
144. SM frees the primitives that the user's callbacks chose to keep (`sm_prim.c:230`, `465`), and LLC's upper callback function
    passes the 1 on (`llc_prim.c:145-148`); no function of LLC looks at it (C120, refuted).
145. PSI13_t begins with a member other than the message type (`csn1_defs.h:3210-3211`), so a caller that sets `u.MESSAGE_TYPE` to PSI13
    gets a block with another message type, which the decoder refuses (C121, refuted).
146. Paging Request, PSI2 and PSI3 are always encoded into more than 184 bits, since the end of a list is written but not counted; with
    room left for padding only padding bits are lost (C121, example).
147. GMMRR-ASSIGN.req with an old and a new TLLI does not look whether another entity has the new TLLI (`rlcmac_prim.c:492-504`); then two have
    it, and frames and assignments for it go to the one created first (C123, refuted).
148. 0xffffffff stands for "none" in `old_tlli` and `ptmsi` and is not excluded from lookups: a frame with that TLLI goes to the first entity that
    has no old TLLI, and a page for that P-TMSI finds an entity that was never assigned one (C123, refuted).
149. An empty frame that waits makes the RLC octet count undefined, since `msgb_l2len` uses a null l2h (C124, refuted).
150. An element of an MS RA capability with a length of 0 is decoded from all the bits that are left (`csn1_dec.c:485`, `length > 0 ? length :
    remaining_bits_len`), so the elements after it are lost and its members hold their bits (C128, refuted).
151. `gprs_gmm_att_tlvdef` (`gmm_pdu.c:146-175`) has no entry for GSM48_IE_GSM_NAME_FULL and GSM48_IE_GSM_NAME_SHORT; they are in the table of
    session management (`sm_pdu.c:48-49`). A GMM INFORMATION with a name is refused by tlv_parse and the name is never stored (C129, refuted).
152. `gprs_llc_lle_process_xid_ind` (`llc.c:562-636`) ignores the Reset parameter that `llc_prim_handle_llgmm_reset_req` sends. The SGSN counts
    from N(U) = 0 again while V(UR) at the mobile stays, so a message after the reset is dropped as a repetition (C130, refuted).
153. `gprs_rlcmac_get_punct_scheme` (`rlc.c:204-248`) implements the table of TS 44.060 9.3.2.1.1 for the scheme of the last transmission, but
    `create_ul_acked_block` (`tbf_ul.c:1125`) calls it with next_ps, which is already one further. After MCS-6 with P1 a block is sent in MCS-9
    with P2 where the standard has P3, and likewise from MCS-9 to MCS-6 (C131, refuted).
154. `gprs_rlcmac_enc_append_ul_data` (`rlcmac_enc.c:66-193`) does not use its argument cs: in EGPRS blocks too it writes length indicators with
    six bits and M, while the filling behind them is marked in the format of EGPRS. A frame of n octets is read as one of 2n (C132, refuted).
    Findings 153 and 154 are about functions: at this commit tx_cs is only ever CS-1 to CS-4 (`tbf_ul.c:54`, `tbf_ul.c:348`), so no EGPRS block is sent yet.
155. `gprs_sndcp_sne_free` (`sndcp.c:155-164`) does not take the NSAPI out of the compression entities of the management entity
    (`snme->comp.proto`, `snme->comp.data`). While another NSAPI is in use they stay, and when the NSAPI is activated again its
    N-PDUs are compressed with the context of its predecessor though nothing was negotiated (C133, refuted).
156. The callback that computes BitsInCellInfo for FDD cells is disabled (`csn1_ts_44_060.c:2228-2312`), so the FDD cell information is not
    passed over and is read as what follows it (C134, refuted).
157. `callback_UTRAN_TDD_compute_TDD_CELL_INFORMATION` (`csn1_ts_44_060.c:2380-2400`) leaves the cell information at the first zero word,
    and divides it into words of 10, 9, 8, ... bits, which are the widths of FDD; those of TDD are 9, 8, 7, ... A valid description
    can have a zero word so (C134, refuted).
158. The numbers of TBFs (`tbf_ul.c:53`, `tbf_dl.c:48`) are 8-bit counters that nothing compares with the numbers in use. When an uplink
    TBF outlives 256 others, of other entities, the last has its number, and its end (`tbf_ul_fsm.c:443-448`) releases the
    timeslots of the older TBF (C135, refuted).
159. `gprs_rlcmac_dl_tbf_free` (`tbf_dl.c:68-97`) sends no L1CTL-CFG_DL_TBF.req with an empty slotmask, unlike the end of an uplink TBF:
    while the uplink TBF exists the physical layer goes on receiving blocks with the TFI of the ended TBF (C135, refuted).
160. When packet access is begun anew (`tbf_ul_fsm.c:140-153`) L1CTL-PDCH_RELEASE.req is sent even if the entity, or another one, has a
    downlink TBF; the TBF goes on existing, but is received nowhere until T3190 ends it (C135, refuted).
161. The timer of `gre.c:128,162` (six frames after the last TBF of the entity is gone) is stopped only when the entity is freed. A TBF
    assigned on PACCH within these frames, or a TBF of another entity, loses its channels when it fires (`gre.c:39-44`; C135, refuted).
162. `apply_gea` (`llc.c:776-813`) chooses the direction by whether it ciphers or deciphers (`fcs` NULL or not), not by the end it runs at. It is
    called only for received frames, with the direction from the mobile to the SGSN: right in an SGSN, wrong in a mobile
    (C136, refuted). Latent: nothing sets an algorithm at this commit.
163. `cipher_out` (`llc.c:779`) has 1523 octets and `gprs_cipher_run` writes as many as it is asked for, data_len + 3; received UI frames are not
    limited to 1520 octets of information, so that a longer one with the bit E overruns the stack (C136, refuted). Latent as 162.
