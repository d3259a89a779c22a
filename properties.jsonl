{"id": "C01", "title": "LLC frame check sequence is the 24-bit CRC of TS 44.064 and detects every short burst", "statement": "The checksum that protects every LLC frame equals the remainder computed bit by bit from the 24-bit generator polynomial of TS 44.064, for every starting value and every octet string; consequently two distinct equal-length strings whose difference fits in a burst of at most 24 consecutive bits never have the same checksum, so any such corruption is noticed by the receiver.", "quantifier": "every initial register value, every octet string of any length, every error pattern confined to 24 consecutive bits", "why_tests_cant": "The table has 256 entries and the input is unbounded; tests compare a handful of captured frames and cannot show that no burst error goes unnoticed.", "anchors": ["src/llc/crc24.c:gprs_llc_crc24_tbl", "src/llc/crc24.c:gprs_llc_crc24_calc", "src/llc/llc_pdu.c:gprs_llc_fcs"]}
{"id": "C02", "title": "LLC frame encode/decode round trip", "statement": "Decoding the octets that the encoder produced for a well-formed UI, U or I/S frame yields the same SAPI, C/R bit, format, function, sequence numbers, P/F, A, E, PM flags and the same payload, and the frame check sequence verifies.", "quantifier": "every well-formed frame description (all SAPIs, functions, sequence numbers, flags, payloads of any length)", "why_tests_cant": "The product of header fields and payloads is too large to enumerate and captured-frame tests only exercise the functions the stack happens to send.", "anchors": ["src/llc/llc_pdu.c:gprs_llc_pdu_encode", "src/llc/llc_pdu.c:gprs_llc_pdu_decode"]}
{"id": "C03", "title": "LLC frame decoder is memory safe on hostile input", "statement": "For every octet string handed in by the lower layer the frame decoder terminates, never reads outside the string, never writes outside its result structure, and every payload slice it reports lies inside the string.", "quantifier": "every octet string of every length, including malicious ones", "why_tests_cant": "Fuzzing samples finitely many strings; the claim is about all of them.", "anchors": ["src/llc/llc_pdu.c:gprs_llc_pdu_decode", "include/osmocom/gprs/llc/llc_private.h:gprs_llc_pdu_decoded"]}
{"id": "C04", "title": "A frame with a bad checksum is never delivered", "statement": "If the received frame check sequence differs from the one computed over the covered octets, the frame never produces an indication or confirm towards upper layers nor changes any sequence number, XID or ciphering state of an existing logical link. (An entity may be allocated for an unknown TLLI, because the lookup precedes the check.)", "quantifier": "every received octet string, every link state", "why_tests_cant": "Tests show one corrupted frame being dropped; the claim covers all corrupted frames in all states.", "anchors": ["src/llc/llc.c:gprs_llc_lle_hdr_rx", "src/llc/llc.c:gprs_llc_lle_rx_unitdata_ind", "src/llc/llc_pdu.c:gprs_llc_pdu_decode"]}
{"id": "C05", "title": "LLC XID parameter list round trip", "statement": "Encoding any list of at most sixteen valid XID fields into a large enough buffer and decoding the result returns the same list, in the same order, with the same values and layer-3 parameter octets.", "quantifier": "every list of valid XID fields", "why_tests_cant": "Field lists combine 16 types, value ranges up to 32 bits and variable-length octets.", "anchors": ["src/llc/llc_xid.c:gprs_llc_xid_encode", "src/llc/llc_xid.c:gprs_llc_xid_decode"]}
{"id": "C06", "title": "Accepted XID values respect TS 44.064 Table 6 and parsing stays in bounds", "statement": "Whatever octets the peer sends in an XID information field, decoding either fails or returns at most the caller's number of fields, each with a value inside the permitted range of its type, and never touches an octet outside the input.", "quantifier": "every octet string, every output capacity", "why_tests_cant": "Universal over hostile input; a fuzzer only samples.", "anchors": ["src/llc/llc_xid.c:gprs_llc_xid_decode", "src/llc/llc_xid.c:gprs_llc_xid_field_is_valid"]}
{"id": "C07", "title": "UI numbering is gapless and oversize PDUs are refused without side effect", "statement": "For every sequence of LL-UNITDATA requests on one logical link, accepted requests are transmitted with N(U) = 0,1,2,\u2026 modulo 512 in request order, and a request longer than N201-U is refused with an error and changes no state.", "quantifier": "every request history on a link", "why_tests_cant": "The wrap after 512 frames and the interleaving of refused requests are histories, not single inputs.", "anchors": ["src/llc/llc.c:gprs_llc_lle_tx_ui"]}
{"id": "C08", "title": "A repeated UI frame is not delivered again", "statement": "A UI frame whose N(U) lies among the 32 values before the receive variable V(UR) is recognised as a duplicate and not delivered to the upper layer; any other valid UI frame is delivered exactly once and sets V(UR) to its successor modulo 512.", "quantifier": "every history of received UI frames", "why_tests_cant": "Duplicate detection depends on the whole history of earlier frames and on wrap-around.", "anchors": ["src/llc/llc.c:gprs_llc_lle_hdr_rx", "include/osmocom/gprs/llc/llc_private.h:gprs_llc_is_retransmit"]}
{"id": "C09", "title": "Both ends derive the same UI ciphering input", "statement": "Whenever the UI frames sent by one end arrive in order and without loss, the overflow counter and N(U) from which the receiver derives the ciphering input of a frame equal those the sender used for that frame.", "quantifier": "every number of frames in a link's lifetime", "why_tests_cant": "The divergence appears only after hundreds of frames, at the modulo-512 wrap.", "anchors": ["src/llc/llc.c:gprs_llc_lle_tx_ui", "src/llc/llc.c:gprs_llc_lle_hdr_rx", "src/llc/llc.c:apply_gea"]}
{"id": "C10", "title": "TLLI assignment follows TS 44.064 and lookups find the right entity", "statement": "After any sequence of LLGMM-ASSIGN requests, an LLME is found by exactly its current TLLI and, while a TLLI change is in progress, also by the old one; it is deleted exactly when its new TLLI is set to all ones; frames are sent with the new TLLI.", "quantifier": "every sequence of assign requests", "why_tests_cant": "Four cases of old/new TLLI interact with earlier assignments; only history-dependent combinations reveal errors.", "anchors": ["src/llc/llc_llgmm.c:llc_prim_handle_llgmm_assign_req", "src/llc/llc.c:gprs_llc_find_llme_by_tlli"]}
{"id": "C11", "title": "Unknown subscribers can only reach GMM signalling", "statement": "A frame from an unknown TLLI has an effect only when it is addressed to the GMM SAPI and carries an XID or a UI frame; in that case the only effect on existing state is one additional entity for that TLLI. Any other frame from an unknown TLLI changes nothing and produces nothing.", "quantifier": "every received frame, every set of known TLLIs", "why_tests_cant": "All headers times all subscriber sets.", "anchors": ["src/llc/llc.c:gprs_llc_lle_for_rx_by_tlli_sapi"]}
{"id": "C12", "title": "Suspended subscribers send and receive only signalling", "statement": "Between LLGMM-SUSPEND and LLGMM-RESUME no user-data UI frame is delivered upward or handed to the lower layer for that subscriber, while GMM signalling keeps flowing.", "quantifier": "every interleaving of suspend/resume requests with transmit and receive events", "why_tests_cant": "Interleavings.", "anchors": ["src/llc/llc_llgmm.c", "src/llc/llc.c:gprs_llc_lle_hdr_rx", "src/llc/llc_ll.c"]}
{"id": "C13", "title": "RLC uplink window never exceeds the window size", "statement": "In every state reachable through sending blocks, acknowledgements and resets, the number of blocks between V(A) and V(S) modulo the sequence number space never exceeds the window size provided new blocks are only sent when the window is not stalled, and the window reports stalled exactly when it is full.", "quantifier": "every history of send/ack/reset operations, both SNS values", "why_tests_cant": "Modulo-128/2048 arithmetic over unbounded histories.", "anchors": ["src/rlcmac/rlc_window_ul.c"]}
{"id": "C14", "title": "Only acknowledged uplink blocks leave the window", "statement": "V(A) advances past a block only if the network acknowledged it, and stops at the first block that is not acknowledged, so an unacknowledged block always stays available for retransmission.", "quantifier": "every reachable window, every acknowledgement bitmap", "why_tests_cant": "All bitmaps times all window positions.", "anchors": ["src/rlcmac/rlc_window_ul.c:gprs_rlcmac_rlc_ul_window_update_gprs", "src/rlcmac/rlc_window_ul.c:gprs_rlcmac_rlc_ul_window_raise", "src/rlcmac/rlc_window_ul.c:gprs_rlcmac_rlc_ul_window_move_window"]}
{"id": "C15", "title": "Retransmission picks the oldest negatively acknowledged block", "statement": "The block chosen for retransmission is the one closest to V(A) that was negatively acknowledged or marked for resend; none is chosen only if no such block exists in the window; and it is chosen before any new block is sent.", "quantifier": "every reachable window and every window contents", "why_tests_cant": "All assignments of states to up to 1024 window slots.", "anchors": ["src/rlcmac/rlc_window_ul.c:gprs_rlcmac_rlc_ul_window_resend_needed", "src/rlcmac/tbf_ul.c:take_next_bsn"]}
{"id": "C16", "title": "Acknowledgement bitmap is interpreted against the right sequence numbers", "statement": "A positive bit at distance i from the starting sequence number in an uplink acknowledgement marks exactly the block with sequence number SSN-1-i (mod SNS) as acknowledged, a zero bit marks it for retransmission, and blocks outside the window are not touched.", "quantifier": "every SSN, bitmap and window position", "why_tests_cant": "Modular indices over all bitmaps.", "anchors": ["src/rlcmac/rlcmac_dec.c:gprs_rlcmac_decode_gprs_acknack_bits", "src/rlcmac/rlc_window_ul.c:gprs_rlcmac_rlc_ul_window_update_gprs"]}
{"id": "C17", "title": "RLC downlink delivers the sender's blocks in order, each once, none invented", "statement": "For any history in which the network sends blocks in sequence within the window and the channel loses, repeats and reorders them inside the window, the blocks handed to reassembly are a prefix of the network's block sequence, in order and without repetition.", "quantifier": "every loss/duplication/reordering schedule", "why_tests_cant": "Schedules are unbounded; tests try a few orders.", "anchors": ["src/rlcmac/rlc_window_dl.c", "src/rlcmac/tbf_dl.c:gprs_rlcmac_dl_tbf_rcv_data_block"]}
{"id": "C18", "title": "Downlink acknowledgement report is truthful", "statement": "The received-block bitmap in a Packet Downlink Ack/Nack reports, for each of the 64 sequence numbers below V(R), one exactly if that block was received and is stored, and the starting sequence number equals V(R).", "quantifier": "every reachable receive window", "why_tests_cant": "All window states.", "anchors": ["src/rlcmac/rlc_window_dl.c:gprs_rlcmac_rlc_dl_window_update_rbb", "src/rlcmac/tbf_dl.c:gprs_rlcmac_dl_tbf_create_pkt_dl_ack_nack"]}
{"id": "C19", "title": "RLC uplink data block layout round trip", "statement": "The LLC data chunks recovered from an uplink RLC data block by the length-indicator decoder are exactly the chunks the encoder placed in it, including where one LLC frame ends and the next begins.", "quantifier": "every sequence of LLC frames and every block payload size", "why_tests_cant": "Segmentation depends on exact fits and one-octet remainders at every block size.", "anchors": ["src/rlcmac/rlcmac_enc.c:gprs_rlcmac_rlc_data_to_ul_append_gprs", "src/rlcmac/rlcmac_dec.c:gprs_rlcmac_rlc_parse_ul_data_block_gprs"]}
{"id": "C20", "title": "Length-indicator parsing stays inside the block", "statement": "For every received RLC data block the chunk descriptors returned to reassembly lie inside the block and do not overlap, and the parser reads no octet outside it.", "quantifier": "every octet string used as RLC data block", "why_tests_cant": "Universal over hostile input.", "anchors": ["src/rlcmac/rlcmac_dec.c:parse_extensions_gprs", "src/rlcmac/rlcmac_dec.c:parse_extensions_egprs"]}
{"id": "C21", "title": "Coding-scheme tables are mutually consistent", "statement": "For every coding scheme the block size determines the scheme back, the header and data sizes are consistent with the payload size, scheme up/down-grading stays within GPRS or EGPRS, and a retransmission scheme carries the same payload family.", "quantifier": "every coding scheme and every block size", "why_tests_cant": "Cross-table consistency is not exercised by single-table tests.", "anchors": ["src/rlcmac/coding_scheme.c"]}
{"id": "C22", "title": "Poll and block frame numbers are always valid radio blocks", "statement": "For every valid downlink block frame number and every RRBP value the computed uplink poll frame number is the first TDMA frame of a radio block, lies strictly in the future within the hyperframe, and the computation never aborts; likewise the next-block computation yields the immediately following block start.", "quantifier": "every frame number of the hyperframe and every RRBP value", "why_tests_cant": "2.7 million frame numbers times wrap-around; tests use a few.", "anchors": ["src/rlcmac/sched.c:rrbp2fn", "include/osmocom/gprs/rlcmac/sched.h:fn_next_block", "include/osmocom/gprs/rlcmac/sched.h:fn_valid"]}
{"id": "C23", "title": "Uplink reservations are exclusive, found, and expire exactly when past", "statement": "After any sequence of reserve, release and expire operations there is at most one reservation per timeslot and frame number; looking up a frame number returns exactly the reservation made for it; expiry removes exactly the reservations not later than the given frame; a released TBF has no reservations left.", "quantifier": "every operation sequence", "why_tests_cant": "Operation histories.", "anchors": ["src/rlcmac/pdch_ul_controller.c"]}
{"id": "C24", "title": "LLC queue is a priority FIFO with exact counters", "statement": "Frames leave the uplink LLC queue in order of radio priority and SAPI priority and in arrival order within one class; no frame is lost or duplicated; the reported number of frames and octets equals the contents.", "quantifier": "every sequence of enqueue, dequeue, clear and merge operations", "why_tests_cant": "Histories; merging two queues is only exercised when a TBF dies mid-countdown.", "anchors": ["src/rlcmac/llc_queue.c"]}
{"id": "C25", "title": "CoDel never drops a frame from a short or young queue", "statement": "The queue manager drops a frame only when the sojourn time has been at least the target for a full interval and more than one maximum packet is queued; consecutive drops in one dropping episode are separated by at most the interval and non-increasing gaps.", "quantifier": "every sequence of sojourn times and queue sizes", "why_tests_cant": "Temporal property over histories.", "anchors": ["src/rlcmac/codel.c"]}
{"id": "C26", "title": "Uplink countdown announces the last block correctly", "statement": "Once the countdown has begun, the sequence of countdown values transmitted with new data blocks decreases to 0 and 0 is carried by exactly the block that contains the last octet of pending data.", "quantifier": "every amount of pending data, coding scheme, number of timeslots and BS_CV_MAX", "why_tests_cant": "The block count formula interacts with segmentation at every size.", "anchors": ["src/rlcmac/tbf_ul.c:gprs_rlcmac_ul_tbf_calculate_cv", "src/rlcmac/tbf_ul.c:create_new_bsn"]}
{"id": "C27", "title": "Uplink TBF establishment gives up after four attempts and never leaks", "statement": "For every sequence of network messages and timer expiries an uplink TBF passes only through the states new, wait-assign, flow, finished, releasing; it retries packet access at most four times per cause and then is freed; no event aborts the process.", "quantifier": "every event sequence", "why_tests_cant": "Event interleavings.", "anchors": ["src/rlcmac/tbf_ul_fsm.c", "src/rlcmac/tbf_ul_ass_fsm.c"]}
{"id": "C28", "title": "Each uplink opportunity carries at most one block chosen by priority", "statement": "On every ready-to-send indication at most one block is handed to the lower layer; a pending poll answer precedes data, data precedes a dummy block, and after the indication no reservation for that frame or earlier remains.", "quantifier": "every scheduler state and indication", "why_tests_cant": "All combinations of candidate users.", "anchors": ["src/rlcmac/sched.c:gprs_rlcmac_rcv_rts_block"]}
{"id": "C29", "title": "Downlink LLC frames are reassembled exactly", "statement": "If the network segments LLC frames into RLC blocks according to TS 44.060 and the blocks reach reassembly in order, the frames handed to LLC are exactly the complete frames sent, in order.", "quantifier": "every sequence of LLC frames and every segmentation", "why_tests_cant": "Composition of segmentation boundary cases with every loss schedule.", "anchors": ["src/rlcmac/tbf_dl.c:gprs_rlcmac_dl_tbf_assemble_forward_llc", "src/rlcmac/rlcmac_dec.c"]}
{"id": "C30", "title": "SNDCP segments respect the LLC limit and reassemble to the original N-PDU", "statement": "Every SN-PDU produced for an N-PDU is at most N201-U octets long, only the first carries the F bit and compression octet, only the last lacks the M bit, and a receiver that gets all of them in any order after the first delivers exactly the original N-PDU.", "quantifier": "every N-PDU, every N201-U, every arrival order of the later segments", "why_tests_cant": "All lengths times all permutations.", "anchors": ["src/sndcp/sndcp.c:gprs_sndcp_send_ud_frag", "src/sndcp/sndcp.c:defrag_input", "src/sndcp/sndcp.c:defrag_segments"]}
{"id": "C31", "title": "SNDCP never delivers an N-PDU mixed from several", "statement": "If segments are lost or repeated, every N-PDU delivered upward equals one that the peer sent; segments of different N-PDUs are never combined.", "quantifier": "every loss and duplication schedule", "why_tests_cant": "Only particular loss patterns expose mixing.", "anchors": ["src/sndcp/sndcp.c:defrag_input"]}
{"id": "C32", "title": "SNDCP receive path is safe on hostile input", "statement": "Any octet string delivered as LL-UNITDATA payload is either rejected or processed without reading or writing outside it.", "quantifier": "every octet string and reassembly state", "why_tests_cant": "Universal over hostile input.", "anchors": ["src/sndcp/sndcp.c:gprs_sndcp_sne_handle_llc_ll_unitdata_ind", "src/sndcp/sndcp.c:defrag_input", "src/sndcp/sndcp_prim.c"]}
{"id": "C33", "title": "SNDCP N-PDU numbering advances by one per N-PDU", "statement": "Consecutive N-PDUs accepted for transmission on one NSAPI carry consecutive N-PDU numbers modulo the number space and every segment of one N-PDU carries the same number.", "quantifier": "every transmission history", "why_tests_cant": "Histories past the wrap at 4096.", "anchors": ["src/sndcp/sndcp.c:gprs_sndcp_sne_handle_sn_unitdata_req"]}
{"id": "C34", "title": "Immediate assignment and paging parsing stay within the 23-octet block", "statement": "Whatever CCCH block the cell sends, parsing immediate assignments and paging requests never reads outside the 23 octets.", "quantifier": "every 23-octet block", "why_tests_cant": "256^23 inputs.", "anchors": ["src/rlcmac/rlcmac.c:gprs_rlcmac_handle_ccch_imm_ass", "src/rlcmac/rlcmac.c:gprs_rlcmac_handle_ccch_pag_req1", "src/rlcmac/rlcmac.c:gprs_rlcmac_handle_ccch_pag_req2"]}
{"id": "C35", "title": "UI frames are transferred in order, unchanged and once, across losses", "statement": "If one LLC entity sends a series of LL-UNITDATA requests within N201-U and its peer, with V(UR) equal to the sender's V(U), receives any subsequence of the resulting frames in order with fewer than 480 consecutive losses, the peer delivers exactly the payloads of the frames received, in order, each once, with the TLLI and SAPI of the sender.", "quantifier": "every series of payloads, every loss pattern with bounded gaps, every start value of V(U), both directions", "why_tests_cant": "The series and loss patterns are unbounded and the numbering wraps.", "anchors": ["src/llc/llc.c:gprs_llc_lle_tx_ui", "src/llc/llc.c:gprs_llc_lle_hdr_rx", "src/llc/llc.c:gprs_llc_lle_rx_unitdata_ind"]}
{"id": "C36", "title": "No received frame makes the LLC layer misbehave", "statement": "Whatever octets arrive from the lower layer, in whatever state the LLC layer is, processing them stays within the bounds of the buffers and completes.", "quantifier": "every octet string, every TLLI, every state", "why_tests_cant": "The input space is unbounded.", "anchors": ["src/llc/llc_grr.c:llc_prim_handle_grr_unitdata_ind", "src/llc/llc_bssgp.c:llc_prim_handle_bssgp_ul_unitdata_ind", "src/llc/llc.c:gprs_llc_lle_rx_unitdata_ind"]}
{"id": "C37", "title": "Every downlink block that arrived is delivered", "statement": "Under the channel of C17, after any schedule the delivered blocks are all blocks up to the first one that never arrived.", "quantifier": "every loss/duplication/reordering schedule", "why_tests_cant": "Schedules are unbounded.", "anchors": ["src/rlcmac/rlc_window_dl.c:gprs_rlcmac_rlc_dl_window_raise_v_r", "src/rlcmac/tbf_dl.c:gprs_rlcmac_dl_tbf_rcv_data_block"]}
{"id": "C38", "title": "The downlink TBF is finished exactly when the final block and all before it were delivered", "statement": "The end of a downlink TBF is signalled only after a block carrying the final block indicator and every block before it were delivered; and it is signalled once all blocks up to the final one arrived.", "quantifier": "every loss/duplication/reordering schedule", "why_tests_cant": "Schedules are unbounded.", "anchors": ["src/rlcmac/tbf_dl.c:gprs_rlcmac_dl_tbf_rcv_data_block"]}
{"id": "C39", "title": "Downlink reassembly survives hostile block contents", "statement": "For any sequence of received RLC data blocks with any contents, reassembly never ends the process, and the frames handed to LLC are exactly the concatenations of the pieces found in the blocks.", "quantifier": "every sequence of blocks with every content", "why_tests_cant": "Universal over hostile input of unbounded length; the failing input is a long sequence of individually valid blocks.", "anchors": ["src/rlcmac/tbf_dl.c:gprs_rlcmac_dl_tbf_assemble_forward_llc", "src/rlcmac/rlcmac_dec.c:gprs_rlcmac_rlc_data_from_dl_data"]}
{"id": "C40", "title": "Starting frames of assignments are decoded exactly", "statement": "A relative starting frame number k in an assignment names the (k+1)-th radio block after the current one and its computation never aborts; an absolute starting time T1', T2, T3 is turned into the reduced frame number with exactly these remainders.", "quantifier": "every k, every current block start of the hyperframe, every T1', T2, T3", "why_tests_cant": "The rounding to block boundaries depends on k modulo 3, the position in the multiframe and the hyperframe wrap; tests use a few frame numbers.", "anchors": ["src/rlcmac/rlcmac_dec.c:k_to_fn", "src/rlcmac/rlcmac_dec.c:TBF_StartingTime_to_fn"]}
{"id": "C41", "title": "The mobile transmits only in blocks it was granted", "statement": "Every block handed to the lower layer is for the timeslot and frame of a ready-to-send indication and either answers the poll that reserved exactly that block, or comes from an uplink TBF that owns the block: by the USF of its current allocation (data, dummy), or by the USF or the single block assigned for its Packet Resource Request.", "quantifier": "every history of the entities, TBFs, timers, messages and indications", "why_tests_cant": "Collisions arise from combinations of TBF states, reservations and freed owners over unbounded histories.", "anchors": ["src/rlcmac/sched.c:gprs_rlcmac_rcv_rts_block", "src/rlcmac/tbf_ul.c", "src/rlcmac/tbf_ul_ass_fsm.c:ass_rts"]}
{"id": "C43", "title": "SNDCP entities are isolated from each other", "statement": "A primitive concerning one TLLI and NSAPI never changes the entity of another TLLI or NSAPI; every primitive it causes is about the TLLI, SAPI and NSAPI it was addressed to; data for an entity that does not exist is rejected without effect.", "quantifier": "every history of primitives and every addressed entity", "why_tests_cant": "Interference only shows for particular interleavings of entities; the table can hold any number of TLLIs.", "anchors": ["src/sndcp/sndcp.c:gprs_sndcp_sne_by_dlci_nsapi", "src/sndcp/sndcp_prim.c:gprs_sndcp_prim_handle_llc_ll_assign_ind", "src/sndcp/sndcp_prim.c:gprs_sndcp_prim_handle_sndcp_snsm_deactivate_ind"]}
{"id": "C44", "title": "The N201-U negotiated by LLC applies to every NSAPI on the SAPI", "statement": "After LL-XID reported N201-U for a SAPI, no SN-PDU sent over that SAPI by any entity of the TLLI is longer.", "quantifier": "every history, every set of entities sharing a SAPI", "why_tests_cant": "Depends on which NSAPIs share a SAPI and on the order of slots.", "anchors": ["src/sndcp/sndcp.c:gprs_sndcp_snme_handle_llc_ll_xid_ind", "src/sndcp/sndcp.c:gprs_sndcp_snme_handle_llc_ll_xid_cnf"]}
{"id": "C42", "title": "A downlink TBF begins by assignment, is always supervised, and ends by a timer", "statement": "A downlink TBF of an entity begins only with an assignment to it (at once, or at its starting time), with a fresh identity and T3190 running; a data block with its TFI restarts T3190; the final Packet Downlink Ack/Nack stops T3190 and starts T3192; it ends only when a running timer expires, when it is replaced by a new assignment, when a Packet Downlink Assignment with Control Ack arrives while T3192 runs, or with its entity. At any time one of the timers runs. Its reservations go with it. An assignment with starting time starts when that time comes.", "quantifier": "every history of messages, timers and ready-to-send indications, any number of entities", "why_tests_cant": "A TBF without a running timer leaks for ever; this depends on the order of assignments, final blocks, polls and expiries.", "anchors": ["src/rlcmac/tbf_dl.c:gprs_rlcmac_dl_tbf_free", "src/rlcmac/tbf_dl_ass_fsm.c:st_compl_on_enter", "src/rlcmac/tbf_dl_ass_fsm.c:gprs_rlcmac_tbf_start_fn_tick", "src/rlcmac/rlcmac.c:gprs_rlcmac_handle_pkt_dl_ass"]}
{"id": "C45", "title": "Messages and timers reach the uplink TBF they are for and no other", "statement": "An immediate assignment, Packet Uplink Assignment, Packet Uplink Ack/Nack, transmission confirmation or timer changes only the uplink TBF it is for, and is handled by that TBF when it is the only one it can be for; all other events leave uplink TBFs alone.", "quantifier": "every history, any number of entities and TBFs", "why_tests_cant": "Wrong addressing shows only with several TBFs in particular states.", "anchors": ["src/rlcmac/rlcmac.c:gprs_rlcmac_find_ul_tbf_by_tfi", "src/rlcmac/rlcmac.c:gprs_rlcmac_handle_ccch_imm_ass", "src/rlcmac/rlcmac_prim.c:rlcmac_prim_handle_l1ctl_pdch_data_cnf"]}
{"id": "C46", "title": "A poll is remembered until its frame and then answered", "statement": "A message that polls (Packet Uplink Assignment, Packet Downlink Assignment, Packet Uplink Ack/Nack, downlink data block) leaves a reservation of exactly the polled block for the right TBF or entity, unless that block is reserved already. Whatever else happens - other messages, timers, indications of other timeslots or for earlier frames - the reservation stays until its frame is over or its TBF ends; at the indication for its frame the answer is sent if it can be given.", "quantifier": "every history, any number of entities, TBFs and outstanding polls, hyperframe wrap included", "why_tests_cant": "A poll lost by the release of an unrelated TBF, by an expiry across the hyperframe wrap or by another timeslot needs a particular interleaving.", "anchors": ["src/rlcmac/pdch_ul_controller.c:gprs_rlcmac_pdch_ulc_reserve", "src/rlcmac/pdch_ul_controller.c:gprs_rlcmac_pdch_ulc_expire_fn", "src/rlcmac/sched.c:get_ctrl_msg_tbf_candidates", "src/rlcmac/tbf.c:gprs_rlcmac_tbf_destructor"]}
{"id": "C47", "title": "Decoding never writes outside the structure", "statement": "Whatever a received control block or the rest octets of a CCCH message contain, decoding them writes nothing outside the structure handed to the decoder.", "quantifier": "every block of 23 octets and every message type; rest octets of up to 23 octets; any earlier contents of the structure; any value read for a field behind the end", "why_tests_cant": "There are 2^184 blocks and counts, lengths and nested lists interact; only particular combinations overrun.", "anchors": ["src/csn1/csn1_dec.c:osmo_csn1_stream_decode", "src/rlcmac/csn1_ts_44_060.c:osmo_gprs_rlcmac_decode_downlink", "src/rlcmac/csn1_ts_44_018.c:_osmo_gprs_rlcmac_decode"]}
{"id": "C48", "title": "Every decoded value stays in the member it belongs to", "statement": "When a received message is decoded, every value is stored inside the member of the structure that its table entry names, so that no field of a message can change another one.", "quantifier": "every block and every message type", "why_tests_cant": "Needs the one combination of lengths that is longer than an array, or a member narrower than its field.", "anchors": ["src/csn1/csn1_dec.c:osmo_csn1_stream_decode", "src/rlcmac/csn1_ts_44_060.c", "include/osmocom/gprs/rlcmac/csn1_defs.h"]}
{"id": "C49", "title": "The control messages sent by the mobile station have the format of the standard", "statement": "PACKET CONTROL ACKNOWLEDGEMENT, PACKET UPLINK DUMMY CONTROL BLOCK, PACKET RESOURCE REQUEST and PACKET DOWNLINK ACK/NACK are sent as 23 octets whose bits are those that 3GPP TS 44.060 prescribes for the TLLI, TFI, sequence number, bitmap, radio priority and octet count in question, padding included; the ack/nack that goes out tells the truth about the received blocks.", "quantifier": "every TLLI, TFI, sequence number, bitmap, access type and queue length; every schedule of received blocks", "why_tests_cant": "The tests compare a handful of messages with constants; a field that is cut, shifted or left out shows only for other values.", "anchors": ["src/rlcmac/rlcmac_enc.c:gprs_rlcmac_enc_prepare_pkt_downlink_ack_nack", "src/rlcmac/csn1_ts_44_060.c:osmo_gprs_rlcmac_encode_uplink", "src/csn1/csn1_enc.c:osmo_csn1_stream_encode"]}
{"id": "C50", "title": "Decoding inverts encoding", "statement": "Decoding the octets of an encoded uplink control message succeeds and gives back every member that the message carries, and changes nothing else in the structure.", "quantifier": "every message type and every structure whose values fit their fields; any earlier contents of the structure decoded into", "why_tests_cant": "Encoder and decoder are two interpreters of 380 tables; the number of combinations of optional parts is not testable.", "anchors": ["src/csn1/csn1_enc.c:osmo_csn1_stream_encode", "src/csn1/csn1_dec.c:osmo_csn1_stream_decode", "src/rlcmac/csn1_ts_44_060.c:osmo_gprs_rlcmac_decode_uplink"]}
{"id": "C51", "title": "A mobile station is paged exactly when a paging request names it with the packet indication", "statement": "A paging request type 1 or 2 makes the layer announce a page to the upper layer for an entity exactly if one of the entity's identities (IMSI or P-TMSI) is in the request and the packet page indication belonging to that identity is set; whatever the block contains, no entity is told whose identity is not in it.", "quantifier": "every block of 23 octets; every paging request of TS 44.018 with any identities, priorities and group call", "why_tests_cant": "The position of the indications depends on all optional parts in front of them and on the inverted coding against the padding pattern; tests have one request.", "anchors": ["src/rlcmac/rlcmac.c:gprs_rlcmac_handle_ccch_pag_req1", "src/rlcmac/rlcmac.c:gprs_rlcmac_handle_ccch_pag_req2", "src/rlcmac/csn1_ts_44_018.c:osmo_gprs_rlcmac_decode_p1ro"]}
{"id": "C52", "title": "An immediate assignment for this mobile is carried out as sent", "statement": "An immediate assignment for this mobile makes it establish exactly the channel described (timeslot, training sequence, timing advance, ARFCN or hopping sequence) and hands the TBF concerned the TFI, USF, coding scheme and starting time of the message; one that is for another mobile, or that assigns no TFI, has no such effect.", "quantifier": "every immediate assignment of TS 44.018 with a dynamic allocation, a single block or a downlink TBF, with any optional parts", "why_tests_cant": "Tests have two assignments; fields shift with every optional part.", "anchors": ["src/rlcmac/rlcmac.c:gprs_rlcmac_handle_ccch_imm_ass", "src/rlcmac/tbf_ul_ass_fsm.c", "src/rlcmac/tbf_dl_ass_fsm.c"]}
{"id": "C53", "title": "System information 13 sets T3168 and T3192", "statement": "Every SYSTEM INFORMATION TYPE 13 that the standard allows sets the timers T3168 and T3192 to the durations it gives, and none aborts the process.", "quantifier": "every SI 13 of TS 44.018, any optional parts, any earlier contents of the structure", "why_tests_cant": "The members lie behind a list and a bitmap of variable length; tests have one message.", "anchors": ["src/rlcmac/rlcmac.c:gprs_rlcmac_handle_bcch_si13"]}
{"id": "C54", "title": "A Packet Uplink Ack/Nack reaches the TBF with its TFI as sent", "statement": "A PACKET UPLINK ACK/NACK received on a PDCH hands the uplink TBF with the TFI in it exactly the report, the final ack indication, the channel coding command, TBF_EST and the block for the answer that were sent; without such a TBF it is ignored. It ends the contention resolution only if it carries the TLLI of this mobile.", "quantifier": "every such message of TS 44.060 in a block of 23 octets with any optional header octets and optional parts; every state; every frame number", "why_tests_cant": "The position of TBF_EST depends on all optional parts in front of it; tests have a few messages.", "anchors": ["src/rlcmac/rlcmac.c:gprs_rlcmac_handle_pkt_ul_ack_nack", "src/rlcmac/tbf_ul.c:gprs_rlcmac_ul_tbf_handle_pkt_ul_ack_nack", "src/rlcmac/tbf_ul_fsm.c"]}
{"id": "C55", "title": "A Packet Uplink Assignment is carried out as sent, by the addressee only", "statement": "A PACKET UPLINK ASSIGNMENT with a dynamic allocation hands exactly the entity it is addressed to (by uplink TFI, downlink TFI or TLLI) the TFI, the channel coding command, the timeslots with their USFs, the starting time and the block for the answer that were sent; if no entity with an uplink TBF is addressed, it is ignored.", "quantifier": "every such message of TS 44.060 in GPRS TBF mode, any addressee and optional parts; every state; every frame number", "why_tests_cant": "Fields shift with every optional part (frequency parameters alone have dozens of lengths); tests have a few messages.", "anchors": ["src/rlcmac/rlcmac.c:gprs_rlcmac_handle_pkt_ul_ass", "src/rlcmac/tbf_ul_ass_fsm.c", "src/rlcmac/rlcmac_dec.c"]}
{"id": "C56", "title": "A Packet Downlink Assignment is carried out as sent, by the addressee only", "statement": "A PACKET DOWNLINK ASSIGNMENT hands exactly the entity it is addressed to (by uplink TFI, downlink TFI or TLLI) the TFI, the timeslots, the control ack bit, the starting time and the block for the answer that were sent; if no entity is addressed, it is ignored.", "quantifier": "every such message of TS 44.060, any addressee and optional parts; every state; every frame number", "why_tests_cant": "As C55.", "anchors": ["src/rlcmac/rlcmac.c:gprs_rlcmac_handle_pkt_dl_ass", "src/rlcmac/tbf_dl_ass_fsm.c"]}
{"id": "C57", "title": "No block received on a PDCH aborts the process", "statement": "Whatever octets arrive in a PDCH data indication, of whatever length, no assertion fails and nothing is read outside the block or the decoded structure before an event for a TBF results.", "quantifier": "every octet string; every state; every frame number at which a block starts", "why_tests_cant": "All 2^184 control blocks and all lengths; the assertions depend on members of a union filled in by the table-driven decoder.", "anchors": ["src/rlcmac/rlcmac_prim.c:rlcmac_prim_handle_pdch_data_ind", "src/rlcmac/rlcmac.c:gprs_rlcmac_handle_gprs_dl_block"]}
{"id": "C58", "title": "The quality of service profile written says what was asked for", "statement": "The octets written for a QoS profile mean, to a reader of TS 24.008 10.5.6.5, for each of the four bit rates and the transfer delay the largest value of the coding that does not exceed the one asked for; the octets not computed are those of the profile.", "quantifier": "every decoded profile, any 32-bit rates and delay", "why_tests_cant": "Four 32-bit rates with a piecewise coding in up to three octets each; the tests write one profile.", "anchors": ["src/common/qos.c:gprs_qos_build_qos_profile", "include/osmocom/gprs/sm/sm_qos.h"]}
{"id": "C59", "title": "A quality of service profile is read inside its octets and as written", "statement": "Reading a QoS profile of any length reads nothing outside it, refuses lengths the standard does not have, and yields the rates and the delay that TS 24.008 gives for the octets; reading what was written gives it back.", "quantifier": "every octet string", "why_tests_cant": "Which octets are present depends on the length; overreads do not show without instrumentation.", "anchors": ["src/common/qos.c:gprs_qos_parse_qos_profile"]}
{"id": "C60", "title": "GPRS timers are sent as the longest timer not longer than asked for", "statement": "The octet for a GPRS timer means the longest duration expressible that does not exceed the seconds given, a negative number deactivates the timer, and reading an octet gives the seconds of TS 24.008 table 10.5.172.", "quantifier": "every number of seconds; every octet", "why_tests_cant": "Optimality over all octets and all numbers of seconds.", "anchors": ["src/gmm/misc.c:gprs_gmm_secs_to_gprs_tmr_floor", "src/gmm/misc.c:gprs_gmm_gprs_tmr_to_secs"]}
{"id": "C61", "title": "No message or primitive aborts mobility management", "statement": "Whatever messages the network sends and primitives the upper layers issue, in any order with any expiries of timers, no assertion fails and no octet outside a message is read.", "quantifier": "every finite sequence of messages, primitives and timer expiries, any number of subscribers, any answers of the call-backs", "why_tests_cant": "Sequences are unbounded; the assertions depend on the combination of state, timer and event.", "anchors": ["src/gmm/gmm_prim.c:gprs_gmm_prim_handle_ll_unitdata_ind", "src/gmm/gmm.c:gprs_gmm_rx", "src/gmm/gmm_ms_fsm.c:gprs_gmm_ms_fsm_timer_cb"]}
{"id": "C62", "title": "READY timer and periodic update timer", "statement": "At most one of the two timers runs; traffic starts the READY timer, its expiry the periodic timer, and the expiry of that makes a registered mobile request a periodic update. A registered mobile with an assigned periodic timer always has one of them running, a mobile not registered never the periodic one.", "quantifier": "every execution", "why_tests_cant": "The timers are started and stopped from a dozen places; the claim is about all interleavings.", "anchors": ["src/gmm/gmm.c:gprs_gmm_gmme_ready_timer_start", "src/gmm/gmm.c:gprs_gmm_gmme_t3312_start"]}
{"id": "C63", "title": "An attach that was requested is answered", "statement": "While an attach is under way T3310 runs and the requesters are recorded; an accept is confirmed to each of them with the identities it assigned, a reject with its cause, and without an answer the request is sent four times in all and then each requester is told. No requester is left without an answer.", "quantifier": "every execution, every message", "why_tests_cant": "Requires following each request through all interleavings of messages and timers.", "anchors": ["src/gmm/gmm_ms_fsm.c:st_gmm_ms_registered_initiated", "src/gmm/gmm.c:gprs_gmm_rx_att_ack", "src/gmm/gmm.c:gprs_gmm_rx_att_rej"]}
{"id": "C64", "title": "LLC is resumed after a routing area update", "statement": "LLC is suspended before a routing area update is requested; however the update ends, once the mobile is registered again LLC has been resumed. An update without answer is given up after T3330 has expired four times.", "quantifier": "every execution", "why_tests_cant": "An update can end by accept, reject with any cause, expiry and failure to send, and the next update inherits the counters.", "anchors": ["src/gmm/gmm_ms_fsm.c:st_gmm_ms_registered", "src/gmm/gmm_ms_fsm.c:st_gmm_ms_rau_initiated", "src/gmm/gmm_ms_fsm.c:gprs_gmm_ms_fsm_timer_cb"]}
{"id": "C65", "title": "A new P-TMSI is used by all layers", "statement": "An accept or a reallocation command with a P-TMSI makes GMM tell LLC and RLC/MAC the local TLLI derived from it together with the one used before, then answer under the new one; the TLLI in use is always derived from the P-TMSI (or random without one), and nothing is sent under a TLLI LLC has not been told.", "quantifier": "every message, every execution", "why_tests_cant": "All messages with all optional elements, and an invariant over all executions.", "anchors": ["src/gmm/gmm.c:gprs_gmm_gmme_update_ptmsi", "src/gmm/gmm.c:gprs_gmm_rx_att_ack", "src/gmm/gmm.c:gprs_gmm_rx_rau_acc", "src/gmm/gmm.c:gprs_gmm_rx_ptmsi_realloc_cmd"]}
{"id": "C66", "title": "The P-TMSI signature comes back unchanged", "statement": "The signature the network assigned is the one sent in the next request and told to the upper layers; a signature the upper layer passes is sent as it is.", "quantifier": "every signature, every execution", "why_tests_cant": "2^24 signatures; the tests' signature is one of those the upper layer passes.", "anchors": ["src/gmm/gmm.c:gprs_gmm_rx_att_ack", "src/gmm/gmm_pdu.c:gprs_gmm_build_rau_req", "src/gmm/gmm_pdu.c:gprs_gmm_build_attach_req"]}
{"id": "C67", "title": "Authentication", "statement": "A challenge is passed to the SIM with its reference and key sequence number; the SIM's answer to it sets the key in LLC and is sent with the reference number, and the IMEISV if asked for; any other answer is refused. A failure is reported as Authentication and Ciphering Failure, and a reject of the network ends the registration.", "quantifier": "every message and every answer, any number of subscribers", "why_tests_cant": "All optional elements and interleavings with several subscribers.", "anchors": ["src/gmm/gmm.c:gprs_gmm_rx_auth_ciph_req", "src/gmm/gmm_prim.c:gprs_gmm_prim_handle_gmmreg_sim_auth_resp", "src/gmm/gmm_pdu.c:gprs_gmm_build_auth_ciph_resp"]}
{"id": "C68", "title": "The requests follow TS 24.008", "statement": "Attach, detach and update requests and identity responses can be read by the rules of TS 24.007 and TS 24.008 and then say what the primitive asked for and what the mobile can do.", "quantifier": "every primitive and every state", "why_tests_cant": "The tests compare with the octets the code writes, which says nothing about the standard.", "anchors": ["src/gmm/gmm_pdu.c:gprs_gmm_build_attach_req", "src/gmm/gmm_pdu.c:gprs_gmm_build_detach_req", "src/gmm/gmm_pdu.c:gprs_gmm_build_rau_req", "src/gmm/gmm_pdu.c:gprs_gmm_build_identity_resp"]}
{"id": "C69", "title": "Force to standby and the other elements of downlink messages", "statement": "After a message that forces the mobile to standby the READY timer does not run; radio priorities and timers are taken from where TS 24.008 puts them.", "quantifier": "every message", "why_tests_cant": "Four bits in different places of seven messages.", "anchors": ["src/gmm/gmm.c:gprs_gmm_rx_att_ack", "src/gmm/gmm.c:gprs_gmm_rx_detach_accept", "src/gmm/gmm.c:gprs_gmm_rx_rau_rej"]}
{"id": "C70", "title": "Nothing is sent while GPRS is off", "statement": "After GPRS has been switched off no mobile is registered, no attach is started and nothing is sent.", "quantifier": "every execution", "why_tests_cant": "Switching off in every state, followed by anything.", "anchors": ["src/gmm/gmm.c:osmo_gprs_gmm_enable_gprs", "src/gmm/gmm_ms_fsm.c:gprs_gmm_ms_fsm_ctx_request_detach"]}
{"id": "C71", "title": "Session management is served by mobility management", "statement": "Messages of session management are passed up and down unchanged under the session identifier and the TLLI in use; session management is told when the identities change and when the mobile is detached; each session established stays usable until released.", "quantifier": "every message and session, any number of subscribers", "why_tests_cant": "Message contents and interleavings are unbounded.", "anchors": ["src/gmm/gmm_prim.c:gprs_gmm_prim_handle_gmmsm_unitdata_req", "src/gmm/gmm_prim.c:gprs_gmm_prim_handle_gmmsm_establish_req", "src/gmm/gmm.c:gprs_gmm_submit_gmmsm_modify_ind"]}
{"id": "C72", "title": "The activation request says what the user asked for", "statement": "After SMREG-PDP_ACTIVATE.req for a free NSAPI GMM is asked for a connection with the identities given; once it is there, an ACTIVATE PDP CONTEXT REQUEST is sent which, read by the rules of TS 24.008, has the NSAPI, LLC SAPI, QoS, PDP address, access point name and protocol options of the request.", "quantifier": "every request with lengths in range, every state", "why_tests_cant": "2^2000 requests; lengths decide which octet means what.", "anchors": ["src/sm/sm_prim.c:gprs_sm_prim_handle_smreg_pdp_act_req", "src/sm/sm_pdu.c:gprs_sm_build_act_pdp_ctx_req", "src/sm/sm_pdu.c:gprs_sm_pdp_addr_enc_ietf"]}
{"id": "C73", "title": "The activation request reaches LLC", "statement": "The message session management submits once GMM has granted the connection of a session goes out under the TLLI of the mobile the connection was granted for.", "quantifier": "every state of SM and GMM", "why_tests_cant": "Needs both layers together; their tests stub the other one.", "anchors": ["src/sm/sm.c:gprs_sm_tx_act_pdp_ctx_req", "src/gmm/gmm_prim.c:gprs_gmm_prim_handle_gmmsm_unitdata_req"]}
{"id": "C74", "title": "One context per session id and per NSAPI", "statement": "No two contexts of any mobiles have the same session id; a request for an NSAPI that is in use is refused and changes nothing.", "quantifier": "every execution", "why_tests_cant": "Contexts come and go for the lifetime of the process.", "anchors": ["src/sm/sm.c:gprs_sm_entity_alloc", "src/sm/sm_prim.c:gprs_sm_prim_handle_smreg_pdp_act_req"]}
{"id": "C75", "title": "At most one confirmation per request", "statement": "For each mobile and NSAPI there are at most as many SMREG-PDP_ACTIVATE.cnf as there were requests, whatever the network, GMM, SNDCP and the timers do.", "quantifier": "every execution", "why_tests_cant": "All interleavings of answers, repeated answers, expiries and releases.", "anchors": ["src/sm/sm.c:gprs_sm_submit_smreg_pdp_act_cnf", "src/sm/sm_ms_fsm.c:st_sm_ms_pdp_active_pending"]}
{"id": "C76", "title": "The user learns the fate of a context", "statement": "Every request for activation is confirmed or rejected in the end, and the user is told when an active context is gone.", "quantifier": "every execution", "why_tests_cant": "Liveness over all interleavings.", "anchors": ["src/sm/sm_ms_fsm.c:st_sm_ms_pdp_active_pending", "src/sm/sm_prim.c:gprs_sm_prim_handle_gmmsm_release_ind"]}
{"id": "C77", "title": "A context is reported active only if the network accepted it", "statement": "A confirmation that says accepted is sent only after an ACTIVATE PDP CONTEXT ACCEPT was received, and SNDCP is told to serve an NSAPI only because of such a message.", "quantifier": "every execution", "why_tests_cant": "All messages and interleavings.", "anchors": ["src/sm/sm_ms_fsm.c:st_sm_ms_pdp_active_pending", "src/sm/sm.c:gprs_sm_rx_act_pdp_rej", "src/sm/sm_prim.c:gprs_sm_prim_handle_snsm_act_resp"]}
{"id": "C78", "title": "SNDCP and the user are given what the network granted", "statement": "The LLC SAPI, radio priority and QoS of an ACCEPT go to SNDCP, its radio priority, QoS, PDP address and protocol options to the user.", "quantifier": "every well-formed ACCEPT, every state", "why_tests_cant": "All lengths of QoS and options, present or absent elements.", "anchors": ["src/sm/sm.c:gprs_sm_rx_act_pdp_ack", "src/sm/sm.c:gprs_sm_submit_snsm_act_ind", "src/sm/sm.c:gprs_sm_submit_smreg_pdp_act_cnf"]}
{"id": "C79", "title": "An address that is granted as asked for is reported as asked for", "statement": "If the network sends back the PDP address of the request, the user is told the addresses they asked for.", "quantifier": "every address and type", "why_tests_cant": "All combinations of types and addresses.", "anchors": ["src/sm/sm_pdu.c:gprs_sm_pdp_addr_dec", "src/sm/sm_pdu.c:gprs_sm_pdp_addr_enc_ietf"]}
{"id": "C80", "title": "No message or primitive aborts session management", "statement": "Whatever messages the network sends and primitives the neighbours issue, no assertion fails, no memory outside an object is accessed and nothing is freed twice.", "quantifier": "every execution", "why_tests_cant": "Unbounded sequences and message contents.", "anchors": ["src/sm/sm.c:gprs_sm_rx", "src/sm/sm_prim.c:osmo_gprs_sm_prim_upper_down"]}
{"id": "C81", "title": "Contexts the network dropped are deactivated", "statement": "GMM's report of the network's PDP context status makes SM deactivate in SNDCP exactly the live contexts whose bit is 0; when SNDCP has done so the user is told once, with the cause.", "quantifier": "every state, every status", "why_tests_cant": "2^11 statuses times all sets of contexts.", "anchors": ["src/sm/sm.c:gprs_sm_handle_ie_pdp_ctx_status", "src/sm/sm_prim.c:gprs_sm_prim_handle_snsm_deact_resp", "src/sm/sm.c:gprs_sm_submit_smreg_pdp_deact_ind"]}
{"id": "C82", "title": "A request without answer is repeated and then given up", "statement": "On the first four expiries of T3380 the request is sent again, on the fifth the activation is given up, the user is told and the NSAPI is free again (TS 24.008, 6.1.3.1.5).", "quantifier": "every request, every state", "why_tests_cant": "Needs time to pass; a test sees one sequence.", "anchors": ["src/sm/sm_ms_fsm.c:sm_ms_fsm_timer_cb"]}
{"id": "C83", "title": "A message that is refused has no effect", "statement": "If a message of the network is refused with an error, no primitive is sent and the context stays as it was; a message affects only the context of its session.", "quantifier": "every message, every state", "why_tests_cant": "All malformed messages.", "anchors": ["src/sm/sm.c:gprs_sm_rx_act_pdp_ack", "src/sm/sm.c:gprs_sm_rx_act_pdp_rej"]}
{"id": "C84", "title": "An active context is served by SNDCP", "statement": "When the user is told that a context is active, SNDCP serves its NSAPI over the SAPI the network granted, with the granted QoS and radio priority.", "quantifier": "every state of SM and SNDCP, every ACCEPT", "why_tests_cant": "Needs both layers together.", "anchors": ["src/sm/sm.c:gprs_sm_submit_snsm_act_ind", "src/sm/sm_prim.c:gprs_sm_prim_handle_gmmsm_release_ind", "src/sndcp/sndcp_prim.c:gprs_sndcp_prim_handle_sndcp_snsm_activate_ind"]}
{"id": "C85", "title": "An NSAPI can be used again; requests do not disturb each other", "statement": "A user who is told that a context ended can ask for its NSAPI again, also from within the call-back; the identities in the confirmation of a context are those of its own request or of GMM.", "quantifier": "every state", "why_tests_cant": "Depends on a timer that expires at once, and on several contexts.", "anchors": ["src/sm/sm_ms_fsm.c:st_sm_ms_pdp_inactive_on_enter", "src/sm/sm_prim.c:gprs_sm_prim_handle_smreg_pdp_act_req"]}
{"id": "C86", "title": "Transaction identifiers tell contexts apart", "statement": "Each context has its own transaction identifier, with the flag of the side that began; a message of the network changes only the context whose identifier it carries.", "quantifier": "every state, every message", "why_tests_cant": "All pairs of contexts.", "anchors": ["src/sm/sm_pdu.c:gprs_sm_build_act_pdp_ctx_req", "src/sm/sm.c:gprs_sm_rx"]}
{"id": "C87", "title": "Header compression is lossless", "statement": "Every IP version 4 packet compressed by one side of a link and expanded by the other, in order and without loss, is handed up octet for octet as it was given to the compressor, with any number of connections interleaved.", "quantifier": "every stream of packets, every number of slots", "why_tests_cant": "Both sides keep history; all streams of all packets.", "anchors": ["src/sndcp/slhc.c:slhc_compress", "src/sndcp/slhc.c:slhc_uncompress", "src/sndcp/slhc.c:slhc_remember", "src/sndcp/sndcp_pcomp.c:rfc1144_compress", "src/sndcp/sndcp_pcomp.c:rfc1144_expand"]}
{"id": "C88", "title": "A lost packet harms only its connection, until the next whole header", "statement": "If packets are lost on the way, those of other connections are handed up right, and those of the same connection from the next uncompressed header on; nothing fails.", "quantifier": "every stream, every pattern of losses", "why_tests_cant": "2^n patterns of losses times all streams.", "anchors": ["src/sndcp/slhc.c:slhc_compress", "src/sndcp/slhc.c:slhc_uncompress"]}
{"id": "C89", "title": "Slots are given out least recently used first", "statement": "The slot number sent with a TCP packet is the one a cache of n places with LRU replacement gives to its connection; a compressed header is used only for a connection in the cache.", "quantifier": "every stream, 1 to 255 slots", "why_tests_cant": "All orders of any number of connections.", "anchors": ["src/sndcp/slhc.c:slhc_compress"]}
{"id": "C90", "title": "Compression never lengthens a packet or leaves its buffer", "statement": "A packet given to the compressor in a buffer of its own length is compressed without access outside it, and is not longer afterwards; a compressed header saves at least 21 octets.", "quantifier": "every stream of packets", "why_tests_cant": "All header lengths and contents.", "anchors": ["src/sndcp/slhc.c:slhc_compress", "src/sndcp/sndcp_pcomp.c:rfc1144_compress"]}
{"id": "C91", "title": "The decompressor is safe against any peer", "statement": "Whatever octets and PCOMP values the peer sends, expansion touches nothing outside the buffer the caller provides.", "quantifier": "every sequence of octet strings and indices", "why_tests_cant": "Malicious sequences that set up and misuse slots.", "anchors": ["src/sndcp/slhc.c:slhc_uncompress", "src/sndcp/slhc.c:slhc_remember", "src/sndcp/sndcp.c:349"]}
{"id": "C92", "title": "Bulk transfer costs four octets of header", "statement": "A segment that follows the previous one of its connection in a one-way transfer goes out with four octets in place of both headers, followed by its data.", "quantifier": "every pair of successive segments, after any stream", "why_tests_cant": "All header contents, options and sequence numbers, including wrap-around.", "anchors": ["src/sndcp/slhc.c:slhc_compress"]}
{"id": "C93", "title": "The two directions of an entity are independent", "statement": "Compressing neither reads nor changes the receiving state and expanding neither reads nor changes the sending state.", "quantifier": "every state, every packet", "why_tests_cant": "Noninterference over all states.", "anchors": ["src/sndcp/slhc.c:slhc_compress", "src/sndcp/slhc.c:slhc_uncompress"]}
{"id": "C94", "title": "Proposed compression parameters are understood", "statement": "An SNDCP-XID block with a version and proposals for header and data compression, coded as TS 44.065 says, with parameters left out or not, is decoded to exactly these proposals.", "quantifier": "every block of up to three elements, every set of NSAPIs, all parameter values", "why_tests_cant": "All combinations of five algorithms, their parameters and lengths.", "anchors": ["src/sndcp/sndcp_xid.c:gprs_sndcp_parse_xid", "src/sndcp/sndcp_xid.c:decode_comp_field", "src/sndcp/sndcp_xid.c:decode_xid_block"]}
{"id": "C95", "title": "What is coded is decoded", "statement": "The block made from a list of proposals, of any length and with any valid parameters, is decoded to the same proposals; its coding is the one of TS 44.065.", "quantifier": "every list of valid proposals, every version, every buffer", "why_tests_cant": "Unbounded lists; nested lengths.", "anchors": ["src/sndcp/sndcp_xid.c:gprs_sndcp_compile_xid", "src/sndcp/sndcp_xid.c:gprs_sndcp_pack_fields", "src/sndcp/sndcp_xid.c:encode_comp_field", "src/sndcp/sndcp_xid.c:gprs_sndcp_parse_xid"]}
{"id": "C96", "title": "An answer is completed from the request", "statement": "A field of an answer is read with the algorithm that was requested for its entity; parameters it leaves out and the PCOMP and DCOMP values are those of the request.", "quantifier": "every request, every answer to it", "why_tests_cant": "Pairs of messages over all subsets of parameters.", "anchors": ["src/sndcp/sndcp_xid.c:gprs_sndcp_parse_xid", "src/sndcp/sndcp_xid.c:gprs_sndcp_fill_table", "src/sndcp/sndcp_xid.c:gprs_sndcp_complete_comp_fields"]}
{"id": "C97", "title": "The decoder stays inside the block", "statement": "Whatever octets a peer sends as an SNDCP-XID block, decoding reads none outside it and does not fail an assertion.", "quantifier": "every octet string, every request", "why_tests_cant": "All octet strings of all lengths.", "anchors": ["src/sndcp/sndcp_xid.c:gprs_sndcp_parse_xid", "src/sndcp/sndcp_xid.c:decode_comp_field", "src/sndcp/sndcp_xid.c:decode_xid_block"]}
{"id": "C98", "title": "Both ends agree on the compression entities", "statement": "After SN-XID.req was sent, answered by the other end and confirmed, both ends have the same header and data compression entities: those asked for that the other end accepts, with the parameters asked for.", "quantifier": "every state of both ends, all parameters, every permission of the other end", "why_tests_cant": "Two ends with any history; all parameter values.", "anchors": ["src/sndcp/sndcp.c:gprs_sndcp_sne_handle_sn_xid_req", "src/sndcp/sndcp.c:gprs_sndcp_snme_handle_llc_ll_xid_ind", "src/sndcp/sndcp.c:gprs_sndcp_sne_handle_sn_xid_rsp", "src/sndcp/sndcp.c:gprs_sndcp_snme_handle_llc_ll_xid_cnf"]}
{"id": "C99", "title": "Packets survive negotiated header compression", "statement": "When header compression was negotiated, every stream of packets arrives unchanged in both directions.", "quantifier": "every state before, every number of connections, every legal stream of packets", "why_tests_cant": "Unbounded streams over negotiated contexts.", "anchors": ["src/sndcp/sndcp_pcomp.c:gprs_sndcp_pcomp_compress", "src/sndcp/sndcp_pcomp.c:gprs_sndcp_pcomp_expand", "src/sndcp/sndcp_pcomp.c:gprs_sndcp_pcomp_init", "src/sndcp/sndcp_comp.c:gprs_sndcp_comp_create"]}
{"id": "C100", "title": "Proposals of the peer are answered", "statement": "Every valid list of proposals is answered: an entity whose algorithm is allowed is set up with the proposed values and echoed, any other is removed and echoed without NSAPIs; entities that are not mentioned stay.", "quantifier": "every list of proposals, every table, every permission", "why_tests_cant": "Unbounded lists of proposals over any table.", "anchors": ["src/sndcp/sndcp.c:gprs_sndcp_snme_handle_llc_ll_xid_ind", "src/sndcp/sndcp.c:gprs_sndcp_snme_handle_pcomp_entities", "src/sndcp/sndcp.c:gprs_sndcp_snme_handle_dcomp_entities", "src/sndcp/sndcp.c:gprs_sndcp_sne_handle_sn_xid_rsp"]}
{"id": "C101", "title": "No message of the peer breaks the tables", "statement": "In every history of activations, requests, indications and confirmations with any octets, no step fails an assertion or reads outside the message, and the tables stay well formed: distinct numbers, the right kind, PCOMP values and NSAPIs within range.", "quantifier": "every history, every octet string", "why_tests_cant": "Histories of unbounded length with arbitrary octets.", "anchors": ["src/sndcp/sndcp.c:gprs_sndcp_snme_handle_llc_ll_xid_ind", "src/sndcp/sndcp.c:gprs_sndcp_snme_handle_llc_ll_xid_cnf", "src/sndcp/sndcp_comp.c:gprs_sndcp_comp_add", "src/sndcp/sndcp_comp.c:gprs_sndcp_comp_delete", "src/sndcp/sndcp_comp.c:gprs_sndcp_comp_free"]}
{"id": "C102", "title": "A request is confirmed to its user", "statement": "An answer to SN-XID.req gives SN-XID.cnf for the same SAPI and NSAPI, the entities are set up as the answer says, with values left out as requested, and nothing is pending any more.", "quantifier": "every state, every request, every answer to it", "why_tests_cant": "All answers to all requests in all states.", "anchors": ["src/sndcp/sndcp.c:gprs_sndcp_sne_handle_sn_xid_req", "src/sndcp/sndcp.c:gprs_sndcp_snme_handle_llc_ll_xid_cnf", "src/sndcp/sndcp.c:gprs_sndcp_sne_submit_sn_xid_cnf"]}
{"id": "C103", "title": "The receiver finds the entity and the kind of packet", "statement": "The PCOMP or DCOMP value that a sender puts for a kind of packet of an entity leads the receiver with the same table to this entity and this kind.", "quantifier": "every table of entities, every kind of packet", "why_tests_cant": "All tables of entities.", "anchors": ["src/sndcp/sndcp_comp.c:gprs_sndcp_comp_by_comp", "src/sndcp/sndcp_comp.c:gprs_sndcp_comp_get_idx", "src/sndcp/sndcp_comp.c:gprs_sndcp_comp_get_comp"]}
{"id": "C104", "title": "Data compression loses nothing", "statement": "What the V.42bis compressor makes of an N-PDU is expanded to the same N-PDU by the other end with the same parameters; it is shorter than the N-PDU, or it is the N-PDU itself and so marked.", "quantifier": "every N-PDU, all parameters P0, P1, P2", "why_tests_cant": "All octet strings of every length against an adaptive dictionary with all parameters.", "anchors": ["src/sndcp/v42bis.c:v42bis_compress", "src/sndcp/v42bis.c:v42bis_compress_flush", "src/sndcp/v42bis.c:v42bis_decompress", "src/sndcp/v42bis.c:v42bis_decompress_flush", "src/sndcp/sndcp_dcomp.c:v42bis_compress_unitdata", "src/sndcp/sndcp_dcomp.c:v42bis_expand_unitdata"]}
{"id": "C105", "title": "A received N-PDU fits in the memory it is expanded in", "statement": "Data expansion never writes outside the memory set aside for it, and gives the N-PDU that was sent.", "quantifier": "every N-PDU sent, all parameters, every table entry", "why_tests_cant": "All octet strings of every length.", "anchors": ["src/sndcp/sndcp.c:decompress_segment", "src/sndcp/sndcp_dcomp.c:gprs_sndcp_dcomp_expand", "src/sndcp/sndcp_dcomp.c:gprs_sndcp_dcomp_compress"]}
{"id": "C106", "title": "No octets of the peer break the expansion", "statement": "Whatever octets come from the peer, data expansion ends, and never reads or writes outside the dictionary and the string buffer.", "quantifier": "every octet string, all parameters", "why_tests_cant": "All octet strings of every length as input to a decoder that builds its own tables.", "anchors": ["src/sndcp/v42bis.c:v42bis_decompress", "src/sndcp/v42bis.c:expand_codeword_to_string", "src/sndcp/v42bis.c:add_octet_to_dictionary", "src/sndcp/v42bis.c:match_octet"]}
{"id": "C107", "title": "N-PDUs of both directions survive both compressions", "statement": "After SN-XID.req has negotiated header compression, data compression or both, N-PDUs that the two ends send each other in any order are handed up exactly as they were sent.", "quantifier": "all requests and grants, every sequence of N-PDUs in both directions", "why_tests_cant": "Every interleaving of two streams of packets, through two adaptive coders whose tables both ends keep.", "anchors": ["src/sndcp/sndcp.c:gprs_sndcp_sne_handle_sn_unitdata_req", "src/sndcp/sndcp.c:decompress_segment", "src/sndcp/sndcp_pcomp.c:gprs_sndcp_pcomp_compress", "src/sndcp/sndcp_pcomp.c:gprs_sndcp_pcomp_expand", "src/sndcp/sndcp_dcomp.c:gprs_sndcp_dcomp_compress", "src/sndcp/sndcp_dcomp.c:gprs_sndcp_dcomp_expand"]}
{"id": "C108", "title": "N-PDUs travel through SNDCP and LLC", "statement": "When SNDCP on top of LLC at one end sends N-PDUs to the same at the other end and frames are lost on the way, the other end hands out the N-PDUs all of whose frames arrive, unchanged, in order and once, and nothing else.", "quantifier": "all N-PDUs of 1 to 1503 octets, all N201-U the standards allow, all sequence numbers, every pattern of losses, both directions", "why_tests_cant": "Every pattern of losses over any number of N-PDUs, and two layers that each keep their own counters.", "anchors": ["src/sndcp/sndcp.c:gprs_sndcp_sne_handle_sn_unitdata_req", "src/sndcp/sndcp.c:gprs_sndcp_sne_handle_llc_ll_unitdata_ind", "src/llc/llc.c:gprs_llc_lle_tx_ui", "src/llc/llc.c:gprs_llc_lle_rx_unitdata_ind"]}
{"id": "C109", "title": "N-PDUs reach the mobile through RLC, LLC and SNDCP", "statement": "When the network cuts the frames of N-PDUs into RLC blocks as TS 44.060 has it, and the blocks arrive at the mobile in any order within the window, some more than once, some not at all, the mobile hands out the N-PDUs up to the first one it misses a block of, unchanged, in order and once; all of them if all blocks arrive and none is 63 ahead of all before it.", "quantifier": "all N-PDUs of 1 to 1503 octets, all ways to cut frames into blocks, every order of arrival and loss of blocks", "why_tests_cant": "All ways to cut, reorder, repeat and lose, through three layers.", "anchors": ["src/sndcp/sndcp.c:gprs_sndcp_sne_handle_sn_unitdata_req", "src/sndcp/sndcp.c:gprs_sndcp_sne_handle_llc_ll_unitdata_ind", "src/llc/llc.c:gprs_llc_lle_tx_ui", "src/llc/llc.c:gprs_llc_lle_rx_unitdata_ind", "src/rlcmac/tbf_dl.c:gprs_rlcmac_dl_tbf_rcv_data_block", "src/rlcmac/tbf_dl.c:gprs_rlcmac_dl_tbf_assemble_forward_llc"]}
{"id": "C110", "title": "N-PDUs leave the mobile through SNDCP, LLC and RLC", "statement": "When the mobile builds RLC blocks of any sizes from the frames of N-PDUs, what the network reads from them gives the N-PDUs up to some point, unchanged, in order and once; all of them when the mobile has nothing left to send.", "quantifier": "all N-PDUs of 1 to 1503 octets, all block sizes in any mixture, with and without TLLI, frames given at any time", "why_tests_cant": "All mixtures of block sizes for frames of all lengths, through three layers.", "anchors": ["src/sndcp/sndcp.c:gprs_sndcp_sne_handle_sn_unitdata_req", "src/sndcp/sndcp.c:gprs_sndcp_sne_handle_llc_ll_unitdata_ind", "src/llc/llc.c:gprs_llc_lle_tx_ui", "src/llc/llc.c:gprs_llc_lle_rx_unitdata_ind", "src/rlcmac/tbf_ul.c:create_new_bsn"]}
{"id": "C111", "title": "The octets of uplink RLC data blocks", "statement": "What the mobile sends for an uplink block of CS-1 to CS-4 is the message of TS 44.060 figure 10.2.2.1: payload type, countdown value, TFI, TLLI indicator, BSN, E bit and data of the block; sent again it has the same octets, whatever was sent in between; and N-PDUs handed to SNDCP come out of these octets at the network.", "quantifier": "all blocks, TFIs, BSNs and countdown values, all orders of sending again, all N-PDUs of 1 to 1503 octets", "why_tests_cant": "All values of all fields next to each other in the same octets, and all orders of retransmissions.", "anchors": ["src/rlcmac/tbf_ul.c:create_ul_acked_block", "src/rlcmac/rlcmac_enc.c:gprs_rlcmac_rlc_write_ul_data_header", "src/rlcmac/rlcmac_enc.c:gprs_rlcmac_rlc_copy_from_aligned_buffer"]}
{"id": "C112", "title": "The octets of downlink RLC data blocks", "statement": "A block the network has put together as TS 44.060 figure 10.2.1.1 has it is taken for an RLC data block of its coding scheme, and what the mobile finds in it is what was put in; no other octets are taken for an RLC data block, and nothing outside of the message is read; N-PDUs the network sends in such messages, among messages for others and damaged ones, come out of SNDCP at the mobile.", "quantifier": "all contents of all messages, all coding schemes CS-1 to CS-4, all TFIs and BSNs, all N-PDUs of 1 to 1503 octets, any order and loss of blocks within the window", "why_tests_cant": "All octets a network or noise can produce.", "anchors": ["src/rlcmac/rlcmac.c:gprs_rlcmac_handle_gprs_dl_data_block", "src/rlcmac/rlcmac_dec.c:gprs_rlcmac_rlc_parse_dl_data_header_gprs", "src/rlcmac/rlcmac_dec.c:gprs_rlcmac_rlc_copy_to_aligned_buffer"]}
{"id": "C113", "title": "Data blocks that do not start at an octet", "statement": "Copying an RLC data block into a message at any bit position replaces exactly its bits, and copying it back gives the same octets; for every coding scheme the data blocks fit in the message and leave each other and the headers alone.", "quantifier": "all bit positions, lengths and octets; all of CS-1 to CS-4 and MCS-1 to MCS-9, with and without padding, both directions", "why_tests_cant": "All shifts with all neighbouring bits.", "anchors": ["src/rlcmac/rlcmac_enc.c:gprs_rlcmac_rlc_copy_from_aligned_buffer", "src/rlcmac/rlcmac_dec.c:gprs_rlcmac_rlc_copy_to_aligned_buffer"]}
{"id": "C114", "title": "Coding and puncturing scheme of EGPRS blocks", "statement": "The coding and puncturing scheme indicator sent with an EGPRS block is that of the tables of TS 44.060 10.4.8a, so that header type and indicator tell the network how to read the message; this holds for blocks sent again any number of times, whatever schemes the network commands.", "quantifier": "all MCS-1 to MCS-9, all puncturing schemes, every sequence of transmissions of any blocks and every sequence of commanded schemes, both ARQ types", "why_tests_cant": "The next puncturing scheme depends on all transmissions of the block before.", "anchors": ["src/rlcmac/rlc.c:gprs_rlcmac_rlc_mcs_cps", "src/rlcmac/rlc.c:gprs_rlcmac_get_punct_scheme", "src/rlcmac/rlc.c:gprs_rlcmac_update_punct_scheme", "src/rlcmac/tbf_ul.c:create_ul_acked_block"]}
{"id": "C115", "title": "EGPRS blocks in two segments", "statement": "A block that is sent again in a lower scheme is sent in two segments that together are the block, and a second segment is only sent right after its first segment; otherwise the whole block is sent.", "quantifier": "all blocks, every sequence of transmissions of any blocks and every sequence of commanded schemes, both ARQ types", "why_tests_cant": "All orders of commanded schemes between the two segments.", "anchors": ["src/rlcmac/tbf_ul.c:egprs_ul_get_data", "src/rlcmac/tbf_ul.c:get_egprs_ul_spb", "src/rlcmac/tbf_ul.c:create_ul_acked_block"]}
{"id": "C116", "title": "Decoding uplink data blocks", "statement": "osmo_gprs_rlcmac_decode_uplink_data takes any CS-1 uplink block apart as TS 44.060 has it, without an assertion failing or memory outside the vector and the structure being touched; from the blocks that the mobile of this library sends, the LLC frames can be put together again by the length indicators found, and the TLLI is that of the mobile.", "quantifier": "all 23 octets; all transfers with any LLC frames of at least five octets in any interleaving with the sending of blocks, with and without TLLI", "why_tests_cant": "All contents of a block and all ways to cut frames into blocks.", "anchors": ["src/rlcmac/csn1_ts_44_060.c:osmo_gprs_rlcmac_decode_uplink_data", "src/rlcmac/tbf_ul.c:create_new_bsn"]}
{"id": "C117", "title": "Encoding downlink data blocks", "statement": "osmo_gprs_rlcmac_encode_downlink_data writes the CS-1 block of TS 44.060 for every structure filled in for a block, the mobile of this library finds in it what was put in, the structure has room for every block that the network may send, and nothing outside the structure is read.", "quantifier": "all contents of the structure; all lawful blocks with any header fields", "why_tests_cant": "All combinations of frames in a block, and all contents of the unused entries.", "anchors": ["src/rlcmac/csn1_ts_44_060.c:osmo_gprs_rlcmac_encode_downlink_data", "src/rlcmac/rlcmac_dec.c:gprs_rlcmac_rlc_parse_dl_data_header"]}
{"id": "C118", "title": "The buffer of a primitive is freed exactly once", "statement": "Every primitive that is handed to one of the fourteen entry points of the layers (LLC, SNDCP, SM, GMM, RLC/MAC, from above and from below) has its message buffer freed exactly once and not touched afterwards, whatever its SAP, type and operation, whether the entity it names exists, and whatever the layer returns for it; an implemented primitive whose entity exists is acted on before that.", "quantifier": "all entry points, SAPs, types, operations, outcomes of the lookups and return values of the functions below other than 1", "why_tests_cant": "All primitives at all entry points, those that nobody implements included.", "anchors": ["src/llc/llc_prim.c:osmo_gprs_llc_prim_lower_up", "src/sndcp/sndcp_prim.c:osmo_gprs_sndcp_prim_upper_down", "src/sm/sm_prim.c:osmo_gprs_sm_prim_upper_down", "src/gmm/gmm_prim.c:osmo_gprs_gmm_prim_upper_down", "src/rlcmac/rlcmac_prim.c:osmo_gprs_rlcmac_prim_upper_down"]}
{"id": "C119", "title": "Primitives that are not implemented are refused", "statement": "A primitive that the layer does not implement is refused with a negative value and nothing acts on it; the process is not stopped by an assertion for a primitive whose fields are in order.", "quantifier": "all entry points, SAPs, types and operations, both locations of the LLC layer", "why_tests_cant": "All primitives that are not implemented.", "anchors": ["src/llc/llc_prim.c:osmo_gprs_llc_prim_upper_down", "src/gmm/gmm_prim.c:osmo_gprs_gmm_prim_lower_up", "src/sm/sm_prim.c:osmo_gprs_sm_prim_gmm_lower_up"]}
{"id": "C120", "title": "Primitives handed to callbacks", "statement": "A primitive handed to a callback of the user is freed once after the callback has run, unless the callback returned 1 to keep it; then the library leaves it alone and reports 0. Layers wired to each other by callbacks that return 1 free every buffer once.", "quantifier": "all fourteen functions that call a callback, all return values of the callback, all entry points it may hand the primitive to", "why_tests_cant": "All return values of code that is not in the library.", "anchors": ["src/llc/llc_prim.c:gprs_llc_prim_call_up_cb", "src/sm/sm_prim.c:gprs_sm_prim_call_up_cb", "src/gmm/gmm_prim.c:gprs_gmm_prim_call_llc_down_cb"]}
{"id": "C121", "title": "Downlink control blocks survive encoding and decoding", "statement": "A downlink RLC/MAC control block that is encoded from a structure and decoded again gives back the header, with all its optional octets, and every member that the message carries, whatever the storage held before; nothing else in the storage is changed.", "quantifier": "all 25 message types, all headers, all structures whose values fit their fields, all earlier contents of the storage", "why_tests_cant": "All structures of all message types; the tests encode three of them.", "anchors": ["src/rlcmac/csn1_ts_44_060.c:osmo_gprs_rlcmac_encode_downlink", "src/rlcmac/csn1_ts_44_060.c:osmo_gprs_rlcmac_decode_downlink"]}
{"id": "C122", "title": "What a network encodes arrives at the mobile", "statement": "When a network fills in the structure of a Packet Uplink Ack/Nack, Packet Downlink Assignment or Packet Uplink Assignment and encodes it with this library, the mobile that gets the block does what was filled in: the TBF or entity addressed, and no other, is told the report, the TFI, the timeslots and USF, the starting time, the channel coding and the block for the answer.", "quantifier": "all values of the members, all headers with or without optional octets, all states of the mobile, all frame numbers at the start of a block", "why_tests_cant": "The tests send a few fixed messages; the offsets, the tables, the padding and the handlers have to agree for all values.", "anchors": ["src/rlcmac/csn1_ts_44_060.c:osmo_gprs_rlcmac_encode_downlink", "src/rlcmac/rlcmac.c:gprs_rlcmac_handle_pkt_ul_ack_nack", "src/rlcmac/rlcmac.c:gprs_rlcmac_handle_pkt_dl_ass", "src/rlcmac/rlcmac.c:gprs_rlcmac_handle_pkt_ul_ass"]}
{"id": "C123", "title": "A TLLI belongs to one entity", "statement": "After any history of GMMRR-ASSIGN.req and GRR-UNITDATA.req every TLLI belongs to at most one entity of RLC/MAC: requests are answered, and frames go to the entity, as in a table from TLLIs to mobiles in which an update keeps the old and the new TLLI; paging by P-TMSI or IMSI finds a mobile that was last assigned that identity, if there is one.", "quantifier": "all sequences of requests, all TLLIs, P-TMSIs and IMSIs", "why_tests_cant": "The tests use one mobile; the property is about all histories with several.", "anchors": ["src/rlcmac/rlcmac_prim.c:rlcmac_prim_handle_gmmrr_assign_req", "src/rlcmac/rlcmac_prim.c:rlcmac_prim_handle_grr_unitdata_req", "src/rlcmac/rlcmac.c:gprs_rlcmac_find_entity_by_tlli", "src/rlcmac/gre.c:gprs_rlcmac_entity_alloc"]}
{"id": "C124", "title": "The octet count of a channel request covers all waiting frames", "statement": "The RLC octet count that a mobile puts in the channel request of a Packet Downlink Ack/Nack is the sum, over all frames waiting in the entity, of one more than their length, and 65535 if that is more.", "quantifier": "all contents of the queue, all frames, SAPIs and priorities", "why_tests_cant": "Unbounded queues; saturation cannot be covered by a few cases.", "anchors": ["src/rlcmac/gre.c:gprs_rlcmac_entity_calculate_new_ul_tbf_rlc_octet_count"]}
{"id": "C125", "title": "An uplink TBF transmits only in blocks it was given", "statement": "An uplink TBF sends data or dummy blocks only when asked for a block with a timeslot and USF that an assignment gave it; that assignment had no starting time, or one that has come by a frame on one of its timeslots, and no access was requested since. A Packet Resource Request is sent only in the single block that an immediate assignment named, or in a block of the TBF that was being released. Once the starting time of an assignment comes, the TBF is in flow and sends data on every timeslot of the assignment.", "quantifier": "all sequences of assignments, frames, block requests, acknowledgements and timeouts; all allocations, USFs and starting times", "why_tests_cant": "Depends on every order in which assignments, repetitions and frames may come; the tests play one order.", "anchors": ["src/rlcmac/tbf_ul_ass_fsm.c:gprs_rlcmac_tbf_ul_ass_rts", "src/rlcmac/tbf_ul_ass_fsm.c:gprs_rlcmac_tbf_ul_ass_fn_tick", "src/rlcmac/tbf_ul.c:gprs_rlcmac_ul_tbf_data_rts", "src/rlcmac/tbf_ul.c:gprs_rlcmac_ul_tbf_dummy_rts"]}
{"id": "C126", "title": "EGPRS Packet Channel Requests are decoded by the table of TS 44.060", "statement": "osmo_gprs_rlcmac_decode_egprs_pkt_ch_req recognises exactly the ten kinds of table 11.2.5a.2 and gives their multislot class, group, number of blocks, priority and random bits; it refuses every other value with CSN_ERROR_STREAM_NOT_SUPPORTED and writes only the members the kind has. Bits above the eleventh are ignored.", "quantifier": "all 16-bit values and more, all contents of the structure before", "why_tests_cant": "The tests decode nine values of 2048.", "anchors": ["src/rlcmac/csn1_ts_44_060.c:osmo_gprs_rlcmac_decode_egprs_pkt_ch_req"]}
{"id": "C127", "title": "MS radio access capabilities are decoded safely and as encoded", "statement": "Whatever octets are decoded as MS Radio Access Capability, every value is stored in the member it belongs to. What osmo_gprs_rlcmac_encode_ms_ra_cap writes, osmo_gprs_rlcmac_decode_ms_ra_cap gives back.", "quantifier": "all vectors of up to 255 octets; all structures whose values fit, all lengths of the vector", "why_tests_cant": "The tests decode and encode one structure; a hostile network or mobile chooses the octets.", "anchors": ["src/rlcmac/csn1_ts_24_008.c:osmo_gprs_rlcmac_decode_ms_ra_cap", "src/rlcmac/csn1_ts_24_008.c:osmo_gprs_rlcmac_encode_ms_ra_cap"]}
{"id": "C128", "title": "Every element of an MS RA capability takes as many bits as its length says", "statement": "When osmo_gprs_rlcmac_decode_ms_ra_cap accepts a vector, the number of elements and the access technology of each are those that the length fields mark off, so a mobile may send contents that are unknown, cut short or longer than known without disturbing the elements after it.", "quantifier": "all vectors of up to 255 octets", "why_tests_cant": "The tests decode one vector with one element.", "anchors": ["src/rlcmac/csn1_ts_24_008.c:osmo_gprs_rlcmac_decode_ms_ra_cap", "src/csn1/csn1_dec.c:osmo_csn1_stream_decode"]}
{"id": "C129", "title": "The network name that GMM INFORMATION carries is stored", "statement": "A GMM INFORMATION message with a full or short network name in the GSM default alphabet leaves that name in the entity; whatever octets the network sends as name, nothing beyond the element is read.", "quantifier": "all names and messages", "why_tests_cant": "No test sends GMM INFORMATION; the number of characters follows from the length and the spare bits for every length.", "anchors": ["src/gmm/gmm.c:gprs_gmm_rx_information", "src/gmm/misc.c:gprs_gmm_decode_network_name", "src/gmm/gmm_pdu.c:gprs_gmm_att_tlvdef"]}
{"id": "C130", "title": "After LLGMM-RESET both ends of the GMM link are in step", "statement": "When GMM at the SGSN resets the LLC link and every frame reaches the mobile in order, the first message sent after the reset is delivered at the mobile like any other; links other than GMM are not disturbed.", "quantifier": "all histories before the reset, all new IOV-UI values", "why_tests_cant": "The LLC test resets no link that has carried traffic before; whether numbers agree depends on the whole history of both ends.", "anchors": ["src/llc/llc_llgmm.c:llc_prim_handle_llgmm_reset_req", "src/llc/llc.c:gprs_llc_lle_process_xid_ind", "src/llc/llc.c:gprs_llc_lle_hdr_rx"]}
{"id": "C131", "title": "A repeated EGPRS block is sent with the puncturing scheme of the standard", "statement": "The first transmission of an EGPRS data block has puncturing scheme P1. Each later one has the next scheme in turn, or after a change of MCS the scheme that the table of TS 44.060 9.3.2.1.1 gives for the last transmission, so that the network can combine what it received.", "quantifier": "all blocks, coding schemes, commands of the network in between, and partners in the same message", "why_tests_cant": "The scheme depends on the history of each block; tests send no block twice in different schemes.", "anchors": ["src/rlcmac/rlc.c:gprs_rlcmac_get_punct_scheme", "src/rlcmac/rlc.c:gprs_rlcmac_update_punct_scheme", "src/rlcmac/tbf_ul.c:create_ul_acked_block"]}
{"id": "C132", "title": "The network finds in an EGPRS data block the LLC frames that were put in", "statement": "An uplink data block in an EGPRS coding scheme, read by the rules of TS 44.060 10.4.14a, gives the LLC frames it was filled with, whatever is waiting; building it writes nothing outside the block.", "quantifier": "all block sizes and queues of LLC frames", "why_tests_cant": "No test builds an EGPRS block; lengths, padding and TLLI combine in many ways.", "anchors": ["src/rlcmac/rlcmac_enc.c:gprs_rlcmac_enc_append_ul_data", "src/rlcmac/rlcmac_enc.c:gprs_rlcmac_rlc_data_to_ul_append_egprs_li_padding", "src/rlcmac/tbf_ul.c:create_new_bsn"]}
{"id": "C133", "title": "A PDP context that is activated anew does not inherit the compression of its predecessor", "statement": "SNSM-DEACTIVATE.ind ends an SNDCP entity in use: it is confirmed by exactly one SNSM-DEACTIVATE.rsp, entities of other NSAPIs stay as they are, one that is not in use is refused without effect; after any history an NSAPI has an entity exactly if it is in use, and a context activated after its end starts without compression, so that its N-PDUs are sent as they are until compression is negotiated.", "quantifier": "all histories of SNSM-ACTIVATE.ind, SNSM-DEACTIVATE.ind, SN-XID and LL-XID primitives of a TLLI, all NSAPIs, SAPIs, XID blocks and N-PDUs", "why_tests_cant": "The state left behind depends on which other contexts are in use and on what was negotiated before; tests end the only context there is.", "anchors": ["src/sndcp/sndcp.c:82", "src/sndcp/sndcp.c:113", "src/sndcp/sndcp.c:155", "src/sndcp/sndcp_prim.c:699"]}
{"id": "C134", "title": "Behind a description of 3G neighbour cells the message is read from where the description ends", "statement": "A description of UTRAN FDD or TDD neighbour cells in a downlink control message takes the bits TS 44.060 gives for its number of cells (Tables 11.2.9b.2.a and b); the decoder goes on behind them, so that the frequencies and fields reported are those of the message.", "quantifier": "all messages, all numbers of cells and all contents of the cell information", "why_tests_cant": "The length of the cell information depends on the number of cells, and where the decoder stops in it on its contents.", "anchors": ["src/rlcmac/csn1_ts_44_060.c:2316", "src/rlcmac/csn1_ts_44_060.c:2332", "src/rlcmac/csn1_ts_44_060.c:2349"]}
{"id": "C135", "title": "The physical layer is configured for exactly the TBFs that exist", "statement": "After any history of TBFs, the physical layer, which does what L1CTL-CFG_UL_TBF.req, L1CTL-CFG_DL_TBF.req and L1CTL-PDCH_RELEASE.req ask, sends for each uplink TBF on exactly the timeslots it was assigned, with their USFs and from its starting time on, receives for each downlink TBF on exactly its timeslots with its TFI, and does nothing for TBFs that do not exist.", "quantifier": "all histories of making, assigning, assigning anew and ending uplink and downlink TBFs of any number of entities; all allocations, USFs, TFIs and starting times", "why_tests_cant": "Whether configuration and TBFs agree depends on the order in which many TBFs come and go, and on numbers that repeat after 256; tests follow one TBF.", "anchors": ["src/rlcmac/tbf_ul.c:127", "src/rlcmac/tbf_ul_fsm.c:71", "src/rlcmac/tbf_ul_fsm.c:140", "src/rlcmac/tbf_dl.c:68", "src/rlcmac/tbf_dl.c:150", "src/rlcmac/gre.c:40"]}
{"id": "C136", "title": "Ciphered UI frames are deciphered to what was sent", "statement": "With a ciphering algorithm in use, a UI frame that the peer ciphered as 3GPP TS 44.064 says (information field and FCS added to the output of the algorithm for the key, the input and the direction) is received as it was before ciphering and its FCS is checked after deciphering, at either end and for every size; a ciphered frame is dropped when no algorithm is in use, and a frame that is not ciphered is not changed.", "quantifier": "all algorithms, keys, counters, SAPIs, protected and unprotected frames, information fields", "why_tests_cant": "The tests run without ciphering, and a round trip through one end's own functions would hide a wrong direction; sizes at the edge of the array for the algorithm's output are not tried.", "anchors": ["src/llc/llc.c:776", "src/llc/llc.c:826", "src/llc/llc.c:848"]}
