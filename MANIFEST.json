{"claims": [
 {"property": "C01", "status": "proved", "theorems": ["C01_crc24_is_polynomial_remainder", "C01_crc24_detects_bursts", "C01_frame_burst_detected"], "note": ""},
 {"property": "C02", "status": "partial", "theorems": ["C02_frame_round_trip_partial", "C02_ui_frame_round_trip", "C02_u_frame_round_trip", "C02_i_rnr_refuted", "C02_i_sack_refuted", "C02_s_ack_request_refuted", "C02_unprotected_xid_refuted"], "note": "The full claim is false of the code: RNR/SACK functions are swapped by the encoder, the A bit of S frames is lost, U frames sent without the PROT flag fail the receiver's check beyond seven octets. All UI and protected U frames round trip, and the partial theorem covers every other frame."},
 {"property": "C03", "status": "partial", "theorems": ["C03_decoder_safe_partial", "C03_s_sack_overflow_refuted", "C03_i_sack_underflow_refuted"], "note": "The full claim is false of the code: an S frame with a SACK bitmap above 32 octets overruns the result structure, an I SACK frame without room for its length octet yields a huge payload length. Every other octet string is proved safe."},
 {"property": "C04", "status": "proved", "theorems": ["C04_bad_fcs_has_no_effect"], "note": ""},
 {"property": "C05", "status": "proved", "theorems": ["C05_xid_round_trip"], "note": ""},
 {"property": "C06", "status": "proved", "theorems": ["C06_xid_decode_safe", "C06_xid_encode_safe"], "note": ""},
 {"property": "C07", "status": "proved", "theorems": ["C07_ui_numbering", "C07_n201_u"], "note": ""},
 {"property": "C08", "status": "partial", "theorems": ["C08_new_ui_delivered_partial", "C08_repeat_dropped_partial", "C08_repeat_delivered_refuted", "C08_window_off_by_one_refuted"], "note": "The full claim is false of the code: the first repetition of a frame is delivered again and the window of old numbers is 31, not 32. Proved: frames outside that window are delivered once and advance V(UR), later repetitions are dropped."},
 {"property": "C09", "status": "partial", "theorems": ["C09_ui_overflow_partial", "C09_ui_overflow_refuted"], "note": "The full claim is false of the code for every frame with N(U)=511, because the sender increments its overflow counter one frame early; proved for all other frames."},
 {"property": "C10", "status": "partial", "theorems": ["C10_lookup_exact_partial", "C10_assign_effects", "C10_outputs_use_current_tlli", "C10_all_ones_refuted"], "note": "A frame carrying the all-ones TLLI is attributed to the first subscriber; everything else of the claim is proved over all reachable states."},
 {"property": "C100", "status": "partial", "theorems": ["C100_answer_partial", "C100_default_refuted", "C100_long_refuted"], "note": "Proved for proposals with all parameters, different numbers and an answer of up to 256 octets; refuted for parameters left out and longer answers."},
 {"property": "C101", "status": "partial", "theorems": ["C101_histories_partial", "C101_room_refuted", "C101_answer_refuted"], "note": "Proved for all steps but SN-XID.rsp if 41 octets behind the block exist; refuted without them, and for SN-XID.rsp."},
 {"property": "C102", "status": "partial", "theorems": ["C102_confirm_partial", "C102_sapi_refuted", "C102_empty_refuted", "C102_others_refuted"], "note": "Proved for the entity with the lowest NSAPI of its SAPI and an answer with fields; refuted for another NSAPI of the SAPI, for an empty answer and for the entities of other NSAPIs."},
 {"property": "C103", "status": "partial", "theorems": ["C103_number_partial", "C103_twice_refuted", "C103_zero_refuted"], "note": "Proved for tables with different values, none of them 0; a peer may propose others, for which it is refuted."},
 {"property": "C104", "status": "partial", "theorems": ["C104_round_trip_partial", "C104_one_way_refuted"], "note": "Proved for P0 other than 2, and for P1 above 4096 (the size of the dictionary's memory) if the N-PDU has up to 1918 octets; refuted for P0 = 2."},
 {"property": "C105", "status": "partial", "theorems": ["C105_room_partial", "C105_room_refuted"], "note": "Proved if the N-PDU is at most ten times what is sent and 64 octets more; refuted for 800 equal octets."},
 {"property": "C106", "status": "partial", "theorems": ["C106_hostile_partial", "C106_hostile_refuted"], "note": "Proved for P1 up to 4096 as long as the peer does not make codewords longer than 12 bits; refuted: codewords of 13 bits and more are accepted."},
 {"property": "C107", "status": "partial", "theorems": ["C107_both_ways_partial", "C107_small_partial", "C107_headers_refuted"], "note": "Proved with no losses, for packets as in C87 and C104, if what is sent is at least a tenth of the N-PDU but for 64 octets; without this condition for N-PDUs of less than 100 octets, or headers of up to 104 octets without data compression; refuted for 120 octets of headers."},
 {"property": "C108", "status": "partial", "theorems": ["C108_stack_partial", "C108_mixed_refuted"], "note": "Proved if the first frame of an N-PDU is lost only together with all its others, and no more than 480 frames in a row are lost; refuted otherwise: the last frame of one N-PDU and the first of the next lost give an N-PDU that nobody sent."},
 {"property": "C109", "status": "proved", "theorems": ["C109_downlink"], "note": "For SNDCP without compression (C107 has compression). Both ends agree on V(U) at the start and the TLLI is accepted."},
 {"property": "C11", "status": "proved", "theorems": ["C11_unknown_tlli"], "note": ""},
 {"property": "C110", "status": "proved", "theorems": ["C110_uplink"], "note": "For SNDCP without compression (C107 has compression). Blocks arrive in order and completely, as acknowledged mode makes sure; the mobile's queue in front of RLC is not part of this."},
 {"property": "C111", "status": "proved", "theorems": ["C111_uplink_block", "C111_again", "C111_network_hears", "C111_stack"], "note": "CS-1 to CS-4. C111_stack is for SNDCP without compression, and blocks arrive in order and completely, as acknowledged mode makes sure. For EGPRS the header is not written (the result -ENOTSUP is not looked at)."},
 {"property": "C112", "status": "proved", "theorems": ["C112_downlink_block", "C112_any_octets", "C112_stack"], "note": "CS-1 to CS-4; blocks of EGPRS are not handled by the code. C112_stack is for SNDCP without compression."},
 {"property": "C113", "status": "proved", "theorems": ["C113_copy_from", "C113_copy_to", "C113_blocks"], "note": ""},
 {"property": "C114", "status": "partial", "theorems": ["C114_cps", "C114_cps_tells", "C114_sent_again_partial"], "note": "The indicator itself is proved for all schemes. Transmissions are proved for messages with one block; missing: two different blocks in one message (MCS-7 to MCS-9). The library does not write EGPRS headers yet, so the indicator is what would be sent."},
 {"property": "C115", "status": "partial", "theorems": ["C115_segments_partial", "C115_segments_refuted"], "note": "Proved for messages with one block and blocks first sent in MCS-1 to MCS-3 and MCS-5 to MCS-9; refuted for MCS-4: if MCS-1 is commanded for the first segment and MCS-4 after it, 44 octets from the 23rd on are sent as second segment. Missing: two different blocks in one message."},
 {"property": "C116", "status": "partial", "theorems": ["C116_any_partial", "C116_any_refuted", "C116_transfer"], "note": "Proved for all blocks with at most five extension octets, among them all that the mobile sends for frames of five octets or more; refuted for other octets from the air: with six or more extension octets the arrays of the structure are overrun."},
 {"property": "C117", "status": "partial", "theorems": ["C117_any_partial", "C117_any_refuted", "C117_block", "C117_room"], "note": "Proved for all lawful blocks; refuted for structures of which no entry ends the extension octets: what lies behind the arrays is read."},
 {"property": "C118", "status": "partial", "theorems": ["C118_once_partial", "C118_twice_refuted", "C118_never_refuted", "C118_once_refuted", "C118_acted"], "note": "Proved for all primitives except two exactly described sets: those freed twice (at seven entry points) and those never freed (at RLC/MAC's upper entry point); both refuted with proof for every member."},
 {"property": "C119", "status": "partial", "theorems": ["C119_refused_partial", "C119_done_refuted", "C119_refused_refuted", "C119_stops"], "note": "Proved where the entry point passes the error on; refuted at eight entry points, which report 0. The primitives for which an assertion on the location of LLC stops the process are described exactly."},
 {"property": "C12", "status": "partial", "theorems": ["C12_suspended_sends_only_signalling_partial", "C12_signalling_flows", "C12_suspended_receives_refuted"], "note": "The transmit direction is proved; user data received while suspended is still delivered."},
 {"property": "C120", "status": "partial", "theorems": ["C120_callback_partial", "C120_callback_refuted", "C120_wired", "C120_wired_wrong"], "note": "Proved for twelve functions (for LLC's upper one without the value returned); refuted for the two of SM that free what the user keeps, and for LLC's upper one that returns the 1."},
 {"property": "C121", "status": "partial", "theorems": ["C121_round_trip_partial", "C121_round_trip_refuted"], "note": "Proved for every message type, except members in entries on which the two directions do not agree, blocks the encoder makes longer than 184 bits (Paging Request, PSI2 and PSI3 always), and PSI13 unless the caller sets the message type twice; for the last the claim is refuted."},
 {"property": "C122", "status": "partial", "theorems": ["C122_ack_nack_arrives", "C122_downlink_assignment_arrives", "C122_uplink_assignment_arrives_partial"], "note": "Proved for all values for Packet Uplink Ack/Nack and Packet Downlink Assignment with the members that the specification NetSpec names; for Packet Uplink Assignment with one timeslot (the encoding of several is covered by C121 and their handling by C55)."},
 {"property": "C123", "status": "partial", "theorems": ["C123_one_owner_partial", "C123_paged_partial", "C123_one_owner_refuted"], "note": "Proved as a refinement of the table for all histories in which no frame has TLLI 0xffffffff and no update gives a mobile the TLLI of another; refuted without these (findings 147, 148)."},
 {"property": "C124", "status": "partial", "theorems": ["C124_octet_count_partial", "C124_sent_partial", "C124_octet_count_refuted"], "note": "Proved for all queues of frames that are not empty; undefined once an empty frame waits (finding 149)."},
 {"property": "C125", "status": "proved", "theorems": ["C125_only_granted", "C125_only_asked", "C125_starts", "C125_request_granted"], "note": "Over the model of C27. The part about starting is proved for a Packet Uplink Assignment with a starting time and no poll, in the state that waits for it. Frame and timeslot numbers of immediate assignments outside 0..7 are not constrained."},
 {"property": "C126", "status": "proved", "theorems": ["C126_decoded", "C126_refused"], "note": "Complete for the function; over the model of the CSN.1 decoder."},
 {"property": "C127", "status": "partial", "theorems": ["C127_decode_contained", "C127_round_trip_partial"], "note": "Containment is proved for all octets. The round trip is proved for structures whose values fit their fields and vectors that were zero; as for C50 and C121, what must come back is computed by the predicate live."},
 {"property": "C128", "status": "partial", "theorems": ["C128_elements_partial", "C128_elements_refuted"], "note": "False for an element of length 0: all the bits that follow are decoded as its contents (refuted). Proved when no length is 0."},
 {"property": "C129", "status": "partial", "theorems": ["C129_stored_refuted", "C129_name_decoded_partial", "C129_name_kept_partial", "C129_name_contained_partial"], "note": "False: the table that GMM messages are parsed with has no entry for names, so no message stores one (refuted, for any parser that reports only elements of its table). Proved: the decoder of names gives the characters of every name coded by the standard and reads nothing beyond the element, and the name is kept when the parser reports it. libosmocore's tlv_parse and its alphabet are parameters."},
 {"property": "C13", "status": "proved", "theorems": ["C13_window_never_overfull", "C13_transmitter_is_a_queue"], "note": "For every admissible SNS/WS pair; the transmitter is shown to refine a plain queue."},
 {"property": "C130", "status": "partial", "theorems": ["C130_in_step_refuted", "C130_reset_ignored_partial", "C130_reset_sent_partial"], "note": "False: the receiver of an XID frame ignores its Reset parameter, so the first messages after a reset look like repetitions and are dropped (refuted; C130_reset_ignored_partial gives the reason for every state: no frame but UI changes V(UR)). Proved: the end that resets starts its own numbers anew, leaves other links as they were and sends one XID frame that decodes to Reset and the new IOV-UI."},
 {"property": "C131", "status": "partial", "theorems": ["C131_first", "C131_table_partial", "C131_table_refuted"], "note": "False for switches between MCS-6 and MCS-9 (refuted): the table is entered with the scheme that would come next, not with the one last used. Proved: P1 at first, and the scheme of the standard for every other pair of MCS. Missing: blocks sent in segments, and MCS-8 when one block fills both places of the message. The table is from memory of the standard. No caller selects an EGPRS scheme at this commit (tx_cs is CS-1 to CS-4), so this is about the functions, not about a run of the stack."},
 {"property": "C132", "status": "partial", "theorems": ["C132_frames_refuted", "C132_padding_partial", "C132_contained_partial", "C132_filled_partial", "C132_short_partial", "C132_every_short_refuted"], "note": "False: lengths are written in the format of GPRS also in EGPRS blocks (refuted). Proved: blocks without a length indicator are read back as the frame, or the start of it, behind the TLLI; the indication of filling is where and what it should be; building a block stays inside it for every queue. No caller selects an EGPRS scheme at this commit (tx_cs is CS-1 to CS-4), so this is about the functions, not about a run of the stack. Proved too: the exact octets of a block with one frame that leaves room, and that every such frame of less than 64 octets is read back wrongly."},
 {"property": "C133", "status": "partial", "theorems": ["C133_in_use_partial", "C133_end_partial", "C133_unknown", "C133_fresh_partial", "C133_fresh_refuted"], "note": "The last part is false: the end of a context leaves its compression entities in the tables while another context is in use, and N-PDUs of the new context go through them (refuted). Proved: which NSAPIs have an entity after any history; what the end of a context does; refusal of one not in use; a context activated when no other is in use starts with nothing."},
 {"property": "C134", "status": "partial", "theorems": ["C134_fdd_partial", "C134_tdd_partial", "C134_fdd_refuted", "C134_tdd_refuted"], "note": "False for FDD: the number of bits of the cell information is never computed, so it is not passed over, and its bits are read as further frequencies (refuted). False for TDD: reading stops at a zero word, and the words have the widths of FDD (refuted). Proved: an FDD description is passed over rightly exactly if the table gives it no cell information; a TDD description is passed over rightly, for every number of cells, if no word the decoder reads is zero."},
 {"property": "C135", "status": "partial", "theorems": ["C135_request_ul", "C135_request_dl", "C135_ul_partial", "C135_dl_partial", "C135_dl_assigned", "C135_idle", "C135_ul_refuted", "C135_dl_refuted", "C135_back_refuted", "C135_timer_refuted"], "note": "False in four ways (refuted): numbers repeat after 256 TBFs, and the end of the later one takes away the timeslots of the earlier; the end of a downlink TBF is not told to the physical layer; beginning packet access anew releases the channels under a living downlink TBF; the timer after the last TBF of an entity does so too when a TBF is assigned meanwhile. Proved for all histories without repeated numbers of living TBFs and without release of the channels under other TBFs: uplink exactly, downlink for the TBFs that exist; for all histories, that whatever is received was assigned to a TBF of that number; what each request means; that nothing is configured after release in idle mode."},
 {"property": "C136", "status": "partial", "theorems": ["C136_uplink_partial", "C136_downlink_refuted", "C136_size_refuted", "C136_plain", "C136_sender"], "note": "False at the mobile: deciphering always uses the direction from the mobile, so no frame of the network is received as sent (refuted for every algorithm that depends on the direction); false for more than 1520 octets of information, where the output of the algorithm is written beyond its array (refuted). Proved for every algorithm: frames from the mobile of up to 1520 octets are received as sent; without algorithm ciphered frames are dropped; frames not ciphered are not changed and pass exactly if their FCS fits; what ciphering does (a branch without caller). Nothing in the library sets an algorithm at this commit, so this is about the functions, for the day one is set."},
 {"property": "C14", "status": "proved", "theorems": ["C14_only_acknowledged_leave"], "note": "For ack/nack messages without final-ack indication; a final ack clears the window (modelled, see C13_transmitter_is_a_queue)."},
 {"property": "C15", "status": "proved", "theorems": ["C15_oldest_first"], "note": ""},
 {"property": "C16", "status": "proved", "theorems": ["C16_bitmap_positions"], "note": ""},
 {"property": "C17", "status": "proved", "theorems": ["C17_in_order_once"], "note": "All schedules inside the window (each number within 64 of the count delivered so far)."},
 {"property": "C18", "status": "partial", "theorems": ["C18_report_truthful_partial", "C18_report_exact_refuted"], "note": "Proved for every schedule: SSN is V(R), a one only for received and stored blocks, every delivered block reported. Exactness (one iff received) proved when no block arrives 63 or more ahead of all earlier ones; refuted without that."},
 {"property": "C19", "status": "partial", "theorems": ["C19_uplink_round_trip_partial", "C19_block_is_built_partial", "C19_uplink_round_trip_refuted"], "note": "Round trip for every interleaving of submitted frames and built blocks of 5 to 64 octets, with and without TLLI, except for a final block that two or more frames fill exactly; that case is refuted with a witness (the last frame is lost)."},
 {"property": "C20", "status": "proved", "theorems": ["C20_parsing_stays_inside", "C20_short_block_refuted"], "note": "For every block of 17 to 255 octets (all coding schemes have at least 20) and both parsers. The second theorem shows that the bound is needed: blocks of 16 octets or fewer are over-read."},
 {"property": "C21", "status": "partial", "theorems": ["C21_uplink_size_determines_scheme", "C21_downlink_size_partial", "C21_downlink_size_refuted", "C21_layout_exact", "C21_up_down", "C21_retransmission_scheme", "C21_kinds", "C21_numbers", "C21_up_down_kind", "C21_single_block"], "note": "All parts hold except that downlink block sizes of MCS-5 to MCS-9 are not recognised (refuted with witnesses, proved for the other schemes). The puncturing tables are not modelled."},
 {"property": "C22", "status": "proved", "theorems": ["C22_poll_frame", "C22_next_block"], "note": "For every block start of the hyperframe and every RRBP value."},
 {"property": "C23", "status": "proved", "theorems": ["C23_reservations"], "note": "Refinement to a calendar over unwrapped time, for any order-preserving tree library. Proviso: frame numbers in calls lie within 600000 frames (46 minutes) of the last expiry, without which the cyclic comparison is no order."},
 {"property": "C24", "status": "partial", "theorems": ["C24_priority_fifo_partial", "C24_without_codel_partial", "C24_return_order_refuted", "C24_codel_drop_refuted", "C24_empty_frame_refuted"], "note": "Refinement to an ordered list of (class, frame) for every history the code survives, counters included. Refuted: a CoDel drop uses the freed frame; frames handed back by a dying TBF come out in reverse order; an empty frame is undefined behaviour."},
 {"property": "C25", "status": "proved", "theorems": ["C25_drop_only_from_a_bad_queue", "C25_good_frame_kept", "C25_episode_schedule"], "note": "Histories of fewer than 2^32 questions with a clock that does not go backwards. The gaps are those of the schedule; a drop itself happens at the first question after its due time."},
 {"property": "C26", "status": "partial", "theorems": ["C26_countdown_partial", "C26_last_block_fits_partial", "C26_multislot_refuted"], "note": "Proved for one timeslot, every amount and shape of pending data, every GPRS block size, every BS_CV_MAX, with changes of coding scheme and contention resolution at any time. Refuted for several timeslots. CoDel drops inside a block are represented by queue changes between blocks."},
 {"property": "C27", "status": "partial", "theorems": ["C27_no_abort_partial", "C27_states", "C27_attempts_partial", "C27_freed_only", "C27_supervised_partial", "C27_early_ack_refuted", "C27_bad_assignment_refuted", "C27_late_ack_refuted", "C27_retry_refuted", "C27_leak_refuted", "C27_sba_refuted", "C27_t3180", "C27_t3168", "C27_n3104"], "note": "States are visited in order and the fourth access timeout or T3168 expiry frees the TBF, for every event sequence; the exact events that end the process are characterised. The full property is false: some events abort, restarts after the N3104 limit are unlimited, and a TBF whose request is unanswered waits for ever."},
 {"property": "C28", "status": "partial", "theorems": ["C28_one_block", "C28_precedence_partial", "C28_last_partial", "C28_expired", "C28_no_abort_partial", "C28_final_poll_refuted", "C28_dead_entity_refuted", "C28_stale_refuted"], "note": "At most one block per indication and expiry are proved in full for every history (expiry: with polls at most 1000 frames ahead and timeslots not silent for 46 minutes). The precedence is proved when no message fails to be encoded; a poll whose assignment was overtaken is not answered (refuted). The process ends only for listed causes; two of them are shown reachable."},
 {"property": "C29", "status": "proved", "theorems": ["C29_frames_reassembled", "C29_prefix", "C29_many_pieces_refuted"], "note": "End to end from the blocks on the air (any loss, repetition, reordering inside the window) to the LLC frames; GPRS layout, frames of 5 to 1543 octets. The third theorem shows that a block with more than 16 pieces, possible only with shorter frames, is lost."},
 {"property": "C30", "status": "partial", "theorems": ["C30_limit", "C30_segments", "C30_accepts", "C30_transfer_partial", "C30_standard_sizes", "C30_sixteen_segments_refuted", "C30_no_default_refuted", "C30_first_bit_refuted"], "note": "For N201-U of at least 4 every SN-PDU respects the limit and the SN-PDUs carry exactly the N-PDU (any number of segments); up to 15 segments they are reassembled in any order of the later ones. Within the sizes of the standards (C30_standard_sizes) the property holds in full. The code enforces none of these limits: 16 segments deliver a corrupted N-PDU, the 257th segment has the F bit again, and on a SAPI without default N201-U there is no limit at all."},
 {"property": "C31", "status": "partial", "theorems": ["C31_partial", "C31_mixed_refuted", "C31_repeated_refuted"], "note": "Holds for every loss of whole N-PDUs, any loss and reordering of later segments, and stray later segments after a complete N-PDU. False when the first segment of an N-PDU is lost after an incomplete one (mixed N-PDU delivered) and when a segment is repeated (zeros appended)."},
 {"property": "C32", "status": "partial", "theorems": ["C32_partial", "C32_short_first_refuted", "C32_queue_refuted"], "note": "Every other SN-PDU in every reachable state is processed within its bounds. A first segment of 3 octets is read beyond its end; more than 65279 queued octets end the process."},
 {"property": "C33", "status": "partial", "theorems": ["C33_partial", "C33_wrap_refuted", "C33_refused_refuted"], "note": "Numbers are consecutive modulo 4095, with any other events in between; number 4095 is never used. A refused N-PDU uses up a number or not depending on its length."},
 {"property": "C34", "status": "proved", "theorems": ["C34_ccch_parsing_stays_inside", "C34_no_abort"], "note": "Every 23-octet block, any behaviour of the libosmocore functions. C34_no_abort excludes SI 13 (see C53)."},
 {"property": "C35", "status": "proved", "theorems": ["C35_ui_transfer"], "note": ""},
 {"property": "C36", "status": "partial", "theorems": ["C36_receive_is_safe_partial", "C36_oversized_sack_refuted"], "note": "Only S frames with an oversized SACK bitmap break the claim; every other octet string is proved safe in every state."},
 {"property": "C37", "status": "partial", "theorems": ["C37_everything_delivered_partial", "C37_everything_delivered_refuted"], "note": "Proved when no block arrives 63 ahead of all earlier ones; refuted at exactly 63 ahead."},
 {"property": "C38", "status": "partial", "theorems": ["C38_finished_means_delivered", "C38_finished_is_signalled_partial"], "note": "Soundness for all schedules; completeness when no block arrives 63 ahead of all earlier ones."},
 {"property": "C39", "status": "partial", "theorems": ["C39_reassembly_exact_partial", "C39_no_crash_refuted"], "note": "Exact characterisation: either the frames are the joined pieces or some frame outgrows 1543 octets and the process aborts; the abort is reachable (refuted)."},
 {"property": "C40", "status": "proved", "theorems": ["C40_relative_start", "C40_absolute_start"], "note": "The extension of the reduced frame number to a full one (gsm_rfn2fn) belongs to libosmocore."},
 {"property": "C41", "status": "proved", "theorems": ["C41_granted", "C28_one_block"], "note": "For every history without a bound on time; the state is that in which the starting times of the frame have been acted upon."},
 {"property": "C42", "status": "partial", "theorems": ["C42_life", "C42_entities", "C42_supervised", "C42_ends", "C42_polls", "C42_never_starts_refuted", "C42_timeslot_refuted"], "note": "Everything but the last sentence is proved. Refuted: an assignment with starting time starts only on timeslot 0 in exactly that frame; blocks are matched by TFI without the timeslot."},
 {"property": "C43", "status": "partial", "theorems": ["C43_isolation", "C43_unique", "C43_outputs", "C43_unknown", "C43_assign_refuted"], "note": "Holds in every state with unique TLLIs; they stay unique unless LL-ASSIGN replaces a TLLI by one already in use, which hides the entities that had it."},
 {"property": "C44", "status": "partial", "theorems": ["C44_partial", "C44_refuted", "C44_default"], "note": "Only the entity with the lowest NSAPI on the SAPI takes over the negotiated value."},
 {"property": "C45", "status": "partial", "theorems": ["C45_isolation", "C45_delivered", "C45_unassigned_refuted"], "note": "Proved for messages that match one TBF. Refuted where the lookup matches several: a TBF without assignment matches TFI 0."},
 {"property": "C46", "status": "proved", "theorems": ["C46_made", "C46_kept", "C46_remembered", "C46_answered", "C46_taken"], "note": "C46_made: the reservation appears if the block is free; C46_kept/C46_remembered: it goes only with its frame or its TBF, for one event and for any further history; C46_answered: in a timed history the answer goes out in the polled frame (when it can be given, see C28; no encoding fails). C46_taken: a second poll for a reserved block is ignored."},
 {"property": "C47", "status": "proved", "theorems": ["C47_control_block_contained", "C47_uplink_contained", "C47_imm_ass_contained", "C47_si13_contained", "C47_p1_contained", "C47_p2_contained"], "note": "All 25 downlink and all 14 uplink control messages and the four kinds of rest octets."},
 {"property": "C48", "status": "partial", "theorems": ["C48_members_contained_partial", "C48_members_contained_refuted", "C48_types", "C48_p2_members_contained", "C48_rest_octets_refuted"], "note": "Holds for 15 of 25 message types and PAGING REQUEST 2; refuted with a block for each of the other 10 types and for three kinds of rest octets."},
 {"property": "C49", "status": "partial", "theorems": ["C49_control_ack", "C49_dummy", "C49_resource_request_partial", "C49_resource_request_refuted", "C49_downlink_ack_nack", "C49_report_sent"], "note": "Proved for all four messages, bit by bit; for the resource request only with fewer than 65536 octets queued, beyond which the announced count wraps (refuted). Ack/nack composed with C18."},
 {"property": "C50", "status": "partial", "theorems": ["C50_round_trip_partial", "C50_round_trip_refuted", "C50_control_ack", "C50_dummy", "C50_resource_request", "C50_downlink_ack_nack"], "note": "Proved for every uplink type but PACKET PAUSE and every structure whose values fit, when the encoding is not longer than the block; unconditional for the four messages of the MS. Refuted for a structure that the encoder makes 188 bits long without noticing."},
 {"property": "C51", "status": "partial", "theorems": ["C51_only_paged_entities", "C51_paging_type1_partial", "C51_paging_type2"], "note": "Type 2 and the soundness part are full. Type 1: group calls without a frequency list; first identity an IMSI or TMSI if its indication is set (else the code drops the second page); no second priority without a second identity (the code would take such rest octets for an identity, finding 66)."},
 {"property": "C52", "status": "partial", "theorems": ["C52_dynamic_assignment", "C52_single_block", "C52_downlink_assignment_partial", "C52_missing_tfi_refuted", "C52_request_reference_refuted"], "note": "Assignments are carried out as sent. Refuted: a downlink assignment without TFI uses stack memory; the request reference is never compared, so assignments for other mobiles are carried out too."},
 {"property": "C53", "status": "partial", "theorems": ["C53_si13_timers_partial", "C53_pbcch_refuted"], "note": "All SI 13 of cells without PBCCH, with all optional parts up to release 6. Refuted with PBCCH: the process aborts."},
 {"property": "C54", "status": "partial", "theorems": ["C54_ack_nack_from_the_bits_partial", "C54_other_tfi_ignored", "C54_contention_refuted", "C54_egprs_format_refuted"], "note": "All messages in GPRS format reach the TBF as sent. Refuted: the contention resolution TLLI is never compared; a message in EGPRS format is taken for a report in GPRS format."},
 {"property": "C55", "status": "proved", "theorems": ["C55_uplink_assignment_from_the_bits", "C55_others_ignored"], "note": "Addressees by TQI or packet request reference and EGPRS mode are outside the quantifier."},
 {"property": "C56", "status": "proved", "theorems": ["C56_downlink_assignment_from_the_bits", "C56_others_ignored"], "note": ""},
 {"property": "C57", "status": "proved", "theorems": ["C57_no_abort"], "note": "Up to the event handed to the TBF; aborts afterwards are in C27, C28, C41, C42."},
 {"property": "C58", "status": "partial", "theorems": ["C58_rates_partial", "C58_extended_partial", "C58_delay", "C58_kept", "C58_order_refuted", "C58_gaps_refuted"], "note": "Refuted for rates above 8.7 Mbit/s: order of the extended octets against TS 24.008, truncated extension, gaps of the coding. Proved below, and above in the library's own order outside the gaps."},
 {"property": "C59", "status": "partial", "theorems": ["C59_lengths", "C59_overread_refuted", "C59_reading_partial", "C59_values_refuted", "C59_roundtrip_refuted"], "note": "Refuted: every profile of 14 or 18 octets is read past its end; 576 to 8576 kbit/s, 0 kbit/s and delays up to 150 ms are read wrong; five octets are written but not read. Proved for the other lengths and values."},
 {"property": "C60", "status": "proved", "theorems": ["C60_reading", "C60_floor", "C60_deactivated", "C60_contract"], "note": ""},
 {"property": "C61", "status": "partial", "theorems": ["C61_no_abort_partial", "C61_no_abort_refuted"], "note": "Proved for messages whose protocol discriminator is GMM or SM, for detach requests with one of the two values of power-off, and for parsers that respect the lengths of the table; refuted: any other discriminator fails an assertion."},
 {"property": "C62", "status": "partial", "theorems": ["C62_exclusive", "C62_ready", "C62_ready_expiry", "C62_periodic", "C62_registered_refuted", "C62_deregistered_refuted"], "note": "Exclusion, start and expiry proved; refuted: no timer after an Attach Accept without optional elements, periodic timer running in a mobile not registered."},
 {"property": "C63", "status": "partial", "theorems": ["C63_pending", "C63_accept", "C63_reject_partial", "C63_unanswered", "C63_answered_refuted"], "note": "Proved for accepts, for rejects with a cause other than 0 and for no answer; refuted: LLC refuses the first request, detach meanwhile, reject with cause 0."},
 {"property": "C64", "status": "partial", "theorems": ["C64_resumed_partial", "C64_giveup_refuted", "C64_second_refuted", "C64_registered_refuted"], "note": "Resume proved after an accept; refuted: after giving up, after a reject that leaves the mobile registered, after failure to send; a second update is not given up."},
 {"property": "C65", "status": "partial", "theorems": ["C65_attach", "C65_update", "C65_reallocation", "C65_tlli", "C65_layers_refuted", "C65_signed_refuted"], "note": "Proved for the three messages, and the form of the TLLI in all executions; refuted: an update accept dropped because of its IMEISV, attach after detach, reallocation with a signature."},
 {"property": "C66", "status": "partial", "theorems": ["C66_given_partial", "C66_echo_refuted", "C66_replaced_refuted"], "note": "Proved for the upper layer's signature in the Attach Request; refuted for the network's, exactly when its first two octets are not both 0."},
 {"property": "C67", "status": "partial", "theorems": ["C67_challenge", "C67_answer", "C67_unknown", "C67_failure_refuted", "C67_reject_refuted"], "note": "Challenge, answer and unknown answers proved; refuted: message type of the failure, an answer accepted twice, reject ignored."},
 {"property": "C68", "status": "partial", "theorems": ["C68_attach_partial", "C68_identity", "C68_detach_refuted", "C68_update_refuted"], "note": "Attach Request proved readable with the right contents except radio access capability and key sequence number; identity response proved; detach and update requests refuted."},
 {"property": "C69", "status": "partial", "theorems": ["C69_standby_partial", "C69_standby_refuted", "C69_elements_refuted"], "note": "Proved for accepts, identity and authentication requests; refuted for detach accept, update reject and reallocation, for the priorities and T3302."},
 {"property": "C70", "status": "partial", "theorems": ["C70_off_partial", "C70_off_refuted"], "note": "Proved for a mobile in NULL; refuted for registered mobiles and after a power-off detach."},
 {"property": "C71", "status": "partial", "theorems": ["C71_up", "C71_down", "C71_unknown", "C71_establish", "C71_update", "C71_detached", "C71_sessions_refuted"], "note": "Messages both ways, establishment, update and detach proved; refuted: reallocation not told, second session replaces the first."},
 {"property": "C72", "status": "proved", "theorems": ["C72_request"], "note": "For requests whose lengths fit and NSAPI 5 to 15, fewer than 2^32 inputs; the transaction identifier is C86."},
 {"property": "C73", "status": "partial", "theorems": ["C73_lost", "C73_sent_partial", "C73_refuted"], "note": "Sent if the session id happens to equal the number of the mobile; refuted: otherwise GMM drops it, or sends it under another mobile's TLLI."},
 {"property": "C74", "status": "partial", "theorems": ["C74_in_use", "C74_sessions_partial", "C74_sessions_refuted"], "note": "Refusal proved; uniqueness proved for fewer than 2^32 inputs, refuted beyond."},
 {"property": "C75", "status": "proved", "theorems": ["C75_confirmed_once"], "note": "All executions."},
 {"property": "C76", "status": "partial", "theorems": ["C76_answered_refuted", "C76_silent"], "note": "Refuted in general: a refusal or release by GMM is never told to the user (C76_silent); answers without GMM's refusal are C82."},
 {"property": "C77", "status": "partial", "theorems": ["C77_sndcp", "C77_accept_partial", "C77_network_partial", "C77_accept_refuted"], "note": "SNDCP's part proved; the confirmation proved if no REJECT has cause 0 and SNDCP answers only what it was asked; refuted otherwise."},
 {"property": "C78", "status": "partial", "theorems": ["C78_sndcp_partial", "C78_user", "C78_qos_refuted"], "note": "Proved if the QoS granted is as long as the one asked for; refuted for other lengths and for absent options."},
 {"property": "C79", "status": "partial", "theorems": ["C79_echo_partial", "C79_echo_refuted"], "note": "Proved except for an IPv6 address alone with type IPv4v6, which is refuted."},
 {"property": "C80", "status": "partial", "theorems": ["C80_no_abort_partial", "C80_abort_refuted"], "note": "Proved for inputs in range; refuted: eleven primitives and messages that abort."},
 {"property": "C81", "status": "partial", "theorems": ["C81_status", "C81_deactivated_partial", "C81_deactivated_refuted"], "note": "Status proved; the indication proved without protocol options; refuted with options, and repeated."},
 {"property": "C82", "status": "partial", "theorems": ["C82_retries_partial", "C82_fifth_refuted"], "note": "Three repetitions and giving up proved; refuted: given up on the fourth expiry, not the fifth."},
 {"property": "C83", "status": "partial", "theorems": ["C83_refused_partial", "C83_refused_refuted"], "note": "No primitive, no change of state, other contexts untouched proved; refuted: parameters of a refused ACCEPT are kept."},
 {"property": "C84", "status": "partial", "theorems": ["C84_both_partial", "C84_qos_refuted", "C84_stale_refuted", "C84_sapi_refuted"], "note": "Proved for an NSAPI SNDCP does not yet serve, a QoS of the length asked for and a SAPI below 16; refuted otherwise."},
 {"property": "C85", "status": "partial", "theorems": ["C85_again_partial", "C85_again_refuted", "C85_identity_refuted"], "note": "Reuse proved after the timer; refuted: within the call-back, and identities of the other request."},
 {"property": "C86", "status": "partial", "theorems": ["C86_ti_refuted", "C86_ti_ignored"], "note": "Refuted: all requests have identifier 0 and the wrong flag; proved: the identifier of a message received is ignored."},
 {"property": "C87", "status": "partial", "theorems": ["C87_lossless_partial", "C87_urgent_refuted", "C87_ecn_refuted"], "note": "Proved for streams that are `legal`: TCP packets with right total length and checksum, at most 32767 octets, URG not cleared and reserved bits and ECN bits unchanged within a connection; refuted without the last two."},
 {"property": "C88", "status": "proved", "theorems": ["C88_loss", "C88_lost_refuted"], "note": "For legal streams (see C87); C88_lost_refuted shows that the condition of being in step cannot be dropped."},
 {"property": "C89", "status": "proved", "theorems": ["C89_places", "C89_slots"], "note": "For IP version 4 packets whose addresses are not all zero."},
 {"property": "C90", "status": "partial", "theorems": ["C90_compress_partial", "C90_overread_refuted", "C90_overflow_refuted"], "note": "Proved for IP version 4 packets whose headers are in them; refuted for arbitrary octets: over-read, and a write beyond the buffer."},
 {"property": "C91", "status": "partial", "theorems": ["C91_expand_partial", "C91_room_refuted"], "note": "Proved with 128 octets of room behind the packet; refuted with the room sndcp.c provides."},
 {"property": "C92", "status": "proved", "theorems": ["C92_bulk"], "note": "After any stream."},
 {"property": "C93", "status": "proved", "theorems": ["C93_compress", "C93_expand"], "note": "All states."},
 {"property": "C94", "status": "partial", "theorems": ["C94_decode_partial", "C94_profiles_refuted", "C94_v44_refuted", "C94_extra_refuted"], "note": "Proved for all five algorithms except ROHC with 1 to 15 profiles and V.44 codebooks of 256 to 264 codewords, for which it is refuted; refuted also for octets behind the known parameters."},
 {"property": "C95", "status": "partial", "theorems": ["C95_round_trip_partial", "C95_long_refuted", "C95_room_refuted"], "note": "Proved for blocks of up to 255 octets with the exceptions of C94; refuted for longer ones and for a buffer that is too small."},
 {"property": "C96", "status": "partial", "theorems": ["C96_answer_partial", "C96_rohc_refuted", "C96_number_refuted"], "note": "Proved without ROHC and with different entity numbers; refuted for ROHC and for equal numbers of a header and a data compression entity."},
 {"property": "C97", "status": "partial", "theorems": ["C97_reads_partial", "C97_reads_refuted", "C97_far_refuted"], "note": "Proved if 41 octets behind the block exist, which is the least number; refuted without them."},
 {"property": "C98", "status": "partial", "theorems": ["C98_agree_partial", "C98_stale_refuted", "C98_passive_refuted"], "note": "Proved if the requester itself permits both algorithms and the other end has no other entities from before; refuted for both."},
 {"property": "C99", "status": "partial", "theorems": ["C99_flow_partial", "C99_slots_refuted"], "note": "Proved for each direction and up to 255 connections; refuted for 256."}
]}
