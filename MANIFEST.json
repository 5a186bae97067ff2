{
 "claims": [
  {
   "property": "C01",
   "status": "proved",
   "theorems": [
    "C01_address_round_trip",
    "C01_address_wire_format",
    "C01_above_10239"
   ],
   "note": "Exact characterisation: the round trip holds iff the stated ranges hold; long addresses from 10240 are shown to come back as another class."
  },
  {
   "property": "C02",
   "status": "proved",
   "theorems": [
    "C02_address_equality",
    "C02_address_equivalence"
   ],
   "note": ""
  },
  {
   "property": "C03",
   "status": "proved",
   "theorems": [
    "C03_first_byte_classes",
    "C03_no_bytes"
   ],
   "note": ""
  },
  {
   "property": "C04",
   "status": "proved",
   "theorems": [
    "C04_instruction_class",
    "C04_packet_class",
    "C04_never_unknown"
   ],
   "note": "Also states the out-of-range read for packets shorter than address plus instruction."
  },
  {
   "property": "C05",
   "status": "proved",
   "theorems": [
    "C05_words_inverse",
    "C05_big_endian_16",
    "C05_big_endian_32"
   ],
   "note": ""
  },
  {
   "property": "C06",
   "status": "proved",
   "theorems": [
    "C06_crc8_bit_serial",
    "C06_crc8_residue",
    "C06_crc8_packet"
   ],
   "note": ""
  },
  {
   "property": "C07",
   "status": "proved",
   "theorems": [
    "C07_crc8_burst",
    "C07_crc8_linear"
   ],
   "note": ""
  },
  {
   "property": "C08",
   "status": "proved",
   "theorems": [
    "C08_checksum_is_xor",
    "C08_checksum_of_packet",
    "C08_closed_packets",
    "C08_single_byte_error"
   ],
   "note": ""
  },
  {
   "property": "C09",
   "status": "proved",
   "theorems": [
    "C09_code_word",
    "C09_code_injective",
    "C09_datagram_code",
    "C09_not_six_bits"
   ],
   "note": ""
  },
  {
   "property": "C10",
   "status": "proved",
   "theorems": [
    "C10_datagram_with_id",
    "C10_datagram_digits",
    "C10_datagram_without_id",
    "C10_out_of_range"
   ],
   "note": "Includes the digits on the wire and the assertion failure for out of range data."
  },
  {
   "property": "C11",
   "status": "proved",
   "theorems": [
    "C11_speed_end_points",
    "C11_speed_monotone",
    "C11_speed_range",
    "C11_speed_value"
   ],
   "note": "Finite domain (14, 28, 126 steps) swept completely; closed form given."
  },
  {
   "property": "C12",
   "status": "proved",
   "theorems": [
    "C12_generators",
    "C12_generators_injective",
    "C12_generators_long",
    "C12_service_packets",
    "C12_service_packets_injective",
    "C12_idle_and_reset",
    "C12_logon_enable",
    "C12_logon_select",
    "C12_logon_assign",
    "C12_logon_enable_injective",
    "C12_logon_select_assign_injective",
    "C12_extended_checks"
   ],
   "note": "Generic over all locomotive generators through the command type of SpecCodec.v; service, idle, reset and logon packets separately."
  },
  {
   "property": "C13",
   "status": "proved",
   "theorems": [
    "C13_timings",
    "C13_timings_length"
   ],
   "note": ""
  },
  {
   "property": "C14",
   "status": "proved",
   "theorems": [
    "C14_history",
    "C14_refines_fifo"
   ],
   "note": ""
  },
  {
   "property": "C15",
   "status": "proved",
   "theorems": [
    "C15_outputs",
    "C15_alternation"
   ],
   "note": ""
  },
  {
   "property": "C16",
   "status": "proved",
   "theorems": [
    "C16_cutout",
    "C16_no_cutout"
   ],
   "note": ""
  },
  {
   "property": "C17",
   "status": "proved",
   "theorems": [
    "C17_queueing_keeps_current",
    "C17_needs_spare_slot"
   ],
   "note": "Ring with one spare slot (assumption on ztl::inplace_deque); shown false without it."
  },
  {
   "property": "C18",
   "status": "proved",
   "theorems": [
    "C18_reconfigured",
    "C18_idle_refuted"
   ],
   "note": "The statement includes that idle packets keep the default timing; both halves are proved."
  },
  {
   "property": "C19",
   "status": "proved",
   "theorems": [
    "C19_receives"
   ],
   "note": ""
  },
  {
   "property": "C20",
   "status": "proved",
   "theorems": [
    "C20_sound"
   ],
   "note": ""
  },
  {
   "property": "C21",
   "status": "partial",
   "theorems": [
    "C21_resync",
    "C21_resync_refuted"
   ],
   "note": "Proved for all reachable states in which the unfinished frame has fewer than 18 bytes and is no logon packet; the unrestricted statement is refuted (buffer overflow)."
  },
  {
   "property": "C22",
   "status": "proved",
   "theorems": [
    "C22_stream",
    "C22_inserted"
   ],
   "note": ""
  },
  {
   "property": "C23",
   "status": "proved",
   "theorems": [
    "C23_fifo",
    "C23_full_drops"
   ],
   "note": ""
  },
  {
   "property": "C24",
   "status": "partial",
   "theorems": [
    "C24_oversized_refuted",
    "C24_exact",
    "C24_bounded"
   ],
   "note": "The unrestricted statement is refuted: there is no bound check in receive(), a frame of 19 bytes overflows for every application. C24_exact proves the exact condition, C24_bounded the bound when no overflow happens."
  },
  {
   "property": "C25",
   "status": "proved",
   "theorems": [
    "C25_flag",
    "C25_gate",
    "C25_one"
   ],
   "note": ""
  },
  {
   "property": "C26",
   "status": "proved",
   "theorems": [
    "C26_end_to_end"
   ],
   "note": ""
  },
  {
   "property": "C27",
   "status": "proved",
   "theorems": [
    "C27_foreign"
   ],
   "note": "From every state, not only reachable ones; bookkeeping of execute (address datagrams, storing of waiting logon data) is named in the statement."
  },
  {
   "property": "C28",
   "status": "proved",
   "theorems": [
    "C28_own",
    "C28_reported"
   ],
   "note": "Return value decided exactly; reports under the primary number for the logon address by acts_as/to_assigned."
  },
  {
   "property": "C29",
   "status": "proved",
   "theorems": [
    "C29_speed"
   ],
   "note": "Exact calls and unchanged state for all codes."
  },
  {
   "property": "C30",
   "status": "proved",
   "theorems": [
    "C30_speed"
   ],
   "note": "Exact calls for 14 and 28 steps, all codes."
  },
  {
   "property": "C31",
   "status": "proved",
   "theorems": [
    "C31_own_address",
    "C31_consist_address"
   ],
   "note": "Over any CV contents active in the decoder: exactly one direction call, inverted by CV29 bit 0 (own address) or CV19 bit 7 (consist address)."
  },
  {
   "property": "C32",
   "status": "proved",
   "theorems": [
    "C32_groups",
    "C32_expansion"
   ],
   "note": "Exact mask and state for all groups F0..F28."
  },
  {
   "property": "C33",
   "status": "partial",
   "theorems": [
    "C33_three_partial",
    "C33_exact",
    "C33_four_refuted"
   ],
   "note": "Holds for up to three function bytes (C33_three_partial); false for the fourth (C33_four_refuted); C33_exact gives the behaviour for any number."
  },
  {
   "property": "C34",
   "status": "proved",
   "theorems": [
    "C34_written_once"
   ],
   "note": "Any repetition count, any calls in between that do not execute another CV packet of this decoder; write permitted by the lock, no logon data waiting to be stored."
  },
  {
   "property": "C35",
   "status": "proved",
   "theorems": [
    "C35_answered",
    "C35_callback"
   ],
   "note": "Exact trace and state for byte and bit verification by a synchronous application, any CV memory; answers of an asynchronous application separately."
  },
  {
   "property": "C36",
   "status": "proved",
   "theorems": [
    "C36_requested",
    "C36_generated"
   ],
   "note": "Exact accesses at any repetition count, any application; generators tied to the accesses they ask for."
  },
  {
   "property": "C37",
   "status": "proved",
   "theorems": [
    "C37_locked"
   ],
   "note": "Any calls after init, any CV memory; storing of logon data named in the statement."
  },
  {
   "property": "C38",
   "status": "partial",
   "theorems": [
    "C38_mode",
    "C38_entered_by",
    "C38_address_refuted"
   ],
   "note": "C38_mode decides for every call exactly when the mode changes and the hook calls. Literally false: with primary address 0 and an assigned logon address a packet to that address enters service mode (C38_address_refuted); C38_entered_by shows this is the only case."
  },
  {
   "property": "C39",
   "status": "proved",
   "theorems": [
    "C39_direct",
    "C39_register",
    "C39_other",
    "C39_silence",
    "C39_callback"
   ],
   "note": "Direct, register and other packets for synchronous applications, callbacks for asynchronous ones, silence outside service mode for all."
  },
  {
   "property": "C40",
   "status": "partial",
   "theorems": [
    "C40_fresh",
    "C40_again_refuted"
   ],
   "note": "False as stated (C40_again_refuted). C40_fresh: answered whenever the last CV packet was a different one."
  },
  {
   "property": "C41",
   "status": "partial",
   "theorems": [
    "C41_targets",
    "C41_page0_refuted"
   ],
   "note": "False as stated (C41_page0_refuted). C41_targets: holds whenever the page register is not 0 or the decoder is not in service mode."
  },
  {
   "property": "C42",
   "status": "proved",
   "theorems": [
    "C42_short_form"
   ],
   "note": "Exact accesses at any repetition count, any CV memory, after init."
  },
  {
   "property": "C43",
   "status": "proved",
   "theorems": [
    "C43_configuration"
   ],
   "note": "Any application and earlier state; the values it returned determine addresses, switches, unique ID and logon IDs, all else is unchanged."
  },
  {
   "property": "C44",
   "status": "partial",
   "theorems": [
    "C44_exact",
    "C44_defined_refuted"
   ],
   "note": "False as stated: refuted with CV1 = 200. The exact condition is proved for every CV memory: undefined iff CV29 bit 5 is clear and CV1 is in 192..231."
  },
  {
   "property": "C45",
   "status": "proved",
   "theorems": [
    "C45_immediate"
   ],
   "note": "Every packet in either mode, any CV memory that may alter or refuse writes; no logon data waiting to be stored (storing does not re-read)."
  },
  {
   "property": "C46",
   "status": "proved",
   "theorems": [
    "C46_consist_control"
   ],
   "note": "Exact calls and resulting configuration for every consist control packet when not locked."
  },
  {
   "property": "C47",
   "status": "proved",
   "theorems": [
    "C47_not_by_consist"
   ],
   "note": "No call and no change of state at all, any application and state."
  },
  {
   "property": "C48",
   "status": "proved",
   "theorems": [
    "C48_ignored",
    "C48_selected",
    "C48_manufacturer"
   ],
   "note": "Exact effect on every field of the decoder, any application and any reachable state, for every well-formed logon packet. C48_manufacturer exhibits the answer to another manufacturer's selection."
  },
  {
   "property": "C49",
   "status": "proved",
   "theorems": [
    "C49_silent",
    "C49_skips",
    "C49_answers"
   ],
   "note": "All three cases (silent, skipped, answered or passed over) with the effect on every field; backoff drawn from the random number as specified. The session comparison does not wrap from 255 to 0."
  },
  {
   "property": "C50",
   "status": "partial",
   "theorems": [
    "C50_assigned",
    "C50_obeys",
    "C50_general",
    "C50_other_flags",
    "C50_flags_refuted",
    "C50_short_refuted"
   ],
   "note": "False as stated: refuted for flag bits 00 (C50_flags_refuted) and because the short address of the same number is obeyed as well (C50_short_refuted). Proved: with flag bits 11 the address is the one handed out and packets are obeyed by number; with other flags never the long address handed out."
  },
  {
   "property": "C51",
   "status": "partial",
   "theorems": [
    "C51_store",
    "C51_restored",
    "C51_refuted"
   ],
   "note": "False as stated: C51_refuted goes through assignment, storing, power cycle and logon skip. C51_restored shows it fails for every non-zero address, C51_store what is stored."
  },
  {
   "property": "C52",
   "status": "partial",
   "theorems": [
    "C52_one",
    "C52_fails",
    "C52_served",
    "C52_refuted"
   ],
   "note": "False as stated: C52_refuted. Proved: never two answers, the assertion fails only while an answer waits, and never if channel 2 follows each logon packet."
  },
  {
   "property": "C53",
   "status": "proved",
   "theorems": [
    "C53_damaged"
   ],
   "note": "Every field except those of the bit receiver, the received address and the packet count is unchanged."
  },
  {
   "property": "C54",
   "status": "proved",
   "theorems": [
    "C54_pairs",
    "C54_decodes",
    "C54_prepared",
    "C54_sent",
    "C54_others"
   ],
   "note": "Whole call histories: transmissions and waiting datagrams are pairs, each telling the address active when a packet was executed. C54_decodes for every reachable state."
  },
  {
   "property": "C55",
   "status": "partial",
   "theorems": [
    "C55_exact",
    "C55_addressed",
    "C55_foreign_refuted"
   ],
   "note": "C55_exact gives the exact answer in every reachable state at the end of a packet, C55_addressed that the last packet heard was undamaged and for this decoder. False while 31 packets wait (C55_foreign_refuted): nothing is heard then and the decoder answers a packet for another one."
  },
  {
   "property": "C56",
   "status": "proved",
   "theorems": [
    "C56_offered",
    "C56_fifo",
    "C56_others",
    "C56_size"
   ],
   "note": "Whole call histories, arbitrary offers of values within range."
  },
  {
   "property": "C57",
   "status": "proved",
   "theorems": [
    "C57_reads",
    "C57_speed",
    "C57_temperature",
    "C57_status",
    "C57_voltage"
   ],
   "note": "All values of each type; the wrap-around of voltage and temperature is stated exactly."
  },
  {
   "property": "C58",
   "status": "partial",
   "theorems": [
    "C58_exact",
    "C58_percentage",
    "C58_range",
    "C58_percentage_refuted"
   ],
   "note": "False as stated: C58_percentage_refuted (255). Proved: 0..100 if no packet is executed in the middle of a frame, else 0..100 or 255; the counters are exactly those of the track."
  },
  {
   "property": "C59",
   "status": "proved",
   "theorems": [
    "C59_bounded",
    "C59_window",
    "C59_now"
   ],
   "note": "Any random numbers, any state reached by test and now()."
  },
  {
   "property": "C60",
   "status": "proved",
   "theorems": [
    "C60_searched",
    "C60_reads",
    "C60_quiet",
    "C60_others",
    "C60_backwards_refuted"
   ],
   "note": "Proved for every clock that never runs backwards, with the exact condition of an answer. Without that condition the assertion of make_datagram fails (C60_backwards_refuted)."
  },
  {
   "property": "C61",
   "status": "partial",
   "theorems": [
    "C61_channel1",
    "C61_channel2",
    "C61_others",
    "C61_early_refuted"
   ],
   "note": "Sizes and codes of every transmission from every reachable state. A call of biDiChannel2() before the end of a packet reads past the received bytes (C61_early_refuted)."
  },
  {
   "property": "C62",
   "status": "partial",
   "theorems": [
    "C62_disabled_refuted",
    "C62_no_difference",
    "C62_disable",
    "C62_enable"
   ],
   "note": "False as stated: C62_disabled_refuted. C62_no_difference: the flag changes nothing in any history of calls. C62_disable and C62_enable give the exact effect of the two calls."
  },
  {
   "property": "C63",
   "status": "proved",
   "theorems": [
    "C63_history",
    "C63_execute",
    "C63_complete",
    "C63_cv1_refuted"
   ],
   "note": "Whole call histories (C63_history) with an application whose CV1 is never 192..231 and a clock that never runs backwards, channel 2 called only after a packet; includes assertions and full buffers, not only reads. C63_cv1_refuted shows that the condition on CV1 is needed."
  },
  {
   "property": "C64",
   "status": "partial",
   "theorems": [
    "C64_refuted",
    "C64_exact",
    "C64_logon_exact",
    "C64_logon_refuted"
   ],
   "note": "False as stated: C64_refuted, C64_logon_refuted. C64_exact and C64_logon_exact give the exact number of bytes for every packet in every reachable state."
  },
  {
   "property": "C65",
   "status": "proved",
   "theorems": [
    "C65_steps",
    "C65_once",
    "C65_undisturbed",
    "C65_torn_address"
   ],
   "note": "C65_steps ties the stepwise execute() to the model of execute(). C65_once: order, exactly once, one packet per execution, under any interrupts other than execute() itself. C65_undisturbed: result, calls and decoder state equal those of an uninterrupted execution, provided no logon packet is completed meanwhile and transmitting does not change the application. C65_torn_address: a logon packet completed meanwhile can make execute() store a mixed address until the next execution."
  },
  {
   "property": "C66",
   "status": "proved",
   "theorems": [
    "C66_request",
    "C66_silent",
    "C66_callback",
    "C66_later",
    "C66_at_once",
    "C66_stale"
   ],
   "note": "C66_stale shows the consequence of re-reading at request time. C66_later speaks of packets with one request that do not write the configuration; for the others C66_request, C66_callback give the two halves. Comparing the page register in register mode is acknowledged without a callback, it is no CV access."
  },
  {
   "property": "C67",
   "status": "partial",
   "theorems": [
    "C67_exact",
    "C67_fresh",
    "C67_unsplit",
    "C67_halves",
    "C67_minimal_preamble",
    "C67_refuted"
   ],
   "note": "False as stated: C67_refuted. C67_exact gives the symbols for every refill schedule, C67_unsplit the claim for all schedules that do not end a call between two bytes, C67_halves and C67_minimal_preamble show which configurations are safe with the usual memory of 64 symbols."
  },
  {
   "property": "C68",
   "status": "proved",
   "theorems": [
    "C68_agree"
   ],
   "note": "Any refill schedule covered by C67_unsplit, any packet of up to 18 bytes."
  },
  {
   "property": "C69",
   "status": "proved",
   "theorems": [
    "C69_check",
    "C69_symbols"
   ],
   "note": "Any configuration; symbols for every refill schedule."
  },
  {
   "property": "C70",
   "status": "partial",
   "theorems": [
    "C70_effect",
    "C70_told",
    "C70_neither_refuted"
   ],
   "note": "False as stated: C70_neither_refuted (west is reported). C70_effect gives the exact effect for every byte, C70_told the claim when one of the bits is set."
  },
  {
   "property": "C71",
   "status": "partial",
   "theorems": [
    "C71_received",
    "C71_channel",
    "C71_refuted"
   ],
   "note": "False as stated: C71_refuted (end bit and ZIMO 0 of the ESP32 example without cutout and gap). C71_received is the claim for all configurations and gaps whose end bits close; C71_channel shows the encoder never fails there. Memory schedules that split between bytes lose start bits, see C67."
  },
  {
   "property": "C72",
   "status": "proved",
   "theorems": [
    "C72_memory",
    "C72_creation",
    "C72_deletion"
   ],
   "note": "Null handles and heap corruption by others are not modelled; ESP-IDF constructors are assumed to leave the handle untouched when they fail."
  },
  {
   "property": "C73",
   "status": "proved",
   "theorems": [
    "C73_interpreter",
    "C73_memory"
   ],
   "note": "Logon packets are excluded (C48 to C52 cover them), CV access is synchronous (C62 to C64 cover the other case) and writes the application does not keep (`able`; for the example memory those outside CV1 to CV1024) are excluded by a condition on the interpreter's own output."
  },
  {
   "property": "C74",
   "status": "proved",
   "theorems": [
    "C74_layout"
   ],
   "note": "Conditions of C26 (decoder keeps up, not disabled, no logon packets) and of C73."
  },
  {
   "property": "C75",
   "status": "partial",
   "theorems": [
    "C75_orders",
    "C75_decoder",
    "C75_allowed",
    "C75_written",
    "C75_written_refuted"
   ],
   "note": "Proved for sessions of commands and idle packets; C75_written_refuted shows that with a consist instruction in between a repeated write is lost. Service mode commands are covered by C74 only."
  },
  {
   "property": "C76",
   "status": "proved",
   "theorems": [
    "C76_delivered",
    "C76_obeyed",
    "C76_memory"
   ],
   "note": "The loop bodies of the tasks and the handlers of the menu are atomic steps; that no failure occurs is a hypothesis here (Done). Addresses above 127, dropped commands and failures are the subject of C77."
  },
  {
   "property": "C77",
   "status": "partial",
   "theorems": [
    "C77_address",
    "C77_other",
    "C77_address_refuted",
    "C77_lost_refuted",
    "C77_start_refuted",
    "C77_cv1_refuted",
    "C77_logon_refuted"
   ],
   "note": "The positive half is C77_address and C76; the refuted theorems are concrete sessions. Whether seven commands arrive within one packet time depends on how they are entered (pasted or typed)."
  },
  {
   "property": "C78",
   "status": "proved",
   "theorems": [
    "C78_defined",
    "C78_obeyed",
    "C78_memory"
   ],
   "note": "Synchronous and asynchronous CV access for C78_defined, synchronous for C78_obeyed. Logon packets are excluded (packet_ok); the conditions are those of C63 and C73, satisfied together by the application `careful`."
  },
  {
   "property": "C79",
   "status": "proved",
   "theorems": [
    "C79_often_enough",
    "C79_exact"
   ],
   "note": "The bound is exact: C79_exact is the counterexample for 77."
  },
  {
   "property": "C80",
   "status": "proved",
   "theorems": [
    "C80_done"
   ],
   "note": "783 = 2 * 391 + 1, where 391 is the longest packet with its cutout in intervals; conditions of C78."
  },
  {
   "property": "C81",
   "status": "proved",
   "theorems": [
    "C81_alike",
    "C81_undefined"
   ],
   "note": "Agreement is only needed for calls satisfying a predicate, so that an application without bit access agrees with a full one as long as no bit is accessed."
  },
  {
   "property": "C82",
   "status": "proved",
   "theorems": [
    "C82_done"
   ],
   "note": "Needs no condition on states of the application that do not occur, unlike C80; holds for the CV array of examples/repl, which does not satisfy the condition of C80."
  },
  {
   "property": "C83",
   "status": "proved",
   "theorems": [
    "C83_defined",
    "C83_done"
   ],
   "note": "Complements C76 (failure and loss excluded by hypothesis) and C77 (what goes wrong otherwise). Handlers and loop bodies are atomic steps as in C76."
  },
  {
   "property": "C84",
   "status": "proved",
   "theorems": [
    "C84_enough",
    "C84_obeyed",
    "C84_exact",
    "C84_lost"
   ],
   "note": "Strengthens C79 for traffic of a station. C84_exact shows both bounds to be exact."
  },
  {
   "property": "C85",
   "status": "proved",
   "theorems": [
    "C85_obeyed",
    "C85_done",
    "C85_exact"
   ],
   "note": "The capture unit and the timer are modelled as described in the comments of Stm32.v; interrupt latency is part of the measuring error."
  },
  {
   "property": "C86",
   "status": "proved",
   "theorems": [
    "C86_leds",
    "C86_delay"
   ],
   "note": "More than 782 intervals between two commands: the loop waits two seconds, at least 7600 intervals."
  },
  {
   "property": "C87",
   "status": "proved",
   "theorems": [
    "C87_late"
   ],
   "note": "The number of packets missed is given by SpecLate.missed and is exact."
  },
  {
   "property": "C88",
   "status": "proved",
   "theorems": [
    "C88_disturbed",
    "C88_reached",
    "C88_exact"
   ],
   "note": "Both bounds are reached (C88_reached, C88_exact)."
  },
  {
   "property": "C89",
   "status": "proved",
   "theorems": [
    "C89_obeyed"
   ],
   "note": "Strengthens C71: the run of the decoder is no hypothesis any more, and the effect on the application is stated."
  },
  {
   "property": "C90",
   "status": "proved",
   "theorems": [
    "C90_idles",
    "C90_created",
    "C90_exact"
   ],
   "note": "The RMT driver of ESP-IDF is modelled by the memory it hands over and the gap it leaves."
  },
  {
   "property": "C91",
   "status": "proved",
   "theorems": [
    "C91_dialogue"
   ],
   "note": "The interpreter SpecDialog.converse runs beside the interpreter of SpecLayout."
  },
  {
   "property": "C92",
   "status": "partial",
   "theorems": [
    "C92_true",
    "C92_refuted"
   ],
   "note": "Refuted without the hypothesis (C92_refuted): consist control pushes into the same queue without counting as a CV packet. Exact under it (C92_true)."
  },
  {
   "property": "C93",
   "status": "proved",
   "theorems": [
    "C93_read",
    "C93_write"
   ],
   "note": ""
  },
  {
   "property": "C94",
   "status": "proved",
   "theorems": [
    "C94_linear",
    "C94_obeyed"
   ],
   "note": "Counting the new element of the queue is taken as one step, because the queue (ztl::inplace_deque) is not part of the repository."
  },
  {
   "property": "C95",
   "status": "proved",
   "theorems": [
    "C95_done",
    "C95_private"
   ],
   "note": "Orders to this decoder must not write CV1, 17-20 or 29, for then the set of orders to it changes on the way."
  },
  {
   "property": "C96",
   "status": "proved",
   "theorems": [
    "C96_one"
   ],
   "note": "Without logon packets. The example shows two members of a consist with CV20 bit 7 set that do speak at once."
  },
  {
   "property": "C97",
   "status": "proved",
   "theorems": [
    "C97_read"
   ],
   "note": "CVs not locked, RailCom channel 2 switched on, the number not the one of the consist."
  },
  {
   "property": "C98",
   "status": "partial",
   "theorems": [
    "C98_lamps",
    "C98_written",
    "C98_estop_refuted",
    "C98_f3_refuted"
   ],
   "note": "Refuted for emergency stops (speed -1 counts as driving) and for packets with four function bytes (mask 0xFF reported for F24-F31); proved otherwise. C98_written covers commands that write CVs of the board."
  },
  {
   "property": "C99",
   "status": "partial",
   "theorems": [
    "C99_session",
    "C99_track",
    "C99_read",
    "C99_write",
    "C99_locked",
    "C99_gaps_refuted"
   ],
   "note": "Proved for sessions without gaps; the claim about gaps is refuted (idle packets of the transmitter end service mode and service packets are then read as packets for short addresses 112 to 127)."
  },
  {
   "property": "C100",
   "status": "proved",
   "theorems": [
    "C100_interpreter",
    "C100_memory"
   ],
   "note": ""
  },
  {
   "property": "C101",
   "status": "partial",
   "theorems": [
    "C101_logon",
    "C101_obeyed",
    "C101_apart",
    "C101_stands_for",
    "C101_reset_refuted"
   ],
   "note": "Proved; the claim about resets is refuted by a decoder whose CV1 is 0."
  },
  {
   "property": "C102",
   "status": "partial",
   "theorems": [
    "C102_reply",
    "C102_read",
    "C102_enable",
    "C102_select",
    "C102_assign",
    "C102_assigned_refuted",
    "C102_silent"
   ],
   "note": "Proved; the claim about silence is refuted for a decoder that was assigned without having been selected, and proved for one that was selected."
  },
  {
   "property": "C103",
   "status": "proved",
   "theorems": [
    "C103_one",
    "C103_all"
   ],
   "note": ""
  },
  {
   "property": "C104",
   "status": "proved",
   "theorems": [
    "C104_layout",
    "C104_defined"
   ],
   "note": ""
  },
  {
   "property": "C105",
   "status": "proved",
   "theorems": [
    "C105_fleet",
    "C105_one"
   ],
   "note": ""
  },
  {
   "property": "C106",
   "status": "proved",
   "theorems": [
    "C106_window",
    "C106_channel1",
    "C106_channel2"
   ],
   "note": ""
  },
  {
   "property": "C107",
   "status": "proved",
   "theorems": [
    "C107_drift",
    "C107_balanced",
    "C107_bidi_grows"
   ],
   "note": ""
  },
  {
   "property": "C108",
   "status": "partial",
   "theorems": [
    "C108_byte",
    "C108_data",
    "C108_start",
    "C108_end",
    "C108_refuted",
    "C108_start_refuted"
   ],
   "note": "False: one inverted preamble bit in a speed packet for locomotive 6374 is read as a speed packet for locomotive 108 (C108_refuted), and one inverted start bit leaves a shorter valid packet whose execution reads outside it (C108_start_refuted). Proved: any change inside one byte and any inverted data bit leave the decoder alone (C108_byte, C108_data), an inverted start bit queues exactly the bytes before it if they are a packet (C108_start), an inverted end bit queues nothing (C108_end)."
  },
  {
   "property": "C109",
   "status": "proved",
   "theorems": [
    "C109_place",
    "C109_order"
   ],
   "note": "Every accepted packet, every history. The example attains the bound up to one half bit."
  },
  {
   "property": "C110",
   "status": "proved",
   "theorems": [
    "C110_accepted",
    "C110_place"
   ],
   "note": "All runs whose packets are apart."
  },
  {
   "property": "C111",
   "status": "proved",
   "theorems": [
    "C111_interpreter"
   ],
   "note": "All sessions without logon packets. A logon packet does disturb an execution, see C65_torn_address."
  },
  {
   "property": "C112",
   "status": "proved",
   "theorems": [
    "C112_both"
   ],
   "note": "All interleavings on either side."
  },
  {
   "property": "C113",
   "status": "proved",
   "theorems": [
    "C113_reaction",
    "C113_apart"
   ],
   "note": "Both, with the time in microseconds of track signal; the decoder calls execute() as often as C84 requires."
  },
  {
   "property": "C114",
   "status": "proved",
   "theorems": [
    "C114_last",
    "C114_decoder",
    "C114_same",
    "C114_station"
   ],
   "note": "All packets that drive; packets that access CVs or enter service mode are covered by C73."
  },
  {
   "property": "C115",
   "status": "proved",
   "theorems": [
    "C115_steps",
    "C115_fifo",
    "C115_defined",
    "C115_gap"
   ],
   "note": "Steps are single accesses; push_back, pop_front, full and empty of ztl::inplace_deque are one step each. Definedness is shown for cutouts right after a packet."
  },
  {
   "property": "C116",
   "status": "partial",
   "theorems": [
    "C116_answers_partial",
    "C116_idle",
    "C116_left",
    "C116_stale_refuted"
   ],
   "note": "Refuted as expected (C116_stale_refuted): CV4 is 9 and the answer is 77, the value of CV3. C116_answers_partial gives what may be sent meanwhile, outside of service mode; C116_idle if nothing is executed; C116_left what waits afterwards. Missing from the literal claim is the value that waited before and is sent for the packet being executed."
  },
  {
   "property": "C117",
   "status": "partial",
   "theorems": [
    "C117_pairs_partial",
    "C117_reads",
    "C117_prepared",
    "C117_torn_refuted"
   ],
   "note": "Refuted as expected (C117_torn_refuted): a decoder that had addresses 1000 and 1234 tells 978. C117_pairs_partial, C117_reads and C117_prepared hold for sessions in which no logon packet is completed during an execution. Missing from the literal claim are exactly the sessions in which one is."
  },
  {
   "property": "C118",
   "status": "proved",
   "theorems": [
    "C118_defined",
    "C118_generated",
    "C118_room"
   ],
   "note": "C118_defined and C118_generated: sessions that keep to the rules are defined. C118_room: queue bounds in every state an interrupted execution passes through. Steps are those of Preempt.v: one access to a shared member or call of the application each."
  },
  {
   "property": "C119",
   "status": "proved",
   "theorems": [
    "C119_stop",
    "C119_apart",
    "C119_behind_reset"
   ],
   "note": "C119_stop and C119_apart: the deadline. C119_behind_reset: without the condition on reset packets the claim is false, the decoder is in service mode when the emergency stop arrives."
  },
  {
   "property": "C120",
   "status": "proved",
   "theorems": [
    "C120_steps",
    "C120_defined",
    "C120_generated",
    "C120_once",
    "C120_room"
   ],
   "note": "C120_steps ties the steps to the calls. C120_defined and C120_generated: no undefined behaviour. C120_once: order of packets. C120_room: queues."
  },
  {
   "property": "C121",
   "status": "partial",
   "theorems": [
    "C121_steps",
    "C121_forgets_refuted",
    "C121_serial_partial",
    "C121_next",
    "C121_enable"
   ],
   "note": "C121_forgets_refuted: the literal claim fails. C121_serial_partial: the condition under which the call takes place at one moment. C121_next: all that can go wrong, for any interrupts. C121_steps ties the steps to the calls, C121_enable covers enable() and a second disable()."
  },
  {
   "property": "C122",
   "status": "proved",
   "theorems": [
    "C122_stored",
    "C122_in_the_end",
    "C122_selection_needed"
   ],
   "note": "C122_stored: storing is due once more or the CVs are as told, and the former only after a logon packet. C122_in_the_end: without a logon packet the execution ends it. C122_example: 978 in the CVs after a second assignment in the middle, put right by the next execution. What the application makes of the writes is its own business: the claim is about the writes. C122_selection_needed: without a selection it fails."
  },
  {
   "property": "C123",
   "status": "proved",
   "theorems": [
    "C123_calls",
    "C123_datagram",
    "C123_interpreter"
   ],
   "note": "C123_calls: init() and callbacks are not changed by interrupts. C123_datagram: datagram() is no command. C123_interpreter: the whole loop against the interpreter of C73. C123_ex: packets come in during init(), execute(), datagram() and another init()."
  },
  {
   "property": "C124",
   "status": "proved",
   "theorems": [
    "C124_whole"
   ],
   "note": "C124_whole joins the linearisation of the interrupted station (C94) with C123. C124_ex: two packets, both sides interrupted before every step, with init(), execute() and datagram() in the main loop."
  },
  {
   "property": "C125",
   "status": "proved",
   "theorems": [
    "C125_packets",
    "C125_off",
    "C125_interpreter",
    "C125_needed"
   ],
   "note": "C125_off and C125_packets: after every main loop logon is off and handlers leave the decoder as it was. C125_interpreter drops the premise of C123 that no logon packet comes in. C125_ex: five logon packets, an ASSIGN for this very decoder among them, during init() and execute(). C125_needed: the same loop with logon on leaves the consist."
  },
  {
   "property": "C126",
   "status": "proved",
   "theorems": [
    "C126_station"
   ],
   "note": "C126_station joins the linearisation of the interrupted station (C94) with C125. C126_ex: an address is assigned to this very decoder between two commands; both commands are obeyed."
  },
  {
   "property": "C127",
   "status": "proved",
   "theorems": [
    "C127_turn",
    "C127_progress"
   ],
   "note": "C127_turn: exactly which packet an interrupted execution takes. C127_progress: a lower bound for what has been executed. C127_ex: three packets wait, the first of four executions is held up, the other three execute them while three more come in."
  },
  {
   "property": "C128",
   "status": "proved",
   "theorems": [
    "C128_same",
    "C128_interpreter"
   ],
   "note": "C128_same: from every state, the two instantiations go step by step together. C128_interpreter: C123_interpreter for such applications. C128_ex: a consist address is stored by an asynchronous request while the next packet comes in. C128_needed: an application that answers later leaves a different decoder behind."
  },
  {
   "property": "C129",
   "status": "proved",
   "theorems": [
    "C129_delivered"
   ],
   "note": "C129_delivered joins C124 (order and meaning) with C127 (progress). The queue must never be full (loop_roomy), as in C124. C129_ex: three packets wait, the loop goes on while the rest of the track comes in."
  },
  {
   "property": "C130",
   "status": "proved",
   "theorems": [
    "C130_loop",
    "C130_station"
   ],
   "note": "C130_loop: C114_decoder for an interrupted main loop. C130_station: C114_station with both sides interrupted, progress counted in executions (C129) instead of time. C130_ex: the run of C129_ex."
  },
  {
   "property": "C131",
   "status": "proved",
   "theorems": [
    "C131_loop",
    "C131_station"
   ],
   "note": "C131_loop: a decoder interrupted in every call. C131_station: C119 with both sides interrupted, progress counted in executions (C129) instead of time. C131_ex: a speed and a stop that wait while the main loop is busy with datagram()."
  },
  {
   "property": "C132",
   "status": "proved",
   "theorems": [
    "C132_delivered",
    "C132_halted"
   ],
   "note": "C132_delivered, C132_halted: C129 and C131 for applications that are asked asynchronously, by C128. C132_ex: a consist address written by an asynchronous request and an emergency stop, both waiting while the main loop is busy. That answering at once is needed is C128_needed."
  }
 ]
}