{"id": "C01", "title": "Locomotive addresses survive the wire", "statement": "Encoding a locomotive address and decoding the resulting bytes gives the same address value and type. This holds exactly for broadcast 0, short 1..127 and long 0..10239; every long address from 10240 to 16383 comes back as something else (reserved, data transfer, logon or idle).", "quantifier": "every address value 0..65535 and both locomotive address types, with arbitrary bytes following on the wire", "why_tests_cant": "the tests only try three addresses; the claim is about all 16-bit values and about the exact boundary", "anchors": ["include/dcc/address.hpp:encode_address", "include/dcc/address.hpp:decode_address"]}
{"id": "C02", "title": "Address equality is an equivalence", "statement": "Comparing two addresses never depends on the order, is transitive and reflexive, ignores the direction flag, and identifies a short and a long address exactly when their numbers are equal.", "quantifier": "all triples of addresses", "why_tests_cant": "an algebraic law over all triples", "anchors": ["include/dcc/address.hpp:operator=="]}
{"id": "C03", "title": "Every first byte has exactly one address class", "statement": "Decoding looks at the first byte only to find the class; the classes partition 0..255 as documented and only the long class reads a second byte.", "quantifier": "every first byte and every continuation", "why_tests_cant": "a partition claim over all bytes, plus absence of a read beyond the first byte", "anchors": ["include/dcc/address.hpp:decode_address"]}
{"id": "C04", "title": "Every instruction byte is classified and the packet overload skips the address", "statement": "Classification of the instruction is total: the class only depends on the top nibble of the byte following the one- or two-byte address; a value of 'unknown' or 'logon' is never reported.", "quantifier": "every packet", "why_tests_cant": "totality and non-reachability over all inputs", "anchors": ["include/dcc/instruction.hpp:decode_instruction"]}
{"id": "C05", "title": "Integer/byte helpers are inverse", "statement": "Writing a 16 or 32 bit word and reading it back gives the word; reading bytes and writing them back gives the bytes, big endian.", "quantifier": "every word and every byte quadruple", "why_tests_cant": "2^32 inputs", "anchors": ["include/dcc/utility.hpp:data2uint16", "include/dcc/utility.hpp:uint16_2data", "include/dcc/utility.hpp:data2uint32", "include/dcc/utility.hpp:uint32_2data"]}
{"id": "C06", "title": "CRC-8 is the Dallas/Maxim CRC", "statement": "The table driven CRC of any message equals the bit-serial CRC with polynomial x^8+x^5+x^4+1 (reflected, init 0), and a message followed by its CRC has CRC zero.", "quantifier": "every message of every length", "why_tests_cant": "unbounded message length", "anchors": ["include/dcc/crc8.hpp:crc8"]}
{"id": "C07", "title": "CRC-8 detects every burst up to 8 bits and is linear", "statement": "If the bit difference of two equally long messages is a non-zero burst of at most 8 bits (at any bit position, spanning byte boundaries) then their CRCs differ.", "quantifier": "every message of every length, every burst position and pattern", "why_tests_cant": "unbounded", "anchors": ["include/dcc/crc8.hpp:crc8"]}
{"id": "C08", "title": "The XOR checksum closes every packet and exposes any single-byte error", "statement": "All bytes of a generated packet XOR to zero, and changing any one byte of a packet that XORs to zero to any other value makes the XOR non-zero.", "quantifier": "every generator with every argument; every packet, position and corrupted value", "why_tests_cant": "universally quantified over packets and errors", "anchors": ["include/dcc/exor.hpp:exor", "include/dcc/utility.hpp:make_*_packet"]}
{"id": "C09", "title": "BiDi 4-out-of-8 code is a bijection", "statement": "Every 6-bit value is coded to a byte with exactly four ones, distinct values to distinct bytes, none of which is an ACK or NACK, and decoding inverts encoding for datagrams of any length.", "quantifier": "every 6-bit value, every datagram of every length", "why_tests_cant": "datagrams of arbitrary length; disjointness from control codes", "anchors": ["include/dcc/bidi/datagram.hpp:encode_datagram", "include/dcc/bidi/datagram.hpp:decode_datagram", "include/dcc/bidi/datagram.hpp:acks", "include/dcc/bidi/datagram.hpp:nack"]}
{"id": "C10", "title": "BiDi datagrams carry ID and data losslessly", "statement": "For each datagram size, make_data(decode(encode(make_datagram(id, data)))) equals id * 2^(bits-4) + data for every id < 16 and every data in range; out-of-range data is rejected by the assertion; without ID likewise.", "quantifier": "every size, id and datum", "why_tests_cant": "2^44 data values", "anchors": ["include/dcc/bidi/datagram.hpp:make_datagram", "include/dcc/bidi/datagram.hpp:make_data"]}
{"id": "C11", "title": "Speed scaling is monotone and covers 0..255", "statement": "For 14, 28 and 126 speed steps, scaling maps 0 to 0, step 1 to the same minimum, the top step to 255, is strictly increasing, and never leaves 0..255.", "quantifier": "every step of every scale", "why_tests_cant": "relation between all pairs", "anchors": ["include/dcc/utility.hpp:scale_speed"]}
{"id": "C12", "title": "Generated packets are self-describing", "statement": "For every packet generator and every argument in range the packet fits the packet size, has the documented length, decodes to the given address and the documented instruction class, and every argument can be recovered from its bytes.", "quantifier": "every generator, every address 0..10239, every argument", "why_tests_cant": "argument spaces of up to 2^40", "anchors": ["include/dcc/utility.hpp:make_*_packet", "include/dcc/address.hpp:encode_address", "include/dcc/instruction.hpp:decode_instruction"]}
{"id": "C13", "title": "Packet timings have the documented bit structure and always fit", "statement": "The timings of n bytes are preamble ones, then per byte a start zero and eight data bits MSB first, then one end one, each bit as two equal half bits; their number is 2*(preamble+9n+1), which never exceeds the capacity for up to 18 bytes and any preamble count.", "quantifier": "every byte string up to 18 bytes and every configuration", "why_tests_cant": "all byte strings", "anchors": ["include/dcc/tx/timings.hpp:bytes2timings", "include/dcc/tx/timings.hpp:Timings"]}
{"id": "C14", "title": "The command station sends queued packets once each, in order", "statement": "Over any interleaving of queueing and bit polling, the durations returned are exactly: idle packet, then the accepted packets in the order queued, each complete and exactly once, idle packets only when nothing is queued at the packet boundary, each followed by the cutout if enabled. A packet is refused only if three are waiting.", "quantifier": "every sequence of bytes()/transmit() calls of any length", "why_tests_cant": "schedules of unbounded length", "anchors": ["include/dcc/tx/crtp_base.hpp:transmit", "include/dcc/tx/crtp_base.hpp:bytes", "include/dcc/tx/crtp_base.hpp:packetTiming", "include/dcc/tx/crtp_base.hpp:bidiTiming"]}
{"id": "C15", "title": "Track outputs are never shorted and alternate", "statement": "In every reported output pair not both sides are high; while packet bits are sent the two sides are complementary and flip each half bit starting with the configured phase; both low only between cutout start and end.", "quantifier": "every sequence of calls, both phases", "why_tests_cant": "schedules of unbounded length", "anchors": ["include/dcc/tx/crtp_base.hpp:packetTiming", "include/dcc/tx/crtp_base.hpp:bidiTiming"]}
{"id": "C16", "title": "BiDi cutout is 471 us and its callbacks come once and in order", "statement": "After each packet with BiDi enabled the five cutout durations are 29, 51, 113, 261, 17 us (sum 471); start, channel 1, channel 2 and end callbacks are made exactly once in that order at 29, 80, 193 and 454 us.", "quantifier": "every packet boundary in every schedule", "why_tests_cant": "every boundary of unbounded schedules", "anchors": ["include/dcc/tx/crtp_base.hpp:bidiTiming", "include/dcc/bidi/timing.hpp"]}
{"id": "C17", "title": "A packet being transmitted is never overwritten by later queueing", "statement": "While a packet is on the track, queueing further packets never changes the remaining durations, although the transmitter only keeps a pointer into the queue's storage.", "quantifier": "every schedule; ring buffer with one spare slot", "why_tests_cant": "pointer aliasing depends on the schedule and the ring layout", "anchors": ["include/dcc/tx/crtp_base.hpp:transmit", "include/dcc/tx/crtp_base.hpp:bytes"]}
{"id": "C18", "title": "The configured preamble and durations apply to everything sent", "statement": "After configuring the transmitter, packets queued from then on use the configured preamble length and durations. Idle packets do not: they always use the compile-time default.", "quantifier": "every valid configuration and schedule", "why_tests_cant": "needs all configurations and schedules", "anchors": ["include/dcc/tx/crtp_base.hpp:init", "include/dcc/tx/crtp_base.hpp:_idle_packet"]}
{"id": "C19", "title": "The decoder receives every well-formed packet", "statement": "Feeding the half-bit durations of any valid packet (3..18 bytes, XOR zero, not the logon address) with any tolerated durations and at least 10 preamble bits to a decoder waiting for a preamble, with room in its queue, queues exactly that packet and flags packet end.", "quantifier": "every packet, every assignment of tolerated durations to half bits, every decoder state between packets", "why_tests_cant": "all packets, all jitters, all states", "anchors": ["include/dcc/rx/crtp_base.hpp:receive", "include/dcc/rx/timing.hpp:time2bit"]}
{"id": "C20", "title": "The decoder accepts nothing but framed, checksummed packets", "statement": "Whatever durations are fed in whatever state history, whenever packet end is flagged the valid half bits seen so far end with: at least 20 ones, a zero, and a correctly framed byte string that XORs to zero and has at least 3 bytes; exactly that byte string is what is queued.", "quantifier": "every sequence of durations", "why_tests_cant": "all histories", "anchors": ["include/dcc/rx/crtp_base.hpp:receive"]}
{"id": "C21", "title": "The decoder resynchronises", "statement": "From any receiver state whatsoever, of two consecutive well-formed packets with a standard preamble the second is always received.", "quantifier": "every receiver state (bit position, half-bit phase, partial bytes) and every packet pair", "why_tests_cant": "every corrupted history", "anchors": ["include/dcc/rx/crtp_base.hpp:receive", "include/dcc/rx/crtp_base.hpp:reset"]}
{"id": "C22", "title": "Invalid durations are ignored", "statement": "Durations that are neither a zero nor a one never change what the decoder will do: inserting any number of them anywhere in a stream yields the same queued packets and same state except for the packet end flag.", "quantifier": "every stream and every insertion", "why_tests_cant": "all insertions in all streams", "anchors": ["include/dcc/rx/crtp_base.hpp:receive", "include/dcc/rx/timing.hpp:time2bit"]}
{"id": "C23", "title": "The receive queue is a bounded FIFO that drops whole packets", "statement": "Packets are executed in reception order, each exactly once; the queue never exceeds 31; while it is full new packets are dropped as a whole and nothing queued is altered.", "quantifier": "every interleaving of receive() and execute() of any length", "why_tests_cant": "unbounded schedules", "anchors": ["include/dcc/rx/crtp_base.hpp:receive", "include/dcc/rx/crtp_base.hpp:executeThreadMode"]}
{"id": "C24", "title": "Oversized frames cannot corrupt memory", "statement": "No sequence of durations makes the decoder store more than 18 bytes of a packet. (False: there is no bound check. Holds when no frame has more than 18 bytes.)", "quantifier": "every sequence of durations", "why_tests_cant": "requires adversarial track signals", "anchors": ["include/dcc/rx/crtp_base.hpp:receive"]}
{"id": "C25", "title": "Packet end flag and execution gate", "statement": "packetEnd() is true exactly after the receive() call that completed a valid packet and until the next receive(); execute() does nothing and returns false in that window or when nothing is queued, and otherwise consumes exactly one packet.", "quantifier": "every sequence of calls", "why_tests_cant": "all histories", "anchors": ["include/dcc/rx/crtp_base.hpp:packetEnd", "include/dcc/rx/crtp_base.hpp:executeThreadMode", "include/dcc/rx/crtp_base.hpp:receive"]}
{"id": "C26", "title": "What the command station queues is what the decoder receives", "statement": "Connecting transmit() to receive() (with or without cutout), every packet the transmitter puts on the track is received by the decoder in the same order and nothing else is.", "quantifier": "every schedule of queueing, every valid configuration, every valid packet", "why_tests_cant": "end to end over unbounded schedules", "anchors": ["include/dcc/tx/crtp_base.hpp:transmit", "include/dcc/rx/crtp_base.hpp:receive", "include/dcc/tx/timings.hpp:bytes2timings"]}
{"id": "C27", "title": "Packets for other decoders have no effect", "statement": "Executing a packet whose address is neither broadcast, own, consist nor logon address makes no call to direction, speed, function, CV or service hooks, leaves configuration and mode unchanged, and returns false.", "quantifier": "every packet, every decoder state and implementation", "why_tests_cant": "all packets and states", "anchors": ["include/dcc/rx/crtp_base.hpp:executeOperationsAddressed"]}
{"id": "C28", "title": "Own-address decision", "statement": "execute() returns true in operations mode exactly for address value 0, the primary or consist address while no logon address is active, and the logon address; commands to the logon address are reported under the primary address.", "quantifier": "every packet and state", "why_tests_cant": "all states", "anchors": ["include/dcc/rx/crtp_base.hpp:executeOperationsAddressed", "include/dcc/rx/crtp_base.hpp:executeOperations"]}
{"id": "C29", "title": "128-step speed commands", "statement": "A 126-step speed packet for the own address produces exactly one direction and one speed call with the commanded direction and the scaled step (0 stop), or exactly one emergency stop speed call for code 1.", "quantifier": "every address, speed byte, state and implementation", "why_tests_cant": "all speed bytes and states", "anchors": ["include/dcc/rx/crtp_base.hpp:advancedOperations", "include/dcc/rx/crtp_base.hpp:directionSpeed", "include/dcc/utility.hpp:make_advanced_operations_speed_packet"]}
{"id": "C30", "title": "14 and 28 step speed commands", "statement": "A basic speed packet gives stop, emergency stop or the scaled step; with CV29 bit 1 clear it is a 14 step command that also reports F0 from bit 4, with it set a 28 step command where bit 4 selects the intermediate step.", "quantifier": "every instruction byte, state and implementation", "why_tests_cant": "all bytes and configurations", "anchors": ["include/dcc/rx/crtp_base.hpp:speedAndDirection", "include/dcc/utility.hpp:make_speed_and_direction_packet"]}
{"id": "C31", "title": "Direction inversion", "statement": "Direction reported for the primary address is inverted exactly when CV29 bit 0 is set; for the consist address exactly when CV19 bit 7 is set.", "quantifier": "every speed command and configuration", "why_tests_cant": "all configurations", "anchors": ["include/dcc/rx/crtp_base.hpp:directionSpeed", "include/dcc/rx/crtp_base.hpp:init"]}
{"id": "C32", "title": "Function groups F0..F28", "statement": "For each function group packet, exactly one function call is made whose mask names exactly the functions of the group and whose state has exactly the commanded values (F0 excluded from the mask with 14 speed steps).", "quantifier": "every group, state byte and decoder configuration", "why_tests_cant": "all bytes", "anchors": ["include/dcc/rx/crtp_base.hpp:functionGroup", "include/dcc/rx/crtp_base.hpp:featureExpansion", "include/dcc/utility.hpp:make_function_group_*_packet", "include/dcc/utility.hpp:make_feature_expansion_*_packet"]}
{"id": "C33", "title": "Speed/direction/function packets F0..F31", "statement": "A combined packet with k function bytes produces k function calls naming F(8i)..F(8i+7) with the commanded states, followed by the speed calls. (False for the fourth byte: F24..F31 are reported with the mask of F0..F7.)", "quantifier": "every number of function bytes and every content", "why_tests_cant": "all contents; four-byte case is not tested", "anchors": ["include/dcc/rx/crtp_base.hpp:advancedOperations", "include/dcc/utility.hpp:make_advanced_operations_speed_direction_and_functions_packet"]}
{"id": "C34", "title": "A CV is written exactly once per run of identical write packets", "statement": "In operations mode a CV write packet repeated k times in a row (ignoring packets that are not own CV packets) causes no write for k=1 and exactly one write with the commanded value for every k>=2.", "quantifier": "every k, CV, value, every interleaving with other traffic", "why_tests_cant": "unbounded repetitions", "anchors": ["include/dcc/rx/crtp_base.hpp:cvLong", "include/dcc/rx/crtp_base.hpp:countOwnEqualCvPackets", "include/dcc/rx/crtp_base.hpp:cvWrite"]}
{"id": "C35", "title": "POM reads answer with the CV value", "statement": "Verifying a CV in operations mode makes one read of exactly that CV and puts exactly one 12-bit datagram with ID 0 and the value read into the channel 2 queue.", "quantifier": "every CV, every value, every state", "why_tests_cant": "all CVs and values", "anchors": ["include/dcc/rx/crtp_base.hpp:cvVerify", "include/dcc/rx/crtp_base.hpp:pom"]}
{"id": "C36", "title": "Bit manipulation addresses the right bit", "statement": "CV bit verify/write packets read or write exactly the commanded bit position and value of the commanded CV.", "quantifier": "every CV, bit, position", "why_tests_cant": "all combinations", "anchors": ["include/dcc/rx/crtp_base.hpp:cvLong", "include/dcc/utility.hpp:make_cv_access_long_verify_packet", "include/dcc/utility.hpp:make_cv_access_long_write_packet"]}
{"id": "C37", "title": "Decoder lock", "statement": "While CV15 and CV16 are non-zero and different, no packet sequence causes any CV read access by verification, nor any CV write except to CV15 (apart from storing logon data).", "quantifier": "every sequence of packets and calls", "why_tests_cant": "all histories", "anchors": ["include/dcc/rx/crtp_base.hpp:cvVerify", "include/dcc/rx/crtp_base.hpp:cvWrite", "include/dcc/rx/crtp_base.hpp:init"]}
{"id": "C38", "title": "Service mode is entered and left only as specified", "statement": "The mode changes to service only by a packet with address 0 and instruction 0x00, and back only by a packet which is neither a reset nor in 0x70..0x7F; each change makes exactly one hook call.", "quantifier": "every packet in every state", "why_tests_cant": "all packets", "anchors": ["include/dcc/rx/crtp_base.hpp:serviceMode", "include/dcc/rx/crtp_base.hpp:executeService", "include/dcc/rx/crtp_base.hpp:executeOperationsAddressed"]}
{"id": "C39", "title": "Service mode acknowledges only true statements", "statement": "In service mode an acknowledge is given only when the value (or bit) read or written back equals the one in the packet, at most once per packet, and in direct mode only at the second identical packet.", "quantifier": "every packet sequence, CV content", "why_tests_cant": "all histories", "anchors": ["include/dcc/rx/crtp_base.hpp:cvVerifyImpl", "include/dcc/rx/crtp_base.hpp:cvWriteImpl", "include/dcc/rx/crtp_base.hpp:registerMode", "include/dcc/rx/crtp_base.hpp:cvLong"]}
{"id": "C40", "title": "A repeated service mode verify is acknowledged again", "statement": "A direct-mode verify of a correct value sent twice after (re-)entering service mode is acknowledged. (False: the repetition counter survives leaving and re-entering service mode, so an identical second session stays unanswered.)", "quantifier": "every session history", "why_tests_cant": "depends on the previous session", "anchors": ["include/dcc/rx/crtp_base.hpp:countOwnEqualCvPackets", "include/dcc/rx/crtp_base.hpp:cvLong", "include/dcc/rx/crtp_base.hpp:serviceMode"]}
{"id": "C41", "title": "CV addresses handed to the application are in 0..1023", "statement": "Every CV access caused by a packet uses an address below 1024. (False in paged mode with page register 0, which accesses 2^32-4 .. 2^32-1.)", "quantifier": "every packet sequence", "why_tests_cant": "depends on the history of the page register", "anchors": ["include/dcc/rx/crtp_base.hpp:registerMode", "include/dcc/rx/crtp_base.hpp:cvLong", "include/dcc/rx/crtp_base.hpp:cvShort"]}
{"id": "C42", "title": "Short form CV access", "statement": "The short form writes CV23/CV24 at once, and CV17+18+29.5 or CV31+32 exactly at the second identical packet, with the values in the packet.", "quantifier": "every packet and repetition count", "why_tests_cant": "all histories", "anchors": ["include/dcc/rx/crtp_base.hpp:cvShort"]}
{"id": "C43", "title": "Configuration is a function of the CVs", "statement": "After init() the addresses, direction flags, F0 exception, lock and BiDi switches are exactly those determined by CV1,15..20,28,29 per RCN-225, whatever they were before.", "quantifier": "every CV content and every previous state", "why_tests_cant": "2^72 CV contents", "anchors": ["include/dcc/rx/crtp_base.hpp:init"]}
{"id": "C44", "title": "CV1 contents cannot make init read out of bounds", "statement": "init() performs no out-of-bounds read. (False for CV1 in 192..231 with CV29 bit 5 clear; holds otherwise.)", "quantifier": "every CV content", "why_tests_cant": "needs a sanitizer and the right CV value", "anchors": ["include/dcc/rx/crtp_base.hpp:init", "include/dcc/address.hpp:decode_address"]}
{"id": "C45", "title": "Writing a configuration CV takes effect immediately", "statement": "After a successful write of one of CV1,15..20,28,29 by packet with a synchronous CV store the active configuration equals that of a fresh init on the new CVs.", "quantifier": "every CV, value and previous state", "why_tests_cant": "all states", "anchors": ["include/dcc/rx/crtp_base.hpp:cvWrite", "include/dcc/rx/crtp_base.hpp:init"]}
{"id": "C46", "title": "Consist control", "statement": "A consist control packet writes CV19 with the consist address and direction bit, and the consist address is used from then on.", "quantifier": "every consist address and direction", "why_tests_cant": "all values and states", "anchors": ["include/dcc/rx/crtp_base.hpp:consistControl", "include/dcc/rx/crtp_base.hpp:cvWrite"]}
{"id": "C47", "title": "No CV access through the consist address", "statement": "Packets addressed to the (non-zero) consist address never cause CV reads or writes by CV access instructions.", "quantifier": "every CV access packet and state", "why_tests_cant": "all packets and states", "anchors": ["include/dcc/rx/crtp_base.hpp:cvLong", "include/dcc/rx/crtp_base.hpp:cvShort"]}
{"id": "C48", "title": "Logon selection and assignment only with the own unique ID", "statement": "A LOGON_SELECT/LOGON_ASSIGN changes the decoder state or queues an answer only if logon is enabled and the 32 bit ID equals CV250..253. (The manufacturer part is not compared: a decoder answers selection of another manufacturer's decoder with the same 32 bit ID.)", "quantifier": "every logon packet and state", "why_tests_cant": "2^32 IDs, all states", "anchors": ["include/dcc/rx/crtp_base.hpp:executeAutomaticLogon", "include/dcc/rx/crtp_base.hpp:logonSelect", "include/dcc/rx/crtp_base.hpp:logonAssign"]}
{"id": "C49", "title": "Logon enable", "statement": "LOGON_ENABLE is answered with the manufacturer and unique ID exactly if enabled, not yet selected, group matches and backoff has expired; the same command station within 4 sessions skips the logon and restores the stored address.", "quantifier": "every group, CID, session, state and random sequence", "why_tests_cant": "random backoff and history", "anchors": ["include/dcc/rx/crtp_base.hpp:logonEnable", "include/dcc/rx/backoff.hpp"]}
{"id": "C50", "title": "Logon assigns the requested address", "statement": "LOGON_ASSIGN makes the decoder listen to exactly the assigned long address. (False when the two flag bits are not 11; then a different address results.)", "quantifier": "every address and flag combination", "why_tests_cant": "all combinations", "anchors": ["include/dcc/rx/crtp_base.hpp:executeAutomaticLogon", "include/dcc/rx/crtp_base.hpp:logonAssign", "include/dcc/address.hpp:decode_address"]}
{"id": "C51", "title": "The logon address survives a power cycle", "statement": "After assignment, storing, power cycle and logon skip the decoder has the same logon address. (False for every long logon address: the stored high byte lacks the long address marker.)", "quantifier": "every assigned address", "why_tests_cant": "needs a crash/restart history", "anchors": ["include/dcc/rx/crtp_base.hpp:logonStore", "include/dcc/rx/crtp_base.hpp:logonEnable"]}
{"id": "C52", "title": "Logon answers never overflow their queue", "statement": "The logon answer queue never takes a second answer. (False if two answerable logon packets arrive without a channel 2 slot in between; holds if channel 2 is served after each.)", "quantifier": "every sequence of calls", "why_tests_cant": "schedule dependent", "anchors": ["include/dcc/rx/crtp_base.hpp:logonEnable", "include/dcc/rx/crtp_base.hpp:logonSelect", "include/dcc/rx/crtp_base.hpp:logonAssign", "include/dcc/rx/crtp_base.hpp:appLogon"]}
{"id": "C53", "title": "Damaged extended packets are ignored", "statement": "A logon packet of more than 7 bytes with wrong CRC has no effect at all besides being consumed.", "quantifier": "every such packet and state", "why_tests_cant": "all packets", "anchors": ["include/dcc/rx/crtp_base.hpp:executeHandlerMode"]}
{"id": "C54", "title": "Channel 1 broadcasts the active address alternately", "statement": "The sequence of channel 1 transmissions for locomotive addresses alternates high and low address datagram; each pair decodes to the address active when it was prepared.", "quantifier": "every schedule of receive, execute and cutouts", "why_tests_cant": "unbounded schedules", "anchors": ["include/dcc/rx/crtp_base.hpp:adr", "include/dcc/rx/crtp_base.hpp:appAdr", "include/dcc/rx/crtp_base.hpp:adrHigh", "include/dcc/rx/crtp_base.hpp:adrLow"]}
{"id": "C55", "title": "Channel 2 answers only when addressed", "statement": "biDiChannel2() transmits only if the last received packet was broadcast, own, enabled consist or logon; nothing is transmitted after a packet for another decoder or an invalid packet.", "quantifier": "every state and history", "why_tests_cant": "all histories", "anchors": ["include/dcc/rx/crtp_base.hpp:biDiChannel2", "include/dcc/rx/crtp_base.hpp:appPom", "include/dcc/rx/crtp_base.hpp:appDyn", "include/dcc/rx/crtp_base.hpp:appTos", "include/dcc/rx/crtp_base.hpp:appLogon"]}
{"id": "C56", "title": "Dynamic data datagrams are a lossless FIFO while not blocked", "statement": "Dyn datagrams leave channel 2 in the order queued, at most two per cutout, each exactly once, led by the quality of service; the queue never exceeds 7 and once found full accepts nothing until it is found empty.", "quantifier": "every schedule", "why_tests_cant": "unbounded schedules", "anchors": ["include/dcc/rx/crtp_base.hpp:datagram", "include/dcc/rx/crtp_base.hpp:dyn", "include/dcc/rx/crtp_base.hpp:appDyn"]}
{"id": "C57", "title": "Dynamic data values are encoded faithfully", "statement": "Speed 0..511 km/h, temperature -50..205 C and track voltage 5.0..30.5 V can be recovered exactly (voltage: to 100 mV) from the datagram; speeds above 511 saturate; voltages from 30.6 V wrap around.", "quantifier": "every 16-bit value", "why_tests_cant": "all values and the exact boundary", "anchors": ["include/dcc/rx/crtp_base.hpp:dyn"]}
{"id": "C58", "title": "Quality of service is a percentage", "statement": "The reported quality of service is always within 0..100. (False: if execute() runs while a packet is being received the value can become 255; never any other out-of-range value.)", "quantifier": "every schedule", "why_tests_cant": "depends on execute() timing relative to a packet over 100 packets", "anchors": ["include/dcc/rx/crtp_base.hpp:updateQos", "include/dcc/rx/crtp_base.hpp:receive"]}
{"id": "C59", "title": "Backoff is bounded", "statement": "Backoff lets the next attempt through after at most 63 suppressed ones, immediately after now(), whatever the random numbers.", "quantifier": "every random sequence", "why_tests_cant": "random", "anchors": ["include/dcc/rx/backoff.hpp:Backoff"]}
{"id": "C60", "title": "Tip-off search answers", "statement": "A tip-off search is answered with the own address and the time since power-up in 0..29 s, only in the first 30 s, provided the clock never runs backwards. (With a clock step backwards the datagram assertion fails.)", "quantifier": "every clock and random sequence", "why_tests_cant": "clock behaviour", "anchors": ["include/dcc/rx/crtp_base.hpp:tipOffSearch", "include/dcc/rx/crtp_base.hpp:updateTimepoints", "include/dcc/rx/crtp_base.hpp:appTos"]}
{"id": "C61", "title": "BiDi transmissions have legal sizes and codes", "statement": "Every BiDi transmission in channel 1 has 2 bytes, in channel 2 between 1 and 6 bytes, and consists only of legal 4-out-of-8 bytes; no stale buffer content is ever transmitted.", "quantifier": "every reachable state", "why_tests_cant": "all histories", "anchors": ["include/dcc/rx/crtp_base.hpp:biDiChannel1", "include/dcc/rx/crtp_base.hpp:biDiChannel2"]}
{"id": "C62", "title": "A disabled decoder does not receive", "statement": "After disable() no packets are received until enable(). (False: the flag is never consulted.)", "quantifier": "every stream", "why_tests_cant": "a negative property", "anchors": ["include/dcc/rx/crtp_base.hpp:disable", "include/dcc/rx/crtp_base.hpp:enable", "include/dcc/rx/crtp_base.hpp:receive"]}
{"id": "C63", "title": "Generated traffic never triggers undefined behaviour", "statement": "Executing any packets produced by the library's own generators (valid arguments) never reads out of bounds, whatever the order, repetition, state and CV contents (with CV1 not in 192..231).", "quantifier": "every sequence of generated packets and every implementation", "why_tests_cant": "memory safety over all sequences", "anchors": ["include/dcc/rx/crtp_base.hpp:executeThreadMode", "include/dcc/utility.hpp:make_*_packet"]}
{"id": "C64", "title": "Malformed lengths never trigger undefined behaviour", "statement": "Executing any checksummed packet never reads outside the packet. (False: a too short packet makes handlers read beyond its end.)", "quantifier": "every packet with valid checksum", "why_tests_cant": "adversarial input", "anchors": ["include/dcc/rx/crtp_base.hpp:advancedOperations", "include/dcc/rx/crtp_base.hpp:cvLong", "include/dcc/rx/crtp_base.hpp:executeAutomaticLogon"]}
{"id": "C65", "title": "Interrupts during execute() neither lose nor corrupt packets", "statement": "If receive() and cutout handlers preempt execute() between any two of its steps, packets are still executed in order exactly once and each step of one execution sees the same packet.", "quantifier": "every preemption point and every interrupt activity", "why_tests_cant": "preemption schedules", "anchors": ["include/dcc/rx/crtp_base.hpp:executeThreadMode", "include/dcc/rx/crtp_base.hpp:receive"]}
{"id": "C66", "title": "Asynchronous CV access reports through the callback only", "statement": "With asynchronous CV access nothing is acknowledged or queued until the callback is invoked, and then exactly as in the synchronous case with the reported value; configuration writes re-read the CVs at request time, not at completion.", "quantifier": "every completion time and value", "why_tests_cant": "schedules", "anchors": ["include/dcc/rx/crtp_base.hpp:cvVerifyImpl", "include/dcc/rx/crtp_base.hpp:cvWriteImpl", "include/dcc/rx/crtp_base.hpp:cvWrite"]}
{"id": "C67", "title": "RMT encoder output does not depend on memory refills", "statement": "The symbols emitted for a packet are cutout (if enabled), ZIMO 0 (if enabled), preamble, per byte a zero and its bits MSB first, end symbol, for every way the hardware hands out memory. (False if a refill boundary falls right after a non-final byte: the next start bit is dropped. Holds otherwise.)", "quantifier": "every packet and every refill schedule", "why_tests_cant": "refill boundaries depend on hardware timing", "anchors": ["src/rmt_dcc_encoder.c:rmt_encode_dcc"]}
{"id": "C68", "title": "RMT encoder and transmitter agree", "statement": "With ample memory, no cutout, no ZIMO 0 and default end bit, the durations of the RMT symbols equal the timings the C++ transmitter produces for the same bytes and configuration.", "quantifier": "every packet and configuration", "why_tests_cant": "all inputs, two implementations", "anchors": ["src/rmt_dcc_encoder.c:rmt_encode_dcc", "include/dcc/tx/timings.hpp:bytes2timings"]}
{"id": "C69", "title": "RMT configuration check", "statement": "An encoder is created exactly for configurations within the documented ranges, and its symbols then carry exactly the configured durations and levels.", "quantifier": "every configuration", "why_tests_cant": "2^40 configurations", "anchors": ["src/rmt_dcc_encoder.c:rmt_new_dcc_encoder"]}
{"id": "C70", "title": "Special operating modes", "statement": "A special operating mode packet sets the MAN flag to bit 7 and reports east if bit 6, west if bit 5, and neither otherwise. (False: 'neither' is never reported, west is.)", "quantifier": "every byte", "why_tests_cant": "negative case", "anchors": ["include/dcc/rx/crtp_base.hpp:advancedOperations"]}
{"id": "C71", "title": "A decoder receives what the RMT encoder sends", "statement": "Packets sent by the RMT encoder one after the other, for every configuration it accepts, are all received by a decoder that keeps up, in order and exactly once, with the last packet possibly outstanding until the next half bit. (False if the end bit with its gap is no valid one and a ZIMO 0 follows without cutout: then packets are lost. Proved for all other configurations.)", "quantifier": "every accepted configuration, every sequence of packets, every memory schedule that does not split between bytes, every gap, every interleaving of other decoder calls", "why_tests_cant": "two components, unbounded sessions; no test connects the C encoder to the C++ decoder", "anchors": ["src/rmt_dcc_encoder.c:rmt_encode_dcc", "include/dcc/rx/crtp_base.hpp:receive", "examples/esp32/main/app_main.cpp"]}
{"id": "C72", "title": "RMT encoders own their memory", "statement": "However creations fail (null pointer, configuration, calloc, copy encoder, bytes encoder) and in whatever order encoders are deleted, no block is freed twice, the living blocks are exactly three per encoder held, a failed creation leaves nothing behind, and the returned code is that of the first failure.", "quantifier": "every sequence of creations and deletions with every combination of failures", "why_tests_cant": "allocation failures are not provoked by tests", "anchors": ["src/rmt_dcc_encoder.c:rmt_new_dcc_encoder", "src/rmt_dcc_encoder.c:rmt_del_dcc_encoder"]}
{"id": "C73", "title": "The decoder is an interpreter of packets", "statement": "For an application that keeps its CVs, everything it sees (direction, speed, functions, CV accesses, mode changes, acknowledgements, in order), its CVs, the mode and the page register after any sequence of library calls are a function of the initial CVs and of the packets taken from the queue. The function is an interpreter with five values (CVs, mode, page, last CV packet, its repetitions) that reads the configuration from the CVs anew with every packet; nothing else in the decoder state, no timing and no interleaving has an influence.", "quantifier": "every application that keeps CV1 to CV1024, every initial CV content, every sequence of calls without logon packets, every packet sequence", "why_tests_cant": "tests fix single packets and states; the claim covers all histories and says that no hidden state exists", "anchors": ["include/dcc/rx/crtp_base.hpp:execute", "include/dcc/rx/crtp_base.hpp:executeOperations", "include/dcc/rx/crtp_base.hpp:executeService", "include/dcc/rx/crtp_base.hpp:init"]}
{"id": "C74", "title": "Command station, track and decoder together", "statement": "With the half bits of the command station fed to a decoder that keeps up, and any other calls of both in between, what the application behind the decoder sees and its CVs are those of the interpreter of C73 on the packets finished on the track, in order, less those the decoder has not executed yet.", "quantifier": "every station configuration, every sequence of station calls and decoder calls, every packet content other than logon packets", "why_tests_cant": "no test connects transmitter and decoder; unbounded sessions", "anchors": ["include/dcc/tx/crtp_base.hpp:transmit", "include/dcc/tx/crtp_base.hpp:packet", "include/dcc/rx/crtp_base.hpp:receive", "include/dcc/rx/crtp_base.hpp:execute"]}
{"id": "C75", "title": "Commands in, effects out", "statement": "Commands (speed, functions, binary states, CV access; writes sent twice) made with the packet generators for any locomotives and accepted by the station have on a decoder that keeps up exactly the effects of the commands carried out one after the other on CVs: those for other locomotives none, driving commands their calls, CV commands their accesses unless locked or under the consist number; a repeated write only compares. Hence every write that reaches an unlocked decoder is made. (False as soon as other packets change a CV between two equal writes: the second write is then only compared and lost.)", "quantifier": "every list of commands and locomotive numbers, every initial CV content, every timing of station and decoder calls, every position of idle packets", "why_tests_cant": "whole chain over unbounded sessions; tests look at one packet at a time", "anchors": ["include/dcc/packet.hpp", "include/dcc/tx/crtp_base.hpp:transmit", "include/dcc/rx/crtp_base.hpp:cvLong", "include/dcc/rx/crtp_base.hpp:countOwnEqualCvPackets", "include/dcc/rx/crtp_base.hpp:execute"]}
{"id": "C76", "title": "A session of the REPL example", "statement": "In the example repl, with documented arguments and addresses up to 127, the packets of the commands typed leave the FIFO in the order typed, the station accepts or drops each of them, and the decoder executes the accepted ones in order and nothing else but idle packets. If none was dropped, the calls into the class Decoder and its CVs are at any time those of the commands carried out one after the other.", "quantifier": "every interleaving of the command station task, the decoder task and the user, every session length, all documented arguments", "why_tests_cant": "the example has no tests; unbounded interleavings of three threads", "anchors": ["examples/repl/src/main.cpp", "examples/repl/src/decoder.cpp", "examples/repl/src/decoder.hpp"]}
{"id": "C77", "title": "Commands of the REPL example are carried out as documented", "statement": "A command typed for a documented address goes to the locomotive with this address, no command is lost, and no session ends in undefined behaviour or an exception. (False: addresses above 127 keep the type short and reach another locomotive, exactly; a FIFO entry is removed although the station's queue is full; the station task may run before the decoder task has set the handler; CV1 := 200 and CV commands to address 254 read out of bounds.)", "quantifier": "every documented command, every address", "why_tests_cant": "the example has no tests; exactness over all commands and addresses", "anchors": ["examples/repl/src/main.cpp:main", "examples/repl/src/main.cpp:command_station_task", "examples/repl/src/main.cpp:decoder_task", "include/dcc/address.hpp:operator="]}
{"id": "C78", "title": "A decoder that keeps up with a command station never fails and obeys every packet", "statement": "Whatever packets a command station is given and whenever its calls and those of the decoder are made, both make only defined steps, provided the application keeps CV1 a short address, its clock does not run backwards, execute() is called among any 76 durations and channel 2 only between packets. The decoder then obeys the packets finished on the track in order, all but the last one at most, as the interpreter of C73 says.", "quantifier": "every application, every configuration, every list of packets, every schedule of both sides", "why_tests_cant": "total correctness of two machines coupled by a track over unbounded schedules and all applications", "anchors": ["include/dcc/tx/crtp_base.hpp:transmit", "include/dcc/rx/crtp_base.hpp:receive", "include/dcc/rx/crtp_base.hpp:execute"]}
{"id": "C79", "title": "How often execute() has to be called", "statement": "If execute() is called among any 76 durations given to receive() in a row, the packet queue never holds more than one packet and nothing is dropped, whatever the durations are. With 77 instead of 76 this is false: packets are lost.", "quantifier": "every sequence of calls with every duration", "why_tests_cant": "exact bound over all traffic", "anchors": ["include/dcc/rx/crtp_base.hpp:receive", "include/dcc/rx/crtp_base.hpp:execute", "include/dcc/rx/crtp_base.hpp:packetEnd"]}
{"id": "C80", "title": "Everything ordered is done", "statement": "Orders (speed, functions, CV access) given to a station one at a time, with at least 783 transmitted intervals behind each, are all accepted, all transmitted and all carried out by a decoder that calls execute() among any 76 durations: its application sees exactly the effects of the orders, each once and in order, its CVs end as ordered, and no step on either side is undefined.", "quantifier": "every list of orders to any locomotives, every configuration, every application that keeps its CVs, every schedule of the decoder", "why_tests_cant": "liveness and total correctness of the whole chain over unbounded sessions", "anchors": ["include/dcc/packet.hpp", "include/dcc/tx/crtp_base.hpp:packet", "include/dcc/tx/crtp_base.hpp:transmit", "include/dcc/rx/crtp_base.hpp:receive", "include/dcc/rx/crtp_base.hpp:execute"]}
{"id": "C81", "title": "The decoder knows the application only by its answers", "statement": "Two applications, however they keep their state, that answer every call that is actually made alike (CV reads and writes, random numbers, clock, policies) get the same calls with the same arguments in the same order from any sequence of operations, and leave the decoder in the same state; if they agree on all calls, one run is undefined exactly if the other is.", "quantifier": "every pair of applications with any state types, every relation between their states, every sequence of operations", "why_tests_cant": "a relational property over all pairs of applications and unbounded histories", "anchors": ["include/dcc/rx/crtp_base.hpp", "include/dcc/rx/decoder.hpp"]}
{"id": "C82", "title": "Everything ordered is done, for any CV memory", "statement": "C80 holds for an application that stores whatever is written to it, CV1 included, provided CV1 is at most 127 at the start and the orders themselves keep it there: all orders are accepted, transmitted and carried out once and in order, and no step is undefined.", "quantifier": "every list of orders, every configuration, every application that keeps its CVs, every schedule of the decoder", "why_tests_cant": "liveness and total correctness over unbounded sessions, with an invariant of the CV memory that depends on the orders", "anchors": ["include/dcc/tx/crtp_base.hpp:transmit", "include/dcc/rx/crtp_base.hpp:receive", "include/dcc/rx/crtp_base.hpp:execute", "include/dcc/rx/crtp_base.hpp:init"]}
{"id": "C83", "title": "A patient user of the REPL example gets what is typed", "statement": "A session of the REPL example with documented arguments, addresses and CV1 up to 127, the decoder task ready first and running among any 76 intervals makes only defined steps. If the user leaves 785 intervals between two commands and 1567 behind the last one, no packet is dropped, the FIFO is empty in the end, and the class Decoder has got exactly the calls of the commands typed, in order, and holds the CVs written.", "quantifier": "every interleaving of the three threads, every sequence of commands", "why_tests_cant": "liveness of three threads over unbounded sessions; the example has no tests", "anchors": ["examples/repl/src/main.cpp:main", "examples/repl/src/main.cpp:command_station_task", "examples/repl/src/main.cpp:decoder_task", "examples/repl/src/decoder.cpp", "include/dcc/tx/crtp_base.hpp:transmit"]}
{"id": "C84", "title": "How seldom a decoder at the track of a station may call execute()", "statement": "A decoder that receives the intervals of a command station loses no packet and never has more than one in its queue if it calls execute() among any 90 intervals (95 with RailCom cutouts), or whenever the intervals since the last call add up to the shortest time from the end of a packet to the end of the next one (a packet of preamble, 17 ones and 11 zeros, plus the cutout). Then it obeys every packet. One interval or one microsecond more is not enough: with idle packets only and execute() right behind each of them, 5 packets of 40 are lost.", "quantifier": "every configuration, every sequence of station calls, every schedule of the decoder", "why_tests_cant": "a bound on schedules of unbounded length; that no packet has fewer than 11 zeros is a statement about all packets with a correct checksum; the exact bound is only visible with hundreds of packets", "anchors": ["include/dcc/tx/crtp_base.hpp:transmit", "include/dcc/rx/crtp_base.hpp:receive", "include/dcc/rx/crtp_base.hpp:execute"]}
{"id": "C85", "title": "Station and decoder board connected by two wires", "statement": "If the pins of the command station are wired to a decoder board that captures rising edges of both wires in turn (examples/stm32), every interval takes one timer tick longer, cutouts are merged into the half bit that follows and durations are measured with an error of at most one in 16, the decoder makes only defined steps and obeys all packets finished on the track before the last interval, in order, all but the last one at most; orders given at leisure are all carried out, once and in order. An error of one in 15 is too much.", "quantifier": "every configuration (inverted or not, with or without cutout), every sequence of station calls, every measurement within the error, any first duration, every schedule of the decoder", "why_tests_cant": "unbounded sessions with arbitrary measuring errors; the capture logic runs on hardware only", "anchors": ["examples/stm32/src/bsp.c:bsp_decoder_irq", "examples/stm32/src/bsp.c:bsp_command_station_irq", "examples/stm32/src/bsp.c:bsp_write_track", "examples/stm32/src/command_station.cpp:trackOutputs", "include/dcc/tx/crtp_base.hpp:transmit", "include/dcc/rx/crtp_base.hpp:receive"]}
{"id": "C86", "title": "The LEDs of the two boards of the example agree", "statement": "In the example for STM32, after any number of turns of the station's loop, with enough intervals transmitted between the commands and behind the last one, the decoder board has made only defined steps and its green and yellow LED are as those of the station board. Its delay of 5 ms between two calls of execute() is short enough.", "quantifier": "every number of turns, every number of intervals before, between and behind the commands, every measurement within the error, every schedule of the decoder", "why_tests_cant": "unbounded sessions of two programs on two boards; the example has no tests", "anchors": ["examples/stm32/src/command_station.cpp:main", "examples/stm32/src/decoder.cpp:main", "examples/stm32/src/decoder.cpp:speed", "examples/stm32/src/decoder.cpp:function", "examples/stm32/src/decoder.hpp:_cvs", "examples/stm32/src/bsp.c"]}
{"id": "C87", "title": "A decoder that is switched on while a station is sending", "statement": "A decoder that is switched on after any number of intervals of a command station's output, in the middle of a packet, of a byte, of a bit or of a cutout, makes only defined steps and takes exactly the packets from the first one on of which it gets at least 20 half bits of the preamble, in order. No end of a packet is ever taken for another packet.", "quantifier": "every configuration, every sequence of station calls, every number of intervals missed, every schedule of the decoder, every application", "why_tests_cant": "that no suffix of any packet contains a preamble is a statement about all packets; the tests always begin with a complete preamble", "anchors": ["include/dcc/tx/crtp_base.hpp:transmit", "include/dcc/rx/crtp_base.hpp:receive", "include/dcc/rx/crtp_base.hpp:execute"]}
{"id": "C88", "title": "A decoder after a disturbance", "statement": "Whatever a decoder has heard and done before (noise, other stations, broken packets), of the packets a station then sends at most the first one is lost, and none if its preamble has at least 20 bits; before them at most one packet is heard that nobody sent. Both bounds are reached: behind a packet that breaks off after its second byte the preamble of the next packet supplies a check byte that fits, and three bytes nobody has sent are taken for a packet; behind half a start bit a packet with a preamble of 19 bits is lost.", "quantifier": "every history of the decoder without undefined behaviour, every configuration of the station, every list of packets, every schedule of the decoder, every application", "why_tests_cant": "all possible states of the receiver after all possible disturbances", "anchors": ["include/dcc/rx/crtp_base.hpp:receive", "include/dcc/tx/crtp_base.hpp:transmit", "CMakeLists.txt:DCC_TX_MIN_PREAMBLE_BITS"]}
{"id": "C89", "title": "Packets sent by an RMT channel are obeyed", "statement": "Packets sent by the ESP32 encoder one after the other, with gaps after which the end bits still close and memory that is not exhausted between two bytes: a decoder makes only defined steps, takes exactly these packets in order and obeys them.", "quantifier": "every encoder configuration, all packets, all gaps and memory sizes within the hypotheses, every schedule of the decoder, every application", "why_tests_cant": "unbounded sequences of packets; encoder and decoder run on different chips", "anchors": ["src/rmt_dcc_encoder.c:rmt_encode_dcc", "include/dcc/rx/crtp_base.hpp:receive", "include/dcc/rx/crtp_base.hpp:execute"]}
{"id": "C90", "title": "The example for the ESP32", "statement": "The encoder of the example is created. However often the loop runs, with less than 56 microseconds between two transmissions and at least 64 symbols of memory at first, a decoder hears one idle packet for each turn, the last one perhaps only with the next turn, and does nothing. With 56 microseconds it hears nothing at all.", "quantifier": "every number of turns, every gap per turn, every memory, every schedule of the decoder, every application", "why_tests_cant": "an endless loop on hardware; the example has no tests", "anchors": ["examples/esp32/main/app_main.cpp:app_main", "src/rmt_dcc_encoder.c:rmt_new_dcc_encoder", "src/rmt_dcc_encoder.c:rmt_encode_dcc"]}
{"id": "C91", "title": "The conversation about CVs in channel 2", "statement": "What a decoder sends in the cutout behind a CV packet (long form) for its own number is a function of the packets executed and of the cutouts since init, given by an interpreter of a few lines: nothing while BiDi data are switched off; an acknowledgement if the packet is not the last CV packet executed; otherwise the value that waits, and then nothing until the next execution.", "quantifier": "every application that keeps its CVs, every memory, every sequence of calls without log-on packets and with channel 2 only between packets", "why_tests_cant": "unbounded histories; the tests look at single transmissions", "anchors": ["include/dcc/rx/crtp_base.hpp:biDiChannel2", "include/dcc/rx/crtp_base.hpp:cvLong", "include/dcc/rx/crtp_base.hpp:countOwnEqualCvPackets", "include/dcc/rx/crtp_base.hpp:execute"]}
{"id": "C92", "title": "Values in channel 2 are true", "statement": "If CVs are only written by CV packets, every value a decoder sends in the cutout behind a CV packet for its own number is the current content of the CV, or of the bit, which that packet asks for. If a consist instruction writes CV19 in between this is false: its value is sent as the answer to the read that follows.", "quantifier": "every application that keeps its CVs, every memory, every sequence of calls without log-on packets and with channel 2 only between packets", "why_tests_cant": "absence of a wrong value over all histories; the counterexample needs an instruction of another kind between two reads", "anchors": ["include/dcc/rx/crtp_base.hpp:biDiChannel2", "include/dcc/rx/crtp_base.hpp:cvLong", "include/dcc/rx/crtp_base.hpp:countOwnEqualCvPackets", "include/dcc/rx/crtp_base.hpp:execute", "include/dcc/rx/crtp_base.hpp:consistControl"]}
{"id": "C93", "title": "Reads and writes are answered", "statement": "When a decoder that is not locked has executed a CV packet for its own number that reads and hears it again, the cutout behind it carries the content of the CV (or bit), whatever was heard and executed before. When it has executed one that writes twice in a row and hears it again, the CV is written and the cutout carries the new content.", "quantifier": "every application that keeps its CVs, every memory, every history without log-on packets, every packet and every way the calls interleave", "why_tests_cant": "for all histories before the access", "anchors": ["include/dcc/rx/crtp_base.hpp:biDiChannel2", "include/dcc/rx/crtp_base.hpp:cvLong", "include/dcc/rx/crtp_base.hpp:countOwnEqualCvPackets", "include/dcc/rx/crtp_base.hpp:execute"]}
{"id": "C94", "title": "packet() may be interrupted by transmit()", "statement": "Whatever interrupts happen between the single steps of packet()/bytes() (look whether the queue is full, copy the configuration, build the timings, construct the element, copy one duration, count the element): nothing is undefined, and the intervals on the track, and at the end of a call the whole state, are those of uninterrupted calls each of which takes effect at one of its own steps. A decoder that keeps up obeys exactly the packets of these calls.", "quantifier": "every valid configuration, every interleaving of packets of up to 18 bytes, steps and interrupts of any length", "why_tests_cant": "a race: the tests never interrupt a call; the number of interleavings grows exponentially", "anchors": ["include/dcc/tx/crtp_base.hpp:packet", "include/dcc/tx/crtp_base.hpp:bytes", "include/dcc/tx/crtp_base.hpp:transmit", "include/dcc/tx/timings.hpp:bytes2timings", "examples/stm32/src/command_station.cpp"]}
{"id": "C95", "title": "Orders to other locomotives do not matter", "statement": "A command station gives orders to many locomotives. The application of one decoder sees exactly what it would see if only the orders to its own number, to its consist and to all had been given, and ends with the same CVs. So two sessions that differ in timing and in orders to others are the same to it.", "quantifier": "every valid transmitter configuration, every sequence of orders to any numbers, every pace of both sides within the stated bounds, every application that stores CVs; orders to this decoder that change its number excepted", "why_tests_cant": "a statement about two unbounded sessions at once; the tests feed one decoder with packets for it", "anchors": ["include/dcc/rx/crtp_base.hpp:execute", "include/dcc/rx/crtp_base.hpp:receive", "include/dcc/tx/crtp_base.hpp:transmit", "include/dcc/rx/crtp_base.hpp:executeOperations"]}
{"id": "C96", "title": "At most one decoder speaks in a cutout", "statement": "Two decoders hear the same durations. If there is no number for which both may speak (own number, or consist number with CV29 bit 3 and CV20 bit 7), then at any time at most one of them sends in channel 2, unless the last packet was one to all.", "quantifier": "every two applications that store CVs, every history of calls of each around the same durations", "why_tests_cant": "needs two decoders at once and all histories; a collision destroys both answers silently", "anchors": ["include/dcc/rx/crtp_base.hpp:biDiChannel2", "include/dcc/rx/crtp_base.hpp:appPom", "include/dcc/rx/crtp_base.hpp:appDyn"]}
{"id": "C97", "title": "A station reads a CV over the track", "statement": "A command station orders a CV or a bit of it to be read twice, with any orders before and any in between that are not for the CVs of this decoder. Then in the cutout behind the second packet the decoder sends one datagram, and it decodes to the value the CV has after the orders before.", "quantifier": "every valid transmitter configuration, every such sequence of orders, every pace of both sides within the stated bounds, every application that stores CVs", "why_tests_cant": "end-to-end over encoder, track, bit decoder, queue, repetition counter, CV access, answer queue and datagram encoding; the tests check these one by one", "anchors": ["include/dcc/rx/crtp_base.hpp:execute", "include/dcc/rx/crtp_base.hpp:receive", "include/dcc/tx/crtp_base.hpp:transmit", "include/dcc/rx/crtp_base.hpp:biDiChannel2", "include/dcc/rx/crtp_base.hpp:appPom", "include/dcc/rx/crtp_base.hpp:cvVerify", "include/dcc/bidi/datagram.hpp"]}
{"id": "C98", "title": "The stm32 decoder board behind any station", "statement": "Whatever commands a station sends to any locomotives, through the two wires of the track and the capture unit: the green LED of the decoder board of examples/stm32 shows whether the last speed command to locomotive 3 or to all was other than stop, the yellow LED the last state of F3. False: the green LED is dark after every stop (it is lit by an emergency stop); the yellow LED shows F3 also if F24 to F31 are sent along (it stays dark). With commands that write bytes of the board's own CVs the application sees what an interpreter of the commands makes of the table of CVs, and the board holds the CVs written.", "quantifier": "every valid transmitter configuration, every sequence of commands that do not write CVs of the board (for the LEDs) or write only bytes of its own CVs, every number of intervals between them above 782, every measuring error up to one in 16, every pace of the main loop within the bound", "why_tests_cant": "there are no tests of the example; the claim is about all commands and all timings", "anchors": ["examples/stm32/src/decoder.cpp:speed", "examples/stm32/src/decoder.cpp:function", "include/dcc/rx/crtp_base.hpp:executeAddressed", "examples/stm32/src/decoder.hpp"]}
{"id": "C99", "title": "Programming track sessions", "statement": "A decoder that takes resets and then the turns of a programmer (each a direct mode packet at least twice in a row, then any number of resets, no turn the same as the one before) makes every access exactly once, in order, and acknowledges exactly those that are true then: reading a CV bit by bit gives its value and changes nothing, writing a CV is acknowledged, makes the CV have the value and leaves the others alone, a locked decoder is silent; also behind the transmitter. False: that a station may pause between the packets (the idle packet it then sends ends service mode, and a following packet that should write CV64 makes locomotive 124 drive).", "quantifier": "every application that keeps its CVs, every sequence of library calls, every earlier traffic that does not end in service mode, every list of turns, every transmitter configuration", "why_tests_cant": "tests try single packets in service mode; the claim is about whole sessions of any length with any repetitions, and about the acknowledgements that must not come", "anchors": ["include/dcc/rx/crtp_base.hpp:serviceMode", "include/dcc/rx/crtp_base.hpp:executeService", "include/dcc/rx/crtp_base.hpp:countOwnEqualCvPackets", "include/dcc/rx/crtp_base.hpp:cvLong", "include/dcc/tx/crtp_base.hpp:transmit"]}
{"id": "C100", "title": "The decoder with automatic logon is an interpreter", "statement": "Whatever calls are made on a new decoder (init again and again, logon packets of any kind among the others, channel 1 and 2, datagrams, switching off and on), the calls of the application, its CVs, mode, page register, the three addresses in force and the logon flags are those of a small interpreter over ten values that sees only init() calls, logon packets received and packets taken from the queue, in order.", "quantifier": "every application that keeps its CVs, every sequence of library calls that is defined", "why_tests_cant": "tests check single logon packets on mocks; the claim covers every interleaving of logon, configuration, CV access and driving, including that nothing else is remembered", "anchors": ["include/dcc/rx/crtp_base.hpp:executeAutomaticLogon", "include/dcc/rx/crtp_base.hpp:logonEnable", "include/dcc/rx/crtp_base.hpp:logonSelect", "include/dcc/rx/crtp_base.hpp:logonAssign", "include/dcc/rx/crtp_base.hpp:logonStore", "include/dcc/rx/crtp_base.hpp:init", "include/dcc/rx/crtp_base.hpp:execute"]}
{"id": "C101", "title": "A handed out address is obeyed, and no other", "statement": "A decoder with logon enabled that is selected and handed out an address is logged on with it whatever the station tells other decoders in between; once stored, exactly the packets for this address and for all have effects, logon packets for others and packets for the old address and consist none, until another address is handed out; a packet for it does what the same packet for the own number did before logon; no packet for one locomotive has an effect on two decoders logged on with different numbers. False: that only a reset for all leads to service mode (a decoder with CV1 = 0 takes a reset for the address handed out as one for all).", "quantifier": "every application that keeps its CVs, every sequence of library calls before and after, every address, ID and packet", "why_tests_cant": "tests check that an address is assigned; not what is obeyed for the rest of a session, nor what the other decoders do", "anchors": ["include/dcc/rx/crtp_base.hpp:logonSelect", "include/dcc/rx/crtp_base.hpp:logonAssign", "include/dcc/rx/crtp_base.hpp:logonStore", "include/dcc/rx/crtp_base.hpp:execute", "include/dcc/rx/crtp_base.hpp:executeOperations"]}
{"id": "C102", "title": "What a decoder answers to logon packets", "statement": "In the cutout behind a logon packet a decoder transmits exactly one answer or none: the unique ID to ENABLE, the own number to SELECT with its ID, an acknowledgement to ASSIGN with its ID, as an interpreter of the logon packets says; two bytes in channel 1 and six in channel 2, from which the station reads the unique ID and the number; nothing is left over for a later cutout; once selected and handed out an address it is silent and unmoved by ENABLE and SELECT. False: that being handed out an address is enough for this silence.", "quantifier": "every application that keeps its CVs, every history of calls in which the logon answers were fetched, every logon packet, any calls between reception and cutout", "why_tests_cant": "tests check single answers of a fresh mock; the claim covers every history, and that what the station reads is what was meant", "anchors": ["include/dcc/rx/crtp_base.hpp:logonEnable", "include/dcc/rx/crtp_base.hpp:logonSelect", "include/dcc/rx/crtp_base.hpp:logonAssign", "include/dcc/rx/crtp_base.hpp:biDiChannel1", "include/dcc/rx/crtp_base.hpp:biDiChannel2", "include/dcc/rx/crtp_base.hpp:appLogon", "include/dcc/bidi/datagram.hpp:make_datagram"]}
{"id": "C103", "title": "All decoders on a track log on", "statement": "With any number of decoders with different unique IDs on the track, all of which hear every packet, a station that calls up one after the other with SELECT and ASSIGN gets exactly one answer to each packet, with the right content, and leaves every decoder logged on with the address it handed out to it; two decoders with different IDs never answer the same packet, unless it is ENABLE.", "quantifier": "every list of decoders, every assignment of addresses, every own and unique ID", "why_tests_cant": "tests have one decoder; collisions and cross-talk need many", "anchors": ["include/dcc/rx/crtp_base.hpp:logonEnable", "include/dcc/rx/crtp_base.hpp:logonSelect", "include/dcc/rx/crtp_base.hpp:logonAssign", "include/dcc/rx/crtp_base.hpp:executeAutomaticLogon"]}
{"id": "C104", "title": "Station and decoder with automatic logon over the track", "statement": "Whatever packets, logon packets among them, a command station is given and whatever else is called, the logon packets a decoder hears are the logon packets finished on the track, in order, the others it executes are the others finished, in order, less those still queued, and CVs, addresses, flags and everything the application is told are what the interpreter of C100 makes of them. Nothing undefined happens if behind each logon packet channel 2 is sent before the next duration, besides the conditions of C78.", "quantifier": "every transmitter configuration in range, every sequence of calls at both ends, every application that keeps its CVs", "why_tests_cant": "no test connects a transmitter to a decoder with logon; logon packets overtake queued ones, so order matters over whole histories", "anchors": ["include/dcc/rx/crtp_base.hpp:receive", "include/dcc/rx/crtp_base.hpp:executeAutomaticLogon", "include/dcc/tx/crtp_base.hpp:transmit", "include/dcc/tx/crtp_base.hpp:packet"]}
{"id": "C105", "title": "A station logs on all decoders over the track", "statement": "A command station that greets with ENABLE packets and then offers an address to one decoder after the other with SELECT and ASSIGN, at most three packets at a time and the next ones once these are sent, leaves every decoder on the track that has logon enabled and whose unique ID is on the list with the address meant for it, selected and assigned, with no order passed to its application. For one decoder any logon packets for others may come in between and behind.", "quantifier": "every list of offers with different IDs, every transmitter configuration in range, every grouping, every application at every decoder, every interleaving of calls that keeps up", "why_tests_cant": "tests log on one mock with hand-made durations; this is the whole chain from queue to addresses, for any number of decoders", "anchors": ["include/dcc/rx/crtp_base.hpp:receive", "include/dcc/rx/crtp_base.hpp:executeAutomaticLogon", "include/dcc/tx/crtp_base.hpp:transmit", "include/dcc/tx/crtp_base.hpp:packet", "include/dcc/rx/crtp_base.hpp:logonSelect", "include/dcc/rx/crtp_base.hpp:logonAssign"]}
{"id": "C106", "title": "BiDi transmissions end inside the cutout windows", "statement": "Whatever packets a command station with BiDi is given, every start of channel 1 comes 80 us after the end of the packet and 51 us after both outputs went low, channel 2 follows 113 us later, the end 261 us after that and the track is driven again 17 us later. What a decoder sends in channel 1 at 250000 baud, if it begins no more than 17 us late, is over 177 us after the end of the packet, before channel 2; what it sends in channel 2, if it begins no more than 21 us late, is over at 454 us, when the cutout ends.", "quantifier": "every transmitter configuration in range with BiDi, every sequence of calls, every cutout; every decoder state reached by any calls, every delay in the limits", "why_tests_cant": "no test puts baudrate, datagram sizes and cutout timing together; the bound is over all states of the decoder and all histories of the station", "anchors": ["include/dcc/bidi/baudrate.hpp:baudrate", "include/dcc/bidi/timing.hpp:Timing", "include/dcc/tx/crtp_base.hpp:transmit", "include/dcc/rx/crtp_base.hpp:biDiChannel1", "include/dcc/rx/crtp_base.hpp:biDiChannel2"]}
{"id": "C107", "title": "Mean voltage of the track signal", "statement": "At every moment the time the track was positive and the time it was negative differ by at most one half bit of 114 us, apart from the 29 us with which every cutout begins. So without BiDi the signal carries no direct voltage; with BiDi the difference grows beyond any bound, always with the sign of the first half bit.", "quantifier": "every transmitter configuration in range, every sequence of calls, every moment", "why_tests_cant": "a test looks at the half bits of single packets; balance is a sum over a whole history", "anchors": ["include/dcc/tx/crtp_base.hpp:transmit", "include/dcc/tx/crtp_base.hpp:trackOutputs", "include/dcc/tx/crtp_base.hpp:biDiStart"]}
{"id": "C108", "title": "Wrong bits on the track", "statement": "A decoder never obeys a packet of which a single bit was inverted on the track.", "quantifier": "every decoder waiting for a packet, every packet, every bit of it", "why_tests_cant": "tests flip a byte or two; which of the bits matter, and that a shifted reading can be a valid packet, takes the whole space of packets and places", "anchors": ["include/dcc/rx/crtp_base.hpp:receive", "include/dcc/rx/crtp_base.hpp:executeHandlerMode"]}
{"id": "C109", "title": "How long a packet waits in the station", "statement": "A packet handed to the command station while w packets wait is accepted if w is below three, and is then completely on the track, with its cutout, at the latest after the time that w+2 packets of 18 zero bytes take; packets leave in the order they were accepted, so after four such times every accepted packet is the next one delivered.", "quantifier": "every configuration, every history of calls, every packet of up to 18 bytes", "why_tests_cant": "the bound in microseconds is over all mixtures of packets, configurations and moments of handing over; the worst case is met only by a particular one", "anchors": ["include/dcc/tx/crtp_base.hpp:packet", "include/dcc/tx/crtp_base.hpp:transmit", "include/dcc/tx/timings.hpp"]}
{"id": "C110", "title": "Packets a packet time apart are never lost", "statement": "If the station transmits for at least the time of a packet of 18 zero bytes between any two packets handed to it, it silently drops none of them, and each is completely on the track within two such times.", "quantifier": "every configuration, every number of packets of up to 18 bytes, every spacing of at least a packet time", "why_tests_cant": "a backlog that grows slowly shows only after many packets; the claim is about runs of any length", "anchors": ["include/dcc/tx/crtp_base.hpp:packet", "include/dcc/tx/crtp_base.hpp:transmit"]}
{"id": "C111", "title": "An interrupted decoder is the same interpreter", "statement": "Sessions from a new decoder in which every execute() may be interrupted between any two of its steps by receive() and the cutout handlers: what the application sees, its CVs, the mode and the page register are those of a small interpreter run on the packets executed, and these are the packets queued, in order, less those still queued. No logon packet comes in, and transmitting does not change the application.", "quantifier": "every application with a CV memory, every session of any length, every placement of interrupts, every signal on the track", "why_tests_cant": "preemption schedules of whole sessions: the tests never interrupt execute(), and effects of a disturbed execution may show only many packets later", "anchors": ["include/dcc/rx/crtp_base.hpp:executeThreadMode", "include/dcc/rx/crtp_base.hpp:receive", "include/dcc/rx/crtp_base.hpp:biDiChannel1", "include/dcc/rx/crtp_base.hpp:biDiChannel2"]}
{"id": "C112", "title": "Station and decoder both interrupted", "statement": "packet() of the station is interrupted by transmit() between any two of its steps, execute() of the decoder by receive() and the cutout handlers between any two of its steps. If the decoder hears what the station transmits and its queue never fills up, the packets executed are the packets finished on the track, in order, less those still queued, and the decoder obeys them as the interpreter does.", "quantifier": "every valid configuration, every interleaving on either side, every valid packet, every application with a CV memory", "why_tests_cant": "two independent preemption schedules of any length on top of each other", "anchors": ["include/dcc/tx/crtp_base.hpp:packet", "include/dcc/tx/crtp_base.hpp:transmit", "include/dcc/rx/crtp_base.hpp:executeThreadMode", "include/dcc/rx/crtp_base.hpp:receive"]}
{"id": "C113", "title": "How long it takes until a packet has been obeyed", "statement": "A packet handed to the command station while w < 3 packets wait: after w + 3 longest packet times (18 bytes, all bits zero, with cutout) of transmitting, every decoder on the track that calls execute() once per shortest packet has obeyed it, in its place behind exactly the packets accepted before it and before those accepted later. If packets are handed over at least one longest packet time apart, three packet times are enough and it comes behind all packets handed over before it.", "quantifier": "every valid configuration, every sequence of calls of the station, all packets, every application with a CV memory, every placement of the calls of the decoder that is often enough", "why_tests_cant": "worst case of queueing, transmission and polling over unbounded histories and all schedules", "anchors": ["include/dcc/tx/crtp_base.hpp:packet", "include/dcc/tx/crtp_base.hpp:transmit", "include/dcc/rx/crtp_base.hpp:receive", "include/dcc/rx/crtp_base.hpp:execute"]}
{"id": "C114", "title": "Orders to drive may be repeated", "statement": "Packets that drive (speed, direction, functions, headings) change nothing but what the application shows, and the last order about a knob stands. If the orders a decoder has executed agree, it shows all of them and nothing else, no matter how often and in which order they came. An order handed to a station and not contradicted later is shown by every decoder that keeps up after the time of C113, whatever was ordered before and is repeated afterwards.", "quantifier": "all driving packets to any address, every CV contents, sequences of any length, every application with a CV memory, every sequence of calls of the station and schedule of the decoder", "why_tests_cant": "permutations and repetitions of unbounded sequences of orders", "anchors": ["include/dcc/rx/crtp_base.hpp:executeOperationsAddressed", "include/dcc/rx/crtp_base.hpp:advancedOperations", "include/dcc/rx/crtp_base.hpp:speedAndDirection", "include/dcc/rx/crtp_base.hpp:functionGroup", "include/dcc/rx/crtp_base.hpp:featureExpansion"]}
{"id": "C115", "title": "Data offered while the handlers interrupt", "statement": "datagram() may be interrupted between any two of its steps by receive() and by the cutout handlers, which take datagrams off the queue it fills. The values it takes are transmitted in the order in which they were offered, each once, one or two at a time; never more than seven wait. An interrupted call takes at least what it would have taken undisturbed and nothing that was not offered, and cutouts cause no undefined behaviour anywhere. It may however leave out a value and still take a later one, which an undisturbed call never does.", "quantifier": "every application, any number of calls of datagram() with any encodable values, any interrupts between any two steps, any calls in between", "why_tests_cant": "interleavings of interrupts with the steps of a call; tests run on one thread", "anchors": ["include/dcc/rx/crtp_base.hpp:datagram", "include/dcc/rx/crtp_base.hpp:dyn", "include/dcc/rx/crtp_base.hpp:appDyn"]}
{"id": "C116", "title": "CV answers while an access is executed", "statement": "While execute() works on a CV access, receive() and the cutout handlers may interrupt it between any two steps. One expects channel 2 to answer a read with the value of that CV only. It does not: _last_own_cv_packet is replaced before _pom_deque is cleared, and a cutout in between that follows another copy of the packet sends the value prepared for the previous access. Exactly what holds: channel 2 sends nothing, the acknowledgement, or a value that either was prepared for this packet or still waited before; one that waited before follows either the packet it was prepared for or the one being executed. Afterwards only answers wait that an uninterrupted execution would have left, so the error lasts no longer than the execution.", "quantifier": "every application that transmitting does not change, every history of interrupted executions, any receive() and cutouts between any two steps that complete no logon packet", "why_tests_cant": "a window of a single step between two assignments; tests run on one thread", "anchors": ["include/dcc/rx/crtp_base.hpp:countOwnEqualCvPackets", "include/dcc/rx/crtp_base.hpp:appPom", "include/dcc/rx/crtp_base.hpp:pom"]}
{"id": "C117", "title": "Addresses in channel 1 while execute() is interrupted", "statement": "The cutout handlers and receive() may interrupt execute() between any two steps, also between the writing of the two datagrams that tell the address. One expects channel 1 to tell whole addresses of the decoder only. It does not: a logon assignment completed between the two datagrams combines the high byte of the old address with the low byte of the new one, an address the decoder never had. As long as no logon packet is completed during an execution, everything told or still waiting is a sequence of pairs, each for the address active when some execution of a packet began, in order; none is lost, repeated or split, at most one pair waits, and an execution that finds nothing waiting adds one.", "quantifier": "every application that transmitting does not change, every session of interrupted executions, any receive() and cutouts between any two steps", "why_tests_cant": "the queue is filled in execute() and emptied in an interrupt; the torn pair needs a packet completed between two particular statements", "anchors": ["include/dcc/rx/crtp_base.hpp:adr", "include/dcc/rx/crtp_base.hpp:appAdr", "include/dcc/rx/crtp_base.hpp:logonAssign"]}
{"id": "C118", "title": "No undefined behaviour while execute() is interrupted", "statement": "execute() runs in the main loop; receive() and the cutout handlers interrupt it between any two of its steps and change the same members. If all these calls, in the order in which they are really made, keep to the rules known to be enough without interrupts (frames of at most 18 bytes, packets with all the bytes that are read or made by the generators, channel 2 only between a packet and the next duration, a logon packet followed by channel 2, dynamic information that exists), then the whole session is free of undefined behaviour, even if logon packets are received and answered in the middle of executions. The queues of BiDi datagrams never hold more than their capacity, not even between two steps of an execution, whatever the calls.", "quantifier": "every application whose CV1 never is the first byte of a long address (192 to 231) and whose clock does not run backwards; every session of interrupted executions, any interrupts between any two steps; for the queues every application and all calls", "why_tests_cant": "undefined behaviour under an interrupt needs the interrupt between two particular statements; tests call execute() and receive() one after the other", "anchors": ["include/dcc/rx/crtp_base.hpp:execute", "include/dcc/rx/crtp_base.hpp:receive", "include/dcc/rx/crtp_base.hpp:biDi"]}
{"id": "C119", "title": "An emergency stop for all stops every decoder", "statement": "An emergency stop for address 0 handed to the command station while w < 3 packets wait, with no reset packet handed over before it and no packet that sets a speed after it: once w + 3 longest packet times have been transmitted, every decoder on the track that calls execute() once per shortest packet has told its application the emergency stop, and nothing about speed or direction since. If packets are handed over at least one longest packet time apart, three packet times are enough. Directly behind a reset packet the emergency stop may reach no application at all.", "quantifier": "every valid configuration, every sequence of calls of the station, all packets, every decoder with CV1 not above 127 whatever its address, its other CVs, its application and the calls of its BiDi handlers; every placement of the calls that is often enough", "why_tests_cant": "worst case over all histories of the station and all decoders and schedules; what counts is that nothing sent later undoes the stop", "anchors": ["include/dcc/rx/crtp_base.hpp:executeOperations", "include/dcc/rx/crtp_base.hpp:executeService", "include/dcc/rx/crtp_base.hpp:execute", "include/dcc/tx/crtp_base.hpp:packet", "include/dcc/tx/crtp_base.hpp:transmit"]}
{"id": "C120", "title": "The whole main loop may be interrupted", "statement": "execute(), init(), datagram() and the callbacks of an asynchronous application are called in any order, each interrupted between any two of its steps by receive() and the cutout handlers. If these calls keep to the rules of C63 in the order in which they are really made, none of them is undefined. Whatever interrupts what, every execution sees one packet only and the packets received are those executed, in the same order, followed by those that wait. No queue of datagrams ever holds more than there is room for. Without interrupts the steps are the calls of the decoder.", "quantifier": "every application with CV1 not above 127 and a clock that does not run backwards; every sequence of calls, every placement of every interrupt between the steps of every call", "why_tests_cant": "all interleavings of two threads at the granularity of single accesses, over histories of any length; a test shows one interleaving", "anchors": ["include/dcc/rx/crtp_base.hpp:execute", "include/dcc/rx/crtp_base.hpp:init", "include/dcc/rx/crtp_base.hpp:datagram", "include/dcc/rx/crtp_base.hpp:receive", "include/dcc/rx/crtp_base.hpp:biDiChannel1", "include/dcc/rx/crtp_base.hpp:biDiChannel2", "include/dcc/rx/crtp_base.hpp:cvWriteImpl"]}
{"id": "C121", "title": "disable() while packets come in", "statement": "An enabled decoder that is disabled forgets the packet it is receiving, also if disable() is interrupted by receive() and the cutout handlers between any two of its steps. (False: if the last half bit of a byte comes between the stores of reset(), the checksum keeps that byte, a following packet with a wrong check byte is obeyed and one with a right check byte is lost.) If between the stores nothing is received, or one duration that is not the second half of a bit of a packet, the call does what it does at one moment. Whatever comes between, only the next packet is judged wrongly: it is taken if its bytes add up to the byte that was left, and the one after it is received. enable() is not affected.", "quantifier": "every application, every history before the call, every placement of interrupts between its steps", "why_tests_cant": "the failure needs one half bit of one byte between two stores; a test cannot place it there, let alone show that no other placement does harm", "anchors": ["include/dcc/rx/crtp_base.hpp:disable", "include/dcc/rx/crtp_base.hpp:enable", "include/dcc/rx/crtp_base.hpp:reset", "include/dcc/rx/crtp_base.hpp:receive"]}
{"id": "C122", "title": "An assigned logon address is stored in the end", "statement": "A selected decoder that has an assigned address to store executes a packet, and the execution is interrupted between any of its steps by receive() and the cutout handlers, logon packets included. Afterwards either storing is due once more, or the CVs of automatic logon (65297 to 65301) were last written with the command station, the session and the address the decoder was told last; it is still selected. Storing is due once more only if a logon packet was completed meanwhile, so that the first execution without one leaves the right values behind. (Being selected is needed: the decoder obeys an ASSIGN packet without a SELECT packet before it, and then an ENABLE packet of another command station can leave half of each station number in the CVs with nothing due.)", "quantifier": "every application, every main loop with interrupted calls before, every placement of interrupts between the steps of the execution", "why_tests_cant": "execute() reads address, command station and session again and again between its writes while an ASSIGN packet may replace them (C65 has a torn address in the CVs); that the flag always saves it is a statement about all placements of all packets", "anchors": ["include/dcc/rx/crtp_base.hpp:logonStore", "include/dcc/rx/crtp_base.hpp:logonAssign", "include/dcc/rx/crtp_base.hpp:logonEnable", "include/dcc/rx/crtp_base.hpp:executeThreadMode"]}
{"id": "C123", "title": "A main loop interrupted in every call is the same interpreter", "statement": "init() and the callbacks of the application, interrupted between any two of their steps by receive() and the cutout handlers, tell the application the same and leave the same decoder behind as without interrupts; datagram() gives no command and changes nothing of the decoder but its queues. So a decoder all of whose main loop calls are interrupted (the first init() included, enabled or not) does what the interpreter of C73 does with the packets it executed: same calls of the application, same CVs, same mode, same page register. The packets executed are the packets queued, in order, less those still queued.", "quantifier": "every application that keeps its CVs and is not changed by transmitting, every main loop of execute(), init(), datagram() and callbacks, every placement of interrupts in every call, no logon packet", "why_tests_cant": "interrupts may come in between any two accesses of any call; a test drives each call to its end before the next receive()", "anchors": ["include/dcc/rx/crtp_base.hpp:init", "include/dcc/rx/crtp_base.hpp:execute", "include/dcc/rx/crtp_base.hpp:datagram", "include/dcc/rx/crtp_base.hpp:receive"]}
{"id": "C124", "title": "A station and a main loop, both interrupted all the time", "statement": "The station's packet() is interrupted by transmit() between any two of its steps. The decoder's init(), execute(), datagram() and callbacks are interrupted by receive() and the cutout handlers between any two of their steps, the first init() included. If the receive() calls of the decoder get the durations the station put on the track, the decoder is not disabled and there is always room in its queue, then the packets executed are the packets finished on the track, in order, less those still queued; what the application sees, its CVs, the mode and the page register are those of the interpreter of C73 run on these packets.", "quantifier": "every station configuration, every schedule of packet() and transmit(), every application that keeps its CVs and is not changed by transmitting, every main loop, every placement of interrupts in every call", "why_tests_cant": "schedules of two preempted programs at once: neither side is ever interrupted in the tests", "anchors": ["include/dcc/tx/crtp_base.hpp:packet", "include/dcc/tx/crtp_base.hpp:transmit", "include/dcc/rx/crtp_base.hpp:init", "include/dcc/rx/crtp_base.hpp:execute", "include/dcc/rx/crtp_base.hpp:datagram", "include/dcc/rx/crtp_base.hpp:receive"]}
{"id": "C125", "title": "A decoder without automatic logon ignores logon packets", "statement": "In a decoder whose CV28 reads with bit 7 clear, logon is never switched on, whatever comes in. Its interrupt handlers make no call to the application but transmitting and change nothing of the decoder that commands depend on, although logon packets are dealt with inside receive(). So such a decoder, its main loop interrupted between any two steps of every call, the first init() included, is the interpreter of C73 run on the packets executed, whatever logon packets come in and whenever. With automatic logon on this is false: the same packets at the same times make the decoder leave its consist.", "quantifier": "every application that keeps its CVs, reads bit 7 of CV28 as 0 and is not changed by transmitting, every main loop of init(), execute(), datagram() and callbacks, every placement of interrupts, every sequence of half bit durations including logon packets", "why_tests_cant": "the tests never interrupt a call, and none sends logon packets to a decoder without logon while it is running a call", "anchors": ["include/dcc/rx/crtp_base.hpp:receive", "include/dcc/rx/crtp_base.hpp:init", "include/dcc/rx/crtp_base.hpp:execute", "include/dcc/rx/crtp_base.hpp:datagram", "include/dcc/rx/crtp_base.hpp:logonEnable", "include/dcc/rx/crtp_base.hpp:logonSelect", "include/dcc/rx/crtp_base.hpp:logonAssign"]}
{"id": "C126", "title": "A station that sends logon packets and a decoder without automatic logon, both interrupted all the time", "statement": "As C124, but the station may send any packets with a correct checksum, logon packets included, and the decoder's CV28 reads with bit 7 clear. The packets executed are the packets finished on the track other than logon packets, in order, less those still queued; what the application sees, its CVs, the mode and the page register are those of the interpreter of C73 run on these packets.", "quantifier": "every station configuration, every schedule of packet() and transmit(), every sequence of packets of 3 to 18 bytes with a correct checksum, every application that keeps its CVs, reads bit 7 of CV28 as 0 and is not changed by transmitting, every main loop, every placement of interrupts in every call", "why_tests_cant": "schedules of two preempted programs at once; no test sends logon packets to a running decoder without logon", "anchors": ["include/dcc/tx/crtp_base.hpp:packet", "include/dcc/tx/crtp_base.hpp:transmit", "include/dcc/rx/crtp_base.hpp:init", "include/dcc/rx/crtp_base.hpp:execute", "include/dcc/rx/crtp_base.hpp:receive", "include/dcc/rx/crtp_base.hpp:executeHandlerMode", "include/dcc/rx/crtp_base.hpp:logonAssign"]}
{"id": "C127", "title": "An interrupted main loop makes progress", "statement": "An execute() that is interrupted between any two of its steps works on nothing if the last receive() before its first step has just completed a packet, and otherwise on the first packet waiting when its second step looks; later interrupts make no difference. So the packets waiting at any time are executed first, in order, one by every execution that is not held up in that way, whatever else the main loop calls, whatever comes in meanwhile and wherever the calls are interrupted.", "quantifier": "every application, every main loop of init(), execute(), datagram() and callbacks, every placement of interrupts in every call, every sequence of half bit durations", "why_tests_cant": "no test interrupts execute(); progress is about all continuations of all histories", "anchors": ["include/dcc/rx/crtp_base.hpp:execute", "include/dcc/rx/crtp_base.hpp:executeThreadMode", "include/dcc/rx/crtp_base.hpp:packetEnd", "include/dcc/rx/crtp_base.hpp:receive"]}
{"id": "C128", "title": "A prompt asynchronous application makes no difference to an interrupted main loop", "statement": "If the application answers asynchronous readCv and writeCv requests at once and as its synchronous functions would, every main loop, interrupted between any two steps of every call, has the same outcome (undefined behaviour included), leaves the same state behind and makes the same calls into the application as with the synchronous functions. Hence such a decoder, interrupted in every call, is the interpreter of the packets it has executed.", "quantifier": "every application that answers at once, every main loop of init(), execute(), datagram() and callbacks, every placement of interrupts in every call, every state to start from", "why_tests_cant": "the tests have no application that combines asynchronous access with interrupts inside execute(); the claim compares two template instantiations over all histories", "anchors": ["include/dcc/rx/crtp_base.hpp:cvVerify", "include/dcc/rx/crtp_base.hpp:cvWrite", "include/dcc/rx/crtp_base.hpp:execute", "include/dcc/rx/async_readable.hpp", "include/dcc/rx/async_writable.hpp"]}
{"id": "C129", "title": "What the station sends is executed in the end", "statement": "Let the station's packet() be interrupted by transmit(), and every call of the decoder's main loop by receive() and the cutout handlers, anywhere. If the main loop, after some of its rounds, goes on with at least as many executions that are not held up as packets are waiting, then the packets whose last half bit had been on the track by then are the first packets executed, in order and without a gap, and what the interpreter makes of them is what the application is told first, whatever the station sends meanwhile.", "quantifier": "every configuration of the station, every packet list, every placement of transmit() inside packet(), every application that keeps CVs, every main loop, every placement of interrupts in every call, every point of the loop", "why_tests_cant": "liveness across two interrupted programs: the tests interrupt neither packet() nor execute() and look at fixed short histories", "anchors": ["include/dcc/tx/crtp_base.hpp:packet", "include/dcc/tx/crtp_base.hpp:transmit", "include/dcc/rx/crtp_base.hpp:receive", "include/dcc/rx/crtp_base.hpp:execute", "include/dcc/rx/crtp_base.hpp:executeThreadMode"]}
{"id": "C130", "title": "Orders to drive given by an interrupted station to an interrupted main loop", "statement": "A decoder whose main loop is interrupted in every call and that executes nothing but orders to drive, or packets for others, keeps its CVs, shows nothing that was not ordered, and the last order about a speed, direction or function stands. If an interrupted station gives such orders, one of them was on the track in full, nothing sent later contradicts it, and the main loop then goes on for as many executions that are not held up as packets were waiting, the application shows what it orders.", "quantifier": "every application that keeps CVs, every configuration of the station, every list of orders to drive, every placement of transmit() inside packet(), every main loop, every placement of interrupts in every call", "why_tests_cant": "the tests interrupt neither side; the claim is about the last order among any number of repeated and interleaved ones", "anchors": ["include/dcc/rx/crtp_base.hpp:directionSpeed", "include/dcc/rx/crtp_base.hpp:speedAndDirection", "include/dcc/rx/crtp_base.hpp:functionGroup", "include/dcc/rx/crtp_base.hpp:execute", "include/dcc/tx/crtp_base.hpp:packet"]}
{"id": "C131", "title": "Emergency stop given by an interrupted station to an interrupted main loop", "statement": "If a decoder whose main loop is interrupted in every call, that has been assigned no address by automatic logon and is asked for no CV access its application does not grant, executes an emergency stop for all locomotives, with no reset packet before it and nothing that sets a speed after it, the last its application has been told about driving is the emergency stop. If an interrupted station sends such a stop, it was on the track in full, and the main loop then goes on for as many executions that are not held up as packets were waiting, the same holds.", "quantifier": "every application that keeps CVs, every configuration of the station, every list of packets with one such stop, every placement of transmit() inside packet(), every main loop, every placement of interrupts in every call", "why_tests_cant": "the tests interrupt neither side; the claim is about one packet among any number of others, waiting at any place in the queue", "anchors": ["include/dcc/rx/crtp_base.hpp:speedAndDirection", "include/dcc/rx/crtp_base.hpp:directionSpeed", "include/dcc/rx/crtp_base.hpp:execute", "include/dcc/rx/crtp_base.hpp:receive", "include/dcc/tx/crtp_base.hpp:packet"]}
{"id": "C132", "title": "Asynchronous applications with station and decoder interrupted", "statement": "Take a decoder whose application answers asynchronous CV requests at once, as its synchronous functions would. If an interrupted station sends to it and its interrupted main loop goes on for as many executions that are not held up as packets were waiting, everything that was on the track in full before is executed in order, and the application has been asked and told what an interpreter of the packets says. An emergency stop for all locomotives among it, with no reset packet before it and nothing that sets a speed after it, is the last the application has been told about driving. For what is asked and told, no packet executed may ask for a CV access the application does not grant.", "quantifier": "every application that keeps CVs and answers at once, every configuration of the station, every list of packets, every placement of transmit() inside packet(), every main loop, every placement of interrupts in every call", "why_tests_cant": "the tests interrupt neither side and use one application; the claim is about all of them and about any number of packets", "anchors": ["include/dcc/rx/crtp_base.hpp:cvVerify", "include/dcc/rx/crtp_base.hpp:cvWrite", "include/dcc/rx/crtp_base.hpp:execute", "include/dcc/tx/crtp_base.hpp:packet"]}
