# Formal model of the ZIMO DCC library

The subject is the C++ library in `/repo` (headers under `include/dcc`) and the
C file `src/rmt_dcc_encoder.c`. The model and all proofs are in
`rocq/theories`. `properties.jsonl` lists the claims, `MANIFEST.json` maps each
claim to the theorems that settle it, `seeded/LOG.jsonl` records the bugs that
were planted in scratch copies of the model to test the theorems.

## Layout

| file | content |
|------|---------|
| `Prelude.v` | outcome type with undefined behaviour, integer casts, finite sweeps |
| `Address.v`, `Instruction.v`, `Checksum.v`, `Datagram.v`, `Speed.v`, `Packets.v` | pure codecs and packet generators |
| `Tx.v` | timings, transmitter with an explicit ring buffer |
| `Backoff.v`, `RxState.v`, `Rx.v` | decoder: fields, environment, bit receiver, command execution, BiDi, logon |
| `Wire.v` | baudrate and sizes of the BiDi channels |
| `Preempt.v` | command execution again as single steps between which interrupts may happen |
| `PreemptData.v`, `PreemptLoop.v`, `PreemptOff.v` | datagram() in the same way; the calls of a main loop; enable() and disable() |
| `TxPreempt.v` | packet() and bytes() of the transmitter as single steps between which transmit() may run |
| `Rmt.v` | ESP32 RMT encoder on top of a model of the ESP-IDF copy and bytes encoders |
| `RmtLife.v` | creation and deletion of RMT encoders on a heap, with every possible failure |
| `Repl.v` | the example `examples/repl`: user, command station task, decoder task |
| `Stm32.v` | the example `examples/stm32`: wires, timers, capture unit, both applications |
| `Esp32.v` | the example `examples/esp32`: configuration and loop |
| `ZBits.v`, `RxLogic.v`, `RxInv.v`, `Comm.v` | bit arithmetic; Hoare style rules for the decoder monad (`keeps`: a field is left alone, `emits`: all calls made satisfy a predicate, `holds`: an invariant is preserved, `comm`: a change of the state commutes) |
| `SpecCodec.v`, `SpecTx.v`, `SpecRx.v` | specifications: bit-serial CRC, frame grammar, RCN tables, abstract transmitter, abstract bit receiver |
| `SpecExec.v`, `SpecConf.v`, `SpecCv.v`, `SpecLogon.v`, `SpecBidi.v`, `SpecRmt.v`, `SpecRmtTrack.v`, `SpecRmtLife.v`, `SpecModes.v`, `SpecSafe.v`, `SpecAsync.v`, `SpecPreempt.v`, `SpecTorn.v`, `SpecLayout*.v`, `SpecRepl.v`, `SpecStation.v`, `SpecAlike.v`, `SpecPace.v`, `SpecEdges.v`, `SpecLate.v`, `SpecDialog.v`, `SpecTxPreempt.v`, `SpecTraffic.v`, `SpecBoard.v`, `SpecProg.v`, `SpecNode.v`, `SpecSession.v`, `SpecLine.v`, `SpecWire.v`, `SpecFlip.v`, `SpecLatency.v`, `SpecReact.v`, `SpecRefresh.v`, `SpecOffer.v`, `SpecStale.v`, `SpecTell.v`, `SpecFirm.v`, `SpecHalt.v`, `SpecLoop.v`, `SpecOff.v`, `SpecStored.v`, `SpecWhole*.v`, `SpecNoLogon.v`, `SpecProgress.v` | specifications: who obeys a packet and what it calls; configuration as a function of the CVs; accesses a packet asks for; meaning of logon packets, answers and stored data; content of BiDi transmissions; symbols of the RMT encoder, packets on its track, memory it owns; bytes a packet must have; applications that answer later; sessions of interrupted executions; the decoder as an interpreter of packets, the effects of commands; what a user of the REPL is told to expect; applications that answer alike; how often execute() is called; measuring errors; packets missed by a decoder switched on late; answers to CV packets; where an interrupted call takes effect; which orders concern a decoder; what the LEDs of a board mean; what a programming session does; the interpreter with logon and its answers |
| `CodecProofs*.v`, `TxProofs.v`, `TornProofs*.v`, `RxBitProofs*.v`, `ExecProofs.v`, `ConfProofs*.v`, `CvProofs*.v`, `SaneProofs.v`, `LogonProofs*.v`, `BidiProofs*.v`, `RmtProofs*.v`, `RmtTrackProofs*.v`, `RmtLifeProofs.v`, `ModesProofs.v`, `SafeProofs*.v`, `AsyncProofs*.v`, `PreemptProofs*.v`, `LayoutProofs*.v`, `ReplProofs*.v`, `CarryProofs.v`, `StationProofs*.v`, `AlikeProofs*.v`, `AudibleProofs.v`, `PaceProofs*.v`, `EdgeProofs*.v`, `Stm32Proofs.v`, `LateProofs*.v`, `Esp32Proofs.v`, `DialogProofs*.v`, `TxPreemptProofs.v`, `TrafficProofs*.v`, `ReadProofs*.v`, `BoardProofs*.v`, `ProgProofs.v`, `NodeProofs*.v`, `SessionProofs*.v`, `LineProofs*.v`, `WireProofs*.v`, `FlipProofs*.v`, `LatencyProofs*.v`, `ReactProofs.v`, `RefreshProofs*.v`, `OfferProofs*.v`, `StaleProofs*.v`, `TellProofs*.v`, `FirmProofs*.v`, `HaltProofs*.v`, `LoopProofs*.v`, `OffProofs*.v`, `StoredProofs*.v`, `WholeProofs*.v`, `NoLogonProofs*.v`, `ProgressProofs.v`, `PromptProofs*.v`, `DeliverProofs.v` | lemmas and proofs |
| `Toy.v`, `CvWitness.v`, `LogonWitness.v`, `BidiWitness.v`, `SafeWitness.v`, `AsyncWitness.v`, `PreemptWitness.v`, `TornWitness.v`, `LayoutWitness.v`, `ReplWitness*.v`, `StationWitness.v`, `AlikeWitness.v`, `PaceWitness.v`, `LateWitness.v`, `NodeWitness.v`, `SessionWitness.v`, `LineWitness.v`, `OfferWitness.v`, `StaleWitness.v`, `FirmWitness.v`, `HaltWitness.v`, `LoopWitness.v`, `DialogWitness.v`, `TellWitness.v`, `WholeWitness*.v`, `NoLogonWitness*.v`, `ProgressWitness.v`, `PromptWitness*.v` | a concrete application for examples; witnesses of refuted claims |
| `Prop_*.v` | the property theorems, each closed by `exact`, with `Print Assumptions`; beside each an `Example` instance |

## Modelling principles

* Numbers are `Z`; fixed width casts of the source are explicit (`u8`, `u16`,
  `u32`, `u64`). Counters of type `size_t` that cannot wrap in any practical
  history (bit, packet, preamble and repetition counters) are unbounded.
* Every function is total. Undefined behaviour and failed assertions are a
  separate outcome `UB reason` of the outcome type: out-of-range access of a
  span or packet, `push_back` on a full container, a failed `assert`. The model
  never continues after `UB`.
* The decoder is a deterministic function of the library state, the state of
  the application object (an arbitrary type `I`) and the call made. The
  application (`readCv`, `writeCv`, hooks), `rand()` and the clock are fields of
  a record `Env I` of arbitrary functions; theorems quantify over all of them.
  Calls into the application appear in the event trace of the operation.
* Interrupts: `receive`, `biDiChannel1/2` and `execute` are atomic steps in most
  theorems, arbitrary sequences of them are quantified over. C65 refines
  `execute` into steps (`Preempt.v`): every read or write of a member of the
  decoder, every access to the packet in front of the queue and every call into
  the application is one step, with interrupts possible before each of them. A
  step itself is atomic; in particular `pop_front`, `front` and `push_back` of
  the queue and accesses to the other members are assumed to be. C94 refines
  `packet`/`bytes` of the transmitter in the same way (`TxPreempt.v`), down to the
  copy of single durations. C115 refines `datagram` (`PreemptData.v`),
  C120 `init` and the callbacks of the application (`PreemptLoop.v`), C121 `enable` and `disable` (`PreemptOff.v`).
* Optional features selected by concepts (`HighCurrent`, `EastWest`,
  `AsyncReadable`, `AsyncWritable`) are boolean fields of `Env`.

## Trusted base

* Coq 8.16.1 kernel (including `vm_compute`). No axioms of our own. Under each
  property theorem `Print Assumptions` is run; all report
  "Closed under the global context" unless noted in `MANIFEST.json`.
* The hand translation from C++/C into Gallina. Each definition cites file and
  lines. The translation was checked by `Example`s taken from the repository's
  own tests (packets, timings, datagrams, decoder reactions).
* External code that is not in `/repo`, with the semantics assumed:
  * `ztl::inplace_vector<T,N>`: sequence of at most N elements, `push_back` when
    full is undefined, iterators from `begin()` may be written up to N before
    `resize`.
  * `ztl::inplace_deque<T,N>`: FIFO of at most N elements, `push_back` when full
    is undefined; storage is a ring of N+1 slots (the comment in
    `tx/crtp_base.hpp:76-78` and the use of `*end()` in `rx/crtp_base.hpp:905`
    depend on this). C17 proves what needs the spare slot and that N slots would
    not do.
  * `ztl::lerp<int32_t>(x,x0,x1,y0,y1)` is
    `y0 + (x-x0)*(y1-y0)/(x1-x0)` with truncating division, consistent with the
    values in the repository's tests. `ztl::make_mask(a,b,..)` is the OR of
    `1<<a`. `smath::pow` is exponentiation.
  * `std::chrono::system_clock` ticks in nanoseconds.
  * ESP-IDF copy and bytes encoders: write `min(wanted, free)` symbols; COMPLETE
    iff all wanted symbols are written; MEM_FULL iff no free memory is left
    afterwards; both can be set at once; a truncated call is resumed.
* Unspecified evaluation order in `rx/crtp_base.hpp:99-100` is taken left to
  right.
* CMake defaults are used for all `DCC_*` constants (CMakeLists.txt:28-81).

## Modelled and not modelled

Modelled: `address.hpp`, `addresses.hpp`, `address_group.hpp`, `bit.hpp`,
`crc8.hpp`, `exor.hpp`, `instruction.hpp`, `packet.hpp`, `speed.hpp`,
`direction.hpp`, `utility.hpp` (all generators and helpers), `bidi/datagram.hpp`,
`bidi/timing.hpp`, `bidi/dyn.hpp` and its four subclasses, `tx/*` completely,
`rx/crtp_base.hpp`, `rx/backoff.hpp`, `rx/timing.hpp` and the interfaces
required by the rx concepts, and `src/rmt_dcc_encoder.c`: configuration check,
symbol set-up, `encode`, `reset`, creation and deletion. The examples `examples/repl`, `examples/stm32` and `examples/esp32` are
modelled (without their terminal output; of the hardware of the second one the pins, the two
timers and the capture unit, as far as the comments of `Stm32.v` say).

Not modelled: the tests, real time behaviour
(durations are data), data races inside a single machine-level access, C++
template and overload resolution (resolved by hand). The order of the two readCv()
calls in one expression of init() is unspecified in C++ and left to right in the model.

## Properties: what is modelled and how it is proved

Claims marked (F) turned out false of the code as first stated: the MANIFEST
lists a `..._refuted` theorem with a concrete witness and a `..._partial`
theorem with the exact guard under which the claim does hold.

| id | model part | method |
|----|------------|--------|
| C01 (F, boundary exact) | encode/decode_address on byte lists | arithmetic on div/mod for all 16 bit values, iff statement |
| C02 | address equality | case analysis |
| C03 | decode_address | sweep over 256 first bytes, symbolic tail |
| C04 | decode_instruction | sweep over bytes, symbolic packet |
| C05 | word/byte helpers | div/mod arithmetic |
| C06 | table CRC vs bit-serial CRC in Spec | table = 8 bit steps by sweep, then induction on the message |
| C07 | CRC | GF(2) linearity by induction, injectivity of the step on non-zero states |
| C08 | exor and generators | algebra of XOR on lists, induction |
| C09 | 4-of-8 tables | sweep and induction on datagram |
| C10 | make_datagram/make_data | base 64 digit induction |
| C11 | scale_speed | arithmetic with truncating division |
| C12 | all generators | symbolic evaluation plus sweeps over single bytes |
| C13 | bytes2timings | structural equality with a grammar in Spec, length by induction |
| C14 | Tx ring model | refinement to an abstract FIFO transmitter, induction on the schedule |
| C15, C16 | Tx events | invariant over schedules |
| C17 | ring buffer with N+1 slots and pointer | invariant; refutation for N slots |
| C18 (F) | tx config | schedule witness; positive part by refinement |
| C19 | receive | symbolic run over frame grammar, induction on bytes |
| C20 | receive | invariant linking the receiver state to the half-bit history |
| C21 | receive | preamble absorption lemma from every state |
| C22 | receive | commutation lemma |
| C23 | receive + execute | invariant over call sequences with ghost lists |
| C24 (F) | receive | witness by computation, guarded invariant |
| C25 | receive, execute | case analysis |
| C26 | transmitter composed with receiver | simulation using C14 and C19 |
| C27, C28 | execute | symbolic execution for arbitrary state and environment |
| C29..C33 (C33 F) | execute of generated packets | symbolic execution + byte sweeps |
| C34 | execute over call sequences | inductive run relation `in_a_row`, counter invariant, induction |
| C35, C36, C42 | cvLong/cvShort, generators | symbolic execution; accesses of the trace compared with the request in the packet |
| C37 | all operations | invariant "lock flag = lock of the CVs" over all calls, event invariant |
| C38 (F) | all operations | exact case split per call; witness with an assigned logon address and no own address |
| C39 | executeService, callbacks | trace invariants relating acknowledges to confirmed accesses |
| C40 (F), C41 (F) | service mode | witnesses; exact behaviour for fresh packets and for page registers other than 0 |
| C43, C44 (F), C45, C46, C47 | init, cvWrite | symbolic execution |
| C48, C49, C53 | receive of a complete logon packet | exact effect on every field from any reachable state (range invariant `sane`), packet meaning given by the relation `says` |
| C50 (F) | ASSIGN, execute | exact effect; positive for flag bits 11; witnesses for other flags and for a short address of the same number |
| C51 (F) | logonStore, logonEnable | exact list of stores; no non-zero address is read back; witness with a power cycle |
| C52 (F) | all operations | invariant over call sequences: an answer waits only if no channel 2 came after the last logon packet; witness |
| C54 | adr, appAdr | relation `told` between the log of calls and the datagrams, induction on the call sequence; decoding by the codec lemmas |
| C55 (F) | biDiChannel2 | relation `answer2` for every reachable state at the end of a packet; last address = address of the last packet heard, by refinement; witness with a full queue |
| C56 | datagram, appDyn | relation `taken` between offers and transmissions, induction on the call sequence |
| C57 | dyn_convert | arithmetic for all 16 bit values, wrap-around included |
| C58 (F) | counters | counters = those counted off the track (refinement); balance invariant packets <= frames + 1; witness of 200 packets by computation |
| C59 | Backoff | arithmetic, induction on the random numbers |
| C60 (F) | tipOffSearch, updateTimepoints | every operation lets the time pass (`ages`), time points ordered; symbolic execution; witness with a clock running backwards |
| C61 (F) | BiDi channels | invariant `talk` on the shape of all queues and buffers; witness for a call before the end of a packet |
| C62 (F) | all operations | changing the flag commutes with every operation (`comm` rules of `Comm.v`); exact effect of enable and disable; witness |
| C63 | all operations | every handler is total (`tot`) given enough bytes, generators give enough; induction on the call sequence |
| C64 (F) | execute, receive of logon packets | exact length for which each handler is defined (`tot`) or reads out of bounds (`oob`); witnesses |
| C65 | `executeP`: execute() as a tree of single accesses, run without (`flat`) or with interrupts before every step (`preempted`) | `flat (executeP E) = execute E` (simulation function by function); queue = what a listener queued minus what was executed, by induction over sessions; non-interference: each step reads only what handlers leave alone, except the tip-off search and address queues, treated by hand. A logon packet completed meanwhile does interfere (`C65_torn_address`) |
| C66 | `call_async`, callbacks, every function that accesses CVs | rules for programs that only request (`asks`), for programs whose one request is answered later (`later`) and for answers at once against synchronous access (`rel`); induction over histories; witness of a stale configuration |
| C67 (F) | Rmt model | relation between encoder state and remaining symbols kept by every stage; induction over refill schedules; witness |
| C68 | Rmt and Tx models | C67 and the specification of bytes2timings (C13) |
| C69 | rmt_new_dcc_encoder, Rmt model | case analysis; C67 |
| C70 (F) | execute | symbolic execution for every byte; witness |
| C71 (F) | Rmt and Rx models, any gaps between transmissions | C67 for each packet, then the bit machine of C26 on the half bits; refuted for a short end bit followed by the ZIMO 0 |
| C72 | rmt_new_dcc_encoder, rmt_del_dcc_encoder, heap of numbered blocks, results of calloc and ESP-IDF as inputs | induction over the calls, invariant: living blocks = blocks owned |
| C73 | whole decoder (`Rx.v`) against `SpecLayout.v`: an interpreter with five values | simulation, one lemma per kind of packet, invariant over all calls |
| C74 | `Tx.v` and `Rx.v` connected by the half-bit durations | composition of C14, C26 and C73; no logon packet is heard on a track that carries none |
| C75 (F) | packet generators, `Tx.v`, `Rx.v` against `SpecLayout2.v`: commands carried out on CVs | the interpreter of C73 on the packets of commands, packets of different commands differ, idle packets do nothing; composition with C74 |
| C76 | `Repl.v`: the example repl as three threads with atomic loop bodies, against `SpecRepl.v` | invariant of a session relating FIFO, station history and decoder; C73, C75 for the station history known so far |
| C77 (F) | `repl_packets`, `Repl.v` | length of the address part of a packet; witnesses by computation |
| C78 | `Tx.v` and `Rx.v` connected | the receiver's frame fits while a station's packets come in, hence the traffic is orderly in the sense of C63; composition with C73 and C79 |
| C79 | `SpecRx.v` listener (equal to the receiver by C20) | a valid packet takes 76 half bits; invariant on the half bits since the last execute(); counterexample for 77 by computation |
| C80 | packet generators, `Tx.v`, `Rx.v` | counting argument on the history of the station (queue drains, idle packets follow); composition with C75 and C78 |
| C81 | whole decoder (`Rx.v`) with two environments, `SpecAlike.v` | relational rules for the decoder monad (`same`), one per function; induction over the operations |
| C82 | as C80 | the application restricted to states with a short CV1 (subset type) agrees with the application on the accesses ordered (C81), C80 for the restricted one |
| C83 | `Repl.v` | invariant: packets in the FIFO plus those waiting in the station bounded by the intervals since the last command, by induction over the session; C82's restriction for definedness, C76 for the calls |
| C84 | `Tx.v` and `Rx.v` connected, `SpecPace.v` | gaps between accepted packets as a function of the durations (any weight, so that counting and timing are one proof); at least 11 zeros in a packet because its checksum is zero; counterexample by computation |
| C85 | `Stm32.v` (wires, timers, capture unit), `Tx.v`, `Rx.v` | the capture unit stays in step with the half bits of the station (`sync`); what it emits interval by interval; a stream of blocks heard as packets is heard whatever each block begins with (`stream_audible`); pace as in C84 |
| C86 | `Stm32.v` | C85 for an application with access to bits; C81 for the application of the example, which differs only in accesses that are not made; induction over the turns |
| C87 | `Tx.v` and `Rx.v` connected, `SpecLate.v` | packets without their preamble never hold 20 ones in a row before a zero (`calm_frame`), nor does any suffix; then the stream of packets as in C84 |
| C88 (F) | `Rx.v`, `SpecLate.v` | 19 ones bring the receiver from any state back to counting a preamble (`settles_all`); then C84 or, if fewer than 20 ones are left, C87 |
| C89 | `Rmt.v`, `SpecRmtTrack.v` and `Rx.v` connected | C71 repeated for registers that neither overflow nor complete a log-on packet (`channel_run`), then C73 |
| C90 | `Esp32.v`, `Rmt.v`, `RmtLife.v` | C89 for this configuration; idle packets have no recipient |
| C91 | `Rx.v`, `SpecDialog.v` | the interpreter of C73 extended by the waiting answer; invariant over all calls (`dialogue`), transmission by C55's exact description of channel 2 |
| C92 (F) | `Rx.v`, `SpecDialog.v` | invariant on C91's interpreter: the waiting value belongs to the last CV packet and is up to date (`truthful_obey`) |
| C93 | `Rx.v`, `SpecDialog.v` | the execution of the packet is found in the history, nothing can be sent or executed after it (`access_waits`); then C91 |
| C94 | `TxPreempt.v`: bytes() as a program of single steps, transmit() before any of them | stores into the slot behind the last element commute with transmit() (`transmit_put`); simulation by uninterrupted calls, the call placed at the step that counts the element or finds the queue full (`linear`); then C78 (`interrupted_obeyed`) |
| C95 | whole path from `tx_run` to the application | orders that are not answered leave the abstract memory alone and the others keep the number (`only_mine`), then C82 (`mine_done`, `private`) |
| C96 | `biDiChannel2` of two decoders | both remember the same last packet (`same_last`); who sends is its addressee (C55, `speaker`), with the addresses given by the CVs (C91) |
| C97 | whole path from `tx_run` to the datagram and its decoding | the packets heard are cut at both reads (`filter_cut`, `heard_cut`); packets in between leave the abstract decoder alone (`orders_pass`); C93 extended by packets in between (`read_answered_on`, `station_reads`) |
| C98 (F) | `stm32_env`, `show`, `capture`, whole path from `tx_run` | C85 with a board that has access to bits, carried over by C81; LEDs as a fold over the orders (`told_lamps`, `orders_lamps`); CVs written by C81 with a weaker relation (`stm32_writes`); emergency stop and F24-F31 by computation |
| C99 (F) | `Rx.v`, `Packets.v`, `Tx.v` through C73 and C74 | a session as a list of turns (`SpecProg.v`); induction over the turns in the interpreter `obey_all`; bits of a byte by computation; gap by computation |
| C100 | all of `Rx.v` | interpreter `attend_all` (`SpecNode.v`); simulation lemma per decoder function (`NodeProofs*.v`), then induction over the calls; unlike C73 with logon packets, repeated init() and the configuration as it was last read |
| C101 (F) | `Rx.v` through C100 | `logged_on`, `concerns`, `same_but_logon` (`SpecNode.v`); invariants of the interpreter by cases over its instructions, induction over the inputs |
| C102 (F) | `Rx.v` through C100 | `reply`, `in_both_channels` (`SpecSession.v`); one lemma for the handler of logon packets, then the cutout by the exact results of channel 1 and 2 (C54, C55); reading back by the datagram codec (C16) |
| C103 | `Rx.v` through C100 and C102 | `roll_call`, `call_up` (`SpecSession.v`); induction over the decoders called up so far, the others being indifferent |
| C104 | `Tx.v`, `Rx.v` | `arrived`, `heard_in`, `taken_in`, `fetched` (`SpecLine.v`); the bit machine over whole packets as for C26 but with logon packets kept, then C100; definedness as for C78 with C63 |
| C105 | `Tx.v`, `Rx.v` | `proper`, `offered` (`SpecLine.v`); all queued packets finish (C80), C104, and three invariants of the interpreter: before SELECT, before ASSIGN, behind it |
| C106 | `Tx.v`, `Rx.v`, `Wire.v` | `call_times` (`SpecTx.v`), `airtime` with ten bits a byte, `agree` (`SpecWire.v`); windows by induction over the packets on the track, lengths from C61 |
| C107 | `Tx.v` | `charge`, `cutouts`, `polarity` (`SpecWire.v`); invariant of every prefix of the track signal |
| C108 (F) | bit receiver of `Rx.v` | `flip`, places of bits, `left_alone` (`SpecFlip.v`); registers bit by bit as for C19; witnesses found by search and checked by computation |
| C109 | `Tx.v` | `longest`, `lasting`, `delivered` (`SpecLatency.v`); the histories of C14 with the time left of the packet on the track, queue order by induction over the later history |
| C110 | `Tx.v` | `apart` over calls and returned durations (`SpecLatency.v`); invariant: the rest of the current packet and the waiting ones are at most a packet time of work whenever a packet is handed over |
| C111 | `Preempt.v`, `Rx.v` | sessions of C65, the interpreter of C73; `unassigned` (`SpecTorn.v`); simulation of C73 restated without reachability (packets heard are bytes, three at least: a property of the abstract receiver), interrupted executions by the commutation of C65 |
| C112 | `TxPreempt.v`, `Preempt.v` | C94 and C111 joined by the track: `all_calls`, `roomy` (`SpecTorn.v`); what a listener hears depends on the half bits only, not on when packets are executed |
| C113 | `Tx.v`, `Rx.v` | `has_obeyed` (`SpecReact.v`); C109 with one more packet behind it, C84 (at most one packet is left unobeyed) |
| C114 | `Rx.v`, `Tx.v` | `settings`, `panel`, `orders`, `agree` (`SpecRefresh.v`); last-writer-wins on the interpreter of C73, C113 |
| C115 | `PreemptData.v`, `Rx.v` | `offering`, `meanwhile`, `takes`, `part` (`SpecOffer.v`); FIFO invariant over every step of every interleaving, as for C56 |
| C116 (F) | `Preempt.v`, `Rx.v` | `cv_reply`, `rest_of` (`SpecStale.v`), `meanwhile` (`SpecOffer.v`); simulation of every interleaving by the steps of an uninterrupted execution (`follows`), then the steps of a CV access (`staged`); witness by computation |
| C117 (F) | `Preempt.v`, `Rx.v` | `announced`, `executions`, `session_moments` (`SpecTell.v`); balance of the queue across every step and interrupt (`flow`), byte and range invariants kept by interrupted executions (`torn_sane`); witness by computation |
| C118 | `Preempt.v`, `Rx.v` | `session_by_rules`, `passed`, `roomy` (`SpecFirm.v`); interrupts are defined under the invariants `world` and `base` (`FirmProofs2.v`, `FirmProofs4.v`), every step of execute() is defined in any state that has these and the packet at the front (`sure`, `FirmProofs4.v`, `FirmProofs5.v`), a Hoare logic for interrupted programs (`triple`, `FirmProofs6.v`), induction over turns (`FirmProofs7.v`) |
| C119 | `Tx.v`, `Rx.v` | `stops_all`, `sets_speed`, `halted` (`SpecHalt.v`); calls that tell nothing about driving (`calm_run`), the stop told in operations mode (`stopped`, `HaltProofs.v`), joined with the history of the station and the latency of C113 (`HaltProofs2.v`); witness for the reset packet (`HaltWitness.v`) |
| C120 | `PreemptLoop.v`, `PreemptData.v`, `Preempt.v` | `mainloop`, `round`, `loop_by_rules` (`SpecLoop.v`); packets by the listener of C65 (`LoopProofs.v`), room in the queues by the triples of C118 (`LoopProofs2.v`), `ends`: total correctness under interrupts for datagram(), which unlike execute() writes what the cutout handlers read, the invariant `world` of C118 kept by every call (`LoopProofs3.v`) |
| C121 (F) | `PreemptOff.v`, `Rx.v` | `SpecOff.v`; the stores of reset() are moved past the interrupts one by one: cutout handlers look at the packet only (`comm` of `Comm.v`), receive() by the bit machine of C19 (`OffProofs.v`, `OffProofs2.v`); whatever a register is left with, eight bits shift it out, the checksum is carried through a whole frame (`OffProofs3.v`) |
| C122 | `Preempt.v`, `PreemptLoop.v`, `Rx.v` | `as_told`, `last_stored` (`SpecStored.v`); what a selected decoder has been told changes only together with the flag (`firm_handler`), no other write of a CV reaches 65296 to 65300 because packets and the page register consist of bytes (`bytes`, `tame`); assertions kept by interrupts are carried through the steps of logonStore() (`goes`, `StoredProofs3.v`); without logon packets by the listener of C19 (`StoredProofs4.v`) |
| C123 | `Preempt.v`, `PreemptLoop.v` | `loop_unassigned`, `starting` (`SpecWhole.v`); every step of init() and of the callbacks does the same in decoders that differ only in what interrupts change (`free`, `WholeProofs.v`), after that the invariant of C111 (`sound`) goes through the loop; the queue by C120 |
| C124 | `TxPreempt.v`, `Preempt.v`, `PreemptLoop.v` | `loop_made`, `loop_roomy` (`SpecWhole2.v`); what the loop hears is what the bit receiver makes of the half bits finished on the track (`loop_pure`, `WholeProofs2.v`), then C120 for the queue and C123 for the interpreter |
| C125 | `Preempt.v`, `PreemptLoop.v` | `never_logs_on`, `logon_off` (`SpecNoLogon.v`); receive() with logon off keeps everything commands depend on (`NoLogonProofs.v`), every step of the calls keeps logon off (`safe`, `NoLogonProofs2.v`), then the induction of C123 without its premise on logon packets (`NoLogonProofs3.v`); `C125_needed` by computation |
| C126 | `TxPreempt.v`, `Preempt.v`, `PreemptLoop.v` | `sendable` (`SpecLine.v`), `never_logs_on` (`SpecNoLogon.v`); what the loop hears are the packets finished on the track but for the logon packets (`loop_carries`, `NoLogonProofs4.v`), then C120 for the queue and C125 for the interpreter |
| C127 | `Preempt.v`, `PreemptLoop.v` | `held`, `turns` (`SpecProgress.v`); the first three steps of execute() are taken apart (`turn_taken`, `ProgressProofs.v`), then counting along the loop and C120 for the order |
| C128 | `Preempt.v`, `PreemptLoop.v` | `prompt`, `synchronous`, `same_call` (`SpecAsync.v`); a step by step relation of two programs (`relP`, `PromptProofs.v`) preserved by interrupts (`relP_preempted`), then C123 |
| C129 | `TxPreempt.v`, `Preempt.v`, `PreemptLoop.v` | `finished` (`SpecTx.v`), `turns` (`SpecProgress.v`), `obey_all` (`SpecLayout.v`); `station_line` (C124 for the first n intervals, `DeliverProofs.v`) with `loop_progress` and `whole_layout` |
| C130 | `TxPreempt.v`, `Preempt.v`, `PreemptLoop.v` | `drives`, `orders`, `agree`, `panel` (`SpecRefresh.v`), `turns` (`SpecProgress.v`); `whole_layout` with `obey_all_drives`, `last_stands`; `station_line` and `loop_progress` for the station (`RefreshProofs2.v`) |
| C131 | `TxPreempt.v`, `Preempt.v`, `PreemptLoop.v` | `stops_all`, `resets`, `sets_speed` (`SpecHalt.v`), `turns` (`SpecProgress.v`); `whole_layout` with the view an emergency stop leaves; `station_line` and `loop_progress` for the station (`HaltProofs3.v`) |
| C132 | `TxPreempt.v`, `Preempt.v`, `PreemptLoop.v` | `prompt`, `synchronous` (`SpecAsync.v`), the specifications of C129 and C131; both transferred along `prompt_loop` (`PromptProofs2.v`) |
