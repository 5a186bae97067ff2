(** The example examples/stm32: two boards, a command station and a decoder, connected by two wires *)
From Verif Require Import Prelude Address Packets Tx RxState Rx.

(** ** Wires *)

(** The pins TRACK_N and TRACK_P, bsp.c:30-31 *)
Definition pins : Type := bool * bool.

(** bsp_write_track, bsp.c:331-334, called by CommandStation::trackOutputs,
    command_station.cpp:5. The callbacks around the cutout are empty (7-13). *)
Definition write_track (p : pins) (e : tx_event) : pins :=
  match e with TrackOutputs n q => (n, q) | _ => p end.

(** TIMER_IRQ_HANDLER of the command station, command_station.cpp:17-20, and
    bsp_command_station_irq, bsp.c:323-329. transmit() sets the pins, what it returns is
    written to the auto-reload register without preload (278); the timer counts from 0 up
    to that number and so takes one tick more than it says. The latency of the interrupt
    is not modelled here, see [off] in SpecEdges.v. Both boards divide the same core clock
    by the same number (232, 275): a tick takes as long on both. *)
Fixpoint wave (p : pins) (xs : list (Z * list tx_event)) : list (Z * pins) :=
  match xs with
  | [] => []
  | (t, es) :: r => let p' := fold_left write_track es p in (t + 1, p') :: wave p' r
  end.

(** bsp_decoder_irq, bsp.c:294-317, with the timer set up by 232-251. A rising edge at the
    active input captures the 16 bit counter. The interrupt then takes the other input and
    subtracts what was captured, so that the counter goes on with the time since that edge.
    [ti2]: TRACK_P is active instead of TRACK_N. [since]: ticks since the last capture. The
    interrupt is taken to be done before the next edge. *)
Fixpoint capture (ti2 : bool) (since : Z) (p : pins) (w : list (Z * pins)) : list Z :=
  match w with
  | [] => []
  | (d, p') :: r =>
      let rises := if ti2 then negb (snd p) && snd p' else negb (fst p) && fst p' in
      if rises then since mod 65536 :: capture (negb ti2) d p' r else capture ti2 (since + d) p' r
  end.

(** What a decoder board captures that is switched on before the station transmits
    anything; the pins are pulled down (219), TRACK_N is active first (242) *)
Definition captured (since : Z) (xs : list (Z * list tx_event)) : list Z :=
  capture false since (false, false) (wave (false, false) xs).

(** ** Decoder board *)

(** Decoder::_cvs, decoder.hpp:40-44 *)
Definition stm32_table : list Z :=
  [3; 1; 2; 1; 1; 1; 4; 145; 55; 0; 0; 117; 128; 195; 0; 0; 192; 128; 0; 0; 0; 0; 0; 0; 0; 0; 0; 131; 14].
Definition stm32_cvs : Z -> Z := fun a => nth (Z.to_nat a) stm32_table 0.

Definition on_board (a : Z) : bool := (0 <=? a) && (a <? 29).

(** Decoder::readCv and writeCv, decoder.cpp:35-49: bytes are checked against the size of
    the array, bits are neither read nor written. rand and the clock are only used for
    automatic logon, which this station does not ask for. *)
Definition stm32_env : Env (Z -> Z) :=
  Mk_env _
    (fun m a => (if on_board a then m a else 0, m))
    (fun m a b => (if on_board a then m a else 0, m))
    (fun m a v p => (false, m))
    (fun m a b => if on_board a then (b, fun x => if x =? a then b else m x) else (0, m))
    (fun m a v p => (false, m))
    (fun m e => (None, m))
    (fun m e => m)
    (fun m => (0, m))
    (fun m => (0, m))
    false false false false.

(** Green and yellow LED: Decoder::speed and Decoder::function, decoder.cpp:8-27. Texts
    written to the terminal are left out. *)
Definition leds : Type := bool * bool.
Definition show (l : leds) (e : event) : leds :=
  match e with
  | ESpeed _ v => (negb (v =? 0), snd l)
  | EFunction _ mask state =>
      if Z.land mask 0x8 =? 0 then l else (fst l, negb (Z.land state 0x8 =? 0))
  | _ => l
  end.

(** ** Station board *)

(** main, command_station.cpp:24-29 *)
Definition stm32_config : tx_config := TxConfig 17 58 100 false true.

(** The loop, command_station.cpp:37-65: the [k]th packet put into the FIFO and the LEDs
    from then on *)
Definition stm32_turn (k : nat) : res (list Z) * leds :=
  match Nat.modulo k 4 with
  | 0%nat => (make_advanced_operations_speed_packet (loco 3) (Z.lor (Z.shiftl 1 7) 42), (true, false))
  | 1%nat => (make_function_group_f4_f0_packet (loco 3) 0x8, (true, true))
  | 2%nat => (make_advanced_operations_speed_packet (loco 3) (Z.lor (Z.shiftl 1 7) 0), (false, true))
  | _ => (make_function_group_f4_f0_packet (loco 3) 0, (false, false))
  end.
