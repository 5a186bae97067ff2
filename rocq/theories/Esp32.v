(** Example for the ESP32 (examples/esp32/main/app_main.cpp). *)
From Verif Require Import Prelude Packets Rmt SpecRmtTrack.

(** dcc_encoder_config_t, app_main.cpp:26-31. DCC_TX_MIN_PREAMBLE_BITS is 17
    (CMakeLists.txt:55-57), .endbit_duration is 58u - 24u. *)
Definition esp32_config : rmt_config := Mk_rmt_config 17 60 58 100 (58 - 24) false true.

(** Endless loop, app_main.cpp:35-42, cut after as many turns as there are pairs in
    [turns]: rmt_transmit gives the encoder an idle packet. The RMT driver is not
    modelled. For each turn the pair tells how many symbols of memory the driver hands
    over in the successive calls and how long the output stays at the last level before
    the next transmission. *)
Definition esp32_loop (turns : list (list nat * Z)) : list job :=
  map (fun x => Job make_idle_packet (fst x) (snd x)) turns.
