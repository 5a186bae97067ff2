(** Speed of the BiDi channels (include/dcc/bidi/baudrate.hpp, bundled_channels.hpp) *)
From Verif Require Import Prelude Datagram.

(** baudrate, bidi/baudrate.hpp:15 *)
Definition baudrate : Z := 250000.

(** channel1_size, bidi/channel1.hpp:17; channel2_size, bidi/channel2.hpp:17;
    bundled_channels_size, bidi/bundled_channels.hpp:18 *)
Definition channel1_size : nat := datagram_size B12.
Definition channel2_size : nat := datagram_size B36.
Definition bundled_channels_size : nat := (channel1_size + channel2_size)%nat.
