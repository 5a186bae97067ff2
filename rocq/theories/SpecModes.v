(** Enabling and disabling, special operating modes *)
From Verif Require Import Prelude Address SpecCodec RxState Rx SpecRx SpecExec SpecConf.

Section View.
  Context {I : Type}.
  Implicit Types s : st I.

  Definition is_on s : bool := enabled_flag (r_cv (rxs s)).
  (** Everything but the bit receiver and the flag *)
  Definition beside_reception s :=
    ((r_cnt (rxs s), r_deque (rxs s), r_addrs (rxs s), r_conf (rxs s), r_logon (rxs s), r_bidi (rxs s), r_time (rxs s), app s, pending s),
     (last_own_cv_packet (r_cv (rxs s)), own_equal_cv_packets_count (r_cv (rxs s)), index_reg (r_cv (rxs s)),
      service_mode (r_cv (rxs s)), man_flag (r_cv (rxs s)))).
  (** The bit receiver has nothing of a packet, not even a preamble *)
  Definition idle_receiver s : Prop :=
    (f_state (r_fsm (rxs s)), f_bit_count (r_fsm (rxs s)), f_byte (r_fsm (rxs s)), f_checksum (r_fsm (rxs s))) = (Preamble, 0%nat, 0, 0).
  (** The packet last received (and which half of a bit was last, of no use without a packet) *)
  Definition last_packet s := (f_packet (r_fsm (rxs s)), f_packet_end (r_fsm (rxs s)), f_is_halfbit (r_fsm (rxs s))).

  (** The same decoder, switched on or off *)
  Definition switched (b : bool) s : st I :=
    let r := rxs s in let c := r_cv r in
    Mk_st (Mk_rx (r_fsm r) (r_deque r) (r_cnt r) (r_addrs r) (r_conf r) (r_logon r) (r_bidi r)
             (Mk_cvsts (last_own_cv_packet c) (own_equal_cv_packets_count c) (index_reg c) (service_mode c) (man_flag c) b)
             (r_time r)) (app s) (pending s).

  (** Everything a special operating mode packet must leave alone *)
  Definition but_man s :=
    ((r_fsm (rxs s), r_addrs (rxs s), r_conf (rxs s), pending s),
     (last_own_cv_packet (r_cv (rxs s)), own_equal_cv_packets_count (r_cv (rxs s)), index_reg (r_cv (rxs s)),
      service_mode (r_cv (rxs s)), enabled_flag (r_cv (rxs s))),
     (dyn_deque (r_bidi (rxs s)), tos_deque (r_bidi (rxs s)), pom_deque (r_bidi (rxs s)),
      block_dyn (r_bidi (rxs s)), ch1 (r_bidi (rxs s)), ch2 (r_bidi (rxs s))),
     (logon_selected (r_logon (rxs s)), logon_assigned (r_logon (rxs s)), cid_back (r_logon (rxs s)),
      sid_back (r_logon (rxs s)), logon_backoff (r_logon (rxs s)), logon_deque (r_logon (rxs s)))).
End View.

Definition is_switch (o : op) : bool := match o with OEnable | ODisable => true | _ => false end.

(** RCN-212, special operating modes, 0x3E and a byte: bit 7 shunting, bit 6 east, bit 5 west *)
Definition heading (b : Z) : option bool :=
  if bit_of b 6 then Some true else if bit_of b 5 then Some false else None.
