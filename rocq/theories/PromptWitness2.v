(** A station, and a main loop that is busy with datagram() while packets come in, for the examples *)
From Verif Require Import Prelude Address Packets SpecCodec SpecTx Tx RxState Rx SpecRx SpecExec SpecConf SpecCv SpecLayout LayoutWitness
  Toy CvWitness LogonWitness SpecAsync AsyncWitness TxPreempt Preempt SpecPreempt PreemptWitness TornWitness PreemptLoop SpecLoop LoopWitness SpecWhole WholeWitness
  WholeWitness2.

(** Locomotive 3 is to join consist 5. All locomotives are to stop. *)
Definition join_consist : list Z := frame 3 [0x12; 5].
Definition stop_all : list Z := frame 0 [0x61].

(** packet() is interrupted by transmit() at every step *)
Definition slowly (k : nat) : list xop := flat_map (fun _ => [XTick; XStep]) (repeat tt k).
Definition late_station : list xop := [XCall join_consist] ++ slowly 150 ++ [XCall stop_all] ++ slowly 150 ++ repeat XTick 200.
Definition late_config : tx_config := TxConfig 17 58 100 false true.
Definition late_line : list (Z * list tx_event) := Eval vm_compute in
  match rbind (tx_init late_config (tx_init_state 4)) (fun s => xrun late_station (SIdle, s)) with Ok (o, _) => o | UB _ => [] end.

Definition late_tasks : list task :=
  TInit :: repeat (TDatagram [DynTemperature 40]) 32 ++
  flat_map (fun _ => [TExecute; TDatagram [DynTemperature 40]]) (repeat tt 6) ++ TInit :: repeat TExecute 14.
(** Ten interrupts in every call *)
Definition late_loop : list (list op * task * list (list op)) := Eval vm_compute in spread_loop late_tasks 10 6 (map fst late_line) (st0 factory).
