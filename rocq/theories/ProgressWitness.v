(** A main loop with packets waiting, for the examples *)
From Verif Require Import Prelude Address SpecCodec RxState Rx SpecRx SpecConf SpecLayout Toy CvWitness LogonWitness AsyncWitness
  Preempt SpecPreempt PreemptWitness SpecTorn TornWitness PreemptLoop SpecLoop LoopWitness SpecWhole WholeWitness SpecProgress.

(** Three packets come in while nothing is executed *)
Definition lazy_start : loop_plan := [([OEnable], TInit, pieces join); (arriving [join], TDatagram [DynTemperature 40], pieces ride)].
(** An execution that finds a packet just completed, then three that do not, interrupted as well *)
Definition catching_up : loop_plan :=
  [(track ride, TExecute, [[]; [OBiDi1]]); ([OReceive 58], TExecute, pieces ride); ([], TInit, pieces ride);
   ([], TExecute, [[]; [OBiDi1]]); ([], TExecute, [[]; [OBiDi1]])].
