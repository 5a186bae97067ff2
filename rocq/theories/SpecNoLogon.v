(** Vocabulary for decoders without automatic logon. *)
From Verif Require Import Prelude RxState Rx.

(** The application of a decoder without automatic logon: bit 7 of CV28 always reads as 0
    (init() asks for it, rx/crtp_base.hpp:82-89) *)
Definition never_logs_on {I : Type} (E : Env I) : Prop := forall i, Z.testbit (u8 (fst (e_readCv E i 27))) 7 = false.

(** Automatic logon is off *)
Definition logon_off {I : Type} (s : st I) : Prop := logon_enabled (r_conf (rxs s)) = false.
