(** Property theorems C115: datagram() interrupted by the handlers of the receiver. *)
From Verif Require Import Prelude Address SpecCodec Datagram RxState Rx SpecRx SpecConf SpecCv SpecBidi Toy CvWitness LogonWitness BidiWitness
  Preempt SpecPreempt PreemptWitness PreemptData SpecOffer OfferProofs OfferProofs3 OfferProofs4 OfferWitness.

(** * C115 *)

(** The steps of datagram(), taken one after another without interrupts, are datagram() *)
Theorem C115_steps : forall (I : Type) ds (s : st I), flat (datagramP ds) s = datagram ds s.
Proof. exact @flat_datagram. Qed.
Print Assumptions C115_steps.

(** Whatever interrupts come between the steps of however many calls of datagram(): the values
    taken are transmitted in the order in which they were offered, each of them once, one or
    two at a time, and never more than seven wait. An interrupted call takes whatever it would
    have taken undisturbed, and nothing that was not offered. *)
Theorem C115_fifo : forall (I : Type) (E : Env I) ts i cs (s : st I) es, Forall proper ts -> offering E ts (st0 i) = Ok (cs, s, es) ->
  exists groups parts, spoken_data (offering_moments E ts (st0 i)) (map (@concat Z) groups) /\
    Forall (fun g => (1 <= length g <= 2)%nat) groups /\ Forall2 takes cs parts /\
    Forall2 says_point (concat parts) (concat groups ++ data_waiting s) /\ (length (data_waiting s) <= 7)%nat.
Proof. exact @offering_fifo. Qed.
Print Assumptions C115_fifo.

(** Cutouts may interrupt datagram() anywhere without undefined behaviour *)
Theorem C115_defined : forall (I : Type) (E : Env I) (s : st I) ds w, reached E s -> cutout s -> Forall in_range ds ->
  Forall (Forall (fun o => o = OBiDi1 \/ o = OBiDi2)) w -> exists o s' es, preempted E (datagramP ds) w s = Ok (o, s', es).
Proof. exact @datagram_defined. Qed.
Print Assumptions C115_defined.

(** Undisturbed, a call takes the first so many values. A cutout in the middle lets it take
    a later value after it left out an earlier one. *)
Theorem C115_gap : exists os (s s' : st (Z -> Z)) e1 o es ds w, run toy os (st0 factory) = Ok (tt, s, e1) /\
  Forall in_range ds /\ Forall (Forall handler) w /\ preempted toy (datagramP ds) w s = Ok (o, s', es) /\
  map point_of ds = [(1, 0); (2, 0); (3, 0); (4, 0); (5, 0); (6, 0); (7, 0); (8, 0)] /\
  Forall2 says_point [(2, 0); (3, 0); (4, 0); (5, 0); (6, 0); (8, 0)] (data_waiting s').
Proof. exact gap. Qed.
Print Assumptions C115_gap.

(** Two calls, each interrupted by cutouts: the first by one that fetches the quality of service
    and the first value *)
Example C115_ex : let r := offered2 in Forall proper two_calls /\
  offering toy two_calls (st0 factory) = Ok (fst (fst r), snd (fst r), snd r) /\
  map (fun c => map fst (accepted (fst c) (snd c))) (fst (fst r)) = [[0; 1; 2]; [9]] /\
  map (fun d => map (fun x => make_data (decode_datagram x)) [firstn 3 d; skipn 3 d])
    (flat_map (fun m => sent (snd m)) (offering_moments toy two_calls (st0 factory))) =
  [[Ok (16384 * 7 + 64 * 0 + 7); Ok (16384 * 7 + 64 * 1)]; [Ok (16384 * 7 + 64 * 2); Ok 0]] /\
  map (fun x => make_data (decode_datagram x)) (data_waiting (snd (fst r))) = [Ok (16384 * 7 + 64 * 0 + 7); Ok (16384 * 7 + 64 * 9)].
Proof. exact two_calls_ok. Qed.

(** The state of the first call, interrupted *)
Example C115_ex2 : let s := after asked3 factory in reached toy s /\ cutout s /\ Forall in_range [DynKmh 1; DynKmh 2] /\
  Forall (Forall (fun o => o = OBiDi1 \/ o = OBiDi2)) [[]; [OBiDi1; OBiDi2]; []; [OBiDi2]].
Proof. exact asked3_ok. Qed.
