(** datagram() as a sequence of small steps between which interrupts may run
    (include/dcc/rx/crtp_base.hpp), in the language of Preempt.v.

    datagram() is called in thread mode. Meanwhile biDiChannel2() takes datagrams off
    the same deque in an interrupt. As in Preempt.v, a read or an assignment of a
    member, full(), empty() and push_back() are one step each. *)
From Verif Require Import Prelude Address Datagram RxState Rx Preempt.

Section Offer.
  Context {I : Type}.
  Notation prog := (@prog I).

  Local Notation "x <- m ;; k" := (pbind m (fun x => k))
    (at level 61, m at next level, right associativity).
  Local Notation "m ;;; k" := (pbind m (fun _ => k)) (at level 61, right associativity).

  (** full(_dyn_deque) and empty(_dyn_deque), rx/crtp_base.hpp:214, 215, 1059 *)
  Definition fullP : prog bool := rd (fun r => (length (dyn_deque (r_bidi r)) =? rx_bidi_deque_size)%nat).
  Definition emptyP : prog bool := rd (fun r => (length (dyn_deque (r_bidi r)) =? 0)%nat).

  (** dyn(uint8_t, uint8_t), rx/crtp_base.hpp:1058-1062. The datagram is built from
      local values before it is pushed. *)
  Definition dyn_pushP (d x : Z) : prog unit :=
    en <- rd (fun r => ch2_data_enabled (r_conf r)) ;;
    if negb en then Done tt
    else
      f <- fullP ;;
      if f : bool then Done tt
      else
        dg <- local (rbind (make_datagram_id B18 7 (Z.lor (Z.shiftl d 6) x)) encode_datagram) ;;
        wr (fun r => set_dyn_deque (dyn_deque (r_bidi r) ++ [dg]) r).

  (** The fold over dyns, rx/crtp_base.hpp:221 *)
  Fixpoint dyn_allP (ds : list dyn_arg) : prog unit :=
    match ds with
    | [] => Done tt
    | a :: r => dyn_pushP (fst (dyn_convert a)) (snd (dyn_convert a)) ;;; dyn_allP r
    end.

  (** datagram, rx/crtp_base.hpp:210-222 *)
  Definition datagramP (ds : list dyn_arg) : prog unit :=
    f <- fullP ;;
    (if f : bool then wr (set_block_dyn true)
     else
       e <- emptyP ;;
       if e : bool then
         wr (set_block_dyn false) ;;;
         q <- rd (fun r => qos (r_cnt r)) ;;
         dyn_pushP q 7
       else Done tt) ;;;
    b <- rd (fun r => block_dyn (r_bidi r)) ;;
    if b : bool then Done tt else dyn_allP ds.
End Offer.
