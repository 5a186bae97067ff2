(** Vocabulary for CV answers under interrupts. *)
From Verif Require Import Prelude RxState Rx SpecBidi.

(** The byte behind one or two address bytes is that of a CV access in long form *)
Definition cv_packet (p : list Z) : Prop :=
  0xE0 <= nth (if (128 <=? hd 0 p) && (hd 0 p <=? 252) then 2%nat else 1%nat) p 0 < 0xF0.

(** [xs] is [ys] without some of its first elements *)
Definition rest_of {A : Type} (xs ys : list A) : Prop := exists n, xs = skipn n ys.

(** What is sent when channel 2 is called in state [m] behind a CV packet for the own
    number, if the value is one of [ds f] where [f] is the packet received last: nothing,
    the acknowledgement or that value *)
Definition cv_reply {I : Type} (m : moment (I := I)) (ok : list Z -> list Z -> Prop) : Prop :=
  match m with
  | (s, OBiDi2, es) => own_packet s -> for_cvs s ->
      sent es = [] \/ sent es = [[0x0F]] \/ exists d, sent es = [d] /\ ok (last_bytes s) d
  | _ => True
  end.
