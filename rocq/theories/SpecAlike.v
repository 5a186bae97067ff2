(** Two applications that give the same answers, possibly with different kinds of state *)
From Verif Require Import Prelude RxState Rx.

Section Agree.
  Context {I1 I2 : Type} (E1 : Env I1) (E2 : Env I2) (R : I1 -> I2 -> Prop) (ok : event -> Prop).

  (** As long as the calls are [ok], related states answer the same and stay related *)
  Record agree : Prop := {
    ag_read : forall i j a, R i j -> ok (EReadCv a (u8 (fst (e_readCv E2 j a)))) ->
      u8 (fst (e_readCv E1 i a)) = u8 (fst (e_readCv E2 j a)) /\ R (snd (e_readCv E1 i a)) (snd (e_readCv E2 j a));
    ag_readByte : forall i j a b, R i j -> ok (EReadCvByte a b (u8 (fst (e_readCvByte E2 j a b)))) ->
      u8 (fst (e_readCvByte E1 i a b)) = u8 (fst (e_readCvByte E2 j a b)) /\
      R (snd (e_readCvByte E1 i a b)) (snd (e_readCvByte E2 j a b));
    ag_readBit : forall i j a b k, R i j -> ok (EReadCvBit a b k (fst (e_readCvBit E2 j a b k))) ->
      fst (e_readCvBit E1 i a b k) = fst (e_readCvBit E2 j a b k) /\
      R (snd (e_readCvBit E1 i a b k)) (snd (e_readCvBit E2 j a b k));
    ag_write : forall i j a b, R i j -> ok (EWriteCv a b (u8 (fst (e_writeCv E2 j a b)))) ->
      u8 (fst (e_writeCv E1 i a b)) = u8 (fst (e_writeCv E2 j a b)) /\
      R (snd (e_writeCv E1 i a b)) (snd (e_writeCv E2 j a b));
    ag_writeBit : forall i j a b k, R i j -> ok (EWriteCvBit a b k (fst (e_writeCvBit E2 j a b k))) ->
      fst (e_writeCvBit E1 i a b k) = fst (e_writeCvBit E2 j a b k) /\
      R (snd (e_writeCvBit E1 i a b k)) (snd (e_writeCvBit E2 j a b k));
    ag_async : e_async_readable E2 = true \/ e_async_writable E2 = true -> forall i j e, R i j -> ok e ->
      fst (e_async E1 i e) = fst (e_async E2 j e) /\ R (snd (e_async E1 i e)) (snd (e_async E2 j e));
    ag_hook : forall i j e, R i j -> ok e -> R (e_hook E1 i e) (e_hook E2 j e);
    ag_rand : forall i j, R i j -> fst (e_rand E1 i) = fst (e_rand E2 j) /\ R (snd (e_rand E1 i)) (snd (e_rand E2 j));
    ag_now : forall i j, R i j -> fst (e_now E1 i) = fst (e_now E2 j) /\ R (snd (e_now E1 i)) (snd (e_now E2 j));
    ag_readable : e_async_readable E1 = e_async_readable E2;
    ag_writable : e_async_writable E1 = e_async_writable E2;
    ag_high : e_high_current E1 = e_high_current E2;
    ag_east : e_east_west E1 = e_east_west E2 }.

  (** Equal but for the state of the application *)
  Definition alike (s : st I1) (t : st I2) : Prop :=
    rxs s = rxs t /\ pending s = pending t /\ R (app s) (app t).
End Agree.
