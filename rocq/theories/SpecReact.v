(** When a packet handed to a command station has been obeyed *)
From Verif Require Import Prelude SpecCodec Tx SpecTx RxState Rx SpecRx SpecExec SpecCv SpecBidi SpecLayout.

(** Packets put on the track, None is the idle packet: those of them that were handed over *)
Definition handed_over (ps : list (option (list Z))) : list (list Z) :=
  flat_map (fun p => match p with Some bs => [bs] | None => [] end) ps.

(** ... and the bytes of all of them *)
Definition contents (ps : list (option (list Z))) : list (list Z) :=
  map (fun p => match p with Some bs => bs | None => [0xFF; 0x00; 0xFF] end) ps.

(** Packets a station is asked to send *)
Definition asked (ops : list tx_op) : list (list Z) := flat_map (fun o => match o with TBytes bs => [bs] | _ => [] end) ops.

(** A decoder switched on with [i] runs through [dos] without fault and has done exactly what
    the packets [ps], then [bs], then perhaps the first ones of [qs] order *)
Definition has_obeyed {I : Type} (E : Env I) (m : I -> Z -> Z) (able : access -> Prop) (i : I)
    (ps : list (list Z)) (bs : list Z) (qs : list (list Z)) (dos : list op) : Prop :=
  exists s es more left, run E (OInit :: dos) (st0 i) = Ok (tt, s, es) /\ qs = more ++ left /\
    let y := obey_all (e_east_west E) (ps ++ bs :: more) (new_view (m i)) in
    Forall (allowed able) (snd y) ->
    seen_in es = snd y /\ (forall a, m (Rx.app s) a = v_cvs (fst y) a) /\
    in_service s = v_service (fst y) /\ page s = v_page (fst y).

(** [a] begins with [b] *)
Definition begins_with (a b : list (list Z)) : Prop := exists r, a = b ++ r.
