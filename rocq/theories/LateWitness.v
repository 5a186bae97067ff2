(** Disturbances after which a decoder loses a packet *)
From Verif Require Import Prelude Address SpecCodec SpecTx Tx CodecProofs2 RxState Rx SpecRx SpecExec SpecConf SpecCv SpecBidi SpecSafe Toy
  SpecLayout SpecLayout2 LayoutWitness SpecStation StationWitness SpecLate.

(** A decoder that has heard [before] hears the first of two packets if the preamble has
    at least [least] bits, the second one in any case, and [x] before *)
Definition hears_after (before : list op) (least : Z) (x : list (list Z)) (n : Z) : Prop := exists s1 e1 s es,
  let c := TxConfig n 58 100 false true in
  let ps := [Some (frame 3 [0x3F; 0x90]); Some (frame 3 [0xEC; 2; 5])] in
  let dos := map OReceive (map fst (flat_map (on_track c) ps)) in
  let l := listen_all before listener0 in
  config_ok c /\ Forall acceptable ps /\
  run careful before (st0 (fun a => if a =? 0 then 3 else 0)) = Ok (tt, s1, e1) /\ run careful dos s1 = Ok (tt, s, es) /\
  ~ In ODisable dos /\ never_full dos l /\
  heard dos l = x ++ (if n <? least then [] else [frame 3 [0x3F; 0x90]]) ++ [frame 3 [0xEC; 2; 5]].

Ltac hear :=
  assert (G : forall os l, forallb (fun k => (length (l_queue (listen_all (firstn k os) l)) <? 31)%nat) (seq 0 (S (length os))) = true -> never_full os l) by
  (intros os l H os1 os2 ->; rewrite forallb_forall in H; specialize (H (length os1));
   rewrite firstn_app, firstn_all, Nat.sub_diag, firstn_O, app_nil_r in H; apply Nat.ltb_lt; apply H; apply in_seq; rewrite app_length; lia);
  assert (D : forall ts, ~ In ODisable (map OReceive ts)) by (intros ts H; apply in_map_iff in H; destruct H as (t & H & _); discriminate);
  assert (A : Forall acceptable [Some (frame 3 [0x3F; 0x90]); Some (frame 3 [0xEC; 2; 5])]) by
  (repeat (apply Forall_cons; [cbn [acceptable]; split; [apply Forall_forall; intros b Hb; vm_compute in Hb; unfold byte; lia|];
      split; [vm_compute; lia|split; reflexivity]|]); apply Forall_nil);
  do 4 eexists; cbv zeta;
    (split; [repeat split; cbn; lia|]); (split; [exact A|]);
    (split; [vm_compute; reflexivity|]); (split; [vm_compute; reflexivity|]); (split; [apply D|]);
    (split; [apply G; vm_compute; reflexivity|]); vm_compute; reflexivity.

(** A packet that breaks off behind its second byte *)
Lemma broken_off : Forall (hears_after
  (OInit :: map OReceive (half_bits 58 100 (repeat true 10 ++ false :: msb_first 3 ++ false :: msb_first 0xFC ++ [false]))) 19 [[3; 0xFC; 0xFF]])
  [17; 18; 19; 20].
Proof. repeat (apply Forall_cons; [hear|]). apply Forall_nil. Qed.

(** A preamble and half a start bit *)
Lemma half_start : Forall (hears_after (OInit :: map OReceive (half_bits 58 100 (repeat true 10) ++ [100])) 20 []) [17; 18; 19; 20].
Proof. repeat (apply Forall_cons; [hear|]). apply Forall_nil. Qed.
