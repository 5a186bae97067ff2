(** Interrupted calls of datagram() for the examples *)
From Verif Require Import Prelude Address SpecCodec Datagram RxState Rx SpecRx SpecConf SpecCv SpecBidi Toy CvWitness LogonWitness BidiWitness
  Preempt SpecPreempt PreemptWitness PreemptData SpecOffer.

(** A packet for number 3 was just received *)
Definition asked3 : list op := started ++ track drive3.
Lemma asked3_ok : let s := after asked3 factory in reached toy s /\ cutout s /\ Forall in_range [DynKmh 1; DynKmh 2] /\
  Forall (Forall (fun o => o = OBiDi1 \/ o = OBiDi2)) [[]; [OBiDi1; OBiDi2]; []; [OBiDi2]].
Proof.
  cbv zeta. split.
  { destruct (run toy asked3 (st0 factory)) as [[[[] s0] e1]|] eqn:Er; [|vm_compute in Er; discriminate].
    exists factory, asked3, e1. unfold after. rewrite Er. reflexivity. }
  split; [vm_compute; reflexivity|]. split; [repeat (apply Forall_cons; [cbn [in_range]; lia|]); apply Forall_nil|].
  repeat (apply Forall_cons; [repeat (apply Forall_cons; [auto|]); apply Forall_nil|]). apply Forall_nil.
Qed.

Definition kmh (n : nat) : list dyn_arg := map (fun k => DynKmh (Z.of_nat k)) (seq 1 n).
Lemma kmh_ok : forall n, Forall in_range (kmh n).
Proof. intros n. apply Forall_forall. intros a Ha. apply in_map_iff in Ha. destruct Ha as (k & <- & _). cbn [in_range]. lia. Qed.

(** Eight values; a cutout after the seventh was found not to fit *)
Definition late : list (list op) := repeat [] 28 ++ [[OBiDi2]].
Definition offered (ds : list dyn_arg) (w : list (list op)) (s : st (Z -> Z)) :=
  match preempted toy (datagramP ds) w s with Ok x => x | UB _ => ((tt, [], []), s, []) end.
Definition offers_ok (ds : list dyn_arg) (w : list (list op)) (s : st (Z -> Z)) : bool :=
  match preempted toy (datagramP ds) w s with Ok _ => true | UB _ => false end.
Lemma offers_spec : forall ds w s, offers_ok ds w s = true ->
  preempted toy (datagramP ds) w s = Ok (fst (fst (offered ds w s)), snd (fst (offered ds w s)), snd (offered ds w s)).
Proof. intros ds w s H. unfold offers_ok, offered in *. destruct (preempted _ _ _ _) as [[[o s'] es]|]; [reflexivity|discriminate]. Qed.

Lemma gap : exists os (s s' : st (Z -> Z)) e1 o es ds w, run toy os (st0 factory) = Ok (tt, s, e1) /\
  Forall in_range ds /\ Forall (Forall handler) w /\ preempted toy (datagramP ds) w s = Ok (o, s', es) /\
  map point_of ds = [(1, 0); (2, 0); (3, 0); (4, 0); (5, 0); (6, 0); (7, 0); (8, 0)] /\
  Forall2 says_point [(2, 0); (3, 0); (4, 0); (5, 0); (6, 0); (8, 0)] (data_waiting s').
Proof.
  set (s := after asked3 factory). destruct (run toy asked3 (st0 factory)) as [[[[] s0] e1]|] eqn:Er; [|vm_compute in Er; discriminate].
  assert (Hs : s = s0) by (unfold s, after; rewrite Er; reflexivity).
  exists asked3, s, (snd (fst (offered (kmh 8) late s))), e1, (fst (fst (offered (kmh 8) late s))), (snd (offered (kmh 8) late s)), (kmh 8), late.
  split; [rewrite Hs; exact Er|]. clear e1 s0 Er Hs. split; [apply kmh_ok|]. split; [apply handlers_ok; vm_compute; reflexivity|].
  split; [apply offers_spec; vm_compute; reflexivity|]. split; [reflexivity|].
  assert (X : data_waiting (snd (fst (offered (kmh 8) late s))) = 
    map (fun v => match encode_datagram (base64 3 (16384 * 7 + 64 * v)) with Ok c => c | UB _ => [] end) [2; 3; 4; 5; 6; 8]) by (vm_compute; reflexivity).
  rewrite X. clear X s. cbn [map].
  repeat (apply Forall2_cons; [unfold says_point, carries; vm_compute; repeat (apply coded_cons; [apply code_word_in; vm_compute; reflexivity|]); apply coded_nil|]).
  apply Forall2_nil.
Qed.

(** Two calls: one in a cutout, one while the next packet comes in *)
Definition two_calls : offer_plan :=
  [(asked3, kmh 2, [[]; []; []; []; []; []; []; []; []; []; []; [OBiDi1; OBiDi2]]);
   (track drive3, [DynKmh 9], [[OBiDi1; OBiDi2]; firstn 40 (track drive3); [OReceive 58]])].
Definition offered2 := match offering toy two_calls (st0 factory) with Ok x => x | UB _ => ([], st0 factory, []) end.
Lemma two_calls_ok : let r := offered2 in Forall proper two_calls /\
  offering toy two_calls (st0 factory) = Ok (fst (fst r), snd (fst r), snd r) /\
  map (fun c => map fst (accepted (fst c) (snd c))) (fst (fst r)) = [[0; 1; 2]; [9]] /\
  map (fun d => map (fun x => make_data (decode_datagram x)) [firstn 3 d; skipn 3 d])
    (flat_map (fun m => sent (snd m)) (offering_moments toy two_calls (st0 factory))) =
  [[Ok (16384 * 7 + 64 * 0 + 7); Ok (16384 * 7 + 64 * 1)]; [Ok (16384 * 7 + 64 * 2); Ok 0]] /\
  map (fun x => make_data (decode_datagram x)) (data_waiting (snd (fst r))) = [Ok (16384 * 7 + 64 * 0 + 7); Ok (16384 * 7 + 64 * 9)].
Proof.
  cbv zeta. split.
  { assert (K : forall os, forallb (fun o => match o with ODatagram _ => false | _ => true end) os = true -> Forall (fun o => forall x, o <> ODatagram x) os).
    { intros os H. apply Forall_forall. intros o Ho x ->. rewrite forallb_forall in H. discriminate (H _ Ho). }
    apply Forall_cons; [|apply Forall_cons; [|apply Forall_nil]]; (split; [apply K; vm_compute; reflexivity|split; [|apply handlers_ok; vm_compute; reflexivity]]).
    - apply kmh_ok.
    - apply Forall_cons; [cbn [in_range]; lia|apply Forall_nil]. }
  split.
  { assert (X : match offering toy two_calls (st0 factory) with Ok _ => true | UB _ => false end = true) by (vm_compute; reflexivity).
    unfold offered2. destruct (offering toy two_calls (st0 factory)) as [[[c s] es]|]; [reflexivity|discriminate]. }
  split; [vm_compute; reflexivity|]. split; vm_compute; reflexivity.
Qed.
