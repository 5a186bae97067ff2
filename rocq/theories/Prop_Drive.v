(** Properties C27 to C30, C32 and C33: addressing, driving and functions *)
From Verif Require Import Prelude Address SpecCodec RxState Rx SpecRx SpecExec ExecProofs Toy.

(** * C27 *)

(** From any state: a packet for somebody else is taken off the queue, makes no call
    (apart from storing logon data that was waiting) and changes nothing *)
Theorem C27_foreign : forall (I : Type) (E : Env I) s p q,
  ready s p q -> in_service s = false -> Forall byte p -> (3 <= length p)%nat ->
  ~ (for_locos p /\ exists n, acts_as (r_addrs (rxs s)) p n) ->
  reacts E s q false [].
Proof. exact @foreign. Qed.
Print Assumptions C27_foreign.

(** A speed command for locomotive 4, an accessory command, a long address *)
Example C27_ex : Forall (fun p =>
    ready (fed factory [p]) p [] /\ in_service (fed factory [p]) = false /\
    ~ (for_locos p /\ exists n, acts_as (r_addrs (rxs (fed factory [p]))) p n) /\
    shows (fed factory [p]) = Some (false, []))
  [[4; 0x3F; 0x90; 0xAB]; [0x81; 0xF8; 0x79]; [0xC7; 0xD0; 0x3F; 0x85; 0xAD]].
Proof.
  assert (H : Forall (fun p => f_packet_end (r_fsm (rxs (fed factory [p]))) = false /\ r_deque (rxs (fed factory [p])) = [p] /\
      service_mode (r_cv (rxs (fed factory [p]))) = false /\
      r_addrs (rxs (fed factory [p])) = Mk_addrs (Addr 3 ATShort false) (Addr 0 ATLong false) addr0 (address_of p) /\
      shows (fed factory [p]) = Some (false, []))
    [[4; 0x3F; 0x90; 0xAB]; [0x81; 0xF8; 0x79]; [0xC7; 0xD0; 0x3F; 0x85; 0xAD]])
    by (repeat (apply Forall_cons; [vm_compute; auto|]); apply Forall_nil).
  eapply Forall_impl; [|exact (proj2 (Forall_forall _ _) (fun x Hx => conj (proj1 (Forall_forall _ _) H x Hx) Hx))].
  clear H. intros p [(H1 & H2 & H3 & H4 & H5) Hp]. cbn beta.
  split; [exact (conj H1 H2)|]. split; [exact H3|]. split; [|exact H5]. rewrite H4.
  intros [Hf (n & Ha)]. destruct Hp as [<-|[<-|[<-|[]]]]; destruct Ha as [Ha|n Ha1 Ha2 Ha3 [Ha4|Ha4]|n Ha1 Ha2 Ha4];
    vm_compute in Hf; try (vm_compute in Ha; discriminate); vm_compute in Ha2; subst n; vm_compute in Ha4;
    intuition discriminate.
Qed.

(** * C28 *)

Theorem C28_own : forall (I : Type) (E : Env I) s p q b s' es,
  ready s p q -> in_service s = false -> Forall byte p -> (3 <= length p)%nat ->
  execute E s = Ok (b, s', es) ->
  (b = true <-> for_locos p /\ exists n, acts_as (r_addrs (rxs s)) p n).
Proof. exact @returns_own. Qed.
Print Assumptions C28_own.

Theorem C28_reported : forall (I : Type) (E : Env I) s p q n b s' es,
  ready s p q -> in_service s = false -> Forall byte p -> (3 <= length p)%nat ->
  for_locos p -> acts_as (r_addrs (rxs s)) p n -> execute E s = Ok (b, s', es) ->
  Forall (reported_as n) es.
Proof. exact @reported. Qed.
Print Assumptions C28_reported.

(** Own address 3; consist address 100 (CV19); broadcast *)
Example C28_ex :
  let cvs := put factory 18 100 in
  (let p := [3; 0x3F; 0x90; 0xAC] in
   ready (fed cvs [p]) p [] /\ acts_as (r_addrs (rxs (fed cvs [p]))) p 3 /\
   shows (fed cvs [p]) = Some (true, [EDirection 3 true; ESpeed 3 30])) /\
  (let p := [100; 0x3F; 0x90; 0xCB] in
   ready (fed cvs [p]) p [] /\ acts_as (r_addrs (rxs (fed cvs [p]))) p 100 /\
   shows (fed cvs [p]) = Some (true, [EDirection 100 true; ESpeed 100 30])) /\
  (let p := [0; 0x3F; 0x90; 0xAF] in
   ready (fed cvs [p]) p [] /\ acts_as (r_addrs (rxs (fed cvs [p]))) p 0 /\
   shows (fed cvs [p]) = Some (true, [EDirection 0 true; ESpeed 0 30])).
Proof.
  cbv zeta. split; [|split]; (split; [vm_compute; auto|]; split; [|vm_compute; reflexivity]).
  - apply to_own; try (vm_compute; reflexivity); [discriminate|]. left. vm_compute. auto.
  - apply to_own; try (vm_compute; reflexivity); [discriminate|]. right. vm_compute. auto.
  - apply to_all. reflexivity.
Qed.

(** * C29 *)

Theorem C29_speed : forall (I : Type) (E : Env I) s p q n b t,
  ready s p q -> in_service s = false -> Forall byte p -> (3 <= length p)%nat ->
  for_locos p -> acts_as (r_addrs (rxs s)) p n -> body_of p = 0x3F :: b :: t ->
  reacts E s q true (speed126_calls (r_addrs (rxs s)) n b).
Proof. exact @speed126_reacts. Qed.
Print Assumptions C29_speed.

(** Step 126 forward, step 1 backward, stop, emergency stop *)
Example C29_ex : forall ad, let ad := Mk_addrs (Addr 3 ATShort false) (consist ad) (logon ad) (received ad) in
  map (speed126_calls ad 3) [0xFF; 0x02; 0x80; 0x81] =
  [[EDirection 3 true; ESpeed 3 255]; [EDirection 3 false; ESpeed 3 2]; [EDirection 3 true; ESpeed 3 0]; [ESpeed 3 (-1)]] /\
  map (fun p => shows (fed factory [p]))
    [[3; 0x3F; 0xFF; 0xC3]; [3; 0x3F; 0x02; 0x3E]; [3; 0x3F; 0x80; 0xBC]; [3; 0x3F; 0x81; 0xBD]] =
  map (fun b => Some (true, speed126_calls ad 3 b)) [0xFF; 0x02; 0x80; 0x81].
Proof. intros ad. split; vm_compute; reflexivity. Qed.

(** * C30 *)

Theorem C30_speed : forall (I : Type) (E : Env I) s p q n b t,
  ready s p q -> in_service s = false -> Forall byte p -> (3 <= length p)%nat ->
  for_locos p -> acts_as (r_addrs (rxs s)) p n -> body_of p = b :: t -> 0x40 <= b < 0x80 ->
  reacts E s q true (speed28_calls (r_addrs (rxs s)) (f0_exception (r_conf (rxs s))) n b).
Proof. exact @speed28_reacts. Qed.
Print Assumptions C30_speed.

(** All 32 codes, as in the table of RCN-212: with 28 steps every step occurs once *)
Example C30_ex : forall ad,
  map (fun b => match speed28_calls ad false 3 b with [ESpeed _ v] => v | [_; ESpeed _ v] => v | _ => 999 end)
    (zseq 0x60 32) =
  [0; -1; 2; 20; 39; 58; 76; 95; 114; 133; 151; 170; 189; 208; 226; 245;
   0; -1; 11; 30; 48; 67; 86; 105; 123; 142; 161; 180; 198; 217; 236; 255] /\
  shows (fed (put factory 28 8) [[3; 0x74; 0x77]]) =
  Some (true, [EFunction 3 1 1; EDirection 3 true; ESpeed 3 40]).
Proof. intros ad. split; vm_compute; reflexivity. Qed.

(** * C32 *)

Theorem C32_groups : forall (I : Type) (E : Env I) s p q n b t,
  ready s p q -> in_service s = false -> Forall byte p -> (3 <= length p)%nat ->
  for_locos p -> acts_as (r_addrs (rxs s)) p n -> body_of p = b :: t -> 0x80 <= b < 0xC0 ->
  reacts E s q true [function_group_call (f0_exception (r_conf (rxs s))) n b].
Proof. exact @group_reacts. Qed.
Print Assumptions C32_groups.

Theorem C32_expansion : forall (I : Type) (E : Env I) s p q n b v t,
  ready s p q -> in_service s = false -> Forall byte p -> (3 <= length p)%nat ->
  for_locos p -> acts_as (r_addrs (rxs s)) p n -> body_of p = b :: v :: t -> b = 0xDE \/ b = 0xDF ->
  reacts E s q true [functions n (if b =? 0xDE then 13 else 21) 8 v].
Proof. exact @expansion_reacts. Qed.
Print Assumptions C32_expansion.

(** F0 and F4 on; F5 and F8 on; F9 on; F13 and F20 on; F28 on *)
Example C32_ex : map (fun p => shows (fed factory [p]))
    [[3; 0x98; 0x9B]; [3; 0xB9; 0xBA]; [3; 0xA1; 0xA2]; [3; 0xDE; 0x81; 0x5C]; [3; 0xDF; 0x80; 0x5C]] =
  map (fun e => Some (true, [e]))
    [EFunction 3 0x1F 0x11; EFunction 3 0x1E0 0x120; EFunction 3 0x1E00 0x200;
     EFunction 3 0x1FE000 0x102000; EFunction 3 0x1FE00000 0x10000000] /\
  shows (fed (put factory 28 8) [[3; 0x98; 0x9B]]) = Some (true, [EFunction 3 0x1E 0x11]).
Proof. split; vm_compute; reflexivity. Qed.

(** * C33 *)

(** With at most three function bytes *)
Theorem C33_three_partial : forall (I : Type) (E : Env I) s p q n b fs c,
  ready s p q -> in_service s = false -> Forall byte p -> (3 <= length p)%nat ->
  for_locos p -> acts_as (r_addrs (rxs s)) p n -> body_of p = 0x3C :: b :: fs ++ [c] -> (length fs <= 3)%nat ->
  reacts E s q true (combined false n 0 fs ++ speed126_calls (r_addrs (rxs s)) n b).
Proof. exact @combined_three. Qed.
Print Assumptions C33_three_partial.

(** With any number: as above, but F24-F31 are reported under the mask of F0-F7 *)
Theorem C33_exact : forall (I : Type) (E : Env I) s p q n b fs c,
  ready s p q -> in_service s = false -> Forall byte p -> (3 <= length p)%nat ->
  for_locos p -> acts_as (r_addrs (rxs s)) p n -> body_of p = 0x3C :: b :: fs ++ [c] ->
  reacts E s q true (combined true n 0 (firstn 4 fs) ++ speed126_calls (r_addrs (rxs s)) n b).
Proof. exact @combined_reacts. Qed.
Print Assumptions C33_exact.

(** F24 on *)
Theorem C33_four_refuted : exists p b fs c, p = closed [3; 0x3C; 0x80; 0; 0; 0; 1] /\
  body_of p = 0x3C :: b :: fs ++ [c] /\ length fs = 4%nat /\
  shows (fed factory [p]) =
    Some (true, [EFunction 3 0xFF 0; EFunction 3 0xFF00 0; EFunction 3 0xFF0000 0;
                 EFunction 3 0xFF 0x1000000; EDirection 3 true; ESpeed 3 0]) /\
  shows (fed factory [p]) <> Some (true, combined false 3 0 fs ++
                                         speed126_calls (r_addrs (rxs (fed factory [p]))) 3 b).
Proof.
  exists (closed [3; 0x3C; 0x80; 0; 0; 0; 1]), 0x80, [0; 0; 0; 1], 0xBE.
  split; [reflexivity|]. split; [reflexivity|]. split; [reflexivity|].
  split; [vm_compute; reflexivity|vm_compute; discriminate].
Qed.
Print Assumptions C33_four_refuted.

Example C33_ex :
  let p := closed [3; 0x3C; 0x90; 0x01; 0x80] in
  body_of p = 0x3C :: 0x90 :: [0x01; 0x80] ++ [0x2E] /\
  shows (fed factory [p]) =
    Some (true, [EFunction 3 0xFF 0x01; EFunction 3 0xFF00 0x8000; EDirection 3 true; ESpeed 3 30]).
Proof. split; vm_compute; reflexivity. Qed.
