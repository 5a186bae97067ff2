(** Properties C31 and C43 to C46: configuration by CVs *)
From Verif Require Import Prelude Address SpecCodec RxState Rx SpecRx SpecExec SpecConf ConfProofs ConfProofs2 Toy.

(** * C43 *)

(** Any application, any earlier state: init reads each CV once, and what it was given
    determines the configuration; nothing else changes *)
Theorem C43_configuration : forall (I : Type) (E : Env I) s s' es,
  init E s = Ok (tt, s', es) ->
  exists c, (forall a, byte (c a)) /\ es = config_calls c (e_high_current E) /\
    configured c s' /\ unconfigured s' = unconfigured s.
Proof. exact @init_configures. Qed.
Print Assumptions C43_configuration.

(** Long address 2000 reversed, 14 steps, consist 105 reversed, locked, RailCom with logon *)
Example C43_ex :
  let c := fun a => nth (Z.to_nat a) ([3] ++ repeat 0 13 ++ [7; 9; 0xC7; 0xD0; 0x85; 1; 0; 0; 0; 0; 0; 0; 0; 0x83; 0x29]) 0 in
  exists s' es, init toy (st0 c) = Ok (tt, s', es) /\
    primary (r_addrs (rxs s')) = Addr 2000 ATLong true /\ consist (r_addrs (rxs s')) = Addr 105 ATLong true /\
    r_conf (rxs s') = Mk_confs true true false true true true [0; 0; 0; 0] /\
    configured c s'.
Proof.
  eexists. eexists. split; [vm_compute; reflexivity|].
  split; [reflexivity|]. split; [reflexivity|]. split; [reflexivity|].
  split; [split; [reflexivity|split; reflexivity]|split; [reflexivity|split; reflexivity]].
Qed.

(** * C44 *)

(** The only way init leaves defined behaviour *)
Theorem C44_exact : forall (I : Type) (E : Env I) m s, cv_memory E m ->
  (init E s = UB OutOfBounds <-> broken_cv1 (m (app s))) /\
  (~ broken_cv1 (m (app s)) -> exists s' es, init E s = Ok (tt, s', es) /\ configured (m (app s)) s' /\ m (app s') = m (app s)).
Proof. exact @init_defined. Qed.
Print Assumptions C44_exact.

(** CV1 = 200: the second byte of a long address is read from beyond the single CV *)
Theorem C44_defined_refuted : exists (m : Z -> Z),
  (forall a, byte (m a)) /\ init toy (st0 m) = UB OutOfBounds.
Proof. exact init_undefined. Qed.
Print Assumptions C44_defined_refuted.

Example C44_ex : ~ broken_cv1 factory /\ broken_cv1 (put factory 0 192) /\ ~ broken_cv1 (put (put factory 0 192) 28 32).
Proof. unfold broken_cv1. vm_compute. intuition (try discriminate; auto). Qed.

(** * C31 *)

Theorem C31_own_address : forall (I : Type) (E : Env I) s c p q n d, active c s ->
  ready s p q -> in_service s = false -> Forall byte p -> (3 <= length p)%nat ->
  for_locos p -> acts_as (r_addrs (rxs s)) p n -> n = aval (own_address c) -> steers (body_of p) d ->
  exists calls, reacts E s q true calls /\ reports_direction n (xorb d (bit_of (cv c 29) 0)) calls.
Proof. exact @direction_primary. Qed.
Print Assumptions C31_own_address.

Theorem C31_consist_address : forall (I : Type) (E : Env I) s c p q n d, active c s ->
  ready s p q -> in_service s = false -> Forall byte p -> (3 <= length p)%nat ->
  for_locos p -> acts_as (r_addrs (rxs s)) p n -> n = aval (consist_address c) -> n <> aval (own_address c) ->
  steers (body_of p) d ->
  exists calls, reacts E s q true calls /\ reports_direction n (xorb d (bit_of (cv c 19) 7)) calls.
Proof. exact @direction_consist. Qed.
Print Assumptions C31_consist_address.

(** CV29 = 11 (reversed), CV19 = 100: the same command forward to 3 and to 100 *)
Example C31_ex :
  let cvs := put (put factory 18 100) 28 11 in
  let p := [3; 0x3F; 0x90; 0xAC] in let p' := [100; 0x3F; 0x90; 0xCB] in
  (active cvs (fed cvs [p]) /\ steers (body_of p) true /\ 3 = aval (own_address cvs) /\
   shows (fed cvs [p]) = Some (true, [EDirection 3 false; ESpeed 3 30])) /\
  (active cvs (fed cvs [p']) /\ steers (body_of p') true /\ 100 = aval (consist_address cvs) /\
   shows (fed cvs [p']) = Some (true, [EDirection 100 true; ESpeed 100 30])).
Proof.
  split; (split; [split; [vm_compute; reflexivity|split; vm_compute; reflexivity]|]);
    (split; [apply steer126; vm_compute; discriminate|]); split; vm_compute; reflexivity.
Qed.

(** * C45 *)

(** Whatever is executed, in either mode: after a write to one of the configuration CVs
    the active configuration is that of the CV contents *)
Theorem C45_immediate : forall (I : Type) (E : Env I) m, cv_memory E m ->
  forall s b s' es, logon_store (r_logon (rxs s)) = false -> execute E s = Ok (b, s', es) ->
  (active (m (app s)) s -> active (m (app s')) s') /\ (Exists config_write es -> active (m (app s')) s').
Proof. exact @execute_sound. Qed.
Print Assumptions C45_immediate.

(** CV1 := 5 by two programming on main packets; the decoder then answers to 5 *)
Example C45_ex :
  let p := [3; 0xEC; 0; 5; 0xEA] in
  let s := fed factory [p; p; [5; 0x3F; 0x90; 0xAA]] in
  let r := drained 2 s in
  logon_store (r_logon (rxs s)) = false /\ Exists config_write (snd r) /\
  primary (r_addrs (rxs (fst r))) = Addr 5 ATShort false /\
  shows (fst r) = Some (true, [EDirection 5 true; ESpeed 5 30]).
Proof.
  cbv zeta. split; [vm_compute; reflexivity|]. split; [|split; vm_compute; reflexivity].
  match goal with |- Exists _ ?l => let x := eval vm_compute in l in change (Exists config_write x) end.
  apply Exists_cons_hd. vm_compute. auto.
Qed.

(** * C46 *)

(** The consist packet 0001xxxD 0AAAAAAA writes CV19 with address and direction bit, and
    the consist address is the one of the CVs from then on *)
Theorem C46_consist_control : forall (I : Type) (E : Env I) m, cv_memory E m ->
  forall s p q n b0 b1 t b s' es,
  ready s p q -> in_service s = false -> Forall byte p -> (3 <= length p)%nat ->
  for_locos p -> acts_as (r_addrs (rxs s)) p n -> body_of p = b0 :: b1 :: t -> 0x10 <= b0 < 0x20 ->
  cvs_locked (r_conf (rxs s)) = false -> execute E s = Ok (b, s', es) ->
  let v := b1 mod 128 + 128 * Z.b2z (Z.odd b0 || (128 <=? b1)) in
  let c := m (app s') in
  b = true /\ configured c s' /\
  exists e1, storing s e1 /\ es = e1 ++ EWriteCv 18 v (cv c 19) :: config_calls c (e_high_current E).
Proof. exact @consist_control. Qed.
Print Assumptions C46_consist_control.

(** Into consist 100, reversed; a command to 100 is then obeyed *)
Example C46_ex :
  let p := [3; 0x13; 100; 0x74] in
  let s := fed factory [p; [100; 0x3F; 0x90; 0xCB]] in
  ready s p [[100; 0x3F; 0x90; 0xCB]] /\ cvs_locked (r_conf (rxs s)) = false /\
  let r := drained 1 s in
  consist (r_addrs (rxs (fst r))) = Addr 100 ATLong true /\
  shows (fst r) = Some (true, [EDirection 100 false; ESpeed 100 30]).
Proof. vm_compute. auto. Qed.
