(** Property theorems C62 and C70: enabling and disabling, special operating modes. *)
From Verif Require Import Prelude Address SpecCodec RxState Rx SpecRx SpecExec SpecConf SpecCv SpecModes Toy ModesProofs.

(** * C62 *)

(** Full statement: after ODisable no packet is received until OEnable. It is false: a
    speed command heard while disabled is queued and executed. *)
Theorem C62_disabled_refuted : exists os s es, ~ In OEnable os /\
  run toy ([OInit; OEnable; ODisable] ++ os) (st0 factory) = Ok (tt, s, es) /\
  is_on s = false /\ In (ESpeed 3 (speed255 126 15)) es.
Proof.
  exists (map OReceive (half_bits 58 100 (track_bits 14 [3; 0x3F; 0x90; 0xAC])) ++ [OReceive 58; OExecute]).
  do 2 eexists. split.
  { intros H. apply in_app_or in H. destruct H as [H|[H|[H|H]]]; try discriminate; try contradiction.
    apply in_map_iff in H. destruct H as (t & H & _). discriminate. }
  split; [vm_compute; reflexivity|]. split; [reflexivity|]. vm_compute. tauto.
Qed.
Print Assumptions C62_disabled_refuted.

(** The flag makes no difference at all: a disabled decoder does, returns and ends up with
    whatever an enabled one does *)
Theorem C62_no_difference : forall (I : Type) (E : Env I) os b s, existsb is_switch os = false ->
  run E os (switched b s) =
  match run E os s with Ok (u, s', es) => Ok (u, switched b s', es) | UB r => UB r end.
Proof. exact flag_ignored. Qed.
Print Assumptions C62_no_difference.

(** What holds: disabling an enabled decoder makes it forget the packet it is receiving, and
    nothing else; disabling it again does nothing *)
Theorem C62_disable : forall (I : Type) (E : Env I) s, exists s', step E ODisable s = Ok (false, s', []) /\
  is_on s' = false /\ beside_reception s' = beside_reception s /\ last_packet s' = last_packet s /\
  (is_on s = true -> idle_receiver s') /\ (is_on s = false -> s' = s).
Proof. exact disable_effect. Qed.
Print Assumptions C62_disable.

Theorem C62_enable : forall (I : Type) (E : Env I) s, exists s', step E OEnable s = Ok (false, s', []) /\
  is_on s' = true /\ beside_reception s' = beside_reception s /\ r_fsm (rxs s') = r_fsm (rxs s).
Proof. exact enable_effect. Qed.
Print Assumptions C62_enable.

(** An enabled decoder in the middle of a packet *)
Example C62_ex : exists s es,
  run toy ([OInit; OEnable] ++ map OReceive (half_bits 58 100 (firstn 30 (track_bits 14 [3; 0x3F; 0x90; 0xAC])))) (st0 factory)
  = Ok (tt, s, es) /\ is_on s = true /\ ~ idle_receiver s.
Proof. do 2 eexists. split; [vm_compute; reflexivity|]. split; [reflexivity|]. discriminate. Qed.

(** * C70 *)

(** Any special operating mode packet for this decoder: MAN is bit 7, an application that
    wants to know is told east if bit 6 is set and west otherwise *)
Theorem C70_effect : forall (I : Type) (E : Env I) s p q n b t, reached E s -> ready s p q -> in_service s = false ->
  for_locos p -> acts_as (r_addrs (rxs s)) p n -> body_of p = 0x3E :: b :: t ->
  exists s' e1, execute E s = Ok (true, s', e1 ++ if e_east_west E then [EEastWest n (Some (bit_of b 6))] else []) /\
    storing s e1 /\ man_flag (r_cv (rxs s')) = bit_of b 7 /\ but_man s' = but_man s /\ r_deque (rxs s') = q.
Proof. exact @special_mode. Qed.
Print Assumptions C70_effect.

(** As specified if one of the bits 6 and 5 is set *)
Theorem C70_told : forall (I : Type) (E : Env I) s p q n b t, reached E s -> ready s p q -> in_service s = false ->
  e_east_west E = true -> for_locos p -> acts_as (r_addrs (rxs s)) p n -> body_of p = 0x3E :: b :: t -> heading b <> None ->
  exists s' e1, execute E s = Ok (true, s', e1 ++ [EEastWest n (heading b)]) /\ storing s e1.
Proof. exact @special_mode_told. Qed.
Print Assumptions C70_told.

(** [toy] that wants to know the heading *)
Definition compass : Env (Z -> Z) :=
  Mk_env _ (e_readCv toy) (e_readCvByte toy) (e_readCvBit toy) (e_writeCv toy) (e_writeCvBit toy) (e_async toy)
    (e_hook toy) (e_rand toy) (e_now toy) false false false true.
Definition telling (b : Z) : list op :=
  [OInit; OEnable] ++ map OReceive (half_bits 58 100 (track_bits 14 [3; 0x3E; b; Z.lxor 0x3D b]) ++ [58]).
Definition told (b : Z) : st (Z -> Z) :=
  match run compass (telling b) (st0 factory) with
  | Ok (_, s, _) => s
  | UB _ => st0 factory
  end.

(** Full statement: C70_told without [heading b <> None]. It is false: with neither bit set
    the decoder reports west. *)
Theorem C70_neither_refuted : exists s p n b t s' es, reached compass s /\ ready s p [] /\ in_service s = false /\
  for_locos p /\ acts_as (r_addrs (rxs s)) p n /\ body_of p = 0x3E :: b :: t /\ heading b = None /\
  execute compass s = Ok (true, s', es) /\ es = [EEastWest n (Some false)].
Proof.
  exists (told 0x80), [3; 0x3E; 0x80; 0xBD], 3, 0x80. do 3 eexists. split.
  { exists factory, (telling 0x80). eexists. vm_compute. reflexivity. }
  split; [split; vm_compute; reflexivity|]. split; [vm_compute; reflexivity|]. split; [vm_compute; tauto|]. split.
  { apply to_own; [lia|vm_compute; reflexivity|vm_compute; reflexivity|]. left. split; [left|]; vm_compute; reflexivity. }
  split; [reflexivity|]. split; [reflexivity|]. split; [vm_compute; reflexivity|]. reflexivity.
Qed.
Print Assumptions C70_neither_refuted.

(** Shunting, westwards *)
Example C70_ex : heading 0xA0 = Some false /\ heading 0x40 = Some true /\
  exists s' , execute compass (told 0xA0) = Ok (true, s', [EEastWest 3 (heading 0xA0)]) /\
    man_flag (r_cv (rxs (told 0xA0))) = false /\ man_flag (r_cv (rxs s')) = true.
Proof. split; [reflexivity|]. split; [reflexivity|]. eexists. split; [vm_compute; reflexivity|]. split; reflexivity. Qed.
