(** Histories for the claims about logon *)
From Verif Require Import Prelude Address SpecCodec Packets Checksum RxState Rx SpecRx SpecExec SpecConf SpecCv SpecLogon Toy CvWitness.

Definition track (p : list Z) : list op := map OReceive (half_bits 58 100 (track_bits 14 p)).
(** Packets after each of which the answer is fetched *)
Definition talk (ps : list (list Z)) : list op := [OInit; OEnable] ++ flat_map (fun p => track p ++ [OBiDi1; OBiDi2]) ps.
Definition after (os : list op) (cvs : Z -> Z) : st (Z -> Z) :=
  match run toy os (st0 cvs) with Ok (_, s, _) => s | UB _ => st0 cvs end.
Definition runs (os : list op) (cvs : Z -> Z) : bool :=
  match run toy os (st0 cvs) with Ok _ => true | UB _ => false end.
(** All of packet [p] but its last duration *)
Definition almost (p : list Z) : list op := removelast (track p).

(** Logon switched on, unique ID 1 2 3 4 *)
Definition ready_made : Z -> Z := put (put (put (put (put factory 27 0x83) 249 1) 250 2) 251 3) 252 4.
Definition enable_5 : list Z := closed [0xFE; 0xFC; 0x12; 0x34; 5].
Definition enable_6 : list Z := closed [0xFE; 0xFC; 0x12; 0x34; 6].
Definition with_check (bs : list Z) : list Z := closed (bs ++ [crc8 bs]).
Definition select_1234 (man : Z) : list Z := with_check [0xFE; 0xD0; man; 1; 2; 3; 4; 0xFF].
Definition assign_to (a b : Z) : list Z := with_check [0xFE; 0xE0; 0x91; 1; 2; 3; 4; a; b].


Lemma heard_last : forall os cvs p, runs (os ++ almost p) cvs = true ->
  completed (OReceive 58) (listen_all (os ++ almost p) listener0) = Some p ->
  hears toy (after (os ++ almost p) cvs) 58 p.
Proof.
  intros os cvs p Hr Hc. unfold runs, after in *. destruct (run toy (os ++ almost p) (st0 cvs)) as [[[[] s] es]|] eqn:E; [|discriminate].
  exists cvs, (os ++ almost p), es. auto.
Qed.
Lemma after_reached : forall os cvs, runs os cvs = true -> reached toy (after os cvs).
Proof.
  intros os cvs H. unfold runs, after in *. destruct (run toy os (st0 cvs)) as [[[[] s] es]|] eqn:E; [|discriminate].
  exists cvs, os, es. exact E.
Qed.

(** [served] can be computed *)
Fixpoint soon (os : list op) : bool :=
  match os with
  | [] => false
  | OBiDi2 :: _ => true
  | o :: r => negb (is_receive o) && soon r
  end.
Fixpoint served_b (l : listener) (os : list op) : bool :=
  match os with
  | [] => true
  | o :: r => match completed o l with Some p => negb (is_logon p) || soon r | None => true end && served_b (listen o l) r
  end.
Lemma soon_spec : forall os, soon os = true -> exists os3 os4, os = os3 ++ OBiDi2 :: os4 /\ existsb is_receive os3 = false.
Proof.
  induction os as [|o os IH]; intros H; [discriminate|].
  assert (o = OBiDi2 \/ negb (is_receive o) && soon os = true) as [->|K] by (destruct o; auto).
  - exists [], os. split; reflexivity.
  - apply andb_prop in K. destruct K as [K1 K2]. destruct (IH K2) as (os3 & os4 & -> & Hx).
    exists (o :: os3), os4. split; [reflexivity|]. cbn [existsb]. rewrite Hx. destruct (is_receive o); [discriminate|reflexivity].
Qed.
Lemma served_spec : forall os, served_b listener0 os = true -> served os.
Proof.
  intros os H os1. revert os H. generalize listener0. induction os1 as [|o os1 IH]; intros l os H t os2 p Ho Hc Hp; subst os; cbn [List.app served_b] in H;
    apply andb_prop in H; destruct H as [H1 H2].
  - cbn [listen_all fold_left] in Hc. rewrite Hc, Hp in H1. exact (soon_spec _ H1).
  - exact (IH (listen o l) _ H2 t os2 p eq_refl Hc Hp).
Qed.

(** A selection with another manufacturer number is answered *)
Lemma other_manufacturer : exists (cvs : Z -> Z) s t p s' es, hears toy s t p /\ says p (Select (own_id s)) /\ undamaged p /\
  nth 2 p 0 = 13 /\ receive toy t s = Ok (tt, s', es) /\ is_selected s = false /\ is_selected s' = true /\
  length (logon_answers s') = 1%nat /\ own_id s = [cvs 249; cvs 250; cvs 251; cvs 252].
Proof.
  exists ready_made, (after (talk [] ++ almost (select_1234 13)) ready_made), 58, (select_1234 13). do 2 eexists.
  split; [apply heard_last; vm_compute; reflexivity|].
  split; [replace (own_id _) with [1; 2; 3; 4] by (vm_compute; reflexivity);
          exact (says_select 0 13 [1; 2; 3; 4] (skipn 7 (select_1234 13)) ltac:(lia) eq_refl)|].
  split; [right; vm_compute; reflexivity|]. split; [reflexivity|]. split; [vm_compute; reflexivity|]. repeat split; vm_compute; reflexivity.
Qed.

(** Address 1000 handed out with the flag bits 00: the decoder then is number 3, not 1000 *)
Lemma wrong_flags : exists (cvs : Z -> Z) os s es, run toy os (st0 cvs) = Ok (tt, s, es) /\
  os = talk [enable_5; select_1234 145; assign_to 0x03 0xE8] /\ handed_out 0x03 0xE8 = Some (Addr 1000 ATLong false) /\
  logon (r_addrs (rxs s)) = Addr 3 ATShort false /\ is_assigned s = true.
Proof.
  exists ready_made. do 3 eexists. split; [|split; [reflexivity|]]; [vm_compute; reflexivity|]. repeat split; vm_compute; reflexivity.
Qed.

(** Long address 100 handed out: the decoder also obeys the short address 100 *)
Lemma short_too : exists (cvs : Z -> Z) s, let p := [100; 0x3F; 0x90; 0xCB] in
  reached toy s /\ ready s p [] /\ logon (r_addrs (rxs s)) = Addr 100 ATLong false /\ address_of p = Addr 100 ATShort false /\
  shows s = Some (true, [EWriteCv 18 0 0; EWriteCv 19 0 0; EWriteCv 65296 0x12 0x12; EWriteCv 65297 0x34 0x34; EWriteCv 65298 5 5;
    EWriteCv 65299 0 0; EWriteCv 65300 100 100; EDirection 3 true; ESpeed 3 30]).
Proof.
  exists ready_made, (after (talk [enable_5; select_1234 145; assign_to 0xC0 100; [100; 0x3F; 0x90; 0xCB]] ++ [OReceive 58]) ready_made).
  split; [apply after_reached; vm_compute; reflexivity|]. split; [split; vm_compute; reflexivity|]. repeat split; vm_compute; reflexivity.
Qed.

(** Assigned, stored, switched off and on, recognized: number 3 *)
Definition stored_memory : Z -> Z :=
  app (after (talk [enable_5; select_1234 145; assign_to 0xC3 0xE8; [0xC3; 0xE8; 0x3F; 0x90; 0x84]] ++ [OReceive 58; OExecute]) ready_made).
Lemma not_restored : exists (cvs : Z -> Z) s1 e1 s2 e2,
  run toy (talk [enable_5; select_1234 145; assign_to 0xC3 0xE8; [0xC3; 0xE8; 0x3F; 0x90; 0x84]] ++ [OReceive 58; OExecute]) (st0 cvs) = Ok (tt, s1, e1) /\
  logon (r_addrs (rxs s1)) = Addr 1000 ATLong false /\ is_assigned s1 = true /\ to_store s1 = false /\
  run toy (talk [enable_6]) (st0 (app s1)) = Ok (tt, s2, e2) /\
  is_assigned s2 = true /\ logon (r_addrs (rxs s2)) = Addr 3 ATShort false.
Proof.
  exists ready_made. do 4 eexists. split; [vm_compute; reflexivity|]. split; [reflexivity|]. split; [reflexivity|]. split; [reflexivity|].
  split; [vm_compute; reflexivity|]. split; reflexivity.
Qed.

(** Twice ENABLE for all, without a channel 2 in between *)
Definition enable_now : list Z := closed [0xFE; 0xFF; 0x12; 0x34; 5].
Lemma second_answer : exists (cvs : Z -> Z) s t es, 
  run toy ([OInit; OEnable] ++ track enable_now ++ almost enable_now) (st0 cvs) = Ok (tt, s, es) /\
  length (logon_answers s) = 1%nat /\ receive toy t s = UB AssertFailed.
Proof. exists ready_made. eexists. exists 58. eexists. split; [vm_compute; reflexivity|]. split; vm_compute; reflexivity. Qed.
