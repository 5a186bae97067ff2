(** Concrete runs for the interpreter with logon *)
From Verif Require Import Prelude Address ZBits SpecCodec Packets Checksum CodecProofs CodecProofs2 RxState Rx SpecRx SpecExec SpecConf SpecCv SpecLogon Toy CvWitness
  LogonWitness SpecLayout LayoutWitness SpecNode.

(** The memory of the examples keeps everything *)
Definition any_access (x : access) : Prop := True.
Lemma toy_keeps_any : keeps_cvs any_access toy (fun c a => u8 (c a)).
Proof.
  destruct toy_keeps as (H1 & H2 & H3). split; [exact H1|]. split.
  - intros i a v _ Hv. cbn [toy e_writeCv snd]. unfold put. rewrite Z.eqb_refl. apply u8_id. exact Hv.
  - intros i a b k _ Hk. pose proof (H3 (fun _ => i a) 0 b k ltac:(unfold all_cvs; cbn; lia) Hk) as H.
    cbn [toy e_writeCvBit snd] in *. unfold put in *. rewrite Z.eqb_refl in *. exact H.
Qed.

Definition assign_other : list Z := with_check [0xFE; 0xE0; 0x91; 9; 9; 9; 9; 0xC0; 200].
Definition then_execute (ps : list (list Z)) : list op := flat_map (fun p => track p ++ [OReceive 58; OExecute]) ps.
Definition loco (k : Z) (body : list Z) : list Z := closed ((if k <? 128 then [k] else [192 + k / 256; k mod 256]) ++ body).

(** The decoder with ID 1 2 3 4 is handed out 1000, another one 200 *)
Definition logging_on : list op :=
  talk [enable_5; select_1234 145; assign_other; assign_to 0xC3 0xE8] ++ then_execute [loco 3 [0x3F; 0x90]].
(** 1000 drives, 3 would drive, the session goes on, CV29 of 1000 is written, all stop *)
Definition afterwards : list op :=
  then_execute [loco 1000 [0x3F; 0x90]; loco 3 [0x3F; 0x95]; enable_6; loco 1000 [0xEC; 28; 0x06]; loco 1000 [0xEC; 28; 0x06];
                loco 0 [0x3F; 0x81]; loco 5 [0x3F; 0x95]].

(** Without a short address of its own the decoder takes a reset for number 1000 as one for all *)
Definition nameless : Z -> Z := put ready_made 0 0.
Lemma own_reset : exists s es, run toy (logging_on ++ then_execute [loco 1000 [0; 0]]) (st0 nameless) = Ok (tt, s, es) /\
  inputs (then_execute [loco 1000 [0; 0]]) (listen_all logging_on listener0) = [Taken [195; 232; 0; 0; 43]] /\
  address_of [195; 232; 0; 0; 43] = Addr 1000 ATLong false /\
  exists xs, seen_in es = xs ++ [Told (EServiceModeHook true)].
Proof.
  do 2 eexists. split; [vm_compute; reflexivity|]. split; [vm_compute; reflexivity|]. split; [reflexivity|].
  eexists [_; _; _; _; _; _; _]. vm_compute. reflexivity.
Qed.

Lemma own_reset_seen : exists (c : Z -> Z) os1 os2 p s es, run toy (os1 ++ os2) (st0 c) = Ok (tt, s, es) /\
  inputs os2 (listen_all os1 listener0) = [Taken p] /\ address_of p = Addr 1000 ATLong false /\
  exists xs, seen_in es = xs ++ [Told (EServiceModeHook true)].
Proof. destruct own_reset as (s & es & H). exists nameless, logging_on, (then_execute [loco 1000 [0; 0]]), [195; 232; 0; 0; 43], s, es. exact H. Qed.
