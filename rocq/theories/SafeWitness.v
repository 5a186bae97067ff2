(** Histories for the claims about reading out of bounds *)
From Verif Require Import Prelude Address SpecCodec Packets CodecProofs2 Checksum RxState Rx SpecRx SpecExec SpecConf SpecCv SpecLogon SpecBidi SpecSafe Toy CvWitness LogonWitness.

(** The application of [toy] that never shows more than 127 in CV1 *)
Definition polite : Env (Z -> Z) :=
  Mk_env _ (fun m a => (if a =? 0 then m 0 mod 128 else m a, m))
    (e_readCvByte toy) (e_readCvBit toy) (e_writeCv toy) (e_writeCvBit toy) (e_async toy) (e_hook toy) (e_rand toy) (e_now toy)
    false false false false.
Lemma polite_short : short_cv1 polite.
Proof. intros i. cbn [polite e_readCv fst Z.eqb]. lia. Qed.
Lemma polite_clock : clock polite (fun _ => 0).
Proof. unfold clock. cbn. repeat split; intros; lia. Qed.

(** [orderly] can be computed *)
Definition frame_ok (os : list op) (t : Z) : bool :=
  match half_bit t with Some b => (length (frame_so_far (l_heard (listen_all os listener0) ++ [b])) <=? 18)%nat | None => true end.
Definition among (ps : list (list Z)) (p : list Z) : bool := if in_dec (list_eq_dec Z.eq_dec) p ps then true else false.
Definition fits (ps : list (list Z)) (os : list op) (o : op) : bool :=
  match o with
  | OReceive t => frame_ok os t && match completed o (listen_all os listener0) with Some p => among ps p | None => true end && served_b listener0 os
  | OBiDi2 => l_fresh (listen_all os listener0)
  | ODatagram _ => false
  | _ => true
  end.
Fixpoint orderly_b (ps : list (list Z)) (os1 os : list op) : bool :=
  match os with [] => true | o :: r => fits ps os1 o && orderly_b ps (os1 ++ [o]) r end.
Lemma fits_all : forall ps os1 a o os2, orderly_b ps a (os1 ++ o :: os2) = true -> fits ps (a ++ os1) o = true.
Proof.
  intros ps. induction os1 as [|x os1 IH]; intros a o os2 H; cbn [List.app orderly_b] in H; apply andb_prop in H; destruct H as [H1 H2].
  - rewrite app_nil_r. exact H1.
  - specialize (IH _ _ _ H2). rewrite <- app_assoc in IH. exact IH.
Qed.
Lemma orderly_spec : forall (sent : list Z -> Prop) ps os, Forall sent ps -> orderly_b ps [] os = true -> orderly sent os.
Proof.
  intros sent ps os Hps H os1 o os2 ->. apply fits_all in H. cbn [List.app] in H. cbv zeta.
  destruct o; try exact Logic.I; cbn [fits] in H; [|discriminate|exact H].
  apply andb_prop in H. destruct H as [H H3]. apply andb_prop in H. destruct H as [H1 H2]. split; [|split].
  - unfold frame_ok in H1. destruct (half_bit _); [apply Nat.leb_le; exact H1|exact Logic.I].
  - intros p Hp. rewrite Hp in H2. unfold among in H2. destruct (in_dec _ p ps) as [Hi|]; [|discriminate].
    exact (proj1 (Forall_forall _ _) Hps p Hi).
  - exact (served_spec _ H3).
Qed.

(** A day on the layout: speed, writing CV3 twice, a logon round, a
    packet to another decoder, idle and reset *)
Definition day_packets : list (list Z) :=
  [frame 3 [0x3F; 0x90]; frame 3 [0xEC; 2; 7]; closed [254; 252 + 0; 1; 2; 5]; frame 1530 [0x3F; 0x90]; make_idle_packet; make_reset_packet].
Definition day : list op :=
  [OInit; OEnable] ++ flat_map (fun p => track p ++ [OBiDi1; OBiDi2; OReceive 58; OExecute])
    [frame 3 [0x3F; 0x90]; frame 3 [0xEC; 2; 7]; frame 3 [0xEC; 2; 7]; closed [254; 252 + 0; 1; 2; 5]; frame 1530 [0x3F; 0x90]; make_idle_packet; make_reset_packet].
Lemma day_generated : Forall generated day_packets.
Proof.
  unfold day_packets. repeat constructor.
  - apply (gen_loco 3 (CSpeed126 0x90)); [lia|cbn; unfold byte; lia|vm_compute; reflexivity].
  - apply (gen_loco 3 (CWrite 2 7)); [lia|cbn; unfold byte; lia|vm_compute; reflexivity].
  - apply (gen_enable GAll 258 5); [lia|unfold byte; lia|vm_compute; reflexivity].
  - apply (gen_loco 1530 (CSpeed126 0x90)); [lia|cbn; unfold byte; lia|vm_compute; reflexivity].
Qed.
Lemma day_orderly : orderly generated day.
Proof. apply (orderly_spec _ day_packets); [exact day_generated|vm_compute; reflexivity]. Qed.

(** Long address 1530 *)
Definition at_1530 : Z -> Z := put (put (put factory 28 0x2A) 16 0xC5) 17 0xFA.
Definition told_short (p : list Z) : list op := [OInit; OEnable] ++ track p ++ [OReceive 58].
