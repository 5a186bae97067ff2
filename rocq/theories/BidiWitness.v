(** Histories for the claims about BiDi *)
From Verif Require Import Prelude Address SpecCodec Packets Datagram RxState Rx SpecRx SpecExec SpecConf SpecCv SpecLogon SpecBidi Toy CvWitness LogonWitness.

Definition drive3 : list Z := [3; 0x3F; 0x90; 0xAC].
Definition drive7 : list Z := [7; 0x3F; 0x90; 0xA8].
Definition started : list op := [OInit; OEnable].
Definition times {A} (n : nat) (l : list A) : list A := flat_map (fun _ => l) (repeat tt n).

(** 31 packets for number 3 wait, speed 5 km/h is offered, then comes a packet for number 7 *)
Lemma full_queue : exists os ts p s es s1 e1 s2 e2,
  run toy os (st0 factory) = Ok (tt, s, es) /\ packet_ok p /\ plays ts 14 p /\ run toy (map OReceive ts) s = Ok (tt, s1, e1) /\
  ~ may_answer s1 p /\ biDiChannel2 toy s1 = Ok (tt, s2, e2) /\ length (sent e2) = 1%nat.
Proof.
  exists (started ++ times 31 (track drive3) ++ [ODatagram [DynKmh 5]]), (half_bits 58 100 (track_bits 14 drive7)), drive7. do 6 eexists.
  split; [vm_compute; reflexivity|]. split.
  { split; [repeat (apply Forall_cons; [unfold byte; lia|]); apply Forall_nil|]. cbn. repeat split; lia. }
  split; [reflexivity|]. split; [vm_compute; reflexivity|]. split.
  { intros [X|[X|[_ [[X _]|[_ [X _]]]]]]; vm_compute in X; discriminate X. }
  split; vm_compute; reflexivity.
Qed.

(** Executed in the middle of the 100th frame, 101 packets are counted in the 100 frames to come *)
Definition driven : list op := track drive3 ++ [OReceive 58; OExecute].
Definition miscount : list op := started ++ times 98 driven ++ track drive3 ++ firstn 40 (track drive3) ++ [OExecute] ++
  skipn 40 (track drive3) ++ [OReceive 58; OExecute] ++ times 100 driven.
Lemma quality_255 : exists os s es, run toy os (st0 factory) = Ok (tt, s, es) /\ quality s = 255.
Proof. exists miscount. do 2 eexists. split; vm_compute; reflexivity. Qed.

(** Channel 2 in the middle of a packet *)
Lemma early_channel2 : exists os s es, run toy os (st0 factory) = Ok (tt, s, es) /\ ~ cutout s /\ own_packet s /\ biDiChannel2 toy s = UB OutOfBounds.
Proof.
  exists (started ++ track drive3 ++ firstn 40 (track drive3)). do 2 eexists. split; [vm_compute; reflexivity|].
  split; [vm_compute; discriminate|]. split; [split; [vm_compute; auto|split; [|left]; vm_compute; reflexivity]|]. vm_compute. reflexivity.
Qed.

(** A decoder whose clock advances by [step] each time it is read *)
Definition timed (step : Z) : Env Z :=
  Mk_env _ (fun t a => (factory a, t)) (fun t a b => (factory a, t)) (fun t a v p => (Z.testbit (factory a) p, t))
    (fun t a b => (factory a, t)) (fun t a v p => (Z.testbit (factory a) p, t)) (fun t e => (None, t)) (fun t e => t)
    (fun t => (3, t)) (fun t => (t, t + step)) false false false false.
Lemma timed_clock : forall d, 0 <= d -> clock (timed d) (fun t => t).
Proof. intros d Hd. unfold clock. cbn [timed e_now e_readCv e_readCvByte e_readCvBit e_writeCv e_writeCvBit e_async e_hook e_rand fst snd]. repeat split; intros; lia. Qed.

(** Binary state 2 off, for all *)
Definition search_all : list Z := [0; 0xDD; 2; 0xDF].
Definition since (d : Z) (os : list op) (t : Z) : st Z := match run (timed d) os (st0 t) with Ok (_, s, _) => s | UB _ => st0 t end.
(** Clock at 5 s, then at 3 s *)
Lemma backward_clock : exists (E : Env Z) i os s es q, run E os (st0 i) = Ok (tt, s, es) /\ ready s search_all q /\ in_service s = false /\
  for_locos search_all /\ acts_as (r_addrs (rxs s)) search_all 0 /\ asks_search search_all /\ execute E s = UB AssertFailed.
Proof.
  exists (timed (- 2 * second)), (5 * second), (started ++ track drive3 ++ track search_all ++ [OReceive 58; OExecute]). do 2 eexists. exists [].
  split; [vm_compute; reflexivity|]. split; [split; reflexivity|]. split; [reflexivity|]. split; [cbn; auto|]. split; [apply to_all; reflexivity|].
  split; [exists [0xDF]; left; reflexivity|]. vm_compute. reflexivity.
Qed.

(** [undisturbed] can be computed *)
Fixpoint undisturbed_b (os : list op) (l : listener) : bool :=
  match os with
  | [] => true
  | o :: r => match o with OExecute => negb (in_frame l) | _ => true end && undisturbed_b r (listen o l)
  end.
Lemma undisturbed_spec : forall os l, undisturbed_b os l = true -> undisturbed os l.
Proof.
  induction os as [|o os IH]; intros l H; [exact Logic.I|]. cbn [undisturbed_b] in H. apply andb_prop in H. destruct H as [H1 H2].
  split; [|exact (IH _ H2)]. intros ->. destruct (in_frame l); [discriminate H1|reflexivity].
Qed.

Lemma code_word_in : forall c d, existsb (fun x => (fst x =? c) && (snd x =? d)) code_words = true -> In (c, d) code_words.
Proof.
  intros c d H. apply existsb_exists in H. destruct H as ([a b] & Hi & H). cbn [fst snd] in H. assert (a = c /\ b = d) as [-> ->] by lia. exact Hi.
Qed.

(** What is transmitted *)
Definition speaks1 (s : st (Z -> Z)) : option (list (list Z)) := match biDiChannel1 toy s with Ok (_, _, es) => Some (sent es) | UB _ => None end.
Definition speaks2 (s : st (Z -> Z)) : option (list (list Z)) := match biDiChannel2 toy s with Ok (_, _, es) => Some (sent es) | UB _ => None end.
