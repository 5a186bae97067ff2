(** Configuration by CVs *)
From Verif Require Import Prelude Address ZBits SpecCodec RxState Rx CodecProofs RxLogic SpecRx RxBitProofs
  SpecExec ExecProofs SpecConf.

Lemma testbit_bit : forall v k, 0 <= k -> Z.testbit v k = bit_of v k.
Proof. intros v k Hk. unfold bit_of. rewrite Z.testbit_odd, Z.shiftr_div_pow2 by assumption. reflexivity. Qed.

Lemma decode_one : forall v, byte v ->
  decode_address [v] = if (192 <=? v) && (v <=? 231) then UB OutOfBounds else Ok (Addr v (first_byte_class v) false).
Proof.
  intros v Hv. pose (f := fun v => match decode_address [v] with
    | Ok (Addr w t r) => negb ((192 <=? v) && (v <=? 231)) && (w =? v) && atype_eqb t (first_byte_class v) && negb r
    | UB OutOfBounds => (192 <=? v) && (v <=? 231)
    | UB _ => false end).
  assert (H := sweep8 f ltac:(vm_compute; reflexivity) v Hv). unfold f in H.
  destruct (decode_address [v]) as [[w t r]|[]]; try discriminate.
  - apply andb_true_iff in H. destruct H as [H Hr]. apply andb_true_iff in H. destruct H as [H Ht].
    apply andb_true_iff in H. destruct H as [H Hw]. apply negb_true_iff in H. rewrite H.
    apply Z.eqb_eq in Hw. subst w. destruct r; [discriminate|].
    destruct t, (first_byte_class v); try discriminate; reflexivity.
  - rewrite H. reflexivity.
Qed.

Fixpoint assoc (d : Z -> Z) (l : list (Z * Z)) (a : Z) : Z :=
  match l with [] => d a | (k, v) :: r => if a =? k then v else assoc d r a end.

Lemma assoc_byte : forall d l, (forall a, byte (d a)) -> Forall (fun kv => byte (snd kv)) l -> forall a, byte (assoc d l a).
Proof.
  intros d l Hd. induction l as [|[k v] l IH]; intros H a; [apply Hd|]. inversion H; subst. cbn [assoc].
  destruct (a =? k); [assumption|]. apply IH. assumption.
Qed.

Lemma assoc_same : forall d l, Forall (fun kv => snd kv = d (fst kv)) l -> forall a, assoc d l a = d a.
Proof.
  intros d l. induction l as [|[k v] l IH]; intros H a; [reflexivity|]. inversion H; subst. cbn [assoc].
  destruct (a =? k) eqn:E; [apply Z.eqb_eq in E; subst; assumption|]. apply IH. assumption.
Qed.

Lemma configured_ext : forall I (s : st I) c d, (forall a, c a = d a) -> configured c s -> configured d s.
Proof.
  intros I s c d H. unfold configured, active, own_address, consist_address, switches, cv. rewrite !H. trivial.
Qed.
Lemma broken_ext : forall c d, (forall a, c a = d a) -> broken_cv1 c -> broken_cv1 d.
Proof. intros c d H. unfold broken_cv1, cv. rewrite !H. trivial. Qed.
Lemma config_calls_ext : forall c d b, (forall a, c a = d a) -> config_calls c b = config_calls d b.
Proof. intros c d b H. unfold config_calls, cv. cbn [map]. rewrite !H. reflexivity. Qed.

Lemma consist_small : forall a b, byte a -> byte b -> u16 (100 * (a mod 128) + b mod 128) = 100 * (a mod 128) + b mod 128.
Proof. unfold byte, u16. intros a b Ha Hb. apply Z.mod_small. lia. Qed.
Lemma word : forall a b, byte a -> byte b -> u16 (Z.lor (Z.shiftl a 8) b) = 256 * a + b.
Proof.
  unfold byte, u16. intros a b Ha Hb. rewrite lor_shiftl by lia. change (2 ^ 8) with 256.
  rewrite Z.mod_small; lia.
Qed.

Section Conf.
  Context {I : Type} (E : Env I).
  Implicit Types s : st I.

  (** Chain of reads: each CV read with the value [c] gives *)
  Definition read_step (i : I) (a v : Z) (i' : I) : Prop := e_readCv E i a = (v, i').

  Ltac one_read :=
    match goal with |- context [e_readCv E ?i ?a] =>
      let v := fresh "v" in let j := fresh "j" in let H := fresh "Hread" in
      destruct (e_readCv E i a) as [v j] eqn:H;
      let m := fresh "m" in
      assert (byte (u8 v) /\ forall m, cv_memory E m -> u8 v = m i a /\ m j = m i) by
        (split; [apply u8_byte|];
         let Hm := fresh in intros m Hm; pose proof (mem_read E m Hm i a) as Hr; rewrite H in Hr; exact Hr);
      clear H; cbn [rxs app pending]
    end.

  Ltac mem_facts :=
    match goal with Hm : cv_memory E ?m |- _ =>
      repeat match goal with H : byte _ /\ (forall m, cv_memory E m -> _) |- _ =>
        destruct H as [_ H]; specialize (H m Hm); destruct H end;
      cbn [rxs app pending] in *; rewrite ?(mem_hook E m Hm) in *
    end.

  Ltac finish_init :=
    split; [apply assoc_byte; [assumption|repeat (apply Forall_cons; [apply u8_byte|]); apply Forall_nil]|];
    split; [intros m Hm Hdm a; rewrite assoc_same; [apply Hdm|]; mem_facts;
            repeat (apply Forall_cons; [cbn [fst snd]; rewrite Hdm; congruence|]); apply Forall_nil|].

  Ltac cvs c :=
    change (cv c 29) with (c 28) in *; change (cv c 28) with (c 27) in *; change (cv c 1) with (c 0) in *;
    change (cv c 17) with (c 16) in *; change (cv c 18) with (c 17) in *; change (cv c 19) with (c 18) in *;
    change (cv c 20) with (c 19) in *; change (cv c 15) with (c 14) in *; change (cv c 16) with (c 15) in *;
    change (cv c 250) with (c 249) in *; change (cv c 251) with (c 250) in *; change (cv c 252) with (c 251) in *;
    change (cv c 253) with (c 252) in *; change (cv c 65297) with (c 65296) in *;
    change (cv c 65298) with (c 65297) in *; change (cv c 65299) with (c 65298) in *.

  (** [F] carries the values of [c] *)
  Ltac config_done c :=
    eexists; split; [apply f_equal; apply f_equal2; [reflexivity|]|split; [|split]];
    [unfold config_calls; cbn [map]; cvs c; cbn [Z.sub Z.add Z.opp Z.pos_sub Pos.pred_double Pos.pred List.app];
     rewrite ?testbit_bit by lia; repeat match goal with H : c _ = _ |- _ => rewrite H; clear H end;
     match goal with H : bit_of _ 5 = _ |- _ => rewrite H end; reflexivity
    |unfold configured, active, switches, own_address, consist_address; cvs c;
     repeat match goal with H : c _ = _ |- _ => rewrite H; clear H end;
     rewrite ?testbit_bit, ?land_7F, consist_small, word by (lia || apply u8_byte);
     match goal with H : bit_of _ 5 = _ |- _ => rewrite H end;
     (split; [split; [|split]|split; [|split]]; reflexivity)
    |reflexivity
    |intros m Hm; mem_facts; cbn [rxs app pending]; congruence].

  Lemma init_raw : forall (d : Z -> Z) s, (forall a, byte (d a)) -> exists c,
    (forall a, byte (c a)) /\
    (forall m, cv_memory E m -> (forall a, d a = m (app s) a) -> forall a, c a = m (app s) a) /\
    ((broken_cv1 c /\ init E s = UB OutOfBounds) \/
     (~ broken_cv1 c /\ exists s', init E s = Ok (tt, s', config_calls c (e_high_current E)) /\
        configured c s' /\ unconfigured s' = unconfigured s /\ forall m, cv_memory E m -> m (app s') = m (app s))).
  Proof.
    intros d s Hd. unfold init, readCv, bind, lift, modify, when, call, ret. cbv beta.
    one_read. rewrite testbit_bit by lia. destruct (bit_of (u8 v) 5) eqn:E5.
    - do 2 one_read.
      rewrite decode_address_of; [|apply Forall_cons; [apply u8_byte|apply Forall_cons; [apply u8_byte|apply Forall_nil]]|cbn [length]; lia].
      do 5 one_read. destruct (e_high_current E) eqn:Eh; cbn [rxs app pending];
      do 7 one_read;
      exists (assoc d [(28, u8 v); (16, u8 v0); (17, u8 v1); (18, u8 v2); (19, u8 v3); (14, u8 v4); (15, u8 v5);
                       (27, u8 v6); (249, u8 v7); (250, u8 v8); (251, u8 v9); (252, u8 v10); (65296, u8 v11);
                       (65297, u8 v12); (65298, u8 v13)]).
      all: finish_init.
      all: match goal with |- context [broken_cv1 ?l] => set (c := l);
        assert (c 28 = u8 v) by reflexivity; assert (c 16 = u8 v0) by reflexivity; assert (c 17 = u8 v1) by reflexivity;
        assert (c 18 = u8 v2) by reflexivity; assert (c 19 = u8 v3) by reflexivity; assert (c 14 = u8 v4) by reflexivity;
        assert (c 15 = u8 v5) by reflexivity; assert (c 27 = u8 v6) by reflexivity; assert (c 249 = u8 v7) by reflexivity;
        assert (c 250 = u8 v8) by reflexivity; assert (c 251 = u8 v9) by reflexivity; assert (c 252 = u8 v10) by reflexivity;
        assert (c 65296 = u8 v11) by reflexivity; assert (c 65297 = u8 v12) by reflexivity; assert (c 65298 = u8 v13) by reflexivity
      end; clearbody c.
      all: right; split; [intros [Hb _]; change (cv c 29) with (c 28) in Hb; congruence|].
      all: config_done c.
    - one_read. rewrite decode_one by apply u8_byte.
      destruct ((192 <=? u8 v0) && (u8 v0 <=? 231)) eqn:E1.
      { exists (assoc d [(28, u8 v); (0, u8 v0)]). finish_init. left. split; [|reflexivity].
        split; [exact E5|]. change (192 <= u8 v0 <= 231). lia. }
      do 5 one_read. destruct (e_high_current E) eqn:Eh; cbn [rxs app pending];
      do 7 one_read;
      exists (assoc d [(28, u8 v); (0, u8 v0); (18, u8 v1); (19, u8 v2); (14, u8 v3); (15, u8 v4);
                       (27, u8 v5); (249, u8 v6); (250, u8 v7); (251, u8 v8); (252, u8 v9); (65296, u8 v10);
                       (65297, u8 v11); (65298, u8 v12)]).
      all: finish_init.
      all: match goal with |- context [broken_cv1 ?l] => set (c := l);
        assert (c 28 = u8 v) by reflexivity; assert (c 0 = u8 v0) by reflexivity;
        assert (c 18 = u8 v1) by reflexivity; assert (c 19 = u8 v2) by reflexivity; assert (c 14 = u8 v3) by reflexivity;
        assert (c 15 = u8 v4) by reflexivity; assert (c 27 = u8 v5) by reflexivity; assert (c 249 = u8 v6) by reflexivity;
        assert (c 250 = u8 v7) by reflexivity; assert (c 251 = u8 v8) by reflexivity; assert (c 252 = u8 v9) by reflexivity;
        assert (c 65296 = u8 v10) by reflexivity; assert (c 65297 = u8 v11) by reflexivity; assert (c 65298 = u8 v12) by reflexivity
      end; clearbody c.
      all: right; split; [intros [_ Hb]; change (cv c 1) with (c 0) in Hb; lia|].
      all: config_done c.
  Qed.

  (** Any application: the configuration is made of the values it returned *)
  Lemma init_configures : forall s s' es, init E s = Ok (tt, s', es) -> exists c,
    (forall a, byte (c a)) /\ es = config_calls c (e_high_current E) /\ configured c s' /\
    unconfigured s' = unconfigured s.
  Proof.
    intros s s' es H. destruct (init_raw (fun _ => 0) s) as (c & Hb & _ & [[_ Hu]|(_ & t & Ht & Hc & Hr & _)]).
    - intros _. unfold byte. lia.
    - congruence.
    - exists c. rewrite H in Ht. assert (t = s') as -> by congruence.
      split; [exact Hb|]. split; [congruence|]. auto.
  Qed.

  (** A CV memory *)
  Lemma init_memory : forall m s, cv_memory E m ->
    (broken_cv1 (m (app s)) /\ init E s = UB OutOfBounds) \/
    (~ broken_cv1 (m (app s)) /\ exists s', init E s = Ok (tt, s', config_calls (m (app s)) (e_high_current E)) /\
       configured (m (app s)) s' /\ unconfigured s' = unconfigured s /\ m (app s') = m (app s)).
  Proof.
    intros m s Hm. destruct (init_raw (m (app s)) s (mem_byte E m Hm (app s))) as (c & _ & Hc & H).
    specialize (Hc m Hm (fun _ => eq_refl)). assert (Hc' : forall a, m (app s) a = c a) by (intros; symmetry; apply Hc).
    destruct H as [[Hb Hu]|(Hb & t & Ht & H1 & H2 & H3)].
    - left. split; [exact (broken_ext _ _ Hc Hb)|exact Hu].
    - right. split; [intros K; apply Hb; exact (broken_ext _ _ Hc' K)|]. exists t.
      rewrite <- (config_calls_ext _ _ _ Hc). split; [exact Ht|]. split; [exact (configured_ext _ _ _ _ Hc H1)|].
      split; [exact H2|exact (H3 m Hm)].
  Qed.
End Conf.
