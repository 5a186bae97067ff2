(** How long a packet has to be *)
From Verif Require Import Prelude Address Packets SpecCodec CodecProofs2 RxState Rx SpecRx SpecExec SpecConf SpecCv SpecLogon SpecBidi.

(** Bytes of the instruction [b0] that are read, itself and the checksum included. [k] tells
    how many times in a row the packet came, [member] that it came by the consist address. *)
Definition need (k : nat) (member : bool) (b0 : Z) : nat :=
  if b0 / 16 =? 1 then 2%nat
  else if existsb (Z.eqb b0) [0x3C; 0x3E; 0x3F; 0xDD; 0xDE; 0xDF] then 2%nat
  else if b0 =? 0xC0 then 3%nat
  else if member then 1%nat
  else if b0 / 16 =? 14 then
    if b0 / 4 mod 4 =? 0 then 2%nat
    else if (b0 / 4 mod 4 =? 3) && (k <? 2)%nat then 2%nat else 3%nat
  else if existsb (Z.eqb b0) [0xF2; 0xF3] then 2%nat
  else if existsb (Z.eqb b0) [0xF4; 0xF5] && (k =? 2)%nat then 3%nat
  else 1%nat.

Section View.
  Context {I : Type}.
  Implicit Types s : st I.

  Definition is_member s (n : Z) : bool := negb (n =? 0) && (n =? aval (consist (r_addrs (rxs s)))).

  (** Packet [p], obeyed as locomotive [n], has all the bytes that are read *)
  Definition long_enough s (p : list Z) (n : Z) : Prop := forall k, nth_in_row s p k ->
    (need k (is_member s n) (hd 0%Z (body_of p)) <= length (body_of p))%nat.
  Definition obeyed s (p : list Z) (n : Z) : Prop :=
    in_service s = false /\ for_locos p /\ acts_as (r_addrs (rxs s)) p n.
End View.

(** CV1 is never the first byte of a long address *)
Definition short_cv1 {I} (E : Env I) : Prop := forall i, ~ 192 <= fst (e_readCv E i 0) mod 256 <= 231.

(** Bytes of a packet to the logon address that are read, address and checksum included *)
Definition logon_need (p : list Z) : nat :=
  let a := nth 7 p 0 in
  let b := nth 8 p 0 in
  if nth 1 p 0 / 16 =? 13 then 7%nat
  else if nth 1 p 0 / 16 =? 14 then
    if a mod 64 <? 40 then if 192 <=? a then 9%nat else 8%nat
    else if a mod 64 =? 56 then if (192 <=? b) && (b <? 232) then 10%nat else 9%nat
    else 8%nat
  else if nth 1 p 0 / 16 =? 15 then 5%nat
  else 3%nat.

(** A packet with all the bytes that are read, whoever obeys it and however often it came *)
Definition complete (p : list Z) : Prop :=
  if is_logon p then undamaged p -> (logon_need p <= length p)%nat
  else for_locos p -> forall k member, (need k member (hd 0%Z (body_of p)) <= length (body_of p))%nat.

(** What the generators make of admissible arguments. [generate a c] is the generator of
    command [c] for address [a]. *)
Inductive generated : list Z -> Prop :=
| gen_loco : forall v c p, 0 <= v <= 10239 -> cmd_ok c -> generate (loco v) c = Ok p -> generated p
| gen_long : forall v r c p, 0 <= v <= 10239 -> cmd_ok c -> generate (Addr v ATLong r) c = Ok p -> generated p
| gen_verify : forall cv b p, 0 <= cv < 1024 -> byte b -> make_cv_access_long_verify_service_packet cv b = Ok p -> generated p
| gen_write : forall cv b p, 0 <= cv < 1024 -> byte b -> make_cv_access_long_write_service_packet cv b = Ok p -> generated p
| gen_verify_bit : forall cv bit pos p, 0 <= cv < 1024 -> 0 <= pos < 8 ->
    make_cv_access_long_verify_bit_service_packet cv bit pos = Ok p -> generated p
| gen_write_bit : forall cv bit pos p, 0 <= cv < 1024 -> 0 <= pos < 8 ->
    make_cv_access_long_write_bit_service_packet cv bit pos = Ok p -> generated p
| gen_idle : generated make_idle_packet
| gen_reset : generated make_reset_packet
| gen_enable : forall g cid sid p, 0 <= cid < 65536 -> byte sid -> make_logon_enable_packet g cid sid = Ok p -> generated p
| gen_select : forall m id sub p, 0 <= m < 4096 -> 0 <= id < 2 ^ 32 -> byte sub ->
    make_logon_select_packet m id sub = Ok p -> generated p
| gen_assign : forall m id a p, 0 <= m < 4096 -> 0 <= id < 2 ^ 32 -> 0 <= a < 65536 ->
    make_logon_assign_packet m id a = Ok p -> generated p.

(** The calls [os] as the documentation wants them: no frame of more than 18 bytes, all
    packets are ones that [sent] allows, a logon packet is followed by channel 2 before the
    next duration, channel 2 only between a packet and the next duration, only dynamic
    information that exists *)
Definition orderly (sent : list Z -> Prop) (os : list op) : Prop := forall os1 o os2, os = os1 ++ o :: os2 ->
  let l := listen_all os1 listener0 in
  match o with
  | OReceive t =>
      match half_bit t with
      | Some b => (length (frame_so_far (l_heard l ++ [b])) <= 18)%nat
      | None => True
      end /\ (forall p, completed o l = Some p -> sent p) /\ served os1
  | OBiDi2 => l_fresh l = true
  | ODatagram ds => Forall in_range ds
  | _ => True
  end.
