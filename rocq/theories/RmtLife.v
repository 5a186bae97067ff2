(** Creation and deletion of the RMT encoder (src/rmt_dcc_encoder.c). *)
From Verif Require Import Prelude Rmt.

(** The heap as far as the encoder sees it: number of blocks ever handed out (they are
    named 0, 1, 2...), those alive, and whether a dead or foreign block was freed *)
Record heap := Heap { h_next : nat; h_live : list nat; h_bad : bool }.

Definition h_alloc (h : heap) : nat * heap :=
  (h_next h, Heap (S (h_next h)) (h_next h :: h_live h) (h_bad h)).
Definition h_free (p : nat) (h : heap) : heap :=
  if existsb (Nat.eqb p) (h_live h)
  then Heap (h_next h) (remove Nat.eq_dec p (h_live h)) (h_bad h)
  else Heap (h_next h) (h_live h) true.

(** esp_err.h *)
Definition ESP_OK : Z := 0.
Definition ESP_ERR_NO_MEM : Z := 0x101.
Definition ESP_ERR_INVALID_ARG : Z := 0x102.

(** Pointers of rmt_dcc_encoder_t, rmt_dcc_encoder.c:25-46, and its own address *)
Record encoder := Encoder { e_self : nat; e_copy : option nat; e_bytes : option nat }.

(** rmt_new_copy_encoder, rmt_new_bytes_encoder (ESP-IDF): one block and ESP_OK or an
    error code, nothing allocated and the handle untouched *)
Definition sub_new (err : Z) (h : heap) : option nat * heap :=
  if err =? ESP_OK then let '(p, h1) := h_alloc h in (Some p, h1) else (None, h).
(** rmt_del_encoder (ESP-IDF) of those two *)
Definition sub_del (p : option nat) (h : heap) : heap :=
  match p with Some p => h_free p h | None => Heap (h_next h) (h_live h) true end.

(** What the caller and the system decide: are the pointers non-null, does calloc
    succeed, results of the two constructors of ESP-IDF *)
Record luck := Luck {
  k_config : bool; k_ret : bool; k_calloc : bool; k_copy : Z; k_bytes : Z }.

(** Label err, rmt_dcc_encoder.c:459-464. The pointers are NULL where calloc put it. *)
Definition new_err (d : option encoder) (h : heap) : heap :=
  match d with
  | None => h
  | Some d =>
      let h1 := match e_copy d with Some p => sub_del (Some p) h | None => h end in
      let h2 := match e_bytes d with Some p => sub_del (Some p) h1 | None => h1 end in
      h_free (e_self d) h2
  end.

(** rmt_new_dcc_encoder, rmt_dcc_encoder.c:373-465: return value, *ret_encoder if it
    is written, heap. ESP_GOTO_ON_FALSE and ESP_GOTO_ON_ERROR (ESP-IDF esp_check.h)
    store the code in ret and jump to err. Symbols and flags: Rmt.v. *)
Definition rmt_new (k : luck) (c : rmt_config) (h : heap) : Z * option encoder * heap :=
  if negb (k_config k && k_ret k && rmt_config_ok c)
  then (ESP_ERR_INVALID_ARG, None, new_err None h)
  else if negb (k_calloc k)
  then (ESP_ERR_NO_MEM, None, new_err None h)
  else
    let '(self, h1) := h_alloc h in
    let '(copy, h2) := sub_new (k_copy k) h1 in
    let d := Encoder self copy None in
    if negb (k_copy k =? ESP_OK) then (k_copy k, None, new_err (Some d) h2)
    else
      let '(bytes, h3) := sub_new (k_bytes k) h2 in
      let d := Encoder self copy bytes in
      if negb (k_bytes k =? ESP_OK) then (k_bytes k, None, new_err (Some d) h3)
      else (ESP_OK, Some d, h3).

(** rmt_del_dcc_encoder, rmt_dcc_encoder.c:335-342 *)
Definition rmt_del (d : encoder) (h : heap) : Z * heap :=
  (ESP_OK, h_free (e_self d) (sub_del (e_bytes d) (sub_del (e_copy d) h))).

(** A program creating and deleting encoders: [Delete n] deletes the n-th encoder it
    holds *)
Inductive call := Create (k : luck) (c : rmt_config) | Delete (n : nat).

Definition do_call (x : call) (s : list encoder * heap) : Z * (list encoder * heap) :=
  let '(ds, h) := s in
  match x with
  | Create k c =>
      let '(r, d, h1) := rmt_new k c h in
      (r, (ds ++ match d with Some d => [d] | None => [] end, h1))
  | Delete n =>
      match nth_error ds n with
      | Some d => let '(r, h1) := rmt_del d h in (r, (firstn n ds ++ skipn (S n) ds, h1))
      | None => (ESP_OK, s)
      end
  end.

Fixpoint do_calls (xs : list call) (s : list encoder * heap) : list Z * (list encoder * heap) :=
  match xs with
  | [] => ([], s)
  | x :: xs' => let '(r, s1) := do_call x s in let '(rs, s2) := do_calls xs' s1 in (r :: rs, s2)
  end.
