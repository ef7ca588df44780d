(** Model of src/prng.rs and src/domain_sep.rs.  A PRNG is its 64-byte array; the
    zeroize calls are left out. *)
From Coq Require Import String.
From Verif Require Import Base Env Hkdf.
Local Open Scope N_scope.

(** src/domain_sep.rs 4, 7, 10, 13, 16, 20, 23. *)
Definition DOM_SEP_HASH_TO_MSG : bytes := Eval vm_compute in str "Pixel hash to message".
Definition DOM_SEP_SIG : bytes := Eval vm_compute in str "Pixel randomness for signing".
Definition DOM_SEP_MASTER_KEY : bytes := Eval vm_compute in str "Pixel master key".
Definition DOM_SEP_SK_INIT : bytes := Eval vm_compute in str "Pixel secret key init".
Definition DOM_SEP_SK_UPDATE : bytes := Eval vm_compute in str "Pixel secret key update".
Definition DOM_SEP_SK_RERANDOMIZE_INFO : bytes :=
  Eval vm_compute in str "Pixel secret key rerandomize expand".
Definition DOM_SEP_POP : bytes := Eval vm_compute in str "Pixel public key POP".
(** src/key_pair.rs 121. *)
Definition KEY_INIT_INFO : bytes := Eval vm_compute in str "key initialization".

(** src/prng.rs 14-22. *)
Definition prng := bytes.

(** src/prng.rs 46-55: PartialEq for PRNG. *)
Definition prng_eqb (a b : prng) : bool := bytes_eqb a b.

(** crate bigint, [U512::from(&[u8])]: panics if the slice is longer than 64 bytes;
    byte i contributes at bit position 8*(len-1-i). *)
Fixpoint be_sum (l : bytes) : N :=
  match l with
  | [] => 0
  | b :: l' => N.shiftl b (8 * N.of_nat (length l')) + be_sum l'
  end.
Definition u512_from (l : bytes) : res N :=
  if (64 <? length l)%nat then Panic P_OS2IP else Ok (be_sum l).

(** crate bigint, [to_big_endian] into a 64-byte slice. *)
Definition u512_to_be (x : N) : bytes :=
  map (fun i => N.land (N.shiftr x (8 * N.of_nat (63 - i))) 255) (seq 0 64).

(** src/prng.rs 205-210: the hard coded modulus. *)
Definition p_bytes : bytes :=
  [0;0;0;0;0;0;0;0;0;0;0;0;0;0;0;0;0;0;0;0;0;0;0;0;0;0;0;0;0;0;
   0;0;0x73;0xED;0xA7;0x53;0x29;0x9D;0x7D;0x48;0x33;0x39;0xD8;0x08;0x09;0xA1;
   0xD8;0x05;0x53;0xBD;0xA4;0x02;0xFF;0xFE;0x5B;0xFE;0xFF;0xFF;0xFF;0xFF;0x00;
   0x00;0x00;0x01].

(** src/prng.rs 223-234: [u64::from_be_bytes(bytes[k], ..., bytes[k+7])]. *)
Definition limb (b : bytes) (k : nat) : N :=
  fold_left (fun acc i => acc * 256 + nth (k + i) b 0) (seq 0 8) 0.

(** crate ff, [Fr::from_repr] on four little-endian limbs: Err if not below the
    modulus. *)
Definition fr_from_repr (s : list N) : option N :=
  let v := fold_right (fun l acc => l + 18446744073709551616 * acc) 0 s in
  if v <? fr_modulus then Some v else None.

(** src/prng.rs 182-251: os2ip_mod_p. *)
Definition os2ip_mod_p (oct_str : bytes) : res N :=
  let! r := u512_from oct_str in
  let! p := u512_from p_bytes in
  let b := u512_to_be (r mod p) in
  if bytes_eqb (firstn 32 b) (repeat 0 32) then
    match fr_from_repr [limb b 56; limb b 48; limb b 40; limb b 32] with
    | Some x => Ok x
    | None => Panic P_OS2IP
    end
  else Panic P_OS2IP.

(** The assert!(hk_sec.expand(..).is_ok()) of src/prng.rs 91-94, 131-134, 157-160. *)
Definition expand_or_panic (H : bytes -> bytes) (prk info : bytes) (len : nat) : res bytes :=
  match hkdf_expand H prk info len with
  | Some out => Ok out
  | None => Panic P_HKDF
  end.

(** src/prng.rs 71-79: PRNG::init(seed, salt). *)
Definition prng_init (H : bytes -> bytes) (seed salt : bytes) : prng :=
  firstn 64 (hkdf_extract H salt seed).

(** src/prng.rs 83-119: sample_then_update; returns the scalar and the new state. *)
Definition sample_then_update (H : bytes -> bytes) (self : prng) (info : bytes) : res (N * prng) :=
  let! out := expand_or_panic H self info 128 in
  let! r := os2ip_mod_p (firstn 64 out) in
  Ok (r, firstn 64 (skipn 64 out)).

(** src/prng.rs 123-145: sample. *)
Definition sample (H : bytes -> bytes) (self : prng) (info : bytes) : res N :=
  let! out := expand_or_panic H self info 64 in
  os2ip_mod_p out.

(** src/prng.rs 148-175: rerandomize; returns the new state. *)
Definition rerandomize (H : bytes -> bytes) (self : prng) (seed info : bytes) : res prng :=
  let! m := expand_or_panic H self info 128 in
  let tmp := firstn 64 m ++ seed in
  Ok (firstn 64 (hkdf_extract H (firstn 64 (skipn 64 m)) tmp)).
