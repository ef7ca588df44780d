(** HMAC-SHA512 and HKDF (crates hmac and hkdf, dependencies of src/prng.rs), for
    an arbitrary hash function [H] with 128-byte blocks and 64-byte output. *)
From Verif Require Import Base.
Local Open Scope N_scope.

Definition pad_to (n : nat) (l : bytes) : bytes := l ++ repeat 0 (n - length l).
Definition xor_bytes (k : N) (l : bytes) : bytes := map (N.lxor k) l.

(** crate hmac: keys longer than the block are hashed. *)
Definition hmac (H : bytes -> bytes) (key msg : bytes) : bytes :=
  let k := pad_to 128 (if (128 <? length key)%nat then H key else key) in
  H (xor_bytes 0x5c k ++ H (xor_bytes 0x36 k ++ msg)).

(** crate hkdf 0.7, Hkdf::extract(Some(salt), ikm). *)
Definition hkdf_extract (H : bytes -> bytes) (salt ikm : bytes) : bytes := hmac H salt ikm.

(** crate hkdf 0.7, Hkdf::expand: the loop over 64-byte chunks of the output;
    [blocknum] counts from 0 and the counter byte is [blocknum as u8 + 1]. *)
Fixpoint hkdf_blocks (H : bytes -> bytes) (prk info prev : bytes) (blocknum n : nat) : bytes :=
  match n with
  | O => []
  | S n' =>
    let out := hmac H prk (prev ++ info ++ [as_u8 (N.of_nat blocknum) + 1]) in
    out ++ hkdf_blocks H prk info out (S blocknum) n'
  end.

(** [None] is the InvalidLength error. *)
Definition hkdf_expand (H : bytes -> bytes) (prk info : bytes) (len : nat) : option bytes :=
  if (64 * 255 <? len)%nat then None
  else Some (firstn len (hkdf_blocks H prk info [] 0 ((len + 63) / 64))).
