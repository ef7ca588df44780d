(** Vocabulary for Properties_Help.v: what the helper functions should return. *)
From Verif Require Import Base Env SpecPrng SubKey SecretKey.

(** Rust's u64 arithmetic: the integer if it fits; otherwise a panic with overflow checks,
    and the integer modulo 2^64 without. *)
Definition u64_of (m : mode) (z : Z) : res N :=
  if ((0 <=? z) && (z <? 2 ^ 64))%Z then Ok (Z.to_N z)
  else match m with Debug => Panic P_ARITH | Release => Ok (Z.to_N (z mod 2 ^ 64)) end.

Local Open Scope N_scope.

(** RFC 5869 section 2.3: T(0) is empty, T(i) = HMAC(PRK, T(i-1) | info | i); the output is
    the first L octets of T(1) | T(2) | ..; L is at most 255 times the output length of the hash. *)
Fixpoint rfc_T (H : bytes -> bytes) (prk info : bytes) (i : nat) : bytes :=
  match i with
  | O => []
  | S j => rfc_hmac H prk (rfc_T H prk info j ++ info ++ [N.of_nat i])
  end.
Definition rfc_expand (H : bytes -> bytes) (prk info : bytes) (len : nat) : option bytes :=
  if (len <=? 255 * 64)%nat then Some (firstn len (concat (map (rfc_T H prk info) (seq 1 255)))) else None.

(** The last sub key of a key that is not after a time stamp. *)
Definition last_not_after {E} (l : list (subkey E)) (t : N) (s : subkey E) : Prop :=
  exists a b, l = a ++ s :: b /\ sk_t s <= t /\ Forall (fun s' => t < sk_t s') b.
