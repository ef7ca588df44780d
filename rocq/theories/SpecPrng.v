(** Specification of the PRNG: spec.md / RFC 8017 (OS2IP) and RFC 5869 (HKDF), for a
    hash function with 64-byte output and 128-byte blocks. *)
From Coq Require Import String.
From Verif Require Import Base Env Hkdf.
Local Open Scope N_scope.

(** RFC 8017 section 4.2: the first octet is the most significant. *)
Definition os2ip (l : bytes) : N := fold_left (fun x b => x * 256 + b) l 0.

(** RFC 2104, for SHA-512 (B = 128): K0 is the key, hashed if it is longer than B bytes,
    followed by zeros up to B bytes; HMAC = H((K0 xor opad) | H((K0 xor ipad) | text)). *)
Definition rfc_hmac (H : bytes -> bytes) (key text : bytes) : bytes :=
  let k0 := if (length key <=? 128)%nat then key else H key in
  let xor_pad p := map (fun i => N.lxor (nth i k0 0) p) (seq 0 128) in
  H (xor_pad 0x5c ++ H (xor_pad 0x36 ++ text)).

(** RFC 5869 section 2.3: T(1) = HMAC(PRK, info | 0x01), T(2) = HMAC(PRK, T(1) | info | 0x02). *)
Definition hkdf_T1 (H : bytes -> bytes) (prk info : bytes) : bytes := rfc_hmac H prk (info ++ [1]).
Definition hkdf_T2 (H : bytes -> bytes) (prk info : bytes) : bytes :=
  rfc_hmac H prk (hkdf_T1 H prk info ++ info ++ [2]).

(** spec.md: hash_to_field(m[0..64]) and the next seed m[64..128]. *)
Definition spec_scalar (H : bytes -> bytes) (g info : bytes) : N :=
  os2ip (hkdf_T1 H g info) mod fr_modulus.
Definition spec_next (H : bytes -> bytes) (g info : bytes) : bytes := hkdf_T2 H g info.
Definition spec_rerandomize (H : bytes -> bytes) (g seed info : bytes) : bytes :=
  rfc_hmac H (hkdf_T2 H g info) (hkdf_T1 H g info ++ seed).

(** spec.md "Sign": the message scalar M and the signing randomness. *)
Definition spec_msg (H : bytes -> bytes) (dst : bytes) (cs : N) (msg : bytes) : N :=
  os2ip (H (dst ++ cs :: msg)) mod fr_modulus.

(** spec.md, "PRNG": re_randomize takes a salt, and expands to 64 bytes only. *)
Definition spec_md_rerandomize (H : bytes -> bytes) (g seed salt info : bytes) : bytes :=
  rfc_hmac H salt (hkdf_T1 H g info ++ seed).

(** What the prng of a key is asked for, and the info string for it (spec.md and
    src/domain_sep.rs); times are 4 bytes, most significant first. *)
Inductive purpose := KeyInit | SkInit | Update | Rerandomize (t : N) | Signing (msg : bytes) (t : N).
Definition time4 (t : N) : bytes := [t / 2^24 mod 256; t / 2^16 mod 256; t / 2^8 mod 256; t mod 256].
Definition info_of (p : purpose) : bytes :=
  match p with
  | KeyInit => str "key initialization"
  | SkInit => str "Pixel secret key init" ++ time4 1
  | Update => str "Pixel secret key update"
  | Rerandomize t => str "Pixel secret key rerandomize expand" ++ time4 t
  | Signing msg t => str "Pixel randomness for signing" ++ msg ++ time4 t
  end.
(** Time stamps that 4 bytes can hold. *)
Definition short_time (p : purpose) : Prop :=
  match p with Rerandomize t | Signing _ t => t < 2^32 | _ => True end.
