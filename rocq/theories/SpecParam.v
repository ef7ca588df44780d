(** spec.md, "Parameter generation", for a hash-to-group function [h2c]; the strings are
    expanded to 32 bytes. *)
From Coq Require Import String.
From Verif Require Import Base Env SubKey SpecPrng.
Local Open Scope N_scope.

Definition param_point {E} (h2c : bytes -> bytes -> G1 E) (seed : bytes) (cs : N) (info : bytes) : G1 E :=
  h2c (firstn 32 (hkdf_T1 (sha512 E) (rfc_hmac (sha512 E) (str "Pixel public parameter generation") seed) info)) [cs].
(** No info for h; the byte i for h_i. *)
Definition spec_param {E} (h2c : bytes -> bytes -> G1 E) (seed : bytes) (cs : N) (d : nat) : pubparam E :=
  PubParam d cs g2_one (param_point h2c seed cs (str "H2G_h"))
    (map (fun i => param_point h2c seed cs (str "H2G_h" ++ [N.of_nat i])) (seq 0 (d + 1))).
(** The first eight words of the SHA-512 initial value (FIPS 180-4, 5.3.5), big-endian. *)
Definition SHA512_IV : list N :=
  [0x6a09e667f3bcc908; 0xbb67ae8584caa73b; 0x3c6ef372fe94f82b; 0xa54ff53a5f1d36f1;
   0x510e527fade682d1; 0x9b05688c2b3e6c1f; 0x1f83d9abfb41bd6b; 0x5be0cd19137e2179].
Definition be8 (w : N) : bytes :=
  map (fun i => w / 2^(8 * N.of_nat i) mod 256) [7; 6; 5; 4; 3; 2; 1; 0]%nat.
