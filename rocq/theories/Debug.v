(** The texts written by the Debug implementations, as lists of characters. *)
From Coq Require Import String.
From Verif Require Import Base Env Prng SubKey SecretKey Sig.
Local Open Scope N_scope.

(** std: [{:?}] of an unsigned integer, decimal; 20 digits are enough for u64. *)
Fixpoint dec_loop (fuel : nat) (n : N) (acc : bytes) : bytes :=
  match fuel with
  | O => acc
  | S f => let acc := (48 + n mod 10) :: acc in if n <? 10 then acc else dec_loop f (n / 10) acc
  end.
Definition dec (n : N) : bytes := dec_loop 20 n [].
(** std: [{:02x}] of a byte. *)
Definition hexd (n : N) : N := if n <? 10 then 48 + n else 87 + n.
Definition hex2 (b : N) : bytes := [hexd (b / 16); hexd (b mod 16)].
Definition nl : N := 10.
Definition bar : bytes := repeat 61 32.

(** src/prng.rs 32-42: Debug for PRNG.  The state has 64 bytes, so no index panics. *)
Definition prng_debug (g : prng) : bytes :=
  flat_map (fun i => flat_map (fun j => str "0x" ++ hex2 (nth (i * 8 + j) g 0) ++ str ", ") (seq 0 8) ++ [nl]) (seq 0 8).

(** [p1] and [p2] below: how the pairing library prints a point after [into_affine]. *)
(** src/subkeys.rs 306-326: Debug for SubSecretKey. *)
Definition ssk_debug {E : env} (p1 : G1 E -> bytes) (p2 : G2 E -> bytes) (s : subkey E) : bytes :=
  bar ++ [nl] ++ str "==========Sub Secret key========" ++ [nl]
  ++ str "time : " ++ dec (sk_t s) ++ [nl] ++ str "g1r: " ++ p2 (sk_g2r s) ++ [nl] ++ str "h0 : " ++ p1 (sk_hpoly s) ++ [nl]
  ++ flat_map (fun ih => str "hlist: h" ++ dec (N.of_nat (fst ih)) ++ str ": " ++ p1 (snd ih) ++ [nl])
       (combine (seq 0 (length (sk_hvec s))) (sk_hvec s))
  ++ bar ++ [nl].

(** src/secret_key.rs 612-625: Debug for SecretKey. *)
Definition sk_debug {E : env} (p1 : G1 E -> bytes) (p2 : G2 E -> bytes) (sk : seckey E) : bytes :=
  bar ++ [nl] ++ str "time:" ++ dec (sec_time sk) ++ [nl]
  ++ str "seed: " ++ [nl] ++ prng_debug (sec_prng sk) ++ [nl]
  ++ flat_map (fun ik => str "========" ++ dec (N.of_nat (fst ik)) ++ str "-th subkey============" ++ [nl] ++ ssk_debug p1 p2 (snd ik) ++ [nl])
       (combine (seq 0 (length (sec_ssk sk))) (sec_ssk sk))
  ++ bar ++ [nl].

(** src/sig.rs 482-495: Debug for Signature. *)
Definition sig_debug {E : env} (p1 : G1 E -> bytes) (p2 : G2 E -> bytes) (s : signature E) : bytes :=
  bar ++ [nl] ++ str "==========Signature======" ++ [nl]
  ++ str "sigma1  : " ++ p2 (sig_1 s) ++ [nl] ++ str "sigma2  : " ++ p1 (sig_2 s) ++ [nl] ++ bar ++ [nl].

(** src/ffi.rs 28-35, 45-52, 71-78: Debug for pixel_pk, pixel_pop and pixel_sig. *)
Definition blob_debug (b : bytes) : bytes := flat_map (fun e => hex2 e ++ str ", ") b ++ [nl].
