(** Specification vocabulary for what the functions leave in memory. *)
From Coq Require Import String.
From Verif Require Import Base Env Time Prng SpecPrng SpecTime SubKey SecretKey Keys Sig SpecKey SpecUpdate Hygiene.
Local Open Scope N_scope.

(** README.MD 71: secret variables are named with the suffix _sec. *)
Definition sec_named (x : string) : bool :=
  String.eqb (substring (String.length x - 4) 4 x) "_sec".
(** No variable named so is left. *)
Definition no_sec_left {E} (d : list (cell E)) : Prop := Forall (fun c => sec_named (c_var c) = false) d.

(** Call of an instrumented function: the result [r], the cells [d] are left. *)
Definition gives {E A} (h : hm E A) (r : res A) (d : list (cell E)) : Prop :=
  forall s, h s = (r, (fst s, snd s ++ d)).

(** The four 64-bit limbs of a scalar, and the cell in which os2ip_mod_p leaves it. *)
Definition limbs (x : N) : list N :=
  [x mod 2 ^ 64; x / 2 ^ 64 mod 2 ^ 64; x / 2 ^ 128 mod 2 ^ 64; x / 2 ^ 192 mod 2 ^ 64].
Definition of_limbs (l : list N) : N := fold_right (fun d x => d + 2 ^ 64 * x) 0 l.
Definition scalar_cell {E} (x : N) : cell E := Cell "os2ip_mod_p" "s" (VRepr (limbs x)).

(** What one re-randomization with the scalar [x] drawn from the prng leaves. *)
Definition draw_cells {E} (x : N) : list (cell E) :=
  [scalar_cell x; Cell "randomization" "r" (VInt x)].

(** The time stamps of the sub keys of [sk'] that [sk] has not. *)
Definition new_times {E} (sk sk' : seckey E) : list N :=
  filter (fun t => negb (existsb (N.eqb t) (map sk_t (sec_ssk sk)))) (map sk_t (sec_ssk sk')).

(** What the initialization of the root sub key leaves. *)
Definition init_cells {E} (pp : pubparam E) (alpha : G1 E) (r : N) : list (cell E) :=
  let h := pp_hlist pp in
  [Cell "SubSecretKey::init" "hlist"
     (VPoints (firstn 1 h ++ map (g1_mul r) (skipn 1 (firstn (pp_depth pp + 1) h)) ++ skipn (pp_depth pp + 1) h));
   Cell "SubSecretKey::init" "hpoly" (VG1 (g1_add (g1_mul r (nth 0 h g1_zero)) alpha));
   Cell "SubSecretKey::init" "g2r" (VG2 (g2_mul r (pp_g2 pp)));
   Cell "SubSecretKey::init" "alpha" (VG1 alpha);
   Cell "SubSecretKey::init" "r" (VInt r)].

(** What key generation leaves: the seed of the prng, the master secret [x] three times,
    h^x three times, the randomness [r] of the root sub key, and parts of that key. *)
Definition keygen_cells {E} (pp : pubparam E) (g : bytes) (x r : N) : list (cell E) :=
  [Cell "PRNG::init" "rng_seed" (VBytes g);
   scalar_cell x;
   Cell "proof_of_possession" "msk" (VInt x);
   Cell "master_key_gen" "x_sec" (VInt x);
   scalar_cell r]
  ++ init_cells pp (g1_mul x (pp_h pp)) r
  ++ [Cell "SecretKey::init" "alpha" (VG1 (g1_mul x (pp_h pp)));
      Cell "keygen" "msk_sec" (VG1 (g1_mul x (pp_h pp)))].

(** What an update leaves that has turned [sk] into [sk']: two cells for every new sub key but
    the first. *)
Definition update_cells {E} (sk sk' : seckey E) (seed : bytes) : list (cell E) :=
  flat_map (fun i => draw_cells (added (sha512 E) (spec_reseed sk seed) i)) (seq 1 (length (new_times sk sk') - 1)).

(** What signing [msg] at [t] leaves: its randomness twice, and the scalar of the message. *)
Definition sign_cells {E} (pp : pubparam E) (sk : seckey E) (t : N) (msg : bytes) : list (cell E) :=
  let k := spec_scalar (sha512 E) (sec_prng sk) (sign_info msg t) in
  [scalar_cell k; scalar_cell (msg_scalar pp msg); Cell "sign_fr" "r" (VInt k)].

(** Cells of serialization. *)
Definition hv_cell {E} (s : subkey E) : cell E := Cell "SubSecretKey::serialize" "hvector" (VPoints (sk_hvec s)).
Definition buf_cell {E : env} (b : bytes) : cell E := Cell "SecretKey::serialize" "buf" (VBytes b).

(** * What can be done with the cells *)
(** Subtraction of points. *)
Definition g1_minus {E : env} (x y : G1 E) : G1 E := g1_add x (g1_mul (fr_modulus - 1) y).
Definition g2_minus {E : env} (x y : G2 E) : G2 E := g2_add x (g2_mul (fr_modulus - 1) y).

(** A signature made from z = h^x. *)
Definition sign_with {E} (pp : pubparam E) (z : G1 E) (t : N) (v : path) (M s : N) : signature E :=
  Signature (pp_cs pp) t (g2_mul s (pp_g2 pp)) (g1_add z (g1_mul s (sig_val pp v M))).

(** The sub key of the node [u] with time stamp [p], from a sub key [s0] of a node
    u.1.2...2, the sub key [s1] of u.2, and the scalar [rho] that was added to the
    randomness of [s1]. *)
Definition recover {E} (pp : pubparam E) (p : N) (u : path) (s0 s1 : subkey E) (rho : N) : subkey E :=
  let hv := map (fun ah => g1_minus (fst ah) (g1_mul rho (snd ah)))
                (combine (sk_hvec s1) (skipn (length u + 2) (pp_hlist pp))) in
  let right := g1_minus (sk_hpoly s1) (g1_mul rho (node_val pp (u ++ [2]))) in
  let left := g1_minus (sk_hpoly s0) (lincomb (repeat 2 (length (sk_hvec s1) - length (sk_hvec s0))) hv) in
  let hj := g1_minus right left in
  SubKey p (sk_g2r s0) (g1_minus right (g1_mul 2 hj)) (hj :: hv).

(** A signature on the scalar [M], from two signatures [s1], [s2] for the same node [v] on
    the scalars [M1], [M2] and their randomness [k1], [k2]; [c] inverts M1 - M2. *)
Definition combine_sigs {E} (pp : pubparam E) (t : N) (v : path) (s1 s2 : signature E) (k1 k2 M1 M2 c M : N) : signature E :=
  let base s k M := g1_minus (sig_2 s) (g1_mul k (sig_val pp v M)) in
  let hd := g1_mul c (g1_minus (base s1 k1 M1) (base s2 k2 M2)) in
  Signature (pp_cs pp) t (g2_minus (sig_1 s1) (g2_mul k1 (pp_g2 pp)))
    (g1_minus (g1_add (base s1 k1 M1) (g1_mul M hd)) (g1_mul M1 hd)).
