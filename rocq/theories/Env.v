(** The dependencies of the crate that are not in /repo, as one record of
    operations, and what is assumed of them.

    - pairing_plus (BLS12-381): [G1] is the crate's PixelG1 (curve points of BLS G2),
      [G2] is PixelG2 (BLS G1), [GT] is Fq12.  Points are taken up to equality of the
      group element (projective coordinates are not modelled).  Scalars (Fr, u64)
      are [N].
    - pixel_param: the (de)serialization of group elements.
    - sha2: SHA-512.
    - bls_sigs_ref: core_sign / core_verify, used for the proof of possession. *)
From Verif Require Import Base.
Local Open Scope N_scope.

Record env := Env {
  G1 : Type; G2 : Type; GT : Type;

  g1_zero : G1;
  g1_add : G1 -> G1 -> G1;          (* add_assign *)
  g1_dbl : G1 -> G1;                (* double *)
  g1_mul : N -> G1 -> G1;           (* mul_assign *)
  g1_eqb : G1 -> G1 -> bool;        (* == *)
  g1_insub : G1 -> bool;            (* in_subgroup *)

  g2_zero : G2;
  g2_add : G2 -> G2 -> G2;
  g2_neg : G2 -> G2;                (* negate *)
  g2_mul : N -> G2 -> G2;
  g2_eqb : G2 -> G2 -> bool;
  g2_insub : G2 -> bool;
  g2_one : G2;                      (* PixelG2::one(), the fixed generator *)

  gt_one : GT;
  gt_mul : GT -> GT -> GT;
  gt_eqb : GT -> GT -> bool;
  pairing : G2 -> G1 -> GT;
  (* final_exponentiation (miller_loop l) *)
  pairing_prod : list (G2 * G1) -> option GT;

  (* pixel_param SerDes of group elements; the flag is "compressed" *)
  g1_enc : bool -> G1 -> bytes;
  g1_dec : bool -> bytes -> option G1;
  g2_enc : bool -> G2 -> bytes;
  g2_dec : bool -> bytes -> option G2;

  sha512 : bytes -> bytes;

  (* bls_sigs_ref: core_sign(x, msg, ciphersuite), core_verify(pk, sig, msg, ciphersuite) *)
  bls_sign : N -> bytes -> bytes -> G1;
  bls_verify : G2 -> G1 -> bytes -> bytes -> bool;
}.

Arguments g1_zero {e}. Arguments g1_add {e}. Arguments g1_dbl {e}. Arguments g1_mul {e}.
Arguments g1_eqb {e}. Arguments g1_insub {e}.
Arguments g2_zero {e}. Arguments g2_add {e}. Arguments g2_neg {e}. Arguments g2_mul {e}.
Arguments g2_eqb {e}. Arguments g2_insub {e}. Arguments g2_one {e}.
Arguments gt_one {e}. Arguments gt_mul {e}. Arguments gt_eqb {e}.
Arguments pairing {e}. Arguments pairing_prod {e}.
Arguments g1_enc {e}. Arguments g1_dec {e}. Arguments g2_enc {e}. Arguments g2_dec {e}.
Arguments bls_sign {e}. Arguments bls_verify {e}.

(** Sizes of encoded group elements. *)
Definition g1_size (compressed : bool) : nat := if compressed then 96 else 192.
Definition g2_size (compressed : bool) : nat := if compressed then 48 else 96.

(** The order of the BLS12-381 scalar field Fr. *)
Definition fr_modulus : N :=
  0x73EDA753299D7D483339D80809A1D80553BDA402FFFE5BFEFFFFFFFF00000001.

(** Product of pairings in GT. *)
Definition gt_prod {E : env} (l : list (G2 E * G1 E)) : GT E :=
  fold_right (fun xy acc => gt_mul (pairing (fst xy) (snd xy)) acc) gt_one l.

(** What the theorems assume of the dependencies. *)
Record env_laws (E : env) : Prop := EnvLaws {
  (* PixelG1 is an abelian group with integer multiples *)
  l1_comm : forall x y : G1 E, g1_add x y = g1_add y x;
  l1_assoc : forall x y z : G1 E, g1_add x (g1_add y z) = g1_add (g1_add x y) z;
  l1_zero : forall x : G1 E, g1_add g1_zero x = x;
  l1_dbl : forall x : G1 E, g1_dbl x = g1_add x x;
  l1_mul0 : forall x : G1 E, g1_mul 0 x = g1_zero;
  l1_mul1 : forall x : G1 E, g1_mul 1 x = x;
  l1_mul_add : forall n k (x : G1 E), g1_mul (n + k) x = g1_add (g1_mul n x) (g1_mul k x);
  l1_mul_mul : forall n k (x : G1 E), g1_mul (n * k) x = g1_mul n (g1_mul k x);
  l1_mul_dist : forall n (x y : G1 E), g1_mul n (g1_add x y) = g1_add (g1_mul n x) (g1_mul n y);
  l1_eqb : forall x y : G1 E, g1_eqb x y = true <-> x = y;
  (* so is PixelG2 *)
  l2_comm : forall x y : G2 E, g2_add x y = g2_add y x;
  l2_assoc : forall x y z : G2 E, g2_add x (g2_add y z) = g2_add (g2_add x y) z;
  l2_zero : forall x : G2 E, g2_add g2_zero x = x;
  l2_neg : forall x : G2 E, g2_add x (g2_neg x) = g2_zero;
  l2_mul0 : forall x : G2 E, g2_mul 0 x = g2_zero;
  l2_mul1 : forall x : G2 E, g2_mul 1 x = x;
  l2_mul_add : forall n k (x : G2 E), g2_mul (n + k) x = g2_add (g2_mul n x) (g2_mul k x);
  l2_mul_mul : forall n k (x : G2 E), g2_mul (n * k) x = g2_mul n (g2_mul k x);
  l2_mul_dist : forall n (x y : G2 E), g2_mul n (g2_add x y) = g2_add (g2_mul n x) (g2_mul n y);
  l2_eqb : forall x y : G2 E, g2_eqb x y = true <-> x = y;
  (* the subgroups of order r *)
  l1_sub0 : g1_insub (@g1_zero E) = true;
  l1_sub_add : forall x y : G1 E, g1_insub x = true -> g1_insub y = true -> g1_insub (g1_add x y) = true;
  l1_order : forall x : G1 E, g1_insub x = true -> g1_mul fr_modulus x = g1_zero;
  l2_sub0 : g2_insub (@g2_zero E) = true;
  l2_sub_add : forall x y : G2 E, g2_insub x = true -> g2_insub y = true -> g2_insub (g2_add x y) = true;
  l2_sub_neg : forall x : G2 E, g2_insub x = true -> g2_insub (g2_neg x) = true;
  l2_order : forall x : G2 E, g2_insub x = true -> g2_mul fr_modulus x = g2_zero;
  l2_one_sub : g2_insub (@g2_one E) = true;
  l2_one_nz : @g2_one E <> g2_zero;
  l2_gen : forall x : G2 E, g2_insub x = true -> exists n, x = g2_mul n g2_one;
  (* Fq12 is a commutative monoid in which pairing values are invertible *)
  lt_comm : forall x y : GT E, gt_mul x y = gt_mul y x;
  lt_assoc : forall x y z : GT E, gt_mul x (gt_mul y z) = gt_mul (gt_mul x y) z;
  lt_one : forall x : GT E, gt_mul gt_one x = x;
  lt_eqb : forall x y : GT E, gt_eqb x y = true <-> x = y;
  lt_inv : forall (x : G2 E) (y : G1 E), g2_insub x = true -> g1_insub y = true ->
           exists z, gt_mul (pairing x y) z = gt_one;
  (* the pairing is bilinear and non-degenerate on the subgroups *)
  lp_add_l : forall (x x' : G2 E) (y : G1 E),
      g2_insub x = true -> g2_insub x' = true -> g1_insub y = true ->
      pairing (g2_add x x') y = gt_mul (pairing x y) (pairing x' y);
  lp_add_r : forall (x : G2 E) (y y' : G1 E),
      g2_insub x = true -> g1_insub y = true -> g1_insub y' = true ->
      pairing x (g1_add y y') = gt_mul (pairing x y) (pairing x y');
  lp_nondeg : forall (x : G2 E) (y : G1 E),
      g2_insub x = true -> g1_insub y = true -> pairing x y = gt_one ->
      x = g2_zero \/ y = g1_zero;
  lp_prod : forall l : list (G2 E * G1 E),
      Forall (fun xy => g2_insub (fst xy) = true /\ g1_insub (snd xy) = true) l ->
      pairing_prod l = Some (gt_prod l);
  (* codecs *)
  lc1_len : forall c (x : G1 E), length (g1_enc c x) = g1_size c;
  lc1_bytes : forall c (x : G1 E), are_bytes (g1_enc c x);
  lc1_rt : forall c (x : G1 E), g1_insub x = true -> g1_dec c (g1_enc c x) = Some x;
  lc1_canon : forall b (x : G1 E), are_bytes b -> length b = g1_size true ->
      g1_dec true b = Some x -> g1_enc true x = b;
  lc2_len : forall c (x : G2 E), length (g2_enc c x) = g2_size c;
  lc2_bytes : forall c (x : G2 E), are_bytes (g2_enc c x);
  lc2_rt : forall c (x : G2 E), g2_insub x = true -> g2_dec c (g2_enc c x) = Some x;
  lc2_canon : forall b (x : G2 E), are_bytes b -> length b = g2_size true ->
      g2_dec true b = Some x -> g2_enc true x = b;
  (* SHA-512 *)
  lh_len : forall b, length (sha512 E b) = 64%nat;
  lh_bytes : forall b, are_bytes (sha512 E b);
  (* BLS signatures verify *)
  lb_ok : forall x msg cs, bls_verify (g2_mul x (@g2_one E)) (bls_sign x msg cs) msg cs = true;
  lb_sub : forall x msg cs, g1_insub (@bls_sign E x msg cs) = true;
}.
