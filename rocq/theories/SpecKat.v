(** Specification vocabulary of C127: which strings the decoder of a codec takes. *)
From Verif Require Import Base Env Serdes KatTests.
Local Open Scope N_scope.

Definition zeros (n : nat) : bytes := repeat 0 n.
(** The decoder of PixelG1 (PixelG2) takes the string; it refuses it. *)
Definition takes1 (E : env) (c : bool) (b : bytes) : Prop := exists x, @g1_dec E c b = Some x.
Definition takes2 (E : env) (c : bool) (b : bytes) : Prop := exists x, @g2_dec E c b = Some x.
Definition refuses1 (E : env) (c : bool) (b : bytes) : Prop := @g1_dec E c b = None.
Definition refuses2 (E : env) (c : bool) (b : bytes) : Prop := @g2_dec E c b = None.
(** [n] bytes of [b] from position [i]. *)
Definition slice (i n : nat) (b : bytes) : bytes := firstn n (skipn i b).
(** In compressed mode the codec refuses strings without the first bit. *)
Definition flag_checked (E : env) : Prop :=
  forall b, nth 0 b 0 < 128 -> refuses1 E true b /\ refuses2 E true b.

(** The point at infinity of the curve library: 0xc0 (compressed) or 0x40 and zeros.
    What the public key test asks of the decoder of PixelG2: *)
Definition pk_asks (E : env) : Prop :=
  (* it takes infinity in both forms and the sample point, *)
  takes2 E true (0xc0 :: zeros 47) /\ takes2 E false (0x40 :: zeros 95) /\ takes2 E true VALID_G1_COM
  (* and refuses infinity with a wrong byte or without the first bit, *)
  /\ refuses2 E true (0xc0 :: 0x10 :: zeros 46) /\ refuses2 E true (0x40 :: zeros 47)
  /\ refuses2 E true (0x40 :: zeros 3 ++ 1 :: zeros 43)
  (* and the sample with a wrong byte or without the first bit. *)
  /\ refuses2 E true INVALID_G1_DATA /\ refuses2 E true INVALID_G1_COM.

(** What the test of proofs of possession asks of the decoder of PixelG1. *)
Definition pop_asks (E : env) : Prop :=
  takes1 E true (0xc0 :: zeros 95) /\ takes1 E true VALID_G2_COM
  /\ refuses1 E true (0xc0 :: 0x10 :: zeros 94) /\ refuses1 E true (0x40 :: zeros 95)
  /\ refuses1 E true (0x40 :: 0x10 :: zeros 94) /\ refuses1 E true (0x40 :: zeros 53 ++ 0x10 :: zeros 41)
  /\ refuses1 E true INVALID_G2_DATA /\ refuses1 E true INVALID_G2_COM.

(** What the signature tests ask beyond that: strings that run over the border of the two points. *)
Definition sig_asks (E : env) : Prop :=
  (* a first point that lacks its last byte takes the first byte of the second one, *)
  (refuses2 E true (0xc0 :: zeros 46 ++ [0x40])
   \/ refuses1 E true (zeros 96) /\ refuses1 E true (zeros 53 ++ 0x10 :: zeros 42))
  /\ (refuses2 E true (firstn 47 VALID_G1_COM ++ [0x40])
      \/ refuses1 E true (zeros 96) /\ refuses1 E true (zeros 53 ++ 0x10 :: zeros 42))
  (* and in the wrong order the first half of the 96 bytes is read as the first point. *)
  /\ refuses1 E true (zeros 48 ++ 0xc0 :: zeros 47)
  /\ refuses1 E true (zeros 48 ++ VALID_G1_COM)
  /\ refuses1 E true (zeros 48 ++ 0x40 :: zeros 47)
  /\ (refuses2 E true (firstn 48 VALID_G2_COM)
      \/ refuses1 E true (skipn 48 VALID_G2_COM ++ 0xc0 :: zeros 47)
         /\ refuses1 E true (skipn 48 VALID_G2_COM ++ VALID_G1_COM)
         /\ refuses1 E true (skipn 48 VALID_G2_COM ++ 0x40 :: zeros 47)).

(** All five tests pass. *)
Definition kats_pass (E : env) : Prop :=
  test_pk_serialization_kat E = Ok tt /\ test_pop_serialization_kat E = Ok tt
  /\ test_sig_serialization_kat_valid E = Ok tt /\ test_sig_serialization_kat_invalid_const E = Ok tt
  /\ test_sig_serialization_kat_invalid_points E = Ok tt.

(** The same environment with other decoders. *)
Definition with_dec (E : env) (d1 : bool -> bytes -> option (G1 E)) (d2 : bool -> bytes -> option (G2 E)) : env :=
  {| G1 := G1 E; G2 := G2 E; GT := GT E;
     g1_zero := g1_zero; g1_add := g1_add; g1_dbl := g1_dbl; g1_mul := g1_mul; g1_eqb := g1_eqb; g1_insub := g1_insub;
     g2_zero := g2_zero; g2_add := g2_add; g2_neg := g2_neg; g2_mul := g2_mul; g2_eqb := g2_eqb; g2_insub := g2_insub; g2_one := g2_one;
     gt_one := gt_one; gt_mul := gt_mul; gt_eqb := gt_eqb; pairing := pairing; pairing_prod := pairing_prod;
     g1_enc := g1_enc; g1_dec := d1; g2_enc := g2_enc; g2_dec := d2;
     sha512 := sha512 E; bls_sign := bls_sign; bls_verify := bls_verify |}.
