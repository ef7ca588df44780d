(** Property C127: the tests of serdes.rs on fixed strings (the _kat tests), and which
    strings are public keys, proofs of possession and signatures.
    Specification vocabulary: SpecKat.v ([slice], [zeros], [takes1], [takes2], [refuses1], [refuses2],
    [pk_asks], [pop_asks], [sig_asks], [kats_pass], [flag_checked], [with_dec]), SpecSer.v ([supported]). *)
From Verif Require Import Base Env SubKey Keys Sig IO Serdes Tests KatTests SpecSer SpecKat PrngFacts KatProps.
Local Open Scope N_scope.

Theorem C127_public_keys : forall (E : env) (c : bool) (b : bytes) (pk : pubkey E),
  from_slice (pk_deserialize c) b = Ok pk <->
  (1 + g2_size c <= length b)%nat /\ supported (pk_cs pk) /\ pk_cs pk = nth 0 b 0
  /\ g2_dec c (slice 1 (g2_size c) b) = Some (pk_pk pk).
Proof. exact public_keys. Qed.
Print Assumptions C127_public_keys.

Theorem C127_proofs : forall (E : env) (c : bool) (b : bytes) (pop : proof E),
  from_slice (pop_deserialize c) b = Ok pop <->
  (1 + g1_size c <= length b)%nat /\ supported (pop_cs pop) /\ pop_cs pop = nth 0 b 0
  /\ g1_dec c (slice 1 (g1_size c) b) = Some (pop_pop pop).
Proof. exact proofs. Qed.
Print Assumptions C127_proofs.

Theorem C127_signatures : forall (E : env) (c : bool) (b : bytes) (s : signature E),
  from_slice (sig_deserialize c) b = Ok s <->
  c = true /\ (149 <= length b)%nat /\ supported (sig_cs s) /\ sig_cs s = nth 0 b 0
  /\ sig_time s = from_be4 (slice 1 4 b) /\ sig_time s <> 0
  /\ g2_dec true (slice 5 48 b) = Some (sig_1 s) /\ g1_dec true (slice 53 96 b) = Some (sig_2 s).
Proof. exact signatures. Qed.
Print Assumptions C127_signatures.

Theorem C127_pk_test : forall E : env, test_pk_serialization_kat E = Ok tt <-> pk_asks E.
Proof. exact pk_test. Qed.
Print Assumptions C127_pk_test.

Theorem C127_pop_test : forall E : env, test_pop_serialization_kat E = Ok tt <-> pop_asks E.
Proof. exact pop_test. Qed.
Print Assumptions C127_pop_test.

Theorem C127_sig_valid_test : forall E : env, test_sig_serialization_kat_valid E = Ok tt <->
  takes2 E true (0xc0 :: zeros 47) /\ takes2 E true VALID_G1_COM /\ takes1 E true (0xc0 :: zeros 95) /\ takes1 E true VALID_G2_COM.
Proof. exact sig_valid_test. Qed.
Print Assumptions C127_sig_valid_test.

Theorem C127_sig_const_test : forall E : env, test_sig_serialization_kat_invalid_const E = Ok tt <->
  (refuses2 E true (0xc0 :: zeros 47) \/ refuses1 E true (0x40 :: zeros 95))
  /\ (refuses2 E true (0x40 :: zeros 47) \/ refuses1 E true (zeros 48 ++ 0xc0 :: zeros 47)).
Proof. exact sig_const_test. Qed.
Print Assumptions C127_sig_const_test.

Theorem C127_sig_points_test : forall E : env, pk_asks E -> pop_asks E ->
  (test_sig_serialization_kat_invalid_points E = Ok tt <-> sig_asks E).
Proof. exact sig_points_test. Qed.
Print Assumptions C127_sig_points_test.

Theorem C127_all_tests : forall E : env, kats_pass E <-> pk_asks E /\ pop_asks E /\ sig_asks E.
Proof. exact all_tests. Qed.
Print Assumptions C127_all_tests.

(** With a codec that looks at the first bit. *)
Theorem C127_flag_checked : forall E : env, flag_checked E ->
  (kats_pass E <->
   takes2 E true (0xc0 :: zeros 47) /\ takes2 E false (0x40 :: zeros 95) /\ takes2 E true VALID_G1_COM
   /\ takes1 E true (0xc0 :: zeros 95) /\ takes1 E true VALID_G2_COM
   /\ refuses2 E true (0xc0 :: 0x10 :: zeros 46) /\ refuses2 E true INVALID_G1_DATA
   /\ refuses1 E true (0xc0 :: 0x10 :: zeros 94) /\ refuses1 E true INVALID_G2_DATA).
Proof. exact tests_flag_checked. Qed.
Print Assumptions C127_flag_checked.

(** None of the strings tests the uncompressed decoder of PixelG1, and of that of PixelG2
    only one string, which it should take. *)
Theorem C127_uncompressed_untested : forall (E : env) (d1 : bool -> bytes -> option (G1 E)) (d2 : bool -> bytes -> option (G2 E)),
  kats_pass E ->
  (forall b, d1 true b = g1_dec true b) -> (forall b, d2 true b = g2_dec true b) ->
  d2 false (0x40 :: zeros 95) <> None -> kats_pass (with_dec E d1 d2).
Proof. exact uncompressed_untested. Qed.
Print Assumptions C127_uncompressed_untested.

(** Codecs of just the sample points.  The groups do not matter here, so they have one element. *)
Definition one_point (d1 d2 : bool -> bytes -> option unit) : env :=
  {| G1 := unit; G2 := unit; GT := unit;
     g1_zero := tt; g1_add := fun _ _ => tt; g1_dbl := fun _ => tt; g1_mul := fun _ _ => tt; g1_eqb := fun _ _ => true; g1_insub := fun _ => true;
     g2_zero := tt; g2_add := fun _ _ => tt; g2_neg := fun _ => tt; g2_mul := fun _ _ => tt; g2_eqb := fun _ _ => true; g2_insub := fun _ => true;
     g2_one := tt; gt_one := tt; gt_mul := fun _ _ => tt; gt_eqb := fun _ _ => true; pairing := fun _ _ => tt; pairing_prod := fun _ => Some tt;
     g1_enc := fun _ _ => []; g1_dec := d1; g2_enc := fun _ _ => []; g2_dec := d2;
     sha512 := fun _ => []; bls_sign := fun _ _ _ => tt; bls_verify := fun _ _ _ _ => true |}.
Definition tab1 (c : bool) (b : bytes) : option unit :=
  if c && (bytes_eqb b (0xc0 :: zeros 95) || bytes_eqb b VALID_G2_COM) then Some tt else None.
Definition tab2 (c : bool) (b : bytes) : option unit :=
  if c then if bytes_eqb b (0xc0 :: zeros 47) || bytes_eqb b VALID_G1_COM then Some tt else None
  else if bytes_eqb b (0x40 :: zeros 95) then Some tt else None.
Definition kt : env := one_point tab1 tab2.
(** The same, but it also takes the sample with a wrong byte; and one that does not look at the first bit. *)
Definition kt_bad : env := one_point tab1 (fun c b => if bytes_eqb b INVALID_G1_DATA then Some tt else tab2 c b).
Definition kt_any : env := one_point tab1 (fun c b => match b with x :: b' => tab2 c (if c then N.lor 0x80 x :: b' else b) | [] => None end).
(** Uncompressed strings are taken whatever they are. *)
Definition kt_all : env :=
  with_dec kt (fun c b => if c then tab1 c b else Some tt) (fun c b => if c then tab2 c b else Some tt).

Example C127_example :
  pk_asks kt /\ pop_asks kt /\ sig_asks kt /\ flag_checked kt /\ kats_pass kt
  /\ test_pk_serialization_kat kt_bad = Panic P_ASSERT
  /\ test_sig_serialization_kat_valid kt_bad = Ok tt
  /\ test_pk_serialization_kat kt_any = Panic P_ASSERT
  /\ kats_pass kt_all /\ from_slice (@pop_deserialize kt_all false) (0 :: repeat 7 192) = Ok (@Pop kt_all 0 tt)
  /\ from_slice (@pk_deserialize kt true) (1 :: VALID_G1_COM ++ [9]) = Ok (@PubKey kt 1 tt)
  /\ from_slice (@sig_deserialize kt true) (1 :: TIME ++ VALID_G1_COM ++ VALID_G2_COM) = Ok (@Signature kt 1 0x01020304 tt tt)
  /\ from_slice (@sig_deserialize kt true) (1 :: TIME ++ VALID_G2_COM ++ VALID_G1_COM) = Err E_POINT
  /\ from_slice (@sig_deserialize kt true) (1 :: TIME ++ INVALID_G1_LEN ++ VALID_G2_COM) = Err E_POINT
  /\ from_slice (@sig_deserialize kt true) (1 :: TIME ++ VALID_G1_COM ++ INVALID_G2_LEN) = Err E_IO.
Proof.
  assert (Ht : pk_asks kt /\ pop_asks kt /\ sig_asks kt).
  { split; [|split].
    - repeat (split; [first [reflexivity|exists tt; reflexivity]|]). reflexivity.
    - repeat (split; [first [reflexivity|exists tt; reflexivity]|]). reflexivity.
    - split; [left; reflexivity|]. split; [left; reflexivity|]. repeat (split; [reflexivity|]). left. reflexivity. }
  assert (Hp : kats_pass kt) by (apply kats_iff; exact Ht).
  destruct Ht as (H1 & H2 & H3). split; [exact H1|]. split; [exact H2|]. split; [exact H3|].
  split.
  { intros b Hb. unfold refuses1, refuses2. cbn [kt one_point g1_dec g2_dec]. unfold tab1, tab2. cbn [andb].
    assert (Hn : forall l, (128 <=? nth 0 l 0) = true -> bytes_eqb b l = false).
    { intros l Hl. apply N.leb_le in Hl. destruct (bytes_eqb b l) eqn:He; [|reflexivity]. apply bytes_eqb_eq in He. subst l. lia. }
    rewrite !Hn by reflexivity. split; reflexivity. }
  split; [exact Hp|]. split; [vm_compute; reflexivity|]. split; [vm_compute; reflexivity|]. split; [vm_compute; reflexivity|].
  split; [apply kats_blind; [exact Hp|reflexivity|reflexivity|discriminate]|].
  split; [vm_compute; reflexivity|]. split; [vm_compute; reflexivity|]. split; [vm_compute; reflexivity|].
  split; [vm_compute; reflexivity|]. split; vm_compute; reflexivity.
Qed.
