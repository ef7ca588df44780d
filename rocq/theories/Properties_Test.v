(** Properties C86-C90: the test programs of src/test (Tests.v) pass for every argument.
    Specification vocabulary: SpecTest.v ([passes]: it passes, or an update panics and the
    hash function breaks in one of the listed histories; [singles], [in_turn], [twos]: these
    histories; [second_part], C90), SpecColl.v ([breaks]), SpecKey.v ([pp_ok]), SpecTime.v ([last_time]). *)
From Coq Require Import String.
From Verif Require Import Base Env Time SpecTime SubKey SecretKey Keys Sig IO Serdes Api Ffi Programs Tests
  SpecKey SpecSer SpecColl SpecTest TestProps Toy ToyRun.
Local Open Scope N_scope.

(** C86 *)
Theorem C86_quick_key_update : forall (E : env) (L : env_laws E) m (pp : pubparam E) kseed seed n,
  pp_ok pp -> (pp_depth pp <= 32)%nat -> supported (pp_cs pp) -> pp_g2 pp = g2_one -> (32 <= length kseed)%nat ->
  N.of_nat n <= last_time (pp_depth pp) + 1 ->
  let r := test_quick_key_update m pp kseed seed n in
  let hs := in_turn kseed seed n :: singles kseed seed n in
  passes m pp hs r \/ (r = Panic P_ASSERT /\ breaks m pp hs).
Proof. exact quick_key_update. Qed.
Print Assumptions C86_quick_key_update.

Theorem C86_long_key_update : forall (E : env) (L : env_laws E) m (pp : pubparam E) kseed seed n,
  pp_ok pp -> (pp_depth pp <= 32)%nat -> supported (pp_cs pp) -> pp_g2 pp = g2_one -> (32 <= length kseed)%nat ->
  N.of_nat n <= last_time (pp_depth pp) + 1 ->
  passes m pp (singles kseed seed n ++ twos kseed seed n) (test_long_key_update m pp kseed seed n).
Proof. exact long_key_update. Qed.
Print Assumptions C86_long_key_update.

Theorem C86_sk_validation : forall (E : env) (L : env_laws E) m (pp : pubparam E) kseed seed n,
  pp_ok pp -> (pp_depth pp <= 32)%nat -> supported (pp_cs pp) -> pp_g2 pp = g2_one -> (32 <= length kseed)%nat ->
  N.of_nat n <= last_time (pp_depth pp) + 1 ->
  passes m pp (singles kseed seed n) (test_sk_validation m pp kseed seed n)
  /\ passes m pp (singles kseed seed n ++ twos kseed seed n) (test_long_sk_validation m pp kseed seed n).
Proof. exact sk_validation. Qed.
Print Assumptions C86_sk_validation.

Definition tpp2 : pubparam toy := Eval vm_compute in tpp 2 0.
Example C86_example :
  pp_ok (tpp 2 0) /\ supported (pp_cs (tpp 2 0)) /\ pp_g2 (tpp 2 0) = @g2_one toy
  /\ test_quick_key_update Debug tpp2 tseed [] 3 = Ok tt
  /\ twos tseed [] 4 = [(tseed, [OpUpdate 2 []; OpUpdate 3 []])] /\ length (singles tseed [] 4) = 2%nat.
Proof.
  split; [apply tpp_ok; lia|]. split; [left; reflexivity|]. split; [reflexivity|].
  split; [vm_cast_no_check (eq_refl (@Ok unit tt))|]. split; reflexivity.
Qed.

(** C87 *)
Theorem C87_api : forall (E : env) (L : env_laws E) m (pp : pubparam E) kseed msg seed n,
  pp_ok pp -> (pp_depth pp <= 32)%nat -> supported (pp_cs pp) -> pp_g2 pp = g2_one -> (32 <= length kseed)%nat ->
  N.of_nat n <= last_time (pp_depth pp) + 1 ->
  passes m pp (in_turn kseed seed n :: singles kseed seed n) (test_pixel_api m pp kseed msg seed n).
Proof. exact api_test. Qed.
Print Assumptions C87_api.

Theorem C87_time_stamps : forall (E : env) (L : env_laws E) m (pp : pubparam E) kseed msg,
  pp_ok pp -> (pp_depth pp <= 32)%nat -> supported (pp_cs pp) -> (32 <= length kseed)%nat -> 10 <= last_time (pp_depth pp) ->
  passes m pp [(kseed, [OpUpdate 10 []])] (test_must_fails_time_stamp m pp kseed msg).
Proof. exact time_stamp_test. Qed.
Print Assumptions C87_time_stamps.

Theorem C87_signatures : forall (E : env) (L : env_laws E) m (pp : pubparam E) kseed msg seed n,
  pp_ok pp -> (pp_depth pp <= 32)%nat -> supported (pp_cs pp) -> pp_g2 pp = g2_one -> (32 <= length kseed)%nat ->
  N.of_nat n <= last_time (pp_depth pp) + 1 ->
  passes m pp (singles kseed seed n) (test_quick_signature_tests m pp kseed msg seed n)
  /\ passes m pp (singles kseed seed n ++ twos kseed seed n) (test_long_signature_tests m pp kseed msg seed n).
Proof. exact signature_tests. Qed.
Print Assumptions C87_signatures.

Theorem C87_aggregation : forall (E : env) (L : env_laws E) m (pp : pubparam E) kseeds msg seed n,
  pp_ok pp -> (pp_depth pp <= 32)%nat -> supported (pp_cs pp) -> pp_g2 pp = g2_one ->
  kseeds <> [] -> Forall (fun s => (32 <= length s)%nat) kseeds -> N.of_nat n <= last_time (pp_depth pp) + 1 ->
  passes m pp (flat_map (fun kseed => singles kseed seed n) kseeds) (test_aggregated_signature_tests m pp kseeds msg seed n).
Proof. exact aggregation_tests. Qed.
Print Assumptions C87_aggregation.

(** Depth 2 has only the times 1 to 3. *)
Example C87_example :
  10 <= last_time (pp_depth tpp4)
  /\ test_must_fails_time_stamp Debug tpp4 tseed (str "m") = Ok tt
  /\ test_must_fails_time_stamp Debug tpp2 tseed (str "m") = Panic P_ASSERT
  /\ test_pixel_api Debug tpp2 tseed (str "m") [] 2 = Ok tt
  /\ test_aggregated_signature_tests Debug tpp2 [tseed] (str "m") [] 2 = Ok tt
  /\ test_aggregated_signature_tests Debug tpp2 [] (str "m") [] 2 = Panic P_INDEX.
Proof.
  split; [vm_compute; discriminate|]. split; [vm_cast_no_check (eq_refl (@Ok unit tt))|].
  split; [vm_cast_no_check (eq_refl (@Panic unit P_ASSERT))|]. split; [vm_cast_no_check (eq_refl (@Ok unit tt))|].
  split; [vm_cast_no_check (eq_refl (@Ok unit tt))|]. vm_cast_no_check (eq_refl (@Panic unit P_INDEX)).
Qed.

(** C88 *)
Theorem C88_serdes : forall (E : env) (L : env_laws E) m (pp : pubparam E) kseed msg msk r,
  pp_ok pp -> (pp_depth pp <= 32)%nat -> supported (pp_cs pp) -> pp_g2 pp = g2_one -> (32 <= length kseed)%nat ->
  test_ssk_serialization_rand pp msk r = Ok tt
  /\ test_pk_serialization_rand pp kseed = Ok tt
  /\ test_signature_serialization_rand m pp kseed msg = Ok tt.
Proof. exact serdes_tests. Qed.
Print Assumptions C88_serdes.

Theorem C88_secret_keys : forall (E : env) (L : env_laws E) m (pp : pubparam E) kseed seed n,
  pp_ok pp -> (pp_depth pp <= 32)%nat -> supported (pp_cs pp) -> pp_g2 pp = g2_one -> (32 <= length kseed)%nat ->
  N.of_nat n <= last_time (pp_depth pp) + 1 ->
  passes m pp (singles kseed seed n) (test_sk_serialization_rand m pp kseed seed n).
Proof. exact sk_serdes_test. Qed.
Print Assumptions C88_secret_keys.

Theorem C88_points : forall (E : env) (L : env_laws E) (l1 : list (G1 E)) (l2 : list (G2 E)),
  (Forall (fun x => g1_insub x = true) l1 -> test_g1_serialization_rand l1 = Ok tt)
  /\ (Forall (fun x => g2_insub x = true) l2 -> test_g2_serialization_rand l2 = Ok tt).
Proof. exact point_tests. Qed.
Print Assumptions C88_points.

Theorem C88_ffi_basic : forall (E : env) (L : env_laws E) m (pp : pubparam E) seed msg n,
  pp_ok pp -> (pp_depth pp <= 32)%nat -> supported (pp_cs pp) -> pp_g2 pp = g2_one -> (32 <= length seed)%nat ->
  N.of_nat n <= last_time (pp_depth pp) + 1 ->
  passes m pp (singles seed seed n) (test_pixel_ffi_basic m pp seed msg n).
Proof. exact ffi_basic. Qed.
Print Assumptions C88_ffi_basic.

Theorem C88_ffi_aggregation : forall (E : env) (L : env_laws E) m (pp : pubparam E) seed1 seed2 msg,
  pp_ok pp -> (pp_depth pp <= 32)%nat -> supported (pp_cs pp) -> (32 <= length seed1)%nat -> (32 <= length seed2)%nat ->
  test_pixel_ffi_aggregation m pp seed1 seed2 msg = Ok tt.
Proof. exact ffi_aggregation. Qed.
Print Assumptions C88_ffi_aggregation.

Example C88_example :
  test_ssk_serialization_rand tpp4 5 7 = Ok tt
  /\ test_sk_serialization_rand Debug tpp2 tseed [] 3 = Ok tt
  /\ test_g1_serialization_rand [g1_zero; pp_h tpp4] = Ok tt
  /\ test_pixel_ffi_basic Debug tpp2 tseed (str "m") 2 = Ok tt.
Proof.
  split; [vm_cast_no_check (eq_refl (@Ok unit tt))|]. split; [vm_cast_no_check (eq_refl (@Ok unit tt))|].
  split; vm_cast_no_check (eq_refl (@Ok unit tt)).
Qed.

(** C89 *)
Theorem C89_sub_keys : forall (E : env) (L : env_laws E) m (pp : pubparam E) msk r r2 n,
  pp_ok pp -> supported (pp_cs pp) ->
  test_key_gen m pp msk r = Ok tt
  /\ test_randomization m pp msk r r2 = Ok tt
  /\ ((n <= pp_depth pp + 1)%nat -> test_delegate m pp msk r r2 n = Ok tt).
Proof. exact subkey_tests. Qed.
Print Assumptions C89_sub_keys.

Theorem C89_negative : forall (E : env) m (pp : pubparam E) kseed (x : G2 E) (y : G1 E),
  negative_test_key_gen pp = Ok tt /\ test_must_fails_seed pp = Ok tt /\ negative_test_pop_cs x y = Ok tt
  /\ (pp_cs pp = 0 -> forall (L : env_laws E), pp_ok pp -> (32 <= length kseed)%nat -> negative_test_sk m pp kseed = Ok tt).
Proof. exact negative_tests. Qed.
Print Assumptions C89_negative.

Theorem C89_master_key : forall (E : env) (L : env_laws E) (pp : pubparam E) kseed,
  pp_ok pp -> supported (pp_cs pp) -> (32 <= length kseed)%nat -> test_master_key pp kseed = Ok tt.
Proof. exact master_test. Qed.
Print Assumptions C89_master_key.

Theorem C89_getters : forall (E : env) (L : env_laws E) (pp : pubparam E) kseed,
  pp_ok pp -> (pp_depth pp <= 32)%nat -> (32 <= length kseed)%nat ->
  (pp_cs pp = 0 -> test_sk_getter pp kseed = Ok tt) /\ (supported (pp_cs pp) -> test_ssk_getter pp kseed = Ok tt).
Proof. exact getter_tests. Qed.
Print Assumptions C89_getters.

(** In depth 4 the times 1 to 4 lie on one path; time 5 is no descendant of time 4. *)
Example C89_example :
  test_key_gen Debug tpp4 5 7 = Ok tt /\ test_randomization Debug tpp4 5 7 9 = Ok tt
  /\ test_delegate Debug tpp4 5 7 9 5 = Ok tt /\ test_delegate Debug tpp4 5 7 9 6 = Panic P_ASSERT
  /\ pp_cs tpp4 = 0 /\ negative_test_sk Debug tpp4 tseed = Ok tt.
Proof.
  split; [vm_cast_no_check (eq_refl (@Ok unit tt))|]. split; [vm_cast_no_check (eq_refl (@Ok unit tt))|].
  split; [vm_cast_no_check (eq_refl (@Ok unit tt))|]. split; [vm_cast_no_check (eq_refl (@Panic unit P_ASSERT))|].
  split; [reflexivity|]. vm_cast_no_check (eq_refl (@Ok unit tt)).
Qed.

(** C90 *)
Theorem C90_accepted_elsewhere : forall (E : env) (L : env_laws E) m m' (pp pp' : pubparam E) s pk pk' msg msg' x x' k v,
  pp_ok pp -> pp_ok pp' -> pp_g2 pp = g2_one -> pp_g2 pp' = g2_one ->
  pk_pk pk = g2_mul x g2_one -> pk_pk pk' = g2_mul x' g2_one -> sig_1 s = g2_mul k g2_one ->
  node_at (pp_depth pp) (sig_time s) v -> verify m s pk pp msg = Ok true ->
  (verify m' s pk' pp' msg' = Ok true <->
   pp_cs pp' = pp_cs pp
   /\ exists v', node_at (pp_depth pp') (sig_time s) v' /\ second_part pp' x' k v' msg' = second_part pp x k v msg).
Proof. exact accepted_elsewhere. Qed.
Print Assumptions C90_accepted_elsewhere.

Theorem C90_mismatch_test : forall (E : env) (L : env_laws E) m (pp1 pp3 : pubparam E) kseed1 kseed2 kseed3 msg1 msg2
  pk1 sk1 pop1 pk2 sk2 pop2 pk3 sk3 pop3 s11 s12 s21 s22 x1 x2 k11 k12 k21 k22,
  pp_ok pp1 -> pp_ok pp3 -> (pp_depth pp1 <= 32)%nat -> pp_g2 pp1 = g2_one -> pp_g2 pp3 = g2_one ->
  key_gen kseed1 pp1 = Ok (pk1, sk1, pop1) -> key_gen kseed2 pp1 = Ok (pk2, sk2, pop2) -> key_gen kseed3 pp3 = Ok (pk3, sk3, pop3) ->
  pk_pk pk1 = g2_mul x1 g2_one -> pk_pk pk2 = g2_mul x2 g2_one ->
  sign_bytes m sk1 1 pp1 msg1 = Ok s11 -> sign_bytes m sk1 1 pp1 msg2 = Ok s12 ->
  sign_bytes m sk2 1 pp1 msg1 = Ok s21 -> sign_bytes m sk2 1 pp1 msg2 = Ok s22 ->
  sig_1 s11 = g2_mul k11 g2_one -> sig_1 s12 = g2_mul k12 g2_one -> sig_1 s21 = g2_mul k21 g2_one -> sig_1 s22 = g2_mul k22 g2_one ->
  let r := test_must_fails_mismatch m pp1 pp3 kseed1 kseed2 kseed3 msg1 msg2 in
  let other pp x k msg pp' x' msg' := pp_cs pp' = pp_cs pp /\ second_part pp' x' k [] msg' = second_part pp x k [] msg in
  (r = Ok tt \/ r = Panic P_ASSERT)
  /\ (r = Ok tt <->
      (pk_validate pk1 pop2 = false /\ pk_validate pk1 pop3 = false /\ pk_validate pk2 pop1 = false
       /\ pk_validate pk2 pop3 = false /\ pk_validate pk3 pop1 = false /\ pk_validate pk3 pop2 = false)
      /\ ~ other pp1 x1 k11 msg1 pp1 x2 msg1 /\ ~ other pp1 x1 k11 msg1 pp3 x1 msg1
      /\ ~ other pp1 x1 k11 msg1 pp1 x1 msg2 /\ ~ other pp1 x1 k12 msg2 pp1 x1 msg1
      /\ ~ other pp1 x2 k21 msg1 pp1 x1 msg1 /\ ~ other pp1 x2 k21 msg1 pp3 x1 msg1
      /\ ~ other pp1 x2 k21 msg1 pp1 x1 msg2 /\ ~ other pp1 x2 k22 msg2 pp1 x1 msg1).
Proof. exact mismatch_test. Qed.
Print Assumptions C90_mismatch_test.

(** The test passes with seeds and parameters that differ, and fails if the first two seeds
    are equal. *)
Definition tpp1 : pubparam toy := Eval vm_compute in tpp 1 0.
Definition tseed2 : bytes := tseed ++ [1].
Example C90_example :
  test_must_fails_mismatch Debug tpp1 tpp2 tseed tseed2 (tseed ++ [2]) (str "m") (str "n") = Ok tt
  /\ test_must_fails_mismatch Debug tpp1 tpp2 tseed tseed tseed2 (str "m") (str "n") = Panic P_ASSERT.
Proof. split; [vm_cast_no_check (eq_refl (@Ok unit tt))|vm_cast_no_check (eq_refl (@Panic unit P_ASSERT))]. Qed.
