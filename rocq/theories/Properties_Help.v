(** Property C95: the helper functions below the interface, on every argument.
    Specification vocabulary: SpecHelp.v ([u64_of], [rfc_expand], [last_not_after]),
    SpecPrng.v ([rfc_hmac], [spec_scalar], [spec_next], [info_of]). *)
From Coq Require Import String Sorted.
From Verif Require Import Base Env Time Hkdf Prng SpecPrng SubKey SecretKey Keys Sig SpecHelp HelpProps Sha512 Toy ToyRun.
Local Open Scope N_scope.

(** C95 *)
Theorem C95_arithmetic : forall m a b, a < 2 ^ 64 -> b < 2 ^ 64 ->
  add64 m a b = u64_of m (Z.of_N a + Z.of_N b) /\ sub64 m a b = u64_of m (Z.of_N a - Z.of_N b) /\ mul64 m a b = u64_of m (Z.of_N a * Z.of_N b).
Proof. exact arithmetic_exact. Qed.
Print Assumptions C95_arithmetic.

Theorem C95_shift : forall m d,
  ((d < 64)%nat -> shl64 m d = u64_of m (2 ^ Z.of_nat d)) /\
  ((64 <= d)%nat -> shl64 Debug d = Panic P_ARITH /\ shl64 Release d = shl64 Release (d - 64)).
Proof. exact shift_exact. Qed.
Print Assumptions C95_shift.

(** Vec indexing, [insert] and [remove]. *)
Theorem C95_vectors : forall (A : Type) (l a b : list A) (x : A) i,
  nth_res (a ++ x :: b) (length a) = Ok x /\ remove_at (length a) (a ++ x :: b) = Ok (a ++ b)
  /\ insert_at (length a) x (a ++ b) = Ok (a ++ x :: b)
  /\ ((length l <= i)%nat -> nth_res l i = Panic P_INDEX /\ remove_at i l = Panic P_INDEX)
  /\ ((length l < i)%nat -> insert_at i x l = Panic P_INDEX).
Proof. exact vectors_exact. Qed.
Print Assumptions C95_vectors.

Example C95_example_vectors :
  remove_at 1 [5; 6; 7] = Ok [5; 7] /\ remove_at 3 [5; 6; 7] = Panic P_INDEX /\ insert_at 3 8 [5; 6; 7] = Ok [5; 6; 7; 8]
  /\ insert_at 4 8 [5; 6; 7] = Panic P_INDEX /\ nth_res [5; 6; 7] 2 = Ok 7.
Proof. split; [reflexivity|]. split; [reflexivity|]. split; [reflexivity|]. split; reflexivity. Qed.

Theorem C95_hkdf : forall H, (forall b, length (H b) = 64%nat) -> forall salt ikm prk info len,
  hkdf_extract H salt ikm = rfc_hmac H salt ikm /\ hkdf_expand H prk info len = rfc_expand H prk info len.
Proof. exact hkdf_exact. Qed.
Print Assumptions C95_hkdf.

Theorem C95_find_ancestor : forall (E : env) (sk : seckey E) t,
  match sec_ssk sk with
  | [] => find_ancestor sk t = Err E_SSK_EMPTY
  | s0 :: _ => (t <= sk_t s0 -> find_ancestor sk t = Err E_TIME_STAMP)
               /\ (sk_t s0 < t -> exists s, last_not_after (sec_ssk sk) t s /\ find_ancestor sk t = Ok (sk_t s))
  end.
Proof. exact find_ancestor_exact. Qed.
Print Assumptions C95_find_ancestor.

Theorem C95_ancestor_is_latest : forall (E : env) (l : list (subkey E)) t s,
  StronglySorted N.lt (map sk_t l) -> last_not_after l t s -> forall s', In s' l -> sk_t s' <= t -> sk_t s' <= sk_t s.
Proof. exact last_not_after_max. Qed.
Print Assumptions C95_ancestor_is_latest.

Theorem C95_master_key_gen : forall (E : env) (pp : pubparam E) seed, (forall b, length (sha512 E b) = 64%nat) ->
  let g := rfc_hmac (sha512 E) (str "Pixel master key" ++ [pp_cs pp]) seed in
  let x := spec_scalar (sha512 E) g (info_of KeyInit) in
  master_key_gen seed pp =
    if (length seed <? 32)%nat then Err E_SEED_TOO_SHORT
    else if valid_cs (pp_cs pp) then
      Ok (g2_mul x (pp_g2 pp), g1_mul x (pp_h pp), bls_sign x (DOM_SEP_POP ++ g2_enc true (g2_mul x (pp_g2 pp))) [pp_cs pp],
          spec_next (sha512 E) g (info_of KeyInit))
    else Err E_CIPHERSUITE.
Proof. exact master_key_gen_exact. Qed.
Print Assumptions C95_master_key_gen.

Theorem C95_sk_init : forall (E : env) (pp : pubparam E) alpha g, (forall b, length (sha512 E b) = 64%nat) ->
  let r := spec_scalar (sha512 E) g (info_of SkInit) in
  sk_init pp alpha g =
    if valid_cs (pp_cs pp) then
      match pp_hlist pp with
      | [] => Panic P_INDEX
      | h0 :: hl => Ok (SecKey (pp_cs pp) 1 [SubKey 1 (g2_mul r (pp_g2 pp)) (g1_add (g1_mul r h0) alpha) (map (g1_mul r) (firstn (pp_depth pp) hl))]
                          (spec_next (sha512 E) g (info_of SkInit)))
      end
    else Err E_CIPHERSUITE.
Proof. exact sk_init_exact. Qed.
Print Assumptions C95_sk_init.

Theorem C95_pk_init : forall (E : env) (pp : pubparam E) k,
  pk_init pp k = if valid_cs (pp_cs pp) then Ok (PubKey (pp_cs pp) k) else Err E_CIPHERSUITE.
Proof. exact pk_init_exact. Qed.
Print Assumptions C95_pk_init.

Theorem C95_key_gen_any_params : forall (E : env) (pp : pubparam E) seed, (forall b, length (sha512 E b) = 64%nat) ->
  ((length seed < 32)%nat -> key_gen seed pp = Err E_SEED_TOO_SHORT)
  /\ ((32 <= length seed)%nat -> valid_cs (pp_cs pp) = false -> key_gen seed pp = Err E_CIPHERSUITE)
  /\ ((32 <= length seed)%nat -> valid_cs (pp_cs pp) = true -> pp_hlist pp = [] -> key_gen seed pp = Panic P_INDEX)
  /\ ((32 <= length seed)%nat -> valid_cs (pp_cs pp) = true -> pp_hlist pp <> [] ->
      exists pk sk pop, key_gen seed pp = Ok (pk, sk, pop) /\ map (fun s => length (sk_hvec s)) (sec_ssk sk) = [Nat.min (pp_depth pp) (length (pp_hlist pp) - 1)]).
Proof. exact key_gen_any_params. Qed.
Print Assumptions C95_key_gen_any_params.

(** Wrapping, three chunks of HKDF, both ends of its domain, parameters without generators. *)
Example C95_example_arith :
  sub64 Release 0 1 = Ok 18446744073709551615 /\ sub64 Debug 0 1 = Panic P_ARITH /\ shl64 Release 65 = Ok 2.
Proof. split; [reflexivity|]. split; reflexivity. Qed.
Definition hk_H (b : bytes) : bytes := repeat (N.of_nat (length b)) 64.
Example C95_example_hkdf :
  (forall b, length (hk_H b) = 64%nat)
  /\ option_map (fun o => (length o, nth 63 o 0, nth 64 o 0, nth 129 o 0)) (hkdf_expand hk_H [1] [2] 130) = Some (130%nat, 192, 192, 192)
  /\ hkdf_expand hk_H [1] [2] (255 * 64 + 1) = None.
Proof.
  split; [intros b; apply repeat_length|]. split; [vm_cast_no_check (@eq_refl (option (nat * N * N * N)) (Some (130%nat, 192, 192, 192)))|].
  unfold hkdf_expand. replace (64 * 255 <? 255 * 64 + 1)%nat with true; [reflexivity|]. symmetry. apply Nat.ltb_lt. lia.
Qed.
(** find_ancestor with three sub keys, of times 4, 5 and 9. *)
Definition fa_key : seckey toy :=
  SecKey 0 4 [SubKey 4 g2_zero g1_zero []; SubKey 5 g2_zero g1_zero []; SubKey 9 g2_zero g1_zero []] [].
Example C95_example_ancestor :
  find_ancestor fa_key 4 = Err E_TIME_STAMP /\ find_ancestor fa_key 5 = Ok 5 /\ find_ancestor fa_key 8 = Ok 5 /\ find_ancestor fa_key 9 = Ok 9
  /\ StronglySorted N.lt (map sk_t (sec_ssk fa_key)).
Proof.
  split; [reflexivity|]. split; [reflexivity|]. split; [reflexivity|]. split; [reflexivity|].
  cbn. repeat (constructor; [|repeat (constructor; [reflexivity|])]); constructor.
Qed.
Example C95_example_keys :
  (forall b, length (sha512 toy b) = 64%nat)
  /\ (32 <= length tseed)%nat /\ key_gen tseed (PubParam 4 0 (g2_one : G2 toy) g1_zero []) = Panic P_INDEX
  /\ key_gen tseed (PubParam 4 7 (g2_one : G2 toy) g1_zero []) = Err E_CIPHERSUITE.
Proof.
  split; [exact (lh_len _ toy_laws)|]. split; [apply Nat.leb_le; reflexivity|].
  split; [vm_cast_no_check (@eq_refl (res (pubkey toy * seckey toy * proof toy)) (Panic P_INDEX))|reflexivity].
Qed.

(** A vector longer than the depth allows is an error (vec_to_time, src/time.rs 154-178). *)
Theorem C95_vector_too_long : forall m d v, (d < 64)%nat -> Forall (fun x => x = 1 \/ x = 2) v -> (d <= length v)%nat -> vec_to_time m v d = Err E_TIME_DEPTH.
Proof. exact vec_to_time_long. Qed.
Print Assumptions C95_vector_too_long.
Example C95_example_vector : vec_to_time Release [2; 1; 2] 3 = Err E_TIME_DEPTH /\ vec_to_time Release [2; 1] 3 = Ok 6.
Proof. split; reflexivity. Qed.
