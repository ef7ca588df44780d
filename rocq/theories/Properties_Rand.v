(** Properties C80-C82: the complete check of a secret key, re-randomization, sampling of
    scalars.  Specification vocabulary: SpecRand.v ([complete_sk], [vec_equation],
    [points_ok], [all_strings], [count]), SpecKey.v ([pp_ok]), SpecSig.v ([ssk_equation],
    [reachable]), SpecTime.v ([node_at], [tiling]). *)
From Coq Require Import String.
From Verif Require Import Base Env Time SpecTime Prng SpecPrng SubKey SecretKey Keys Sig Api
  SpecKey SpecUpdate SpecSig SpecRand HistoryFacts RandProps Toy ToyRun.
Local Open Scope N_scope.

(** C80 *)
Theorem C80_what_validate_misses : forall (E : env) (L : env_laws E) m (pp : pubparam E) pk sk,
  pp_ok pp -> g2_insub (pk_pk pk) = true ->
  (complete_sk pp pk sk <->
   sk_validate m sk pk pp = Ok true
   /\ tiling (pp_depth pp) (sec_time sk) (map sk_t (sec_ssk sk))
   /\ Forall (vec_equation pp) (sec_ssk sk) /\ points_ok sk).
Proof. exact complete_is_validate_plus. Qed.
Print Assumptions C80_what_validate_misses.

Theorem C80_complete_key_history : forall (E : env) (L : env_laws E) m m' (pp : pubparam E) pk sk ops,
  pp_ok pp -> pp_g2 pp = g2_one -> valid_cs (pp_cs pp) = true -> g2_insub (pk_pk pk) = true -> complete_sk pp pk sk ->
  complete_sk pp pk (snd (run m pp ops sk))
  /\ Forall2 (fun o r => match r with
                      | Ok (Some s) => exists t msg, signs o = Some (t, msg) /\ verify m' s pk pp msg = Ok true
                                                     /\ sig_time s = t /\ sig_cs s = pp_cs pp
                      | _ => True
                      end) ops (fst (run m pp ops sk)).
Proof. exact complete_key_history. Qed.
Print Assumptions C80_complete_key_history.

Theorem C80_complete_key_signs : forall (E : env) (L : env_laws E) m m' (pp : pubparam E) pk sk t msg seed,
  pp_ok pp -> pp_g2 pp = g2_one -> valid_cs (pp_cs pp) = true -> g2_insub (pk_pk pk) = true -> complete_sk pp pk sk ->
  sec_time sk <= t <= last_time (pp_depth pp) ->
  (exists s sk', sign m t pp msg seed sk = (Ok s, sk') /\ verify m' s pk pp msg = Ok true)
  \/ (sign m t pp msg seed sk = (Panic P_PRNG, sk)
      /\ exists i, (1 <= i < pp_depth pp)%nat /\ draws (sha512 E) i (spec_reseed sk seed) = sec_prng sk).
Proof. exact complete_key_signs. Qed.
Print Assumptions C80_complete_key_signs.

(** A key with one wrong vector entry: validate accepts it, and it is not complete; a
    later update gives a key that no longer validates. *)
Definition tsk7x : seckey toy := Eval vm_compute in
  SecKey (sec_cs tsk7) (sec_time tsk7) (map (fun s => SubKey (sk_t s) (sk_g2r s) (sk_hpoly s)
    (match sk_hvec s with h :: l => g1_add h (pp_h tpp4) :: l | [] => [] end)) (sec_ssk tsk7)) (sec_prng tsk7).
Definition tsk10x : seckey toy := Eval vm_compute in upd_of 10 (str "b") tsk7x.
Example C80_example :
  reachable Debug tpp4 tpk4 tsk7 /\ pp_g2 tpp4 = g2_one /\ valid_cs (pp_cs tpp4) = true
  /\ sk_validate Debug tsk7x tpk4 tpp4 = Ok true
  /\ update Debug tpp4 10 (str "b") tsk7x = (Ok tt, tsk10x)
  /\ sk_validate Debug tsk10x tpk4 tpp4 = Ok false.
Proof.
  split; [exact tsk7_reachable|]. split; [reflexivity|]. split; [reflexivity|].
  split; [vm_cast_no_check (eq_refl (@Ok bool true))|].
  split; [vm_cast_no_check (eq_refl (@Ok unit tt, tsk10x))|].
  vm_cast_no_check (eq_refl (@Ok bool false)).
Qed.

(** C81 *)
Theorem C81_every_accepted_signature_made : forall (E : env) (L : env_laws E) m m' m'' (pp : pubparam E) pk sk msg s,
  pp_ok pp -> pp_g2 pp = g2_one -> reachable m pp pk sk ->
  verify m' s pk pp msg = Ok true -> sig_time s = sec_time sk ->
  exists k, k < fr_modulus /\ sign_fr m'' sk (sec_time sk) pp (msg_scalar pp msg) k = Ok s
    /\ forall k', k' < fr_modulus -> sign_fr m'' sk (sec_time sk) pp (msg_scalar pp msg) k' = Ok s -> k' = k.
Proof. exact every_signature_made. Qed.
Print Assumptions C81_every_accepted_signature_made.

Theorem C81_history_hidden : forall (E : env) (L : env_laws E) m m' m'' (pp : pubparam E) pk sk sk' M k,
  pp_ok pp -> pp_g2 pp = g2_one -> reachable m pp pk sk -> reachable m' pp pk sk' -> sec_time sk = sec_time sk' ->
  exists k', k' < fr_modulus /\ sign_fr m'' sk (sec_time sk) pp M k = sign_fr m'' sk' (sec_time sk) pp M k'
    /\ is_ok (sign_fr m'' sk (sec_time sk) pp M k) = true
    /\ forall j, j < fr_modulus -> sign_fr m'' sk (sec_time sk) pp M k = sign_fr m'' sk' (sec_time sk) pp M j -> j = k'.
Proof. exact same_signatures. Qed.
Print Assumptions C81_history_hidden.

Theorem C81_every_subkey_reached : forall (E : env) (L : env_laws E) m (pp : pubparam E) pk s s',
  pp_ok pp -> pp_g2 pp = g2_one -> g2_insub (pk_pk pk) = true ->
  Forall (fun s => ssk_equation pp pk s /\ vec_equation pp s /\ g2_insub (sk_g2r s) = true
                   /\ g1_insub (sk_hpoly s) = true /\ Forall (fun h => g1_insub h = true) (sk_hvec s)) [s; s'] ->
  sk_t s = sk_t s' ->
  exists k, k < fr_modulus /\ randomization m pp k s = (Ok tt, s')
    /\ forall k', k' < fr_modulus -> randomization m pp k' s = (Ok tt, s') -> k' = k.
Proof. exact every_subkey_reached. Qed.
Print Assumptions C81_every_subkey_reached.

(** Two keys for time 9 by different ways: the same signature by different scalars. *)
Definition tr_of (sk : seckey toy) : N := match sec_ssk sk with s :: _ => zv (sk_g2r s) / 2 | [] => 0 end.
Definition rand_k : N := Eval vm_compute in (tr_of tsk9a + 5 + (fr_modulus - tr_of tsk9b)) mod fr_modulus.
Definition rand_sig : signature toy := Eval vm_compute in get (@Signature toy 0 0 (mk r2 0) (mk r1 0)) (sign_fr Debug tsk9a 9 tpp4 77 5).
Example C81_example :
  reachable Debug tpp4 tpk4 tsk9a /\ reachable Debug tpp4 tpk4 tsk9b /\ sec_time tsk9a = 9 /\ sec_time tsk9b = 9
  /\ (rand_k =? 5) = false
  /\ sign_fr Debug tsk9a 9 tpp4 77 5 = Ok rand_sig /\ sign_fr Debug tsk9b 9 tpp4 77 rand_k = Ok rand_sig.
Proof.
  split; [exact (reachable_update _ _ _ _ tsk4_reachable tsk9a_ok)|].
  split; [exact (reachable_update _ _ _ _ tsk7_reachable tsk9b_ok)|].
  split; [reflexivity|]. split; [reflexivity|]. split; [vm_compute; reflexivity|].
  split; vm_cast_no_check (eq_refl (Ok rand_sig)).
Qed.

(** C82 *)
Theorem C82_sampling_count : forall x, x < fr_modulus ->
  count (fun l => match os2ip_mod_p l with Ok y => y =? x | _ => false end) (all_strings 64)
  = 2 ^ 512 / fr_modulus + (if x <? 2 ^ 512 mod fr_modulus then 1 else 0).
Proof. exact sampling_count. Qed.
Print Assumptions C82_sampling_count.

Theorem C82_all_strings : forall n, (forall l, In l (all_strings n) <-> length l = n /\ are_bytes l) /\ NoDup (all_strings n).
Proof. exact sampling_strings. Qed.
Print Assumptions C82_all_strings.

Theorem C82_sampling_bias : forall (T : list N), NoDup T -> Forall (fun x => x < fr_modulus) T ->
  let c := count (fun l => match os2ip_mod_p l with Ok y => existsb (N.eqb y) T | _ => false end) (all_strings 64) in
  let u := N.of_nat (length T) in
  c * fr_modulus < u * 2 ^ 512 + fr_modulus * fr_modulus /\ u * 2 ^ 512 < c * fr_modulus + fr_modulus * fr_modulus.
Proof. exact sampling_bias. Qed.
Print Assumptions C82_sampling_bias.

Theorem C82_bias_below : fr_modulus * fr_modulus * 2 ^ 256 < 2 ^ 512 * fr_modulus.
Proof. exact bias_small. Qed.
Print Assumptions C82_bias_below.

Example C82_example :
  2 ^ 512 / fr_modulus = 255699135089535202043525422716183576215815630510683217819334674386498370757523
  /\ os2ip_mod_p (repeat 255 64) = Ok ((2 ^ 512 - 1) mod fr_modulus)
  /\ count (fun l => os2ip l mod 7 =? 3) (all_strings 1) = 37 /\ 256 / 7 = 36 /\ 256 mod 7 = 4
  /\ count (fun l => os2ip l mod 7 =? 4) (all_strings 1) = 36.
Proof.
  split; [vm_compute; reflexivity|]. split; [vm_compute; reflexivity|]. split; [vm_compute; reflexivity|].
  split; [reflexivity|]. split; [reflexivity|]. vm_compute; reflexivity.
Qed.
