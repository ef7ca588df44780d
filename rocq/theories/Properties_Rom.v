(** Property C98: forging is as hard as the wBDHI problem also if time stamp and message are
    chosen at the end, with the hash function of messages as a random oracle.  Specification
    vocabulary: SpecRom.v ([with_hash], [hforger], [hplay], [hwins], [hcoins_ok], [hcoins_any], [repeats_bound], [hsolve],
    [ewins]), SpecMulti.v ([signers]), SpecRed.v ([challenge_for], [solution]). *)
From Coq Require Import String.
From Verif Require Import Base Env Time SpecTime Prng SpecPrng SubKey SecretKey Keys Sig
  SpecKey SpecUpdate SpecRed SpecMulti SpecRom RomProps CountProps Toy ToyRun.
Local Open Scope N_scope.

(** C98 *)
Theorem C98_forger_solves : forall (E : env) (L : env_laws E) m (g : G1 E) d cs a b adv n q ws,
  g1_insub g = true -> (1 <= d < 64)%nat -> (1 <= q)%nat ->
  NoDup ws -> Forall (fun z => hcoins_ok d n q z /\ hwins m g d cs a adv z) ws ->
  exists tx i zs, 1 <= tx <= last_time d /\ (i < q)%nat
    /\ N.of_nat (length ws) <= last_time d * N.of_nat q * N.of_nat (length zs) /\ NoDup zs
    /\ Forall (fun z => hcoins_ok d n q z /\ hsolve (challenge_for g d a b) d cs tx i adv z = Some (solution g d a b)) zs.
Proof. exact rom_forger_solves. Qed.
Print Assumptions C98_forger_solves.

Theorem C98_all_coins : forall (E : env) (L : env_laws E) m (g : G1 E) d cs a b adv n q ws,
  g1_insub g = true -> (1 <= d < 64)%nat -> (1 <= q)%nat ->
  NoDup ws -> Forall (fun z => hcoins_any d n q z /\ hwins m g d cs a adv z) ws ->
  exists tx i zs, 1 <= tx <= last_time d /\ (i < q)%nat
    /\ N.of_nat (length ws) <= last_time d * N.of_nat q * N.of_nat (length zs) + repeats_bound d n q /\ NoDup zs
    /\ Forall (fun z => hcoins_ok d n q z /\ hsolve (challenge_for g d a b) d cs tx i adv z = Some (solution g d a b)) zs.
Proof. exact rom_all_coins. Qed.
Print Assumptions C98_all_coins.

Theorem C98_repeats_rare : forall d n q, exists all : list hcoins,
  NoDup all /\ (forall z, In z all <-> hcoins_any d n q z)
  /\ repeats_bound d n q * fr_modulus <= N.of_nat (q * (q - 1)) * N.of_nat (length all).
Proof. exact repeats_rare. Qed.
Print Assumptions C98_repeats_rare.

Theorem C98_fixed_hash : forall (E : env) m (g : G1 E) d cs x H adv y ys rs,
  ewins m g d cs x H adv (y, ys, rs) ->
  exists tbl, (forall more, hwins m g d cs x adv (y, ys, rs, map H tbl ++ more))
    /\ (NoDup (map scalar_of (map H tbl))
        \/ exists u v, In u tbl /\ In v tbl /\ u <> v /\ scalar_of (H u) = scalar_of (H v)).
Proof. exact fixed_hash. Qed.
Print Assumptions C98_fixed_hash.

(** A forger against depth 3: it asks for a hash value, for the sub key of time stamp 5, for a
    signature at time stamp 3 on "n", for the hash value of "m", and ends with an aggregate on
    "m" for time stamp 3 in which the signer under attack (secret 7) occurs twice beside a
    signer with the secret 4. *)
Definition ro_g : G1 toy := mk r1 3.
Definition ro_adv (pp : pubparam toy) (pk : pubkey toy) : hforger toy :=
  HAskHash (str "other") (fun _ => HAskKey 5 (fun k => HAskSig 3 (str "n") (fun s =>
    HAskHash (hash_input 0 (str "m")) (fun h =>
      HForge (str "m") (honest_sig pp 18 3 (path_of 3 3) (scalar_of h) 11) [Some 4; None; None])))).
Definition ro_hash (k : N) : bytes := repeat 0 62 ++ [k; 9].
Definition ro_hs : list bytes := [ro_hash 1; ro_hash 2; ro_hash 3; ro_hash 4].
Definition ro_sol : GT toy := Eval vm_compute in solution ro_g 3 7 9.
Definition ro_pp : pubparam toy := Eval vm_compute in exp_params ro_g 3 0 1000 [1; 2; 3; 4].
Definition ro_s : signature toy := Eval vm_compute in honest_sig ro_pp 18 3 (path_of 3 3) (scalar_of (ro_hash 3)) 11.
Definition ro_tbl : list bytes := [str "other"; hash_input 0 (str "n"); hash_input 0 (str "m")].
Example C98_example :
  hcoins_ok 3 2 4 (1000, [1; 2; 3; 4], [20; 30], ro_hs)
  /\ hwins Debug ro_g 3 0 7 ro_adv (1000, [1; 2; 3; 4], [20; 30], ro_hs)
  /\ solution ro_g 3 7 9 = ro_sol
  /\ hsolve (challenge_for ro_g 3 7 9) 3 0 3 2 ro_adv (5, [1; 2; 3; 4], [20; 30], ro_hs) = Some ro_sol.
Proof.
  split.
  { unfold hcoins_ok. split; [cbn; unfold scalars; split; [reflexivity|split; (split; [reflexivity|]); repeat constructor]|].
    split; [reflexivity|]. split.
    - repeat (constructor; [split; [reflexivity|repeat constructor]|]). constructor.
    - change (NoDup [265; 521; 777; 1033]). repeat (constructor; [cbn; intuition discriminate|]). constructor. }
  split.
  { exists (str "m"), ro_s, [Some 4; None; None], ro_tbl, [HKey 5; HSig 3 (str "n")].
    split; [vm_cast_no_check (eq_refl (Some (str "m", ro_s, [Some 4; None; None], ro_tbl, [HKey 5; HSig 3 (str "n")])))|].
    split; [right; left; reflexivity|]. split; [reflexivity|]. split; [vm_cast_no_check (eq_refl true)|].
    vm_cast_no_check (eq_refl (@Ok bool true)). }
  split; [vm_cast_no_check (eq_refl ro_sol)|vm_cast_no_check (eq_refl (Some ro_sol))].
Qed.
(** The same forger against a fixed function. *)
Definition ro_H (b : bytes) : bytes := ro_hash (N.of_nat (length b)).
Definition ro_s2 : signature toy := Eval vm_compute in honest_sig ro_pp 18 3 (path_of 3 3) (scalar_of (ro_H (hash_input 0 (str "m")))) 11.
Definition ro_adv2 (pp : pubparam toy) (pk : pubkey toy) : hforger toy :=
  HAskSig 2 (str "nn") (fun s => HAskHash (hash_input 0 (str "m")) (fun h =>
      HForge (str "m") (honest_sig pp 18 3 (path_of 3 3) (scalar_of h) 11) [Some 4; None; None])).
Example C98_example_fixed : ewins Debug ro_g 3 0 7 ro_H ro_adv2 (1000, [1; 2; 3; 4], [20]).
Proof.
  exists (str "m"), ro_s2, [Some 4; None; None], [HSig 2 (str "nn")].
  split; [vm_cast_no_check (eq_refl (Some (str "m", ro_s2, [Some 4; None; None], [HSig 2 (str "nn")])))|].
  split; [right; left; reflexivity|]. split; [reflexivity|]. split; [vm_cast_no_check (eq_refl true)|].
  vm_cast_no_check (eq_refl (@Ok bool true)).
Qed.
(** Coins with equal hash values, for which it wins too; there are some from q = 2 on. *)
Definition ro_hs2 : list bytes := [ro_hash 1; ro_hash 1; ro_hash 3; ro_hash 3].
Example C98_example_any :
  hcoins_any 3 2 4 (1000, [1; 2; 3; 4], [20; 30], ro_hs2)
  /\ ~ NoDup (map scalar_of ro_hs2)
  /\ hwins Debug ro_g 3 0 7 ro_adv (1000, [1; 2; 3; 4], [20; 30], ro_hs2)
  /\ repeats_bound 3 2 1 = 0 /\ N.leb 1 (repeats_bound 3 2 2) = true.
Proof.
  split.
  { unfold hcoins_any. split; [cbn; unfold scalars; split; [reflexivity|split; (split; [reflexivity|]); repeat constructor]|].
    split; [reflexivity|]. repeat (constructor; [split; [reflexivity|repeat constructor]|]). constructor. }
  split; [change (~ NoDup [265; 265; 777; 777]); intros H; inversion H as [|? ? Hx _]; apply Hx; left; reflexivity|]. split.
  { exists (str "m"), ro_s, [Some 4; None; None], ro_tbl, [HKey 5; HSig 3 (str "n")].
    split; [vm_cast_no_check (eq_refl (Some (str "m", ro_s, [Some 4; None; None], ro_tbl, [HKey 5; HSig 3 (str "n")])))|].
    split; [right; left; reflexivity|]. split; [reflexivity|]. split; [vm_cast_no_check (eq_refl true)|].
    vm_cast_no_check (eq_refl (@Ok bool true)). }
  split; [vm_cast_no_check (eq_refl 0)|vm_cast_no_check (eq_refl true)].
Qed.
