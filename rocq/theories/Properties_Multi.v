(** Property C96: forging an aggregate together with signers whose secrets one knows, for an
    earlier time stamp chosen at the end, is as hard as the wBDHI problem.  Specification
    vocabulary: SpecMulti.v ([signers], [isolate], [mforger], [mplay], [mwins],
    [one_signer]), SpecRed.v ([challenge_for], [solution], [solve], [coins_ok]). *)
From Coq Require Import String.
From Verif Require Import Base Env Time SpecTime Prng SpecPrng SubKey SecretKey Keys Sig
  SpecKey SpecUpdate SpecRed SpecMulti MultiProps Toy ToyRun.
Local Open Scope N_scope.

(** C96 *)
Theorem C96_aggregate_isolated : forall (E : env) (L : env_laws E) m m' (pp : pubparam E) pk x l (s : signature E) msg,
  pp_ok pp -> pp_g2 pp = g2_one -> pk = PubKey (pp_cs pp) (g2_mul x (pp_g2 pp)) -> In None l -> N.of_nat (length l) < fr_modulus ->
  (verify_aggregated m s (signers pp pk l) pp msg = Ok true <->
   g2_insub (sig_1 s) = true /\ g1_insub (sig_2 s) = true /\ verify m' (isolate pp l s) pk pp msg = Ok true).
Proof. exact aggregate_isolated. Qed.
Print Assumptions C96_aggregate_isolated.

Theorem C96_forger_solves : forall (E : env) (L : env_laws E) m (g : G1 E) d cs a b msg adv n ws,
  g1_insub g = true -> (1 <= d < 64)%nat ->
  NoDup ws -> Forall (fun z => coins_ok d n z /\ mwins m g d cs a msg adv z) ws ->
  exists tx zs, 1 <= tx <= last_time d /\ N.of_nat (length ws) <= last_time d * N.of_nat (length zs) /\ NoDup zs
    /\ Forall (fun z => coins_ok d n z /\ solve (challenge_for g d a b) d cs tx msg (one_signer adv) z = Some (solution g d a b)) zs.
Proof. exact aggregate_forger_solves. Qed.
Print Assumptions C96_forger_solves.

(** A forger against depth 3: it asks for the sub key of time stamp 5 and ends with an
    aggregate for time stamp 3, in which the signer under attack (secret 7) occurs twice
    beside a signer with the secret 4. *)
Definition mu_g : G1 toy := mk r1 3.
Definition mu_adv (pp : pubparam toy) (pk : pubkey toy) : mforger toy :=
  MAskKey 5 (fun k => MForge (honest_sig pp 18 3 (path_of 3 3) (msg_scalar pp (str "m")) 11) [Some 4; None; None]).
Definition mu_sol : GT toy := Eval vm_compute in solution mu_g 3 7 9.
Definition mu_pp : pubparam toy := Eval vm_compute in exp_params mu_g 3 0 1000 [1; 2; 3; 4].
Definition mu_s : signature toy := Eval vm_compute in honest_sig mu_pp 18 3 (path_of 3 3) (msg_scalar mu_pp (str "m")) 11.
Example C96_example :
  coins_ok 3 1 (1000, [1; 2; 3; 4], [20])
  /\ mwins Debug mu_g 3 0 7 (str "m") mu_adv (1000, [1; 2; 3; 4], [20])
  /\ solution mu_g 3 7 9 = mu_sol
  /\ solve (challenge_for mu_g 3 7 9) 3 0 3 (str "m") (one_signer mu_adv) (5, [1; 2; 3; 4], [20]) = Some mu_sol.
Proof.
  split.
  { cbn. unfold scalars. split; [reflexivity|]. split; (split; [reflexivity|]); repeat constructor. }
  split.
  { exists mu_s, [Some 4; None; None], [QKey 5].
    split; [vm_cast_no_check (eq_refl (Some (mu_s, [Some 4; None; None], [QKey 5])))|].
    split; [right; left; reflexivity|]. split; [reflexivity|]. split; [vm_cast_no_check (eq_refl true)|].
    vm_cast_no_check (eq_refl (@Ok bool true)). }
  split; [vm_cast_no_check (eq_refl mu_sol)|vm_cast_no_check (eq_refl (Some mu_sol))].
Qed.
(** Asking for the sub key of time stamp 1, above 3, does not count. *)
Example C96_example_not_fresh : fresh 3 3 0 (QKey 1) = false /\ fresh 3 3 0 (QKey 5) = true /\ fresh 3 3 0 (QSig 3 1) = true.
Proof. split; [reflexivity|]. split; reflexivity. Qed.
