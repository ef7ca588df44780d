(** Property C105: the security game with every call of the trait of src/lib.rs that takes the secret
    key.  Specification vocabulary: SpecIface.v ([iforger], [given], [iface_run], [iwins], [two_calls], [iwins_or]),
    SpecClean.v ([fcoins_any], [scalars_lost], [clean_lost]), SpecFwd.v ([awins], [sampled], [clean], [scoins_ok], [fsolve]), Api.v ([step]). *)
From Coq Require Import String.
From Verif Require Import Base Env Time SpecTime Prng SpecPrng SubKey SecretKey Keys Sig Api
  SpecKey SpecUpdate SpecAgg SpecRed SpecMulti SpecRom SpecPop SpecFwd SpecClean SpecIface IfaceProps Toy ToyRun MultiProps PopProps FwdMainProps Properties_Fwd WitFwdProps.
Local Open Scope N_scope.

(** C105 *)
Theorem C105_same_game : forall (E : env) (L : env_laws E) (pp : pubparam E) H Q m seed tb adv,
  pp_ok pp -> (pp_depth pp <= 32)%nat ->
  (forall b, length (H b) = 64%nat /\ are_bytes (H b)) -> (forall msg cs, g1_insub (Q msg cs) = true) ->
  iwins H Q m pp seed tb adv <-> awins H Q m pp seed tb (two_calls (pp_depth pp) adv).
Proof. exact same_game. Qed.
Print Assumptions C105_same_game.
Theorem C105_all_coins : forall (E : env) (L : env_laws E) m (g : G1 E) d cs tb bx b adv n nb nk nu ls q p ws,
  g1_insub g = true -> (1 <= d <= 32)%nat -> (cs = 0 \/ cs = 1) -> (length bx = 64%nat /\ are_bytes bx) -> (32 <= ls)%nat -> (1 <= q)%nat ->
  NoDup ws -> Forall (fun z => fcoins_any d n nb nk nu ls q p z /\ iwins_or m g d cs tb bx adv z) ws ->
  exists tx i zs, 1 <= tx <= last_time d /\ (i < q)%nat
    /\ N.of_nat (length ws) <= last_time d * N.of_nat q * N.of_nat (length zs) + (scalars_lost d n nb nk nu ls q p + clean_lost d n nb nk nu ls q p)
    /\ NoDup zs
    /\ Forall (fun z => scoins_ok d n nb nk nu ls q p z
                        /\ fsolve (challenge_for g d (scalar_of bx) b) d cs tx i tb (two_calls d adv) z = Some (solution g d (scalar_of bx) b)) zs.
Proof. exact iface_all_coins. Qed.
Print Assumptions C105_all_coins.
(** The forger of C103 with other calls: it has "n" signed for time stamp 1 and the key updated in one
    call, has the key saved and loaded, has "n" signed for 3, which updates the key, gets an error for 2, and breaks in. *)
Definition ix_adv : iforger_for toy := fun pp pk pop =>
  ICall (OpSignThenUpdate 1 (str "n") (repeat 5 32)) (fun _ => ICall (OpReload true) (fun _ =>
  ICall (OpSign 3 (str "n") (repeat 6 32)) (fun _ => ICall (OpSign 2 (str "m") (repeat 7 32)) (fun _ =>
    IAskPoint (pop_msg (pk_pk fx_k4)) [0] (fun a => IBreak (fun sk => PAskHash (hash_input 0 (str "m")) (fun h =>
      PForge (str "m") (honest_sig pp 11 2 (path_of 3 2) (scalar_of h) 11) [(fx_k4, Pop 0 (g1_mul 4 a)); (pk, pop)]))))))).
Definition ix_A : list bytes := map (fun i => fx_block i 1) [1; 2; 3; 4; 5; 6; 7; 8].
Definition ix_B : list bytes := map (fun i => fx_block i 2) [1; 2].
Definition ix_ks : list bytes := map (fun i => fx_block i 3) [1; 2; 3; 4; 5; 6; 7; 8; 9; 10; 11; 12].
Definition ix_us : list bytes := map (fun i => fx_block i 4) [1; 2; 3; 4; 5; 6; 7; 8; 9; 10; 11; 12; 13; 14; 15; 16; 17; 18; 19; 20; 21; 22; 23; 24].
Definition ix_z : fcoins := (1000, [1; 2; 3; 4], fx_hs, [21; 22; 23], (repeat 8 32, ix_A, ix_B, ix_ks, ix_us)).
Definition ix_o : outcome toy := Eval vm_compute in
  match sampled fx_g 3 0 3 fx_bx (two_calls 3 ix_adv) ix_z with Some o => o | None => Outcome [] (Signature 0 0 g2_zero g1_zero) [] [] [] [] [] [] end.
Local Notation ix_H := (sampled_hash fx_hs (o_tbl ix_o) (o_calls ix_o)).
Local Notation ix_Q := (points (o_ptbl ix_o) (map (fun e => g1_mul e fx_g) [21; 22; 23])).
Example C105_example_two : awins ix_H ix_Q Debug (exp_params fx_g 3 0 1000 [1; 2; 3; 4]) (repeat 8 32) 3 (two_calls 3 ix_adv).
Proof. apply (awinsb_ok toy_laws). vm_cast_no_check (eq_refl true). Qed.
Example C105_example :
  fcoins_any 3 8 2 12 24 32 3 3 ix_z /\ o_ev ix_o = [Signed 1 (str "n"); Signed 3 (str "n"); Broke 3]
  /\ iwins_or Debug fx_g 3 0 3 fx_bx ix_adv ix_z.
Proof.
  assert (Hz : fcoins_any 3 8 2 12 24 32 3 3 ix_z).
  { unfold fcoins_any, ix_z. split; [reflexivity|]. split; [split; [reflexivity|repeat (constructor; [reflexivity|]); constructor]|].
    split; [apply blocksb_ok; reflexivity|]. split; [split; [reflexivity|repeat (constructor; [reflexivity|]); constructor]|].
    split; [split; [reflexivity|cbn [repeat]; repeat (constructor; [reflexivity|]); constructor]|].
    split; [apply blocksb_ok; reflexivity|]. split; [apply blocksb_ok; reflexivity|]. split; apply blocksb_ok; reflexivity. }
  split; [exact Hz|]. split; [reflexivity|].
  assert (R : sampled fx_g 3 0 3 fx_bx (two_calls 3 ix_adv) ix_z = Some ix_o) by (vm_cast_no_check (eq_refl (Some ix_o))).
  exists ix_o. split; [exact R|]. intros _.
  apply (same_game toy toy_laws (exp_params fx_g 3 0 1000 [1; 2; 3; 4]) ix_H ix_Q).
  - apply (exp_params_ok toy_laws); [reflexivity|split; repeat constructor|reflexivity].
  - repeat constructor.
  - refine (drawn_bytes fx_g 3 0 3 fx_bx (two_calls 3 ix_adv) 8 2 12 24 32 3 3 1000 [1; 2; 3; 4] fx_hs [21; 22; 23] (repeat 8 32) ix_A ix_B ix_ks ix_us ix_o _ Hz R).
    split; [reflexivity|]. repeat (constructor; [reflexivity|]). constructor.
  - intros msg c. apply (points_insub toy_laws). reflexivity.
  - exact C105_example_two.
Qed.
