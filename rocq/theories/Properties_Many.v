(** Property C110: the security game with several signers who all run the code.  Specification
    vocabulary: SpecMany.v ([cforger], [many_run], [first_break], [cwins], [cspeaks], [alone], [alone_speaks], [cgwins]),
    SpecIface.v ([iwins]), SpecAdv.v ([gcoins_any], [game_count], [solver_at_most], [share]), SpecCost.v ([ispeaks], [cost_bound]). *)
From Coq Require Import String QArith.
From Verif Require Import Base Env Time SpecTime Prng SpecPrng SubKey SecretKey Keys Sig Api
  SpecKey SpecUpdate SpecAgg SpecRed SpecMulti SpecRom SpecPop SpecFwd SpecClean Toy ToyRun Properties_Fwd Properties_Iface WitFwdProps WitManyProps
  ManyProps ManyCountProps SpecIface SpecCost SpecAdv SpecMany.
Local Open Scope N_scope.

(** C110 *)
Theorem C110_one_signer : forall (E : env) H Q m (pp : pubparam E) l1 seed l2 tb adv,
  cwins H Q m pp l1 seed l2 tb adv -> iwins H Q m pp seed tb (alone m (pp_depth pp) l1 l2 adv).
Proof. exact one_signer. Qed.
Print Assumptions C110_one_signer.
Theorem C110_speaks : forall (E : env) m d l1 l2 (adv : cforger_for E) n l,
  (forall pp keys, cspeaks n l (adv pp keys)) ->
  forall pp pk pop, ispeaks (alone_speaks d (length l1 + length l2) n) l (alone m d l1 l2 adv pp pk pop).
Proof. exact one_signer_speaks. Qed.
Print Assumptions C110_speaks.
Theorem C110_advantage : forall (E : env) (L : env_laws E) m (g : G1 E) d cs l1 l2 adv n nb nk nu ls q p s l eps,
  g1_insub g = true -> (1 <= d <= 32)%nat -> (cs = 0 \/ cs = 1) -> (32 <= ls)%nat -> (1 <= nu)%nat -> (1 <= q)%nat -> N.of_nat n <= 2 ^ 255 ->
  (forall pp keys, cspeaks s l (adv pp keys)) ->
  let s' := alone_speaks d (length l1 + length l2) s in
  solver_at_most s' (cost_bound d p (2 * s') l) g d cs (alone m d l1 l2 adv) n nb nk nu ls q p eps ->
  forall ws, NoDup ws -> Forall (fun w => gcoins_any d n nb nk nu ls q p w /\ cgwins m g d cs l1 l2 adv w) ws ->
  (share (N.of_nat (length ws)) (game_count d n nb nk nu ls q p)
   <= inject_Z (Z.of_N (2 * (last_time d + 1) * last_time d * N.of_nat q)) * eps
      + inject_Z (Z.of_N (last_time d + 1))
        * (share (N.of_nat (q * (q - 1) + p + 1)) fr_modulus + share (N.of_nat (nk * (nk + q + 2) + nu * nu + 2 * q)) (256 ^ 22)))%Q.
Proof. exact many_advantage. Qed.
Print Assumptions C110_advantage.
(** Two signers.  The forger has the first one, "0", sign "m" for time stamp 2 and breaks in at it; has the second one, "1",
    sign "n" for 1 and 3 and breaks in at it; both go on with updates.  It then forges a signature of both on "m" for 2, from the
    one "0" gave it and one it makes itself (the secret of "1" is 7 with these coins). *)
Definition cx_of (r : res (option (signature toy))) : signature toy :=
  match r with Ok (Some s) => s | _ => Signature 0 0 g2_zero g1_zero end.
Definition cx_adv : cforger_for toy := fun pp keys =>
  CCall 0 (OpSign 2 (str "m") (repeat 3 32)) (fun r => CCall 1 (OpSignThenUpdate 1 (str "n") (repeat 5 32)) (fun _ =>
  CBreak 0 (fun _ => CCall 1 (OpSign 3 (str "n") (repeat 6 32)) (fun _ => CBreak 1 (fun _ =>
  CCall 1 (OpUpdate 5 (repeat 4 32)) (fun _ => CCall 0 (OpUpdate 4 (repeat 2 32)) (fun _ =>
  CAskHash (hash_input 0 (str "m")) (fun h =>
    let s := honest_sig pp 7 2 (path_of 3 2) (scalar_of h) 11 in
    CForge (str "m") (Signature 0 2 (g2_add (sig_1 s) (sig_1 (cx_of r))) (g1_add (sig_2 s) (sig_2 (cx_of r)))) (firstn 2 keys))))))))).
Definition cx_hs : list bytes := map (fun i => fx_block (N.of_nat i) 9) (seq 1 40).
Definition cx_z : fcoins := (1000, [1; 2; 3; 4], cx_hs, [21; 22; 23], (repeat 8 32, ix_A, ix_B, ix_ks, ix_us)).
Definition cx_o : outcome toy := Eval vm_compute in
  match sampled fx_g 3 0 3 fx_bx (two_calls 3 (alone Debug 3 [repeat 9 32] [] cx_adv)) cx_z with
  | Some o => o | None => Outcome [] (Signature 0 0 g2_zero g1_zero) [] [] [] [] [] [] end.
Local Notation cx_H := (sampled_hash cx_hs (o_tbl cx_o) (o_calls cx_o)).
Local Notation cx_Q := (points (o_ptbl cx_o) (map (fun e => g1_mul e fx_g) [21; 22; 23])).
Example C110_example_wins : cwins cx_H cx_Q Debug (exp_params fx_g 3 0 1000 [1; 2; 3; 4]) [repeat 9 32] (repeat 8 32) [] 3 cx_adv.
Proof. apply (cwinsb_ok toy_laws). vm_cast_no_check (eq_refl true). Qed.
Example C110_example_speaks : forall pp keys, cspeaks 9 2 (cx_adv pp keys).
Proof. intros pp keys. cbn -[firstn]. intros. apply firstn_le_length. Qed.
Definition cx_w : gcoins := (fx_bx, 9, 3, cx_z).
Example C110_example :
  gcoins_any 3 8 2 12 24 32 40 3 cx_w /\ cgwins Debug fx_g 3 0 [repeat 9 32] [] cx_adv cx_w
  /\ o_ev cx_o = [Signed 1 (str "n"); Signed 3 (str "n"); Broke 3].
Proof.
  assert (Hb : length fx_bx = 64%nat /\ are_bytes fx_bx) by (split; [reflexivity|unfold fx_bx, fx_block; cbn [repeat app]; repeat (constructor; [reflexivity|]); constructor]).
  split; [split; [exact Hb|]; split; [reflexivity|]; split; [vm_compute; discriminate|]|].
  { unfold fcoins_any, cx_z. split; [reflexivity|]. split; [split; [reflexivity|repeat (constructor; [reflexivity|]); constructor]|].
    split; [apply blocksb_ok; reflexivity|]. split; [split; [reflexivity|repeat (constructor; [reflexivity|]); constructor]|].
    split; [split; [reflexivity|cbn [repeat]; repeat (constructor; [reflexivity|]); constructor]|].
    split; [apply blocksb_ok; reflexivity|]. split; [apply blocksb_ok; reflexivity|]. split; apply blocksb_ok; reflexivity. }
  split; [|reflexivity]. exists cx_o.
  split; [vm_cast_no_check (eq_refl (Some cx_o))|]. intros _. exact C110_example_wins.
Qed.
