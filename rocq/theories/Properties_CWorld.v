(** Property C122: programs over the C interface (CWorld.v).  Specification vocabulary: SpecCWorld.v ([rust_call], [no_errors],
    [world_bytes], [cresults], [cafter], [cbooks]), SpecWorld.v ([book], [b_exec], [results], [after], [books]), SpecSer.v (the byte
    formats, [supported]), SpecKey.v ([pp_ok]). *)
From Coq Require Import String.
From Verif Require Import Base Env Time SpecTime Prng SubKey SecretKey Keys Sig IO Serdes Api Ffi SpecKey SpecSer World SpecWorld CWorld SpecCWorld
  WorldProps CWorldProps Toy ToyRun.
From Coq Require Import Permutation.
Local Open Scope N_scope.

(** C122 *)
Theorem C122_call : forall (E : env) (L : env_laws E) m (pp : pubparam E) p c,
  pp_ok pp -> supported (pp_cs pp) -> (pp_depth pp <= 32)%nat -> pp_g2 pp = g2_one ->
  cexec m pp c (world_bytes (after m pp p))
  = (no_errors (fst (exec m pp (rust_call c) (after m pp p))), world_bytes (snd (exec m pp (rust_call c) (after m pp p)))).
Proof. exact c_call_after. Qed.
Print Assumptions C122_call.
Theorem C122_program : forall (E : env) (L : env_laws E) m (pp : pubparam E) p,
  pp_ok pp -> supported (pp_cs pp) -> (pp_depth pp <= 32)%nat -> pp_g2 pp = g2_one ->
  cresults m pp p = map no_errors (results m pp (map rust_call p))
  /\ cafter m pp p = world_bytes (after m pp (map rust_call p))
  /\ cbooks m pp p = books m pp (map rust_call p).
Proof. exact c_program. Qed.
Print Assumptions C122_program.
Theorem C122_sizes : forall (E : env) (L : env_laws E) m (pp : pubparam E) p,
  pp_ok pp -> supported (pp_cs pp) -> (pp_depth pp <= 32)%nat -> pp_g2 pp = g2_one ->
  Forall2 (fun t b => length (fst (fst b)) = 49%nat /\ length (snd b) = 97%nat
                      /\ c_estimate_sk_size m t (pp_depth pp) = Ok (length (snd (fst b))))
    (b_times (cbooks m pp p)) (cw_party (cafter m pp p))
  /\ Forall (fun b => length b = 149%nat) (cw_sigs (cafter m pp p))
  /\ length (cw_sigs (cafter m pp p)) = length (b_sigs (cbooks m pp p)).
Proof. exact c_sizes. Qed.
Print Assumptions C122_sizes.
Theorem C122_panics : forall (E : env) (L : env_laws E) m (pp : pubparam E) p c r,
  pp_ok pp -> supported (pp_cs pp) -> (pp_depth pp <= 32)%nat -> pp_g2 pp = g2_one ->
  fst (cexec m pp c (cafter m pp p)) = r ->
  match r with
  | Ok _ => True
  | Err _ => False
  | Panic P_INDEX => c = CAggregate [] \/ exists j msg, c = CVerifyAgg j [] msg
  | Panic P_PRNG => exists i t seed, c = CUpdate i t seed
  | Panic q => q = P_FFI /\ exists e, fst (b_exec (pp_depth pp) (rust_call c) (cbooks m pp p)) = Err e
  end.
Proof. exact c_panics. Qed.
Print Assumptions C122_panics.
Theorem C122_complete : forall (E : env) (L : env_laws E) m (pp : pubparam E) p j t es ks msg,
  pp_ok pp -> supported (pp_cs pp) -> (pp_depth pp <= 32)%nat -> pp_g2 pp = g2_one ->
  nth_error (b_sigs (cbooks m pp p)) j = Some (t, es) -> Forall (fun e => snd e = msg) es -> Permutation (map fst es) ks ->
  fst (cexec m pp (CVerifyAgg j ks msg) (cafter m pp p)) = Ok (Some true)
  /\ forall i, ks = [i] -> fst (cexec m pp (CVerify j i msg) (cafter m pp p)) = Ok (Some true).
Proof. exact c_complete. Qed.
Print Assumptions C122_complete.
Theorem C122_refused : forall (E : env) (L : env_laws E) m (pp : pubparam E) p c e,
  pp_ok pp -> supported (pp_cs pp) -> (pp_depth pp <= 32)%nat -> pp_g2 pp = g2_one ->
  (forall i t seed, c <> CUpdate i t seed) ->
  fst (b_exec (pp_depth pp) (rust_call c) (cbooks m pp p)) = Err e -> fst (cexec m pp c (cafter m pp p)) = Panic P_FFI.
Proof. exact c_refused. Qed.
Print Assumptions C122_refused.
Theorem C122_two_signers : forall (E : env) (L : env_laws E) m (pp : pubparam E) seed1 seed2 msg,
  pp_ok pp -> supported (pp_cs pp) -> (pp_depth pp <= 32)%nat -> pp_g2 pp = g2_one ->
  (32 <= length seed1)%nat -> (32 <= length seed2)%nat ->
  let p := [CKeyGen seed1; CKeyGen seed2; CSign 0 1 msg; CSign 1 1 msg; CAggregate [0; 1]%nat] in
  cresults m pp p = [Ok None; Ok None; Ok None; Ok None; Ok None]
  /\ cbooks m pp p = Book [1; 1] [(1, [(0%nat, msg)]); (1, [(1%nat, msg)]); (1, [(0%nat, msg); (1%nat, msg)])]
  /\ fst (cexec m pp (CVerifyAgg 2 [1; 0]%nat msg) (cafter m pp p)) = Ok (Some true)
  /\ forall t, t <> 1 -> fst (cexec m pp (CSign 0 t msg) (cafter m pp p)) = Panic P_FFI.
Proof. exact c_two_signers. Qed.
Print Assumptions C122_two_signers.

(** Two signers, their aggregate checked under the keys in the other order; signing at time 5 with a key of time 1 panics. *)
Definition cx_prog : list ccmd :=
  [CKeyGen tseed; CKeyGen (tseed ++ [7]); CSign 0 1 (str "m"); CSign 1 1 (str "m"); CAggregate [0; 1]%nat].
Example C122_example :
  cresults Debug tpp4 cx_prog = [Ok None; Ok None; Ok None; Ok None; Ok None]
  /\ cbooks Debug tpp4 cx_prog = Book [1; 1] [(1, [(0%nat, str "m")]); (1, [(1%nat, str "m")]); (1, [(0%nat, str "m"); (1%nat, str "m")])]
  /\ fst (cexec Debug tpp4 (CVerifyAgg 2 [1; 0]%nat (str "m")) (cafter Debug tpp4 cx_prog)) = Ok (Some true)
  /\ fst (cexec Debug tpp4 (CSign 0 5 (str "m")) (cafter Debug tpp4 cx_prog)) = Panic P_FFI.
Proof.
  assert (H1 : (32 <= length tseed)%nat) by (apply Nat.leb_le; reflexivity).
  assert (H2 : (32 <= length (tseed ++ [7%N]))%nat) by (apply Nat.leb_le; reflexivity).
  assert (Hd : (pp_depth tpp4 <= 32)%nat) by (apply Nat.leb_le; reflexivity).
  assert (Hc : supported (pp_cs tpp4)) by (left; reflexivity).
  destruct (C122_two_signers toy toy_laws Debug tpp4 tseed (tseed ++ [7]) (str "m") tpp4_ok Hc Hd eq_refl H1 H2) as (Hr & Hb & Hv & Hp).
  split; [exact Hr|]. split; [exact Hb|]. split; [exact Hv|]. apply Hp. discriminate.
Qed.
