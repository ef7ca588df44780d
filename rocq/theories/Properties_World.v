(** Property C121: programs over the whole interface.  Specification vocabulary: SpecWorld.v ([book], [b_exec], [b_run], [world_is],
    [worth], [balances], [agrees], [keys_of]), SpecKey.v ([pp_ok], [good_sk], [node_val]), SpecUpdate.v ([msg_scalar]), SpecAgg.v ([key_sum]). *)
From Coq Require Import String.
From Verif Require Import Base Env Time SpecTime Prng SubKey SecretKey Keys Sig Api SpecKey SpecUpdate SpecAgg World SpecWorld WorldProps
  Toy ToyRun.
From Coq Require Import Permutation.
Local Open Scope N_scope.

(** C121 *)
Theorem C121_simulated : forall (E : env) (L : env_laws E) m (pp : pubparam E) p,
  pp_ok pp -> (pp_cs pp = 0 \/ pp_cs pp = 1) -> (pp_depth pp <= 32)%nat -> pp_g2 pp = g2_one ->
  exists xs ann, world_is pp xs ann (books m pp p) (after m pp p)
    /\ forall c, (fst (exec m pp c (after m pp p)) = Panic P_PRNG /\ snd (exec m pp c (after m pp p)) = after m pp p)
                 \/ (fst (exec m pp c (after m pp p)) <> Panic P_PRNG
                     /\ agrees pp xs ann (fst (b_exec (pp_depth pp) c (books m pp p))) (fst (exec m pp c (after m pp p)))).
Proof. exact world_simulated. Qed.
Print Assumptions C121_simulated.
Theorem C121_complete : forall (E : env) (L : env_laws E) m (pp : pubparam E) p j t es ks msg,
  pp_ok pp -> (pp_cs pp = 0 \/ pp_cs pp = 1) -> (pp_depth pp <= 32)%nat -> pp_g2 pp = g2_one ->
  nth_error (b_sigs (books m pp p)) j = Some (t, es) -> Forall (fun e => snd e = msg) es -> Permutation (map fst es) ks ->
  fst (exec m pp (VerifyAggregated j ks msg) (after m pp p)) = Ok (Some true)
  /\ forall i, ks = [i] -> fst (exec m pp (Verify j i msg) (after m pp p)) = Ok (Some true).
Proof. exact program_complete. Qed.
Print Assumptions C121_complete.
Theorem C121_signers : forall (E : env) (L : env_laws E) m (pp : pubparam E) p j t es ks msg,
  pp_ok pp -> (pp_cs pp = 0 \/ pp_cs pp = 1) -> (pp_depth pp <= 32)%nat -> pp_g2 pp = g2_one -> pp_h pp <> g1_zero ->
  nth_error (b_sigs (books m pp p)) j = Some (t, es) -> Forall (fun e => snd e = msg) es ->
  ks <> [] -> Forall (fun k => (k < length (w_party (after m pp p)))%nat) ks ->
  (fst (exec m pp (VerifyAggregated j ks msg) (after m pp p)) = Ok (Some true)
   <-> key_sum (keys_of (after m pp p) (map fst es)) = key_sum (keys_of (after m pp p) ks)).
Proof. exact program_signers. Qed.
Print Assumptions C121_signers.
Theorem C121_message : forall (E : env) (L : env_laws E) m (pp : pubparam E) p j t i msg0 msg s,
  pp_ok pp -> (pp_cs pp = 0 \/ pp_cs pp = 1) -> (pp_depth pp <= 32)%nat -> pp_g2 pp = g2_one ->
  nth (pp_depth pp) (pp_hlist pp) g1_zero <> g1_zero ->
  nth_error (b_sigs (books m pp p)) j = Some (t, [(i, msg0)]) -> nth_error (w_sigs (after m pp p)) j = Some s ->
  (fst (exec m pp (Verify j i msg) (after m pp p)) = Ok (Some true)
   <-> sig_1 s = g2_zero \/ msg_scalar pp msg0 = msg_scalar pp msg).
Proof. exact program_message. Qed.
Print Assumptions C121_message.
Theorem C121_panics : forall (E : env) (L : env_laws E) m (pp : pubparam E) p c q,
  pp_ok pp -> (pp_cs pp = 0 \/ pp_cs pp = 1) -> (pp_depth pp <= 32)%nat -> pp_g2 pp = g2_one ->
  fst (exec m pp c (after m pp p)) = Panic q ->
  q = P_PRNG \/ (q = P_INDEX /\ (c = Aggregate [] \/ exists j msg, c = VerifyAggregated j [] msg)).
Proof. exact program_panics. Qed.
Print Assumptions C121_panics.

Theorem C121_two_signers : forall (E : env) (L : env_laws E) m (pp : pubparam E) seed1 seed2 msg,
  pp_ok pp -> (pp_cs pp = 0 \/ pp_cs pp = 1) -> (pp_depth pp <= 32)%nat -> pp_g2 pp = g2_one ->
  (32 <= length seed1)%nat -> (32 <= length seed2)%nat ->
  let p := [KeyGen seed1; KeyGen seed2; Call 0 (OpSignPresent 1 msg); Call 1 (OpSignPresent 1 msg); Aggregate [0; 1]%nat] in
  results m pp p = [Ok None; Ok None; Ok None; Ok None; Ok None]
  /\ books m pp p = Book [1; 1] [(1, [(0%nat, msg)]); (1, [(1%nat, msg)]); (1, [(0%nat, msg); (1%nat, msg)])].
Proof. exact two_signers. Qed.
Print Assumptions C121_two_signers.

(** Two signers at time 1; the aggregate of their signatures on "m" verifies in either order. *)
Definition wx_prog : list cmd :=
  [KeyGen tseed; KeyGen (tseed ++ [7]); Call 0 (OpSignPresent 1 (str "m")); Call 1 (OpSignPresent 1 (str "m")); Aggregate [0; 1]%nat].
Example C121_example :
  books Debug tpp4 wx_prog = Book [1; 1] [(1, [(0%nat, str "m")]); (1, [(1%nat, str "m")]); (1, [(0%nat, str "m"); (1%nat, str "m")])]
  /\ fst (exec Debug tpp4 (VerifyAggregated 2 [1; 0]%nat (str "m")) (after Debug tpp4 wx_prog)) = Ok (Some true)
  /\ fst (exec Debug tpp4 (Verify 1 1 (str "m")) (after Debug tpp4 wx_prog)) = Ok (Some true).
Proof.
  assert (H1 : (32 <= length tseed)%nat) by (apply Nat.leb_le; reflexivity).
  assert (H2 : (32 <= length (tseed ++ [7%N]))%nat) by (apply Nat.leb_le; reflexivity).
  assert (Hd : (pp_depth tpp4 <= 32)%nat) by (apply Nat.leb_le; reflexivity).
  assert (Hc : pp_cs tpp4 = 0 \/ pp_cs tpp4 = 1) by (left; reflexivity).
  destruct (C121_two_signers toy toy_laws Debug tpp4 tseed (tseed ++ [7]) (str "m") tpp4_ok Hc Hd eq_refl H1 H2) as [_ Hb].
  split; [exact Hb|].
  assert (J2 : nth_error (b_sigs (books Debug tpp4 wx_prog)) 2 = Some (1, [(0%nat, str "m"); (1%nat, str "m")])) by (unfold wx_prog; rewrite Hb; reflexivity).
  assert (J1 : nth_error (b_sigs (books Debug tpp4 wx_prog)) 1 = Some (1, [(1%nat, str "m")])) by (unfold wx_prog; rewrite Hb; reflexivity).
  destruct (C121_complete toy toy_laws Debug tpp4 wx_prog 2 _ _ [1; 0]%nat (str "m") tpp4_ok Hc Hd eq_refl J2
    ltac:(repeat constructor) ltac:(apply perm_swap)) as [K2 _].
  destruct (C121_complete toy toy_laws Debug tpp4 wx_prog 1 _ _ [1%nat] (str "m") tpp4_ok Hc Hd eq_refl J1
    ltac:(repeat constructor) ltac:(apply Permutation_refl)) as [_ K1].
  split; [exact K2|]. exact (K1 1%nat eq_refl).
Qed.
Example C121_example_parameters : pp_h tpp4 <> g1_zero /\ nth (pp_depth tpp4) (pp_hlist tpp4) g1_zero <> g1_zero.
Proof. split; discriminate. Qed.
