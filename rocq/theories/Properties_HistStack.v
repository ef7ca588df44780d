(** Property C134: what a history of a key in a Rust program leaves on the stack (HistStack.v).
    Specification vocabulary: SpecHistStack.v ([moves], [op_cells], [refused_cells], [hist_leaves]), SpecReadStack.v ([read_cells]), SpecHyg.v ([update_cells], [sign_cells],
    [hv_cell], [new_times], [recover], [combine_sigs]), SpecHv.v ([forge_with]), SpecKey.v ([pp_ok]). *)
From Coq Require Import String.
From Verif Require Import Base Env Time SpecTime Prng SpecPrng SubKey SecretKey Keys Sig IO Serdes Api Hygiene VecMem ReadStack HistStack
  SpecKey SpecUpdate SpecSer SpecHyg SpecHv SpecReadStack SpecHistStack HistStackProps SignProps Toy ToyRun Properties_Sig Properties_Read Properties_SessionMem.
Local Open Scope N_scope.

(** C134 *)
Theorem C134_same_results : forall (E : env) (L : env_laws E) m (pp : pubparam E) ops sk,
  exists d, forall s, run_h m pp ops (sk, s) = (fst (run m pp ops sk), (snd (run m pp ops sk), (fst s, snd s ++ d))).
Proof. exact hist_stack_same. Qed.
Print Assumptions C134_same_results.
Theorem C134_step_leaves : forall (E : env) (L : env_laws E) m (pp : pubparam E) pk o sk x sk1,
  pp_ok pp -> (pp_depth pp <= 32)%nat -> reachable m pp pk sk -> step m pp o sk = (Ok x, sk1) ->
  moves (step_h m pp o) sk (Ok x) sk1 (op_cells pp o sk sk1).
Proof. exact op_leaves. Qed.
Print Assumptions C134_step_leaves.
Theorem C134_refused_step : forall (E : env) (L : env_laws E) m (pp : pubparam E) pk o sk e sk1,
  pp_ok pp -> (pp_depth pp <= 32)%nat -> reachable m pp pk sk -> step m pp o sk = (Err e, sk1) ->
  e = E_TIME_STAMP /\ sk1 = sk /\ moves (step_h m pp o) sk (Err e) sk (refused_cells pp o sk).
Proof. exact op_refused. Qed.
Print Assumptions C134_refused_step.
Theorem C134_every_history : forall (E : env) m (pp : pubparam E) ops sk,
  Forall (fun r => match r with Panic _ => False | _ => True end) (fst (run m pp ops sk)) -> exists d, hist_leaves m pp ops sk (snd (run m pp ops sk)) d.
Proof. exact hist_leaves_all. Qed.
Print Assumptions C134_every_history.
Theorem C134_history_leaves : forall (E : env) (L : env_laws E) m (pp : pubparam E) pk ops sk sk' d,
  pp_ok pp -> (pp_depth pp <= 32)%nat -> reachable m pp pk sk -> hist_leaves m pp ops sk sk' d ->
  snd (run m pp ops sk) = sk' /\ forall s, run_h m pp ops (sk, s) = (fst (run m pp ops sk), (sk', (fst s, snd s ++ d))).
Proof. exact hist_stack_leaves. Qed.
Print Assumptions C134_history_leaves.
Theorem C134_sign_then_update_recovers : forall (E : env) (L : env_laws E) m (pp : pubparam E) pk sk t msg seed sig sk',
  pp_ok pp -> (pp_depth pp <= 32)%nat -> reachable m pp pk sk -> sign_then_update m t pp msg seed sk = (Ok sig, sk') ->
  (2 <= length (new_times sk sk'))%nat ->
  exists d s0 s1 rest rho u,
    moves (step_h m pp (OpSignThenUpdate t msg seed)) sk (Ok (Some sig)) sk' d
    /\ In (Cell "randomization" "r" (VInt rho)) d
    /\ sec_time sk = t /\ sec_time sk' = t + 1
    /\ sec_ssk sk' = s0 :: s1 :: rest
    /\ forall m'' g msg', exists s,
         fst (sign_present m'' t pp msg' (SecKey (pp_cs pp) t [recover pp t u s0 s1 rho] g)) = Ok s
         /\ verify m'' s pk pp msg' = Ok true.
Proof. exact sign_then_update_recovers. Qed.
Print Assumptions C134_sign_then_update_recovers.
Theorem C134_reload_betrays : forall (E : env) (L : env_laws E) m (pp : pubparam E) pk sk l1 c l2 sk' d,
  pp_ok pp -> (pp_depth pp <= 32)%nat -> reachable m pp pk sk -> hist_leaves m pp (l1 ++ OpReload c :: l2) sk sk' d ->
  exists g2r hpoly y,
    In (Cell "SubSecretKey::deserialize" "g2r" (VG2 g2r)) d
    /\ In (Cell "SubSecretKey::deserialize" "hpoly" (VG1 hpoly)) d
    /\ In (Cell "SubSecretKey::deserialize" "tmp" (VG1 y)) d
    /\ forall m' msg, verify m' (forge_with pp (Head (sec_time (snd (run m pp l1 sk))) g2r hpoly) y msg) pk pp msg = Ok true.
Proof. exact hist_reload_betrays. Qed.
Print Assumptions C134_reload_betrays.
Theorem C134_signatures_forge : forall (E : env) (L : env_laws E) m (pp : pubparam E) pk sk t msg1 msg2 seed s1 s2 sk',
  pp_ok pp -> (pp_depth pp <= 32)%nat -> reachable m pp pk sk -> msg_scalar pp msg1 <> msg_scalar pp msg2 ->
  run m pp [OpSignPresent t msg1; OpSignThenUpdate t msg2 seed] sk = ([Ok (Some s1); Ok (Some s2)], sk') ->
  exists d k1 k2 v c,
    (forall s, run_h m pp [OpSignPresent t msg1; OpSignThenUpdate t msg2 seed] (sk, s) = ([Ok (Some s1); Ok (Some s2)], (sk', (fst s, snd s ++ d))))
    /\ In (Cell "sign_fr" "r" (VInt k1)) d /\ In (Cell "sign_fr" "r" (VInt k2)) d
    /\ sec_time sk' = t + 1 /\ node_at (pp_depth pp) t v
    /\ forall m' msg,
         verify m' (combine_sigs pp t v s1 s2 k1 k2 (msg_scalar pp msg1) (msg_scalar pp msg2) c (msg_scalar pp msg)) pk pp msg = Ok true.
Proof. exact hist_signatures_forge. Qed.
Print Assumptions C134_signatures_forge.

(** The key [3; 6; 9] (rx3 of Properties_Read.v) signs for time 3, goes on to time 4 in the same call, where it is [4; 5; 6; 9], and is stored and loaded.
    What is left of the first call recovers the sub key for time 3. *)
Notation hs_l := [OpSignThenUpdate 3 (str "m") (str "a"); OpReload true].
Notation hs_d := ((sign_cells tpp4 rx3 3 (str "m") ++ update_cells rx3 rx4 (str "a")) ++ (map hv_cell (sec_ssk rx4) ++ read_cells rx4) ++ []).
Example C134_example :
  reachable Debug tpp4 tpk4 rx3 /\ pp_ok tpp4 /\ (pp_depth tpp4 <= 32)%nat /\ map sk_t (sec_ssk rx3) = [3; 6; 9] /\ map sk_t (sec_ssk rx4) = [4; 5; 6; 9]
  /\ hist_leaves Debug tpp4 hs_l rx3 rx4 hs_d
  /\ (2 <= length (new_times rx3 rx4))%nat
  /\ exists sig, sign_then_update Debug 3 tpp4 (str "m") (str "a") rx3 = (Ok sig, rx4).
Proof.
  destruct C114_example_signs as (_ & Hu & Ht & Ht' & _).
  assert (H32 : (pp_depth tpp4 <= 32)%nat) by (cbn; lia).
  assert (H3 : sec_time rx3 = 3) by reflexivity.
  assert (Hr4 : reachable Debug tpp4 tpk4 rx4) by exact (reachable_update rx3 rx4 4 (str "a") rx3_reachable Hu).
  assert (Hs : exists sig, sign_then_update Debug 3 tpp4 (str "m") (str "a") rx3 = (Ok sig, rx4)).
  { destruct (ProgProps.sign_now toy_laws Debug tpp4 tpk4 rx3 (str "m") tpp4_ok H32 rx3_reachable) as (s & Hs & _). exists s.
    rewrite H3 in Hs. unfold sign_present in Hs. unfold sign_then_update.
    unfold sbind at 1, sget at 1 in Hs. unfold sbind at 1, sget at 1. rewrite H3 in Hs |- *. cbn [N.eqb Pos.eqb negb] in Hs |- *.
    unfold slift in Hs. unfold sbind at 1, slift at 1. destruct (sign_bytes Debug rx3 3 tpp4 (str "m")) as [s'|e|p]; [|discriminate..]. injection Hs as ->.
    unfold sbind at 1, slift at 1. change (add64 Debug 3 1) with (@Ok N 4). cbv iota. unfold sbind at 1. rewrite Hu. reflexivity. }
  split; [exact rx3_reachable|]. split; [exact tpp4_ok|]. split; [exact H32|]. split; [exact Ht|]. split; [exact Ht'|]. split; [|split; [|exact Hs]].
  - destruct Hs as (s & Hs). apply (hl_step Debug tpp4 (OpSignThenUpdate 3 (str "m") (str "a")) [OpReload true] rx3 rx4 rx4 (Some s)).
    + cbn [step]. unfold sbind. rewrite Hs. reflexivity.
    + apply (hl_step Debug tpp4 (OpReload true) [] rx4 rx4 rx4 None); [|constructor]. cbn [step]. unfold sbind.
      rewrite (SerFacts.reload_wf toy_laws true rx4 (SerProps.reachable_sk_representable toy toy_laws Debug tpp4 tpk4 rx4 tpp4_ok H32 Hr4)). reflexivity.
  - unfold new_times. rewrite ?Ht, ?Ht'. vm_compute. lia.
Qed.

(** The same key signs "a" for time 3 and then "b" in the call that goes on to time 4. *)
Example C134_example_two :
  reachable Debug tpp4 tpk4 rx3 /\ msg_scalar tpp4 (str "a") <> msg_scalar tpp4 (str "b")
  /\ exists s1 s2, run Debug tpp4 [OpSignPresent 3 (str "a"); OpSignThenUpdate 3 (str "b") (str "a")] rx3 = ([Ok (Some s1); Ok (Some s2)], rx4).
Proof.
  destruct C114_example_signs as (_ & Hu & _).
  assert (H32 : (pp_depth tpp4 <= 32)%nat) by (cbn; lia).
  assert (H3 : sec_time rx3 = 3) by reflexivity.
  split; [exact rx3_reachable|]. split; [vm_compute; discriminate|].
  destruct (ProgProps.sign_now toy_laws Debug tpp4 tpk4 rx3 (str "a") tpp4_ok H32 rx3_reachable) as (s1 & H1 & _). rewrite H3 in H1.
  destruct (ProgProps.sign_now toy_laws Debug tpp4 tpk4 rx3 (str "b") tpp4_ok H32 rx3_reachable) as (s2 & H2 & _). rewrite H3 in H2.
  exists s1, s2. cbn [run step]. unfold sbind at 1. rewrite H1. unfold sret at 1. unfold sbind at 1.
  rewrite (SignProps.sign_then_update_any_key toy Debug tpp4 rx3 3 (str "b") (str "a") ltac:(reflexivity)).
  unfold sbind at 1. rewrite H2. unfold sbind at 1. change (3 + 1) with 4. rewrite Hu. reflexivity.
Qed.

(** At the last time sign_then_update is refused, and the randomness of the signature that nobody gets is left; an update to an earlier time leaves nothing. *)
Example C134_example_refused :
  reachable Debug tpp4 tpk4 tsk15
  /\ hist_leaves Debug tpp4 [OpSignThenUpdate 15 (str "m") (str "a"); OpUpdate 3 (str "a")] tsk15 tsk15 (sign_cells tpp4 tsk15 15 (str "m") ++ [] ++ []).
Proof.
  destruct C21_example as [Hr Ht]. split; [exact Hr|].
  destruct (SigProps.sign_then_update_last toy toy_laws Debug Debug tpp4 tpk4 tsk15 (str "m") (str "a") tpp4_ok Hr Ht) as [Hs _].
  change (sec_time tsk15) with 15 in Hs.
  apply (hl_refused Debug tpp4 (OpSignThenUpdate 15 (str "m") (str "a")) [OpUpdate 3 (str "a")] tsk15 tsk15 tsk15 E_TIME_STAMP).
  - cbn [step]. unfold sbind. rewrite Hs. reflexivity.
  - apply (hl_refused Debug tpp4 (OpUpdate 3 (str "a")) [] tsk15 tsk15 tsk15 E_TIME_STAMP); [reflexivity|constructor].
Qed.
