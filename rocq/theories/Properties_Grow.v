(** Property C97: which nodes of the tree a key holds sub keys for, how large a key gets, and
    what the update to the next time stamp costs (src/secret_key.rs).  Specification
    vocabulary: SpecGrow.v ([right_sibs], [lefts], [largest]), SpecTime.v ([node_at]),
    SpecUpdate.v ([spec_reseed], [draws], [added]), SpecKey.v ([honest_ssk]). *)
From Coq Require Import String.
From Verif Require Import Base Env Time SpecTime Prng SpecPrng SubKey SecretKey Keys Sig Api
  SpecKey SpecUpdate SpecDerive SpecGrow TimeFacts GrowProps Toy ToyRun.
Local Open Scope N_scope.

(** C97 *)
Theorem C97_key_nodes : forall (E : env) (L : env_laws E) m (pp : pubparam E) pk sk v,
  pp_ok pp -> reachable m pp pk sk -> node_at (pp_depth pp) (sec_time sk) v ->
  Forall2 (fun s w => node_at (pp_depth pp) (sk_t s) w /\ length (sk_hvec s) = (pp_depth pp - length w)%nat)
    (sec_ssk sk) (v :: right_sibs [] v)
  /\ length (sec_ssk sk) = (1 + lefts v)%nat.
Proof. exact key_nodes. Qed.
Print Assumptions C97_key_nodes.

Theorem C97_largest_key : forall (E : env) (L : env_laws E) m (pp : pubparam E) pk sk,
  pp_ok pp -> reachable m pp pk sk ->
  (length (sec_ssk sk) <= pp_depth pp)%nat /\ (sk_size sk <= largest (pp_depth pp))%nat
  /\ (sec_time sk = N.of_nat (pp_depth pp) -> length (sec_ssk sk) = pp_depth pp /\ sk_size sk = largest (pp_depth pp)).
Proof. exact key_size_bound. Qed.
Print Assumptions C97_largest_key.

Theorem C97_next_step : forall (E : env) (L : env_laws E) m m' (pp : pubparam E) pk sk v seed sk',
  pp_ok pp -> reachable m pp pk sk -> node_at (pp_depth pp) (sec_time sk) v ->
  update m' pp (sec_time sk + 1) seed sk = (Ok tt, sk') ->
  let d := pp_depth pp in
  let t := sec_time sk in
  (length v = (d - 1)%nat -> sec_ssk sk' = tl (sec_ssk sk) /\ sec_prng sk' = spec_reseed sk seed)
  /\ ((length v < d - 1)%nat -> exists x r kept,
       pk_pk pk = g2_mul x (pp_g2 pp)
       /\ sec_ssk sk = honest_ssk pp x t v r :: kept
       /\ sec_ssk sk' = honest_ssk pp x (t + 1) (v ++ [1]) r
                        :: honest_ssk pp x (t + pow2 (d - 1 - length v)) (v ++ [2]) (r + added (sha512 E) (spec_reseed sk seed) 1) :: kept
       /\ sec_prng sk' = draws (sha512 E) 1 (spec_reseed sk seed)).
Proof. exact next_step. Qed.
Print Assumptions C97_next_step.

(** Time stamp 7 of depth 4 is the path left, right, left: its key has the sub keys of the
    node itself, of left, right, right and of right. *)
Example C97_example : reachable Debug tpp4 tpk4 tsk7 /\ sec_time tsk7 = 7 /\ node_at 4 7 [1; 2; 1]
  /\ right_sibs [] [1; 2; 1] = [[1; 2; 2]; [2]] /\ map sk_t (sec_ssk tsk7) = [7; 8; 9]
  /\ map (fun s => length (sk_hvec s)) (sec_ssk tsk7) = [1; 1; 3]%nat.
Proof.
  split; [exact tsk7_reachable|]. split; [reflexivity|]. split.
  { apply node_at_ptime. split; [|reflexivity]. split; [|cbn; lia]. repeat constructor; unfold turn; lia. }
  split; [reflexivity|]. split; reflexivity.
Qed.
(** The key of time stamp 4 is the largest of depth 4. *)
Example C97_example_size : update Debug tpp4 4 (str "a") tsk4 = (Ok tt, tsk4l)
  /\ length (sec_ssk tsk4l) = 4%nat /\ sk_size tsk4l = 1334%nat /\ largest 4 = 1334%nat /\ sk_size tsk7 = 993%nat.
Proof. split; [exact tsk4l_ok|]. split; [reflexivity|]. split; [reflexivity|]. split; reflexivity. Qed.
(** From 7, a leaf, to 8 the first sub key goes; from 1 to 2 one draw is made. *)
Definition gr_8 : seckey toy := Eval vm_compute in snd (update Debug tpp4 8 (str "s") tsk7).
Definition gr_2 : seckey toy := Eval vm_compute in snd (update Debug tpp4 2 (str "s") tsk4).
Example C97_example_step :
  update Debug tpp4 (sec_time tsk7 + 1) (str "s") tsk7 = (Ok tt, gr_8) /\ map sk_t (sec_ssk gr_8) = [8; 9]
  /\ update Debug tpp4 (sec_time tsk4 + 1) (str "s") tsk4 = (Ok tt, gr_2) /\ map sk_t (sec_ssk gr_2) = [2; 9].
Proof.
  split; [vm_cast_no_check (eq_refl (@Ok unit tt, gr_8))|]. split; [reflexivity|].
  split; [vm_cast_no_check (eq_refl (@Ok unit tt, gr_2))|reflexivity].
Qed.
