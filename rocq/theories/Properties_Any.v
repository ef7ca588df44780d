(** Property C113: what update, delegate, randomization and validate do with a key of any shape. *)
From Coq Require Import Sorting.Sorted.
From Verif Require Import Base Env Time SpecTime Prng SubKey SecretKey Keys SpecKey SpecUpdate SpecSig AnyProps
  Serdes IO Toy ToyRun WitAnyProps SpecAny.
Local Open Scope N_scope.

(** C113 *)
Theorem C113_update : forall (E : env) (L : env_laws E) m (pp : pubparam E) t seed sk o,
  pp_ok pp -> (update m pp t seed sk = o <-> update_result pp t seed sk o).
Proof. exact update_any. Qed.
Print Assumptions C113_update.

Theorem C113_delegate : forall (E : env) (L : env_laws E) m d t (s : subkey E) o,
  (1 <= d < 64)%nat -> (delegate m t d s = o <-> delegate_result d t s o).
Proof. exact delegate_any. Qed.
Print Assumptions C113_delegate.

Theorem C113_randomization : forall (E : env) (L : env_laws E) m (pp : pubparam E) k (s : subkey E) o,
  pp_ok pp -> (randomization m pp k s = o <-> randomization_result pp k s o).
Proof. exact randomization_any. Qed.
Print Assumptions C113_randomization.

Theorem C113_validate : forall (E : env) (L : env_laws E) m (pp : pubparam E) sk pk,
  pp_ok pp -> g2_insub (pk_pk pk) = true ->
  Forall (fun s => g2_insub (sk_g2r s) = true /\ g1_insub (sk_hpoly s) = true) (sec_ssk sk) ->
  (forall e, sk_validate m sk pk pp <> Err e)
  /\ forall p, (sk_validate m sk pk pp = Panic p <->
     p = P_INDEX /\ sec_cs sk = pp_cs pp /\ pk_cs pk = pp_cs pp
     /\ exists l1 s l2, sec_ssk sk = l1 ++ s :: l2 /\ stamp (pp_depth pp) (sec_time sk)
        /\ tiling (pp_depth pp) (sec_time sk) (map sk_t l1) /\ Forall (ssk_equation pp pk) (l1 ++ [s])).
Proof. exact validate_any. Qed.
Print Assumptions C113_validate.

Theorem C113_time_of_sorted_key : forall (E : env) (L : env_laws E) m (pp : pubparam E) t seed sk sk',
  pp_ok pp -> StronglySorted N.lt (map sk_t (sec_ssk sk)) -> update m pp t seed sk = (Ok tt, sk') -> sec_time sk' = t.
Proof. exact update_any_sorted. Qed.
Print Assumptions C113_time_of_sorted_key.

(** The last one is false without the order: a key that can be deserialized, whose update to
    time 4 succeeds and leaves a key for time 9. *)
Theorem C113_time_any_key_refuted : exists (E : env) (pp : pubparam E) blob sk t seed sk',
  env_laws E /\ pp_ok pp /\ from_slice (sk_deserialize true) blob = Ok sk
  /\ update Debug pp t seed sk = (Ok tt, sk') /\ sec_time sk' <> t.
Proof. exact unsorted_wrong_time. Qed.
Print Assumptions C113_time_any_key_refuted.

(** Some keys for every result: two sub keys missing (not below), a number that is no time stamp
    met on the way (twice), a vector too short and one too long. *)
Definition anykey (l : list (N * N)) : seckey toy :=
  @SecKey toy 0 1 (map (fun q => tssk (fst q) (N.to_nat (snd q))) l) (repeat 7 64).
Definition any_outcome (t : N) (l : list (N * N)) : res unit := fst (update Debug tpp4 t [] (anykey l)).
Example C113_example :
  [any_outcome 9 [(2, 3)]; any_outcome 2 [(1, 4); (99, 2)]; any_outcome 2 [(1, 4); (16, 2)];
   any_outcome 4 [(2, 1)]; any_outcome 2 [(1, 9)]; any_outcome 4 [(2, 3); (9, 3)]; any_outcome 5 [(0, 3)]]
  = [Err E_TIME_NONE_PREFIX; Err E_TIME_STAMP; Err E_TIME_DEPTH; Panic P_INDEX; Panic P_INDEX; Ok tt; Err E_TIME_STAMP].
Proof.
  vm_cast_no_check (@eq_refl (list (res unit)) [Err E_TIME_NONE_PREFIX; Err E_TIME_STAMP; Err E_TIME_DEPTH;
    Panic P_INDEX; Panic P_INDEX; Ok tt; Err E_TIME_STAMP]).
Qed.

(** A vector that is too long does not matter if only one sub key is made. *)
Example C113_example_one : any_outcome 10 [(2, 3); (9, 9); (13, 2)] = Ok tt.
Proof. vm_cast_no_check (@eq_refl (res unit) (Ok tt)). Qed.
