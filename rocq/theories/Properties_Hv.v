(** Property C115: what delegate and update leave in the blocks of the h-vectors (HvMem.v).
    Specification vocabulary: SpecHv.v ([last_entry], [cut_from], [fresh_key], [all_blocks], [updates_hv], [updates],
    [forge_with]), SpecKey.v ([pp_ok]). *)
From Coq Require Import String.
From Verif Require Import Base Env Time SpecTime Prng SubKey SecretKey Keys Sig Api
  SpecKey SpecUpdate SpecHyg VecMem SpecVec HvMem HvProps Toy ToyRun SpecHv.
Local Open Scope N_scope.

(** C115 *)
Theorem C115_same_result : forall (E : env) (P : policy) m (pp : pubparam E) tar seed k fr,
  exists k' fr', update_hv P m pp tar seed (k, fr) = (fst (update m pp tar seed (plain k)), (k', fr'))
    /\ plain k' = snd (update m pp tar seed (plain k))
    /\ (fst (update m pp tar seed (plain k)) <> Ok tt -> k' = k).
Proof. exact update_hv_same. Qed.
Print Assumptions C115_same_result.
Theorem C115_delegate : forall (E : env) m t d (s : subkey E) sp,
  exists nw, delegate_hv m t d (s, sp) = (fst (delegate m t d s), (snd (delegate m t d s), nw ++ sp))
    /\ cut_from s (snd (delegate m t d s)) nw.
Proof. exact delegate_blocks. Qed.
Print Assumptions C115_delegate.
Theorem C115_live : forall (E : env) (P : policy) m (pp : pubparam E) tar seed k fr k' fr',
  update_hv P m pp tar seed (k, fr) = (Ok tt, (k', fr')) ->
  exists pre s0 post new, hk_ssk k = pre ++ s0 :: post /\ hk_ssk k' = new ++ map (fun s => (fst s, [])) post
    /\ find_ancestor (plain k) tar = Ok (sk_t (fst s0))
    /\ (forall s sp, In (s, sp) new -> cut_from (fst s0) s sp)
    /\ (sk_t (fst s0) = tar -> new = [(fst s0, [])]).
Proof. exact update_hv_live. Qed.
Print Assumptions C115_live.
Theorem C115_nothing_new : forall (E : env) (L : env_laws E) (P : policy) m m' (pp : pubparam E) pk tar seed k fr k' fr' s y,
  pp_ok pp -> reachable m pp pk (plain k) -> update_hv P m' pp tar seed (k, fr) = (Ok tt, (k', fr')) ->
  In s (hk_ssk k') -> In (Some y) (snd s) ->
  exists s1 rest, hk_ssk k' = s1 :: rest /\ sk_t (fst s1) = tar /\ y = last_entry (fst s1) /\ In y (sk_hvec (fst s1)).
Proof. exact update_hv_nothing_new. Qed.
Print Assumptions C115_nothing_new.
Theorem C115_freed : forall (E : env) (P : policy) m (pp : pubparam E) tar seed k fr r k' fr',
  update_hv P m pp tar seed (k, fr) = (r, (k', fr')) ->
  exists nw, fr' = nw ++ fr
    /\ (forall b, In b nw -> (exists s, In s (hk_ssk k) /\ b = snd s)
                             \/ exists s, In s (hk_ssk k) /\ forall x, In (Some x) b -> x = last_entry (fst s))
    /\ (clears P = true -> nw = [])
    /\ (clears P = false -> r = Ok tt -> forall s, In s (hk_ssk k) -> In (snd s) nw).
Proof. exact update_hv_freed. Qed.
Print Assumptions C115_freed.
Theorem C115_freed_exact : forall (E : env) (P : policy) m (pp : pubparam E) tar seed k fr k' fr',
  clears P = false -> update_hv P m pp tar seed (k, fr) = (Ok tt, (k', fr')) ->
  exists pre s0 post, hk_ssk k = pre ++ s0 :: post /\ find_ancestor (plain k) tar = Ok (sk_t (fst s0))
    /\ Forall (fun s => sk_t (fst s) <> sk_t (fst s0)) pre
    /\ fr' = map snd (hk_ssk k) ++ repeat [] (length pre + if sk_t (fst s0) =? tar then 0%nat else 1%nat) ++ fr.
Proof. exact update_hv_freed_exact. Qed.
Print Assumptions C115_freed_exact.
Theorem C115_updates : forall (E : env) (P : policy) m (pp : pubparam E) l sk y,
  in_blocks y (all_blocks (updates_hv P m pp l (fresh_key sk, []))) ->
  exists n s, (n <= length l)%nat /\ In s (sec_ssk (updates m pp (firstn n l) sk)) /\ y = last_entry s.
Proof. exact updates_hv_from. Qed.
Print Assumptions C115_updates.
Theorem C115_only_last : forall (E : env) (L : env_laws E) (P : policy) m m' (pp : pubparam E) pk l sk y,
  pp_ok pp -> reachable m pp pk sk -> in_blocks y (all_blocks (updates_hv P m' pp l (fresh_key sk, []))) ->
  exists r, y = g1_mul r (nth (pp_depth pp) (pp_hlist pp) g1_zero).
Proof. exact updates_hv_only. Qed.
Print Assumptions C115_only_last.
Theorem C115_past_signed : forall (E : env) (L : env_laws E) (P : policy) m m1 m2 (pp : pubparam E) pk t1 t2 seed1 seed2 sk fr k1 fr1 k2 fr2,
  pp_ok pp -> reachable m pp pk sk -> clears P = false -> ~ In t1 (map sk_t (sec_ssk sk)) ->
  update_hv P m1 pp t1 seed1 (fresh_key sk, fr) = (Ok tt, (k1, fr1)) ->
  update_hv P m2 pp t2 seed2 (k1, fr1) = (Ok tt, (k2, fr2)) ->
  t1 < t2 /\ exists s rest y, sec_ssk (plain k1) = s :: rest /\ sk_t s = t1 /\ in_blocks y fr2
    /\ forall m3 msg, verify m3 (forge_with pp (head_of s) y msg) pk pp msg = Ok true.
Proof. exact freed_entry_signs. Qed.
Print Assumptions C115_past_signed.

(** The first update of a generated key, to 4: the sub keys 4, 5, 6, 9 are made from 1, whose h-vector has 4 entries.
    The slots given free hold copies of the last one, which is the last entry of sub key 4. *)
Definition hx4 : hkey toy * hfreed toy := Eval vm_compute in snd (update_hv keeps_spare Debug tpp4 4 (str "a") (fresh_key tsk4, [])).
Definition hx4_y : G1 toy := Eval vm_compute in match hk_ssk (fst hx4) with s :: _ => last_entry (fst s) | [] => mk r1 0 end.
Example C115_example :
  reachable Debug tpp4 tpk4 tsk4 /\ map (fun s => (sk_t s, length (sk_hvec s))) (sec_ssk tsk4) = [(1, 4%nat)]
  /\ update_hv keeps_spare Debug tpp4 4 (str "a") (fresh_key tsk4, []) = (Ok tt, hx4)
  /\ map (fun s => (sk_t (fst s), length (sk_hvec (fst s)), snd s)) (hk_ssk (fst hx4))
     = [(4, 1%nat, repeat (Some hx4_y) 3); (5, 1%nat, repeat (Some hx4_y) 3); (6, 2%nat, repeat (Some hx4_y) 2); (9, 3%nat, [Some hx4_y])]
  /\ match hk_ssk (fst hx4) with s :: _ => sk_hvec (fst s) = [hx4_y] | [] => False end
  /\ snd hx4 = [[]; []].
Proof.
  split; [exists tseed, tsk4, tpop4, []; split; [exact tkeygen|reflexivity]|]. split; [reflexivity|].
  split; [vm_cast_no_check (eq_refl (@Ok unit tt, hx4))|]. split; [reflexivity|]. split; reflexivity.
Qed.

(** The update to 5: the old key is dropped; unless its spare slots are overwritten, the last entry of sub key 4
    stays in freed blocks, and with the other contents of sub key 4 signatures for time 4 are made. *)
Definition hx5 : hkey toy * hfreed toy := Eval vm_compute in snd (update_hv keeps_spare Debug tpp4 5 (str "a") hx4).
Definition hx5' : hkey toy * hfreed toy := Eval vm_compute in snd (update_hv wipes_spare Debug tpp4 5 (str "a") hx4).
Definition hx4_s : subkey toy := Eval vm_compute in match hk_ssk (fst hx4) with s :: _ => fst s | [] => tssk 0 0 end.
Example C115_example_freed :
  ~ In 4 (map sk_t (sec_ssk tsk4))
  /\ update_hv keeps_spare Debug tpp4 5 (str "a") hx4 = (Ok tt, hx5) /\ update_hv wipes_spare Debug tpp4 5 (str "a") hx4 = (Ok tt, hx5')
  /\ snd hx5 = [repeat (Some hx4_y) 3; repeat (Some hx4_y) 3; repeat (Some hx4_y) 2; [Some hx4_y]; []; []; []]
  /\ snd hx5' = snd hx4
  /\ map snd (hk_ssk (fst hx5)) = [[]; []; []]
  /\ verify Debug (forge_with tpp4 (head_of hx4_s) hx4_y (str "m")) tpk4 tpp4 (str "m") = Ok true.
Proof.
  split; [intros [H|[]]; discriminate H|].
  split; [vm_cast_no_check (eq_refl (@Ok unit tt, hx5))|]. split; [vm_cast_no_check (eq_refl (@Ok unit tt, hx5'))|].
  split; [reflexivity|]. split; [reflexivity|]. split; [reflexivity|]. vm_cast_no_check (eq_refl (@Ok bool true)).
Qed.

(** A sub key of odd shape, delegated until its h-vector is empty: the slot of the entry removed last was overwritten. *)
Definition hx_odd : subkey toy := Eval vm_compute in @SubKey toy 9 (mk r2 1) (mk r1 1) [mk r1 5; mk r1 7].
Definition hx_odd' : hsub toy := Eval vm_compute in snd (delegate_hv Debug 11 4 (hx_odd, [None])).
Example C115_example_odd :
  delegate_hv Debug 11 4 (hx_odd, [None]) = (Ok tt, hx_odd') /\ sk_hvec (fst hx_odd') = [] /\ snd hx_odd' = [None; Some (mk r1 7 : G1 toy); None].
Proof. split; [vm_cast_no_check (eq_refl (@Ok unit tt, hx_odd'))|]. split; reflexivity. Qed.
