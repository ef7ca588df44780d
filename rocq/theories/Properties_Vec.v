(** Property C108: what an update leaves in the memory of its Vec of sub keys (VecMem.v).
    Specification vocabulary: SpecVec.v ([caps], [holds_past], [forge_from], [recover_from], [updates_v]),
    SpecKey.v ([pp_ok]), SpecTime.v ([node_at]). *)
From Coq Require Import String.
From Verif Require Import Base Env Time SpecTime Prng SubKey SecretKey Keys Sig Api
  SpecKey SpecUpdate SpecHyg VecMem SpecVec VecProps Toy ToyRun.
Local Open Scope N_scope.

(** C108 *)
Theorem C108_same_result : forall (E : env) (P : policy) m (pp : pubparam E) tar seed sk h,
  exists h', update_v P m pp tar seed (sk, h)
    = (fst (update m pp tar seed sk), (snd (update m pp tar seed sk), h')).
Proof. exact update_v_update. Qed.
Print Assumptions C108_same_result.
Theorem C108_what_is_left : forall (E : env) (L : env_laws E) (P : policy) m m' (pp : pubparam E) pk tar seed sk sk' h h',
  pp_ok pp -> reachable m pp pk sk -> update_v P m' pp tar seed (sk, h) = (Ok tt, (sk', h')) ->
  exists pre s0 post new mv,
    sec_ssk sk = pre ++ s0 :: post /\ sec_ssk sk' = new ++ post /\ sec_time sk' = tar
    /\ (sk_t s0 = tar /\ new = [s0] \/ sk_t s0 < tar /\ new <> [])
    /\ freed h' = give_up P (spare h) (mv ++ freed h)
    /\ (forall b hd, In b (spare h' :: mv) -> In (Some hd) b ->
          hd = head_of s0 \/ exists s, In s (sec_ssk sk') /\ hd = head_of s)
    /\ (holds_past tar (spare h' :: mv) <->
        sk_t s0 < tar
        /\ ((exists k, (caps P (length (sec_ssk sk)) k <= length (sec_ssk sk'))%nat
                       /\ moved P (caps P (length (sec_ssk sk)) k) = true)
            \/ (post = [] /\ (length (sec_ssk sk') + 1 < length (sec_ssk sk))%nat))).
Proof. exact update_v_leaves. Qed.
Print Assumptions C108_what_is_left.
Theorem C108_first_update : forall (E : env) (L : env_laws E) (P : policy) m m' (pp : pubparam E) pk tar seed sk sk' s h h',
  pp_ok pp -> reachable m pp pk sk -> sec_ssk sk = [s] -> moved P 1 = true ->
  update_v P m' pp tar seed (sk, h) = (Ok tt, (sk', h')) ->
  sk_t s < sec_time sk' /\ exists b, In b (spare h' :: freed h') /\ In (Some (head_of s)) b.
Proof. exact first_update_leaves_root. Qed.
Print Assumptions C108_first_update.
Theorem C108_stays : forall (E : env) (P : policy) m (pp : pubparam E) (l : list (N * bytes)) sk h b,
  In b (freed h) -> In b (freed (snd (updates_v P m pp l (sk, h)))).
Proof. exact freed_stays. Qed.
Print Assumptions C108_stays.
Theorem C108_past_signed : forall (E : env) (L : env_laws E) (P : policy) m m' (pp : pubparam E) pk tar seed sk sk' h' b hd,
  pp_ok pp -> reachable m pp pk sk -> update_v P m' pp tar seed (sk, Heap [] []) = (Ok tt, (sk', h')) ->
  In b (spare h' :: freed h') -> In (Some hd) b -> hd_t hd < tar ->
  forall m'' msg, verify m'' (forge_from pp hd sk' msg) pk pp msg = Ok true.
Proof. exact past_slot_signs. Qed.
Print Assumptions C108_past_signed.
Theorem C108_past_recovered : forall (E : env) (L : env_laws E) (P : policy) m m' (pp : pubparam E) pk tar seed sk sk' h' b hd v c,
  pp_ok pp -> reachable m pp pk sk -> update_v P m' pp tar seed (sk, Heap [] []) = (Ok tt, (sk', h')) ->
  In b (spare h' :: freed h') -> In (Some hd) b -> hd_t hd < tar ->
  node_at (pp_depth pp) (hd_t hd) v -> node_at (pp_depth pp) tar (v ++ [c]) ->
  In (recover_from c hd sk') (sec_ssk sk).
Proof. exact past_slot_recovers. Qed.
Print Assumptions C108_past_recovered.

(** The first update of a generated key, to time 3, with an allocator that moves blocks: the sub keys 3, 6
    and 9 are made from 1, and twice the block is enlarged.  What it held of 1 lies in both old blocks. *)
Definition vx_h0 : heap toy := Heap [] [].
Definition vx3 : seckey toy * heap toy := Eval vm_compute in snd (update_v std_moves Debug tpp4 3 (str "a") (tsk4, vx_h0)).
Definition vx_times (l : slots toy) : list (option N) := map (option_map hd_t) l.
Definition vx_hd (l : slots toy) : head toy := match l with Some h :: _ => h | _ => @Head toy 0 (mk r2 0) (mk r1 0) end.
Example C108_example :
  reachable Debug tpp4 tpk4 tsk4
  /\ update_v std_moves Debug tpp4 3 (str "a") (tsk4, vx_h0) = (Ok tt, vx3)
  /\ map sk_t (sec_ssk (fst vx3)) = [3; 6; 9]
  /\ map vx_times (freed (snd vx3)) = [[Some 1; Some 3]; [Some 1]] /\ vx_times (spare (snd vx3)) = [Some 9]
  /\ verify Debug (forge_from tpp4 (vx_hd (last (freed (snd vx3)) [])) (fst vx3) (str "m")) tpk4 tpp4 (str "m") = Ok true.
Proof.
  split; [exists tseed, tsk4, tpop4, []; split; [exact tkeygen|reflexivity]|].
  split; [vm_cast_no_check (eq_refl (@Ok unit tt, vx3))|]. split; [reflexivity|]. split; [reflexivity|]. split; [reflexivity|].
  vm_cast_no_check (eq_refl (@Ok bool true)).
Qed.

(** From [7; 8; 9] to 13, with an allocator that moves nothing: 13 is made from 9, the last sub key, and the slots
    that were given free by 7 and 8 still hold 9, from which all of it is found again: 13 is its second child. *)
Definition vx13 : seckey toy * heap toy := Eval vm_compute in snd (update_v std_stays Debug tpp4 13 (str "b") (tsk7, vx_h0)).
Definition vx_old : subkey toy := Eval vm_compute in recover_from 2 (vx_hd (skipn 1 (spare (snd vx13)))) (fst vx13).
Example C108_example_no_moves :
  update_v std_stays Debug tpp4 13 (str "b") (tsk7, vx_h0) = (Ok tt, vx13)
  /\ map sk_t (sec_ssk tsk7) = [7; 8; 9] /\ map sk_t (sec_ssk (fst vx13)) = [13]
  /\ vx_times (spare (snd vx13)) = [Some 13; Some 9] /\ freed (snd vx13) = []
  /\ node_at 4 9 [2] /\ node_at 4 13 ([2] ++ [2])
  /\ recover_from 2 (vx_hd (skipn 1 (spare (snd vx13)))) (fst vx13) = vx_old /\ nth_error (sec_ssk tsk7) 2 = Some vx_old.
Proof.
  split; [vm_cast_no_check (eq_refl (@Ok unit tt, vx13))|]. split; [reflexivity|]. split; [reflexivity|]. split; [reflexivity|].
  split; [reflexivity|]. split; [split; [lia|reflexivity]|]. split; [split; [lia|reflexivity]|].
  split; [vm_cast_no_check (eq_refl vx_old)|reflexivity].
Qed.

(** From [7; 8; 9] to 8 nothing of the past is left: the slot given free holds 9. *)
Definition vx8 : seckey toy * heap toy := Eval vm_compute in snd (update_v std_moves Debug tpp4 8 (str "b") (tsk7, vx_h0)).
Example C108_example_clean :
  update_v std_moves Debug tpp4 8 (str "b") (tsk7, vx_h0) = (Ok tt, vx8)
  /\ vx_times (spare (snd vx8)) = [Some 9] /\ freed (snd vx8) = [].
Proof. split; [vm_cast_no_check (eq_refl (@Ok unit tt, vx8))|]. split; reflexivity. Qed.
