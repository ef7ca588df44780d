(** Property C114: what reading a key leaves in memory (ReadMem.v), and what it is good for after an update.
    Specification vocabulary: SpecRead.v ([outgrown], [undo]), SpecVec.v ([caps], [forge_from]),
    SpecSer.v ([ssk_blob], [wf_ssk]), SpecKey.v ([pp_ok]), SpecTime.v ([node_at]). *)
From Coq Require Import String.
From Verif Require Import Base Env Time SpecTime Prng SubKey SecretKey Keys Sig IO Serdes Api
  SpecKey SpecUpdate SpecSer SpecHyg VecMem SpecVec ReadMem ReadProps Toy ToyRun WitSerProps SpecRead.
Local Open Scope N_scope.

(** C114 *)
Theorem C114_same_result : forall (E : env) (P Q : policy) c r (fr : list (old_block E)),
  exists fr', sk_deserialize_m P Q c (r, fr) = (fst (sk_deserialize c r), (snd (sk_deserialize (E := E) c r), fr')).
Proof. exact read_same_result. Qed.
Print Assumptions C114_same_result.

Theorem C114_what_is_left : forall (E : env) (P Q : policy) c r r' (fr : list (old_block E)) sk,
  sk_deserialize c r = (Ok sk, r') ->
  exists nw, sk_deserialize_m P Q c (r, fr) = (Ok sk, (r', nw ++ fr))
    /\ forall b, In b nw <->
         (exists s l, In s (sec_ssk sk) /\ b = OldPoints l /\ outgrown P l (sk_hvec s))
         \/ (exists l, b = OldKeys (map head_of l) /\ outgrown Q l (sec_ssk sk)).
Proof. exact read_leaves. Qed.
Print Assumptions C114_what_is_left.

Theorem C114_cut : forall (E : env) (L : env_laws E) (P : policy) c (x : subkey E) j i fr,
  wf_ssk x -> (j < length (sk_hvec x))%nat -> (i < g1_size c)%nat ->
  exists fr', ssk_deserialize_m P c (rpush (firstn (5 + g2_size c + (1 + j) * g1_size c + i) (ssk_blob c x)) [], fr)
    = (Err E_IO, ([], OldPoints (firstn j (sk_hvec x)) :: fr')).
Proof. exact read_cut_leaves. Qed.
Print Assumptions C114_cut.

Theorem C114_past_signed : forall (E : env) (L : env_laws E) (P Q : policy) c r r' m m' (pp : pubparam E) pk tar seed sk sk' fr i s k,
  pp_ok pp -> reachable m pp pk sk -> sk_deserialize_m P Q c (r, []) = (Ok sk, (r', fr)) ->
  update m' pp tar seed sk = (Ok tt, sk') ->
  nth_error (sec_ssk sk) i = Some s -> sk_t s < tar -> (forall s', In s' (sec_ssk sk) -> ~ (sk_t s < sk_t s' <= tar)) ->
  (i < caps Q 0 k < length (sec_ssk sk))%nat -> moved Q (caps Q 0 k) = true ->
  exists l hd, In (OldKeys l) fr /\ In hd l /\ hd_t hd < tar
    /\ forall m'' msg, verify m'' (forge_from pp hd sk' msg) pk pp msg = Ok true.
Proof. exact read_then_signs. Qed.
Print Assumptions C114_past_signed.

Theorem C114_past_recovered : forall (E : env) (L : env_laws E) (P Q : policy) c r r' m m' (pp : pubparam E) pk tar seed sk sk' fr s k v w,
  pp_ok pp -> reachable m pp pk sk -> sk_deserialize_m P Q c (r, []) = (Ok sk, (r', fr)) ->
  update m' pp tar seed sk = (Ok tt, sk') ->
  In s (sec_ssk sk) -> sk_t s < tar -> (forall s', In s' (sec_ssk sk) -> ~ (sk_t s < sk_t s' <= tar)) ->
  node_at (pp_depth pp) (sk_t s) v -> node_at (pp_depth pp) tar (v ++ w) ->
  (length w <= caps P 0 k < length (sk_hvec s))%nat -> moved P (caps P 0 k) = true ->
  exists l, In (OldPoints l) fr /\ undo (sk_t s) w l sk' = s.
Proof. exact read_then_recovers. Qed.
Print Assumptions C114_past_recovered.

(** In particular with the growth of std, for a child. *)
Theorem C114_child_std : forall (E : env) (L : env_laws E) (Q : policy) c r r' m m' (pp : pubparam E) pk tar seed sk sk' fr s v b,
  pp_ok pp -> reachable m pp pk sk -> sk_deserialize_m (std4 (fun _ => true)) Q c (r, []) = (Ok sk, (r', fr)) ->
  update m' pp tar seed sk = (Ok tt, sk') ->
  In s (sec_ssk sk) -> sk_t s < tar -> (forall s', In s' (sec_ssk sk) -> ~ (sk_t s < sk_t s' <= tar)) ->
  node_at (pp_depth pp) (sk_t s) v -> node_at (pp_depth pp) tar (v ++ [b]) -> (length v + 4 < pp_depth pp)%nat ->
  exists l, In (OldPoints l) fr /\ undo (sk_t s) [b] l sk' = s.
Proof. exact read_then_child. Qed.
Print Assumptions C114_child_std.

(** The key [7; 8; 9] is read back.  Its h-vectors have 1, 1 and 3 points; the blocks that the third and the Vec
    of sub keys have outgrown are left.  After the update to 10 the sub key for 9 is found again: 10 is its first child. *)
Definition rx : list (old_block toy) :=
  Eval vm_compute in snd (snd (@sk_deserialize_m toy std_moves std_moves true (rpush tblob7 [], []))).
Definition rx10 : seckey toy := Eval vm_compute in snd (update Debug tpp4 10 (str "b") tsk7).
Definition rx_size (b : old_block toy) : nat + list N :=
  match b with OldPoints l => inl (length l) | OldKeys l => inr (map hd_t l) end.
Definition rx_points (b : old_block toy) : list (G1 toy) := match b with OldPoints l => l | OldKeys _ => [] end.
Example C114_example :
  reachable Debug tpp4 tpk4 tsk7 /\ map (fun s => (sk_t s, length (sk_hvec s))) (sec_ssk tsk7) = [(7, 1%nat); (8, 1%nat); (9, 3%nat)]
  /\ sk_deserialize_m std_moves std_moves true (rpush tblob7 [], []) = (Ok tsk7, ([], rx))
  /\ map rx_size rx = [inr [7; 8]; inl 2%nat; inl 1%nat; inr [7]]
  /\ update Debug tpp4 10 (str "b") tsk7 = (Ok tt, rx10)
  /\ node_at 4 9 [2] /\ node_at 4 10 ([2] ++ [1]) /\ caps std_moves 0 1 = 1%nat
  /\ nth_error (sec_ssk tsk7) 2 = Some (undo 9 [1] (rx_points (nth 2 rx (OldKeys []))) rx10).
Proof.
  split; [exact tsk7_reachable|]. split; [reflexivity|].
  split; [vm_cast_no_check (eq_refl (@Ok (seckey toy) tsk7, (@nil revent, rx)))|]. split; [reflexivity|].
  split; [vm_cast_no_check (eq_refl (@Ok unit tt, rx10))|]. split; [split; [lia|reflexivity]|]. split; [split; [lia|reflexivity]|].
  split; [reflexivity|]. vm_cast_no_check (eq_refl (nth_error (sec_ssk tsk7) 2)).
Qed.

(** The key [3; 6; 9] is read back and updated to 4: a signature for time 3 is made from an old block. *)
Definition rx3 : seckey toy := Eval vm_compute in snd (update Debug tpp4 3 (str "a") tsk4).
Definition rx4 : seckey toy := Eval vm_compute in snd (update Debug tpp4 4 (str "a") rx3).
Definition rxb : bytes := Eval vm_compute in sk_blob true rx3.
Definition rx' : list (old_block toy) :=
  Eval vm_compute in snd (snd (@sk_deserialize_m toy std_moves std_moves true (rpush rxb [], []))).
Definition rx_hd (b : old_block toy) : head toy :=
  match b with OldKeys (h :: _) => h | _ => @Head toy 0 (mk r2 0) (mk r1 0) end.
Example C114_example_signs :
  update Debug tpp4 3 (str "a") tsk4 = (Ok tt, rx3) /\ update Debug tpp4 4 (str "a") rx3 = (Ok tt, rx4)
  /\ map sk_t (sec_ssk rx3) = [3; 6; 9] /\ map sk_t (sec_ssk rx4) = [4; 5; 6; 9]
  /\ sk_deserialize_m std_moves std_moves true (rpush rxb [], []) = (Ok rx3, ([], rx'))
  /\ map rx_size rx' = [inr [3; 6]; inl 2%nat; inl 1%nat; inr [3]; inl 1%nat; inl 1%nat]
  /\ hd_t (rx_hd (nth 0 rx' (OldKeys []))) = 3
  /\ verify Debug (forge_from tpp4 (rx_hd (nth 0 rx' (OldKeys []))) rx4 (str "m")) tpk4 tpp4 (str "m") = Ok true.
Proof.
  split; [vm_cast_no_check (eq_refl (@Ok unit tt, rx3))|]. split; [vm_cast_no_check (eq_refl (@Ok unit tt, rx4))|].
  split; [reflexivity|]. split; [reflexivity|].
  split; [vm_cast_no_check (eq_refl (@Ok (seckey toy) rx3, (@nil revent, rx')))|].
  split; [reflexivity|]. split; [reflexivity|].
  vm_cast_no_check (eq_refl (@Ok bool true)).
Qed.

(** A blob that ends within the second point of the last vector: the first point is left. *)
Definition rx_cut : list (old_block toy) :=
  Eval vm_compute in snd (snd (@sk_deserialize_m toy std_moves std_moves true (rpush (firstn (length tblob7 - 100) tblob7) [], []))).
Example C114_example_cut :
  sk_deserialize_m std_moves std_moves true (rpush (firstn (length tblob7 - 100) tblob7) [], []) = (Err E_IO, ([], rx_cut))
  /\ map rx_size rx_cut = [inl 1%nat; inr [7]]
  /\ sk_deserialize_m (E := toy) std_stays std_stays true (rpush tblob7 [], []) = (Ok tsk7, ([], [])).
Proof.
  split; [vm_cast_no_check (eq_refl (@Err (seckey toy) E_IO, (@nil revent, rx_cut)))|]. split; [reflexivity|].
  vm_cast_no_check (eq_refl (@Ok (seckey toy) tsk7, (@nil revent, @nil (old_block toy)))).
Qed.
