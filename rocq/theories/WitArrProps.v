(** Concrete values for Properties_Arr.v. *)
From Verif Require Import Base Env Time SubKey SecretKey Keys Sig IO Serdes Api Ffi FfiMem Programs SpecArr Toy ToyRun WitProps.
Local Open Scope N_scope.

(** The caller's memory: a seed and a message; two key generations with parts of the seed. *)
Definition am0 : mem := [SEED; MSG].
Definition akg (n : nat) (mm : mem) : bytes * pixel_sk * bytes * mem :=
  match exec Debug tpp4 (CKeygen (0, 0)%nat n) mm with
  | Some (Ok (RKeys pk k pop), mm') => (pk, k, pop, mm')
  | _ => ([], PixelSk (0, 0)%nat 0, [], [])
  end.
Definition ak1 := Eval vm_compute in akg 40 am0.
Definition am1 : mem := Eval vm_compute in snd ak1.
Definition ak2 := Eval vm_compute in akg 39 am1.
Definition am2 : mem := Eval vm_compute in snd ak2.
Definition asg (k : pixel_sk) : bytes :=
  match exec Debug tpp4 (CSign k (1, 0)%nat 41 1) am2 with Some (Ok (RSig s), _) => s | _ => [] end.
Definition apk1 : bytes := Eval vm_compute in fst (fst (fst ak1)).
Definition apk2 : bytes := Eval vm_compute in fst (fst (fst ak2)).
Definition apop1 : bytes := Eval vm_compute in snd (fst ak1).
Definition apop2 : bytes := Eval vm_compute in snd (fst ak2).
Definition asl1 : nat := Eval vm_compute in ps_len (snd (fst (fst ak1))).
Definition ask1 : pixel_sk := PixelSk (2, 0)%nat asl1.
Definition ask2 : pixel_sk := PixelSk (3, 0)%nat asl1.
Definition asig1 : bytes := Eval vm_compute in asg ask1.
Definition asig2 : bytes := Eval vm_compute in asg ask2.
(** The caller puts the signatures and the public keys into arrays. *)
Definition am3 : mem := Eval vm_compute in am2 ++ [concat [asig1; asig2]] ++ [concat [apk1; apk2]].
Definition aagg : bytes := Eval vm_compute in
  match exec Debug tpp4 (CAggregate (4, 0)%nat 2) am3 with Some (Ok (RSig s), _) => s | _ => [] end.
Definition aver : bool := Eval vm_compute in
  match exec Debug tpp4 (CVerifyAgg (5, 0)%nat 2 (1, 0)%nat 41 aagg) am3 with Some (Ok (RBool b), _) => b | _ => false end.
Definition asw : bool := Eval vm_compute in
  match exec Debug tpp4 (CVerifyAgg (5, 0)%nat 1 (1, 0)%nat 41 aagg) am3 with Some (Ok (RBool b), _) => b | _ => true end.
Lemma am1_ok : exec Debug tpp4 (CKeygen (0, 0)%nat 40) am0 = Some (Ok (RKeys apk1 ask1 apop1), am1).
Proof. vm_cast_no_check (eq_refl (Some (Ok (RKeys apk1 ask1 apop1), am1))). Qed.
Lemma am2_ok : exec Debug tpp4 (CKeygen (0, 0)%nat 39) am1 = Some (Ok (RKeys apk2 ask2 apop2), am2).
Proof. vm_cast_no_check (eq_refl (Some (Ok (RKeys apk2 ask2 apop2), am2))). Qed.
(** The first key is kept during the second key generation. *)
Lemma ask1_held : held Debug tpp4 apk1 ask1 1 am2.
Proof.
  apply (held_step _ _ _ _ _ (SCall (CKeygen (0, 0)%nat 39)) am1); [|cbn [cstep_exec]; rewrite am2_ok; reflexivity|exact I].
  exact (held_keygen _ _ _ _ _ _ _ _ _ am1_ok).
Qed.
Lemma ask2_held : held Debug tpp4 apk2 ask2 1 am2.
Proof. exact (held_keygen _ _ _ _ _ _ _ _ _ am2_ok). Qed.
