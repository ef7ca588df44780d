(** Concrete keys in the toy environment, used by the examples next to the theorems. *)
From Coq Require Import String.
From Verif Require Import Base Env Time Hkdf Prng SubKey SecretKey Keys Sig IO Serdes Api Ffi SpecKey
  SpecSer Sha512 Toy.
Local Open Scope N_scope.

(** Parameters: h and h_0..h_d from the toy hash. *)
Definition tpp (d : nat) (cs : N) : pubparam toy :=
  @PubParam toy d cs toy_one (toy_hash (str "h") [])
    (map (fun i => toy_hash (str "hlist") [N.of_nat i]) (seq 0 (d + 1))).

Lemma tpp_ok d cs : (1 <= d < 64)%nat -> pp_ok (tpp d cs).
Proof.
  intros Hd. constructor; cbn [tpp pp_depth pp_hlist pp_h pp_g2].
  - exact Hd.
  - rewrite map_length, seq_length. lia.
  - apply Forall_map, Forall_forall. intros i _. apply toy_hash_sub.
  - apply toy_hash_sub.
  - exact toy_one_sub.
Qed.

Definition tseed : bytes := str "this is a very long seed for pixel tests".

(** The value in a result known to be Ok. *)
Definition get {A} (d : A) (r : res A) : A := match r with Ok a => a | _ => d end.
Lemma get_ok {A} (d : A) r : is_ok r = true -> r = Ok (get d r).
Proof. destruct r; [reflexivity|discriminate|discriminate]. Qed.
Definition fst3 {A B C} (x : A * B * C) : A := fst (fst x).
Definition snd3 {A B C} (x : A * B * C) : B := snd (fst x).

Definition tdflt : pubkey toy * seckey toy * proof toy :=
  (@PubKey toy 0 (mk r2 0), SecKey 0 0 [] [], @Pop toy 0 (mk r1 0)).
Definition tkg (d : nat) (cs : N) (seed : bytes) := get tdflt (key_gen seed (tpp d cs)).
Definition tpk d cs seed := fst3 (tkg d cs seed).
Definition tsk d cs seed := snd3 (tkg d cs seed).
Definition tpop d cs seed := snd (tkg d cs seed).

Lemma tkg_ok d cs seed : is_ok (key_gen seed (tpp d cs)) = true ->
  key_gen seed (tpp d cs) = Ok (tpk d cs seed, tsk d cs seed, tpop d cs seed).
Proof.
  intros H. rewrite (get_ok tdflt _ H). unfold tpk, tsk, tpop, tkg, fst3, snd3.
  destruct (get tdflt (key_gen seed (tpp d cs))) as [[? ?] ?]. reflexivity.
Qed.

(** Depth 4, evaluated. *)
Definition tpp4 : pubparam toy := Eval vm_compute in tpp 4 0.
Lemma tpp4_eq : tpp4 = tpp 4 0.
Proof. vm_cast_no_check (eq_refl tpp4). Qed.
Lemma tpp4_ok : pp_ok tpp4.
Proof. rewrite tpp4_eq. apply tpp_ok. lia. Qed.
Definition tkg4 : pubkey toy * seckey toy * proof toy := Eval vm_compute in get tdflt (key_gen tseed tpp4).
Definition tpk4 : pubkey toy := Eval cbv beta iota delta [fst3 fst snd tkg4] in fst3 tkg4.
Definition tsk4 : seckey toy := Eval cbv beta iota delta [snd3 fst snd tkg4] in snd3 tkg4.
Definition tpop4 : proof toy := Eval cbv beta iota delta [fst snd tkg4] in snd tkg4.
Lemma tkeygen : key_gen tseed tpp4 = Ok (tpk4, tsk4, tpop4).
Proof. vm_cast_no_check (eq_refl (Ok (tpk4, tsk4, tpop4))). Qed.

(** A key with some history: updated, signed, saved. *)
Definition thist : list op :=
  [OpUpdate 3 (str "seed1"); OpSign 6 (str "hello") (str "seed2"); OpSignPresent 6 (str "again");
   OpUpdate 2 []; OpReload true; OpSignThenUpdate 6 (str "bye") (str "seed3")].
Definition trun : list (res (option (signature toy))) * seckey toy := Eval vm_compute in run Debug tpp4 thist tsk4.
Definition tres : list (res (option (signature toy))) := Eval cbv beta iota delta [fst snd trun] in fst trun.
Definition tsk7 : seckey toy := Eval cbv beta iota delta [fst snd trun] in snd trun.
Lemma trun_ok : run Debug tpp4 thist tsk4 = (tres, tsk7).
Proof. vm_cast_no_check (eq_refl (tres, tsk7)). Qed.

Example thist_results : map is_ok tres = [true; true; true; false; true; true].
Proof. reflexivity. Qed.
Example tsk7_time : sec_time tsk7 = 7 /\ map sk_t (sec_ssk tsk7) = [7; 8; 9].
Proof. split; reflexivity. Qed.
Lemma tsk7_reachable : reachable Debug tpp4 tpk4 tsk7.
Proof.
  exists tseed, tsk4, tpop4, thist. split; [exact tkeygen|]. rewrite trun_ok. reflexivity.
Qed.

(** A blank sub key, signature, for malformed objects. *)
Definition tssk (t : N) (n : nat) : subkey toy :=
  @SubKey toy t (mk r2 0) (mk r1 0) (repeat (mk r1 0) n).

(** More updates: to the leftmost leaf, inside the right subtree, and to time 9 by two
    ways. *)
Definition upd_of (t : N) (seed : bytes) (sk : seckey toy) : seckey toy := snd (update Debug tpp4 t seed sk).
Definition tsk4l : seckey toy := Eval vm_compute in upd_of 4 (str "a") tsk4.
Definition tsk12 : seckey toy := Eval vm_compute in upd_of 12 (str "b") tsk7.
Definition tsk9a : seckey toy := Eval vm_compute in upd_of 9 (str "c") tsk4.
Definition tsk9b : seckey toy := Eval vm_compute in upd_of 9 (str "c") tsk7.
Lemma tsk4l_ok : update Debug tpp4 4 (str "a") tsk4 = (Ok tt, tsk4l).
Proof. vm_cast_no_check (eq_refl (@Ok unit tt, tsk4l)). Qed.
Lemma tsk12_ok : update Debug tpp4 12 (str "b") tsk7 = (Ok tt, tsk12).
Proof. vm_cast_no_check (eq_refl (@Ok unit tt, tsk12)). Qed.
Lemma tsk9a_ok : update Debug tpp4 9 (str "c") tsk4 = (Ok tt, tsk9a).
Proof. vm_cast_no_check (eq_refl (@Ok unit tt, tsk9a)). Qed.
Lemma tsk9b_ok : update Debug tpp4 9 (str "c") tsk7 = (Ok tt, tsk9b).
Proof. vm_cast_no_check (eq_refl (@Ok unit tt, tsk9b)). Qed.
Lemma tsk4_reachable : reachable Debug tpp4 tpk4 tsk4.
Proof. exists tseed, tsk4, tpop4, []. split; [exact tkeygen|reflexivity]. Qed.
Lemma reachable_update (sk sk' : seckey toy) t seed :
  reachable Debug tpp4 tpk4 sk -> update Debug tpp4 t seed sk = (Ok tt, sk') -> reachable Debug tpp4 tpk4 sk'.
Proof.
  intros Hr Hu. replace sk' with (snd (run Debug tpp4 [OpUpdate t seed] sk)).
  - destruct Hr as (s & sk0 & pop & ops & Hk & Hs). exists s, sk0, pop, (ops ++ [OpUpdate t seed]). split; [exact Hk|].
    rewrite <- Hs. clear. revert sk0. induction ops as [|o ops IH]; intros sk0; [reflexivity|].
    cbn [app run]. destruct (step Debug tpp4 o sk0) as [r s1]. specialize (IH s1).
    destruct (run Debug tpp4 (ops ++ _) s1) as [? ?]. destruct (run Debug tpp4 ops s1) as [? ?]. exact IH.
  - cbn [run step]. unfold sbind. rewrite Hu. reflexivity.
Qed.
