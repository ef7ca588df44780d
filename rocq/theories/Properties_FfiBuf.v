(** Property C128: the memory of the secret keys that c_keygen and c_sk_update hand to C, and the assertion on its capacity
    (FfiBuf.v).  Specification vocabulary: SpecFfiBuf.v ([handed], [no_spare], [moved_out], [c_updates_b], [signs_as]),
    SpecBuf.v ([thrifty], [std_growth], [begins], [as_one]), SpecSer.v ([sk_blob]), SpecKey.v ([pp_ok]), SpecTime.v ([node_at]). *)
From Coq Require Import String.
From Verif Require Import Base Env Time SpecTime SubKey SecretKey Keys Sig IO Serdes Api Ffi
  SpecKey SpecUpdate SpecSer SerProps FfiProps BufMem SpecBuf FfiBuf SpecFfiBuf FfiBufProps Toy ToyRun WitSerProps.
Local Open Scope N_scope.

(** C128 *)
Theorem C128_keygen : forall (E : env) (L : env_laws E) P S (pp : pubparam E) seed fr,
  pp_ok pp -> (pp_depth pp <= 32)%nat ->
  match key_gen seed pp with
  | Ok (pk, sk, pop) => exists r new, handed P S sk (sk_blob true sk) r new
      /\ c_keygen_b P S pp seed fr = (let! skb := r in Ok (pk_blob true pk, skb, pop_blob true pop), new ++ fr)
  | _ => c_keygen_b P S pp seed fr = (Panic P_FFI, fr)
  end.
Proof. exact keygen_outcome. Qed.
Print Assumptions C128_keygen.
Theorem C128_update : forall (E : env) P S m (pp : pubparam E) skb seed t fr,
  exists new, snd (c_sk_update_b P S m pp skb seed t fr) = new ++ fr
  /\ match c_sk_update m pp skb seed t with
     | Ok b => exists k : seckey E, b = sk_blob true k /\ handed P S k b (fst (c_sk_update_b P S m pp skb seed t fr)) new
     | r => fst (c_sk_update_b P S m pp skb seed t fr) = r
     end.
Proof. exact update_outcome. Qed.
Print Assumptions C128_update.
Theorem C128_std_no_panic : forall (E : env) (L : env_laws E) P S m m' (pp : pubparam E) pk sk kseed seed t fr,
  pp_ok pp -> (pp_depth pp <= 32)%nat -> thrifty P -> reachable m pp pk sk ->
  fst (c_keygen_b P S pp kseed fr) = c_keygen pp kseed
  /\ fst (c_sk_update_b P S m' pp (sk_blob true sk) seed t fr) = c_sk_update m' pp (sk_blob true sk) seed t.
Proof. exact std_same. Qed.
Print Assumptions C128_std_no_panic.
Theorem C128_wiping_no_help : forall (E : env) (L : env_laws E) P S m (pp : pubparam E) seed pkb skb popb l bs fr fr1 fr',
  pp_ok pp -> (pp_depth pp <= 32)%nat -> thrifty P -> (forall n, bmoved P n = true) ->
  c_keygen_b P S pp seed fr = (Ok (pkb, skb, popb), fr1) -> c_updates_b P S m pp l skb fr1 = (Ok bs, fr') ->
  forall b, In b bs -> exists k : seckey E, from_slice (sk_deserialize true) b = Ok k
    /\ forall v, node_at (pp_depth pp) (sec_time k) v -> In 1 v -> exists x, In x fr' /\ signs_as pp pkb b (sec_time k) x.
Proof. exact wiping_no_help. Qed.
Print Assumptions C128_wiping_no_help.

(** std's growth and an allocator that moves blocks: a key is made and moved to the leaf [1; 1; 1] of time 4.  The caller
    gets the bytes of the two keys.  They may wipe both; among the freed blocks there is one of 311 bytes, which signs at time 4. *)
Definition fmv : bpolicy := std_growth (fun _ => true).
Definition fs0 : spolicy := SPolicy (fun _ n => n) (fun _ _ => false).
Definition fblob4 : bytes := Eval vm_compute in sk_blob true tsk4.
Definition fblob4l : bytes := Eval vm_compute in sk_blob true tsk4l.
Definition fpkb : bytes := Eval vm_compute in pk_blob true tpk4.
Definition fpopb : bytes := Eval vm_compute in pop_blob true tpop4.
Definition ffr1 : list bytes := Eval vm_compute in snd (sk_to_vec_b fmv tsk4 []).
Definition ffr2 : list bytes := Eval vm_compute in snd (sk_to_vec_b fmv tsk4l ffr1).
Definition fblk : bytes := Eval vm_compute in nth 12 ffr2 [].
Definition fsig : bytes := Eval vm_compute in get [] (c_sign_present Debug tpp4 (as_one fblk) (str "hello") 4).
Lemma fkeygen P S fr : c_keygen_b P S tpp4 tseed fr
  = let (r, fr') := (do! v <- sk_to_vec_b P tsk4; give_out S v) fr in (let! skb := r in Ok (fpkb, skb, fpopb), fr').
Proof.
  rewrite (keygen_b_eq toy_laws) by (try exact tpp4_ok; cbn; lia). rewrite tkeygen.
  replace (pk_blob true tpk4) with fpkb by (vm_cast_no_check (eq_refl fpkb)). replace (pop_blob true tpop4) with fpopb by (vm_cast_no_check (eq_refl fpopb)). reflexivity.
Qed.
Lemma fupdate P S fr : c_sk_update_b P S Debug tpp4 fblob4 (str "a") 4 fr = (do! v <- sk_to_vec_b P tsk4l; give_out S v) fr.
Proof.
  rewrite update_b_eq. replace fblob4 with (sk_blob true tsk4) by (vm_cast_no_check (eq_refl fblob4)).
  rewrite (slice_sk toy_laws) by (apply (reachable_sk_representable toy toy_laws Debug tpp4 tpk4 tsk4 tpp4_ok); [cbn; lia|exact tsk4_reachable]).
  cbn [or_panic bind]. unfold run_mut. rewrite tsk4l_ok. reflexivity.
Qed.
Example C128_example :
  pp_ok tpp4 /\ thrifty fmv /\ (forall n, bmoved fmv n = true)
  /\ c_keygen_b fmv fs0 tpp4 tseed [] = (Ok (fpkb, fblob4, fpopb), ffr1)
  /\ c_updates_b fmv fs0 Debug tpp4 [(4, str "a")] fblob4 ffr1 = (Ok [fblob4; fblob4l], ffr2)
  /\ sec_time tsk4l = 4 /\ node_at 4 4 [1; 1; 1]
  /\ map (@length N) ffr1 = [66; 245; 149; 53; 5; 4; 2; 1]%nat /\ length fblob4l = 1334%nat
  /\ In fblk ffr2 /\ length fblk = 311%nat
  /\ c_sign_present Debug tpp4 (as_one fblk) (str "hello") 4 = Ok fsig /\ c_sign_present Debug tpp4 fblob4l (str "hello") 4 = Ok fsig
  /\ c_verify Debug tpp4 fpkb (str "hello") fsig = Ok true.
Proof.
  split; [exact tpp4_ok|]. split; [intros c n; apply Nat.le_refl|]. split; [reflexivity|].
  split; [rewrite fkeygen; vm_cast_no_check (eq_refl (@Ok (bytes * bytes * bytes) (fpkb, fblob4, fpopb), ffr1))|].
  split; [cbn [c_updates_b]; unfold sbind at 1; rewrite fupdate; vm_cast_no_check (eq_refl (@Ok (list bytes) [fblob4; fblob4l], ffr2))|].
  split; [reflexivity|]. split; [split; [lia|reflexivity]|]. split; [reflexivity|]. split; [reflexivity|].
  split; [apply (nth_In ffr2 [] (n := 12)); cbn; lia|]. split; [reflexivity|].
  split; [vm_cast_no_check (eq_refl (@Ok bytes fsig))|]. split; [vm_cast_no_check (eq_refl (@Ok bytes fsig))|].
  vm_cast_no_check (eq_refl (@Ok bool true)).
Qed.
(** Other allocators, which take blocks of a hundred bytes more than asked for.  If shrink_to_fit can not give them back, the
    assertion fails and the whole key lies in a freed block.  If it moves the key into another block, the call returns, and
    the whole key lies in a freed block too.  If it shrinks in place, nothing is left. *)
Definition fgen : bpolicy := BPolicy (fun _ n => n + 100)%nat (fun _ => false).
Example C128_example_shrink :
  ~ no_spare fgen (SPolicy (fun c _ => c) (fun _ _ => false)) (length fblob4)
  /\ c_keygen_b fgen (SPolicy (fun c _ => c) (fun _ _ => false)) tpp4 tseed [] = (Panic P_FFI, [fblob4])
  /\ moved_out fgen (SPolicy (fun _ n => n) (fun _ _ => true)) (length fblob4)
  /\ c_keygen_b fgen (SPolicy (fun _ n => n) (fun _ _ => true)) tpp4 tseed [] = (Ok (fpkb, fblob4, fpopb), [fblob4])
  /\ c_sk_update_b fgen (SPolicy (fun c _ => c) (fun _ _ => false)) Debug tpp4 fblob4 (str "a") 4 [] = (Panic P_FFI, [fblob4l])
  /\ c_sk_update_b fgen (SPolicy (fun _ n => n) (fun _ _ => true)) Debug tpp4 fblob4 (str "a") 4 [] = (Ok fblob4l, [fblob4l])
  /\ c_sk_update_b fgen fs0 Debug tpp4 fblob4 (str "a") 4 [] = (Ok fblob4l, []).
Proof.
  split; [unfold no_spare; cbn [fgen bgrow sfit]; lia|]. rewrite !fkeygen, !fupdate.
  split; [vm_cast_no_check (eq_refl (@Panic (bytes * bytes * bytes) P_FFI, [fblob4]))|].
  split; [split; [cbn [fgen bgrow]; lia|reflexivity]|].
  split; [vm_cast_no_check (eq_refl (@Ok (bytes * bytes * bytes) (fpkb, fblob4, fpopb), [fblob4]))|].
  split; [vm_cast_no_check (eq_refl (@Panic bytes P_FFI, [fblob4l]))|].
  split; [vm_cast_no_check (eq_refl (@Ok bytes fblob4l, [fblob4l]))|vm_cast_no_check (eq_refl (@Ok bytes fblob4l, @nil bytes))].
Qed.
