(** Property C118: several objects in one stream.
    Specification vocabulary: SpecMix.v ([item], [kind], [fits], [blobs], [write_items], [read_items]),
    SpecSer.v (formats, [calm], [content], [appends], [willing]). *)
From Coq Require Import String.
From Verif Require Import Base Env Time SubKey SecretKey Keys Sig IO Serdes Api SpecKey SpecSer MixProps Toy ToyRun WitProps WitSigProps WitSerProps Properties_Ser SpecMix.
Local Open Scope N_scope.

(** C118 *)
Theorem C118_read : forall (E : env) (L : env_laws E) (l : list (item E)) r rest, Forall fits l -> calm r -> content r = blobs l ++ rest ->
  exists r', read_items (map kind_of l) r = (Ok l, r') /\ calm r' /\ content r' = rest.
Proof. exact stream_read. Qed.
Print Assumptions C118_read.
Theorem C118_cut : forall (E : env) (L : env_laws E) (l : list (item E)) (i : item E) n r,
  Forall fits l -> fits i -> calm r -> (n < length (item_blob i))%nat -> content r = blobs l ++ firstn n (item_blob i) ->
  exists r' e r'', read_items (map kind_of l) r = (Ok l, r') /\ @read_item E (kind_of i) r' = (Err e, r'').
Proof. exact stream_cut. Qed.
Print Assumptions C118_cut.
Theorem C118_self_delimiting : forall (E : env) (L : env_laws E) (x y : item E) r r',
  fits x -> fits y -> kind_of x = kind_of y -> item_blob x ++ r = item_blob y ++ r' -> x = y /\ r = r'.
Proof. exact self_delimiting. Qed.
Print Assumptions C118_self_delimiting.
Theorem C118_written : forall (E : env) (l : list (item E)), Forall fits l ->
  appends (write_items l) (blobs l) /\ forall w, willing w -> fst (write_items l w) = Ok tt.
Proof. exact stream_written. Qed.
Print Assumptions C118_written.
Theorem C118_recovered : forall (E : env) (L : env_laws E) (l : list (item E)) script x w' r,
  Forall fits l -> write_items l (Writer [] script) = (x, w') -> calm r -> content r = w_out w' ->
  x = Ok tt /\ (exists r', read_items (map kind_of l) r = (Ok l, r') /\ content r' = [])
  \/ x = Err E_IO /\ (exists l1 i l2 r' e r'', l = l1 ++ i :: l2 /\ read_items (map kind_of l1) r = (Ok l1, r')
                     /\ @read_item E (kind_of i) r' = (Err e, r'')).
Proof. exact stream_recovered. Qed.
Print Assumptions C118_recovered.

(** A public key, a proof of possession in uncompressed form, a secret key and a signature. *)
Definition mx : list (item toy) := [IPk true tpk4; IPop false tpop4; ISk true tsk7; ISig tsig7].
Example C118_example_fits : Forall fits mx /\ calm [RData (firstn 60 (blobs mx)); RData (skipn 60 (blobs mx))]
  /\ length (item_blob (IPk true tpk4)) = 49%nat /\ length (item_blob (IPop false tpop4)) = 193%nat /\ kind_of (ISig tsig7) = KSig.
Proof.
  destruct (C31_keygen_representable toy toy_laws tpp4 tseed tpk4 tsk4 tpop4 tpp4_ok tkeygen) as [H1 H2].
  split.
  - constructor; [exact H1|]. constructor; [exact H2|]. constructor; [exact tsk7_wf|]. constructor; [|constructor].
    refine (C29_signatures_representable toy toy_laws Debug tpp4 tpk4 tsk7 (OpSignPresent 7 (str "hello")) tsig7 tsk7 tpp4_ok _ tsk7_reachable (proj1 C29_example)).
    vm_compute; repeat constructor.
  - split; [|split; [vm_cast_no_check (eq_refl 49%nat)|split; [vm_cast_no_check (eq_refl 193%nat)|reflexivity]]].
    constructor; [eexists; split; [|reflexivity]; intros H; discriminate H|]. constructor; [eexists; split; [|reflexivity]; intros H; apply (f_equal (@length N)) in H; rewrite skipn_length in H|constructor].
    assert (Hb : (60 <? length (blobs mx))%nat = true) by vm_cast_no_check (eq_refl true). apply Nat.ltb_lt in Hb.
    change (length (@nil N)) with 0%nat in H. apply Nat.sub_0_le in H. exact (Nat.lt_irrefl _ (Nat.lt_le_trans _ _ _ Hb H)).
Qed.

(** A disk that is full after 400 bytes: the public key and the proof are read again, the secret key is not. *)
Definition mxf : writer := snd (write_items mx (Writer [] [WAccept 30; WIntr; WAccept 370; WAccept 200; WFail])).
Example C118_example_full_disk :
  fst (write_items mx (Writer [] [WAccept 30; WIntr; WAccept 370; WAccept 200; WFail])) = Err E_IO
  /\ fst (read_items (map kind_of (firstn 2 mx)) [RData (w_out mxf)]) = Ok (firstn 2 mx)
  /\ is_ok (fst (@read_items toy (map kind_of (firstn 3 mx)) [RData (w_out mxf)])) = false
  /\ fst (read_items (map kind_of mx) [RData (firstn 60 (blobs mx)); RData (skipn 60 (blobs mx))]) = Ok mx.
Proof.
  split; [vm_cast_no_check (eq_refl (@Err unit E_IO))|].
  split; [vm_cast_no_check (@eq_refl (res (list (item toy))) (Ok (firstn 2 mx)))|]. split; [vm_cast_no_check (eq_refl false)|].
  vm_cast_no_check (@eq_refl (res (list (item toy))) (Ok mx)).
Qed.
