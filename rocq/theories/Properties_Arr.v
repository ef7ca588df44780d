(** C101: keys and arrays in the memory of the C interface.  Statements use SpecArr.v
    ([held]: a key the C program obtained and has not written to; [elements]: the elements
    of an array; [same_ret]: equal up to the block of a new key) and SpecMem.v ([buffers]).
    The functions [exec], [load] are the model of the C calls over memory (FfiMem.v). *)
From Verif Require Import Base Env Time SubKey SecretKey Keys Sig IO Serdes Api Ffi FfiMem Programs
  SpecKey SpecMem SpecArr KeyProps ArrProps Toy ToyRun WitProps WitArrProps.
Local Open Scope N_scope.

(** C101 *)
Theorem C101_array_calls : forall (E : env) m (pp : pubparam E) mm p,
  (forall l, elements mm p 149 l ->
     exec m pp (CAggregate p (length l)) mm = Some (let! s := @c_aggregation E l in Ok (RSig s), mm))
  /\ (forall l q n msg sig, elements mm p 49 l -> load mm q n = Some msg ->
     exec m pp (CVerifyAgg p (length l) q n sig) mm = Some (let! r := c_verify_agg m pp l msg sig in Ok (RBool r), mm)).
Proof. exact array_calls. Qed.
Print Assumptions C101_array_calls.
Theorem C101_array_made : forall mm k l, Forall (fun b => length b = k) l -> elements (mm ++ [concat l]) (length mm, 0%nat) k l.
Proof. exact array_made. Qed.
Print Assumptions C101_array_made.
Theorem C101_held_key_signs : forall (E : env) (L : env_laws E) m (pp : pubparam E) pkb k t mm p n msg,
  pp_ok pp -> (pp_depth pp <= 32)%nat -> held m pp pkb k t mm -> load mm p n = Some msg ->
  (exists sig, exec m pp (CSign k p n t) mm = Some (Ok (RSig sig), mm) /\ length sig = 149%nat
     /\ forall mm' p' n', load mm' p' n' = Some msg -> exec m pp (CVerify pkb p' n' sig) mm' = Some (Ok (RBool true), mm'))
  /\ forall t', t' <> t -> exec m pp (CSign k p n t') mm = Some (Panic P_FFI, mm).
Proof. exact held_signs. Qed.
Print Assumptions C101_held_key_signs.
Theorem C101_committee : forall (E : env) (L : env_laws E) m (pp : pubparam E) t l msg mm' sp kp p' n',
  pp_ok pp -> (pp_depth pp <= 32)%nat -> l <> [] ->
  Forall (fun x => match x with (pkb, k, mm, p, n, sig) =>
     held m pp pkb k t mm /\ load mm p n = Some msg /\ exec m pp (CSign k p n t) mm = Some (Ok (RSig sig), mm) end) l ->
  elements mm' sp 149 (map (fun x => match x with (_, _, _, _, _, sig) => sig end) l) ->
  elements mm' kp 49 (map (fun x => match x with (pkb, _, _, _, _, _) => pkb end) l) ->
  load mm' p' n' = Some msg ->
  exists agg, exec m pp (CAggregate sp (length l)) mm' = Some (Ok (RSig agg), mm') /\ length agg = 149%nat
     /\ exec m pp (CVerifyAgg kp (length l) p' n' agg) mm' = Some (Ok (RBool true), mm').
Proof. exact committee_in_memory. Qed.
Print Assumptions C101_committee.
Theorem C101_only_buffers_matter : forall (E : env) m (pp : pubparam E) c mm mm' r new,
  (forall p n, In (p, n) (buffers c) -> load mm' p n = load mm p n) ->
  exec m pp c mm = Some (r, mm ++ new) ->
  exists r', exec m pp c mm' = Some (r', mm' ++ new) /\ same_ret r r'.
Proof. exact exec_reads. Qed.
Print Assumptions C101_only_buffers_matter.
(** Two keys held at once, two signatures in an array, their aggregate; one key alone does
    not verify it.  The two keys live in different memories' blocks and the buffers agree. *)
Example C101_example :
  held Debug tpp4 apk1 ask1 1 am2 /\ held Debug tpp4 apk2 ask2 1 am2
  /\ exec Debug tpp4 (CSign ask1 (1, 0)%nat 41 1) am2 = Some (Ok (RSig asig1), am2)
  /\ exec Debug tpp4 (CSign ask2 (1, 0)%nat 41 1) am2 = Some (Ok (RSig asig2), am2)
  /\ elements am3 (4, 0)%nat 149 [asig1; asig2]
  /\ exec Debug tpp4 (CAggregate (4, 0)%nat 2) am3 = Some (Ok (RSig aagg), am3)
  /\ exec Debug tpp4 (CVerifyAgg (5, 0)%nat 2 (1, 0)%nat 41 aagg) am3 = Some (Ok (RBool true), am3)
  /\ exec Debug tpp4 (CVerifyAgg (5, 0)%nat 1 (1, 0)%nat 41 aagg) am3 = Some (Ok (RBool false), am3)
  /\ load am3 (1, 0)%nat 41 = load am2 (1, 0)%nat 41 /\ load am3 (ps_data ask1) (ps_len ask1) = load am2 (ps_data ask1) (ps_len ask1).
Proof.
  split; [exact ask1_held|]. split; [exact ask2_held|].
  split; [vm_cast_no_check (eq_refl (Some (Ok (RSig asig1), am2)))|].
  split; [vm_cast_no_check (eq_refl (Some (Ok (RSig asig2), am2)))|].
  split.
  { split; [vm_compute; discriminate|]. intros [|[|i]] b Hb; cbn [nth_error] in Hb; [injection Hb as <-; vm_compute; reflexivity..|].
    destruct i; discriminate. }
  split; [vm_cast_no_check (eq_refl (Some (Ok (RSig aagg), am3)))|].
  split; [vm_cast_no_check (eq_refl (Some (Ok (RBool true), am3)))|].
  split; [vm_cast_no_check (eq_refl (Some (Ok (RBool false), am3)))|].
  split; vm_compute; reflexivity.
Qed.
