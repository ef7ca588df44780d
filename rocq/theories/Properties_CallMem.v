(** Property C130: all heap blocks freed by a call of c_sk_update (CallMem.v).
    Specification vocabulary: SpecCallMem.v ([tidy], [left_by], [more], [c_updates_mem]), SpecRead.v ([outgrown]), SpecHv.v ([last_entry]),
    SpecBuf.v ([begins]), SpecSer.v ([sk_blob]), SpecKey.v ([pp_ok]). *)
From Coq Require Import String.
From Verif Require Import Base Env Time Prng SubKey SecretKey Keys Sig IO Serdes Api Ffi VecMem HvMem ReadMem BufMem FfiBuf CallMem
  SpecKey SpecUpdate SpecSer SpecRead SpecHv SpecBuf SpecFfiBuf SpecCallMem CallMemProps Toy ToyRun WitSerProps.
Local Open Scope N_scope.

(** C130 *)
Theorem C130_same_result : forall (E : env) C m (pp : pubparam E) skb seed t (h : cheap E),
  let b := c_sk_update_b (cp_buf C) (cp_fit C) m pp skb seed t (ch_buf h) in
  fst (c_sk_update_mem C m pp skb seed t h) = fst b /\ ch_buf (snd (c_sk_update_mem C m pp skb seed t h)) = snd b.
Proof. exact call_same. Qed.
Print Assumptions C130_same_result.
Theorem C130_tidy : forall (E : env) C m (pp : pubparam E) skb seed t (h : cheap E),
  tidy C ->
  (exists b, fst (c_sk_update_mem C m pp skb seed t h) = Ok b)
  \/ (exists k : seckey E, from_slice (sk_deserialize true) skb = Ok k /\ fst (update m pp t seed k) <> Ok tt) ->
  snd (c_sk_update_mem C m pp skb seed t h) = h.
Proof. exact tidy_leaves_nothing. Qed.
Print Assumptions C130_tidy.
Theorem C130_tidy_life : forall (E : env) C m (pp : pubparam E) l skb b (h h' : cheap E),
  tidy C -> c_updates_mem C m pp l skb h = (Ok b, h') -> h' = h.
Proof. exact tidy_life. Qed.
Print Assumptions C130_tidy_life.
Theorem C130_what_is_left : forall (E : env) (L : env_laws E) C m m' (pp : pubparam E) pk k seed t b (h h' : cheap E),
  pp_ok pp -> (pp_depth pp <= 32)%nat -> reachable m pp pk k ->
  c_sk_update_mem C m' pp (sk_blob true k) seed t h = (Ok b, h') ->
  exists k' new, update m' pp t seed k = (Ok tt, k') /\ b = sk_blob true k' /\ h' = more new h /\ left_by C k k' new.
Proof. exact call_leaves. Qed.
Print Assumptions C130_what_is_left.

(** The key with the sub keys 7, 8 and 9 is moved to time 8: the sub key 7 is dropped.  [mv]: whether blocks move;
    [cl]: whether spare slots are overwritten. *)
Definition cmp (mv cl : bool) : cpolicy :=
  CPolicy (Policy (fun n => Nat.max 1 (2 * n)) (fun _ => mv) cl) (Policy (fun n => Nat.max 1 (2 * n)) (fun _ => mv) cl)
    (Policy (fun n => 2 * n)%nat (fun _ => mv) cl) (std_growth (fun _ => mv)) (SPolicy (fun _ n => n) (fun _ _ => false)).
Definition cmsk8 : seckey toy := Eval vm_compute in snd (update Debug tpp4 8 (str "z") tsk7).
Definition cmb8 : bytes := Eval vm_compute in sk_blob true cmsk8.
Notation cmr mv cl := (c_sk_update_mem (cmp mv cl) Debug tpp4 tblob7 (str "z") 8 (CHeap [] [] [] [])).
Definition cm0 : cheap toy := Eval vm_compute in snd (cmr true false).
Definition cm_times (b : old_block toy) : list N := match b with OldPoints _ => [] | OldKeys l => map hd_t l end.
(** If blocks stay where they are and drops overwrite spare slots, nothing is left.  Else the old sub key 7 lies in two of the
    blocks freed by reading, a copy of 9 in a spare slot, and the first 311 bytes of the new key, with the sub key 8, in a buffer. *)
Lemma one_update {E} C m (pp : pubparam E) t seed b h b' h' :
  c_sk_update_mem C m pp b seed t h = (Ok b', h') -> c_updates_mem C m pp [(t, seed)] b h = (Ok b', h').
Proof. intros H. cbn [c_updates_mem]. unfold sbind. rewrite H. reflexivity. Qed.
Example C130_example :
  tidy (cmp false true) /\ reachable Debug tpp4 tpk4 tsk7
  /\ cmr false true = (Ok cmb8, CHeap [] [] [] []) /\ c_updates_mem (cmp false true) Debug tpp4 [(8, str "z")] tblob7 (CHeap [] [] [] []) = (Ok cmb8, CHeap [] [] [] [])
  /\ cmr true false = (Ok cmb8, cm0)
  /\ map cm_times (ch_read cm0) = [[7; 8]; []; []; [7]] /\ map (map (option_map hd_t)) (ch_vec cm0) = [[Some 9]; []]
  /\ map (@length N) (ch_buf cm0) = [311; 245; 149; 53; 5; 4; 66; 149; 53; 5; 4; 2; 1]%nat /\ hd [] (ch_buf cm0) = firstn 311 cmb8.
Proof.
  assert (H : cmr false true = (Ok cmb8, CHeap [] [] [] [])) by (vm_cast_no_check (eq_refl (@Ok bytes cmb8, @CHeap toy [] [] [] []))).
  split; [constructor; reflexivity|]. split; [exact tsk7_reachable|]. split; [exact H|].
  split; [exact (one_update _ _ _ _ _ _ _ _ _ H)|].
  split; [vm_cast_no_check (eq_refl (@Ok bytes cmb8, cm0))|].
  split; [reflexivity|]. split; [reflexivity|]. split; reflexivity.
Qed.
