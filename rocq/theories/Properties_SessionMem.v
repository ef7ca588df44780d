(** Property C131: heap blocks freed by a C caller's calls of c_keygen, c_sign_present and c_sk_update (SessionMem.v, CallMem.v).
    Specification vocabulary: SpecSessionMem.v ([c_session], [c_session_mem], [read_left], [accounts]), SpecCallMem.v ([tidy], [left_by], [more]),
    SpecRead.v ([outgrown]), SpecBuf.v ([thrifty]), SpecVec.v ([caps], [forge_from]), SpecHv.v ([in_blocks], [forge_with]), SpecSer.v ([sk_blob]), SpecKey.v ([pp_ok]). *)
From Coq Require Import String.
From Verif Require Import Base Env Time Prng SubKey SecretKey Keys Sig IO Serdes Api Ffi VecMem HvMem ReadMem BufMem FfiBuf CallMem SessionMem
  SpecKey SpecUpdate SpecSer SpecVec SpecRead SpecHv SpecBuf SpecFfiBuf SpecCallMem SpecSessionMem FfiBufProps ProgProps SessionMemProps Toy ToyRun WitSerProps Properties_Read.
Local Open Scope N_scope.

(** C131 *)
Theorem C131_same_result : forall (E : env) (L : env_laws E) C m (pp : pubparam E) seed l (h : cheap E),
  pp_ok pp -> (pp_depth pp <= 32)%nat -> thrifty (cp_buf C) ->
  fst (c_keygen_mem C pp seed h) = c_keygen pp seed
  /\ forall pkb skb popb h1, c_keygen_mem C pp seed h = (Ok (pkb, skb, popb), h1) ->
     fst (c_session_mem C m pp l skb h1) = c_session m pp l skb.
Proof. exact life_same. Qed.
Print Assumptions C131_same_result.
Theorem C131_sign_same_result : forall (E : env) C m (pp : pubparam E) skb msg t (h : cheap E),
  let h' := snd (c_sign_present_mem C m pp skb msg t h) in
  fst (c_sign_present_mem C m pp skb msg t h) = c_sign_present m pp skb msg t /\ ch_vec h' = ch_vec h /\ ch_hv h' = ch_hv h /\ ch_buf h' = ch_buf h.
Proof. exact csign_same. Qed.
Print Assumptions C131_sign_same_result.
Theorem C131_sign_leaves : forall (E : env) C m (pp : pubparam E) skb msg t (h : cheap E) (k : seckey E),
  from_slice (sk_deserialize true) skb = Ok k ->
  exists nr, c_sign_present_mem C m pp skb msg t h = (c_sign_present m pp skb msg t, more (CHeap nr [] [] []) h) /\ read_left C k nr.
Proof. exact csign_leaves. Qed.
Print Assumptions C131_sign_leaves.
Theorem C131_tidy_life : forall (E : env) (L : env_laws E) C m (pp : pubparam E) seed l pkb skb popb r (h h1 h' : cheap E),
  pp_ok pp -> (pp_depth pp <= 32)%nat -> tidy C ->
  c_keygen_mem C pp seed h = (Ok (pkb, skb, popb), h1) -> c_session_mem C m pp l skb h1 = (Ok r, h') -> h' = h.
Proof. exact life_tidy. Qed.
Print Assumptions C131_tidy_life.
Theorem C131_session : forall (E : env) (L : env_laws E) C m (pp : pubparam E) pk l k b ss (h h' : cheap E),
  pp_ok pp -> (pp_depth pp <= 32)%nat -> reachable m pp pk k ->
  c_session_mem C m pp l (sk_blob true k) h = (Ok (b, ss), h') ->
  exists k' new, b = sk_blob true k' /\ reachable m pp pk k' /\ h' = more new h /\ accounts C m pp k l k' new.
Proof. exact session_accounts. Qed.
Print Assumptions C131_session.
Theorem C131_life : forall (E : env) (L : env_laws E) C m (pp : pubparam E) seed l pkb skb popb b ss (h h1 h' : cheap E),
  pp_ok pp -> (pp_depth pp <= 32)%nat ->
  c_keygen_mem C pp seed h = (Ok (pkb, skb, popb), h1) -> c_session_mem C m pp l skb h1 = (Ok (b, ss), h') ->
  exists pk k0 pop k nb new, key_gen seed pp = Ok (pk, k0, pop) /\ skb = sk_blob true k0 /\ b = sk_blob true k
    /\ h1 = more (CHeap [] [] [] nb) h /\ h' = more new h1 /\ accounts C m pp k0 l k new
    /\ (forall x, In x nb -> x = skb \/ begins x skb \/ exists s, In s (sec_ssk k0) /\ begins x (ssk_blob true s)).
Proof. exact life_accounts. Qed.
Print Assumptions C131_life.
Theorem C131_sign_betrays : forall (E : env) (L : env_laws E) C m m' m1 (pp : pubparam E) pk sk msg t tar seed sk' (h : cheap E) i s n,
  pp_ok pp -> (pp_depth pp <= 32)%nat -> reachable m pp pk sk -> update m' pp tar seed sk = (Ok tt, sk') ->
  nth_error (sec_ssk sk) i = Some s -> sk_t s < tar -> (forall s', In s' (sec_ssk sk) -> ~ (sk_t s < sk_t s' <= tar)) ->
  (i < caps (cp_ssk C) 0 n < length (sec_ssk sk))%nat -> moved (cp_ssk C) (caps (cp_ssk C) 0 n) = true ->
  exists l hd, In (OldKeys l) (ch_read (snd (c_sign_present_mem C m1 pp (sk_blob true sk) msg t h))) /\ In hd l /\ hd_t hd = sk_t s /\ hd_t hd < tar
    /\ forall m'' msg', verify m'' (forge_from pp hd sk' msg') pk pp msg' = Ok true.
Proof. exact sign_betrays. Qed.
Print Assumptions C131_sign_betrays.
Theorem C131_update_betrays : forall (E : env) (L : env_laws E) C m m' (pp : pubparam E) pk sk tar seed b (h h' : cheap E) i s n,
  pp_ok pp -> (pp_depth pp <= 32)%nat -> reachable m pp pk sk -> c_sk_update_mem C m' pp (sk_blob true sk) seed tar h = (Ok b, h') ->
  nth_error (sec_ssk sk) i = Some s -> sk_t s < tar -> (forall s', In s' (sec_ssk sk) -> ~ (sk_t s < sk_t s' <= tar)) ->
  (i < caps (cp_ssk C) 0 n < length (sec_ssk sk))%nat -> moved (cp_ssk C) (caps (cp_ssk C) 0 n) = true -> clears (cp_up C) = false ->
  exists l hd y, In (OldKeys l) (ch_read h') /\ In hd l /\ hd_t hd = sk_t s /\ in_blocks y (ch_hv h')
    /\ forall m'' msg, verify m'' (forge_with pp hd y msg) pk pp msg = Ok true.
Proof. exact update_betrays. Qed.
Print Assumptions C131_update_betrays.

(** The owner of the key [3; 6; 9] (rx3 of Properties_Read.v) signs at time 3 and goes on to time 4.  [mv]: whether blocks move. *)
Definition smp (mv : bool) : cpolicy :=
  CPolicy (Policy (fun n => 2 * n)%nat (fun _ => mv) true) (Policy (fun n => 2 * n)%nat (fun _ => mv) true)
    (Policy (fun n => 2 * n)%nat (fun _ => mv) true) (std_growth (fun _ => mv)) (SPolicy (fun _ n => n) (fun _ _ => false)).
Notation sm_run mv h := (c_session_mem (smp mv) Debug tpp4 [CSign (str "m") 3; CUpdate 4 (str "a")] rxb h).
Lemma rx3_reachable : reachable Debug tpp4 tpk4 rx3.
Proof. eapply ProgProps.reachable_update; [exact tsk4_reachable|exact (proj1 C114_example_signs)]. Qed.
Lemma rxb_blob : rxb = sk_blob true rx3.
Proof. vm_cast_no_check (eq_refl rxb). Qed.
(** With and without moves the session returns the key at time 4 and a signature.  Without, nothing is left.  With moves, the signature leaves
    the sub keys 3 and 6 in a block, and at time 4 a signature for time 3 can be made with them. *)
Example C131_example :
  tidy (smp false) /\ (forall mv, thrifty (cp_buf (smp mv))) /\ reachable Debug tpp4 tpk4 rx3
  /\ update Debug tpp4 4 (str "a") rx3 = (Ok tt, rx4) /\ from_slice (sk_deserialize true) rxb = Ok rx3
  /\ (forall mv h, exists s h', sm_run mv h = (Ok (sk_blob true rx4, [s]), h'))
  /\ (forall mv h, exists h', c_keygen_mem (smp mv) tpp4 tseed h = (Ok (pk_blob true tpk4, sk_blob true tsk4, pop_blob true tpop4), h'))
  /\ snd (c_sign_present_mem (smp true) Debug tpp4 rxb (str "m") 3 (CHeap [] [] [] [])) = CHeap rx' [] [] []
  /\ map rx_size rx' = [inr [3; 6]; inl 2%nat; inl 1%nat; inr [3]; inl 1%nat; inl 1%nat]
  /\ map sk_t (sec_ssk rx3) = [3; 6; 9] /\ caps (cp_ssk (smp true)) 0 1 = 1%nat
  /\ verify Debug (forge_from tpp4 (rx_hd (nth 0 rx' (OldKeys []))) rx4 (str "m")) tpk4 tpp4 (str "m") = Ok true.
Proof.
  destruct C114_example_signs as (_ & Hu & Ht & _ & Hd & Hs & _ & Hv).
  assert (HP : forall mv, thrifty (cp_buf (smp mv))) by (intros mv c n; cbn; lia).
  assert (H32 : (pp_depth tpp4 <= 32)%nat) by (cbn; lia).
  split; [constructor; reflexivity|]. split; [exact HP|]. split; [exact rx3_reachable|]. split; [exact Hu|].
  split; [rewrite rxb_blob; exact (FfiProps.slice_sk toy_laws true rx3 (SerProps.reachable_sk_representable toy toy_laws Debug tpp4 tpk4 rx3 tpp4_ok H32 rx3_reachable))|].
  split; [intros mv h; rewrite rxb_blob; exact (sign_then_update toy_laws (smp mv) Debug tpp4 tpk4 rx3 (str "m") 4 (str "a") rx4 h tpp4_ok H32 (HP mv) rx3_reachable Hu)|].
  split.
  { intros mv h. exists (snd (c_keygen_mem (smp mv) tpp4 tseed h)).
    pose proof (keygen_mem_same toy_laws (smp mv) tpp4 tseed h tpp4_ok H32 (HP mv)) as Hk.
    pose proof (FfiProps.c_keygen_blobs toy toy_laws tpp4 tseed tpp4_ok H32) as Hc. rewrite tkeygen in Hc. rewrite Hc in Hk.
    rewrite <- Hk. apply surjective_pairing. }
  split.
  { unfold c_sign_present_mem. cbn [ch_read ch_vec ch_hv ch_buf]. change (cp_hv (smp true)) with std_moves. change (cp_ssk (smp true)) with std_moves.
    rewrite Hd. reflexivity. }
  split; [exact Hs|]. split; [exact Ht|]. split; [reflexivity|exact Hv].
Qed.

(** The update alone, with an allocator that moves blocks and drops that keep spare slots: it returns, the new key has the sub keys 4, 5, 6 and 9,
    and the sub key 3 it was made from was the first of three. *)
Definition smk : cpolicy := CPolicy keeps_spare keeps_spare keeps_spare (std_growth (fun _ => true)) (SPolicy (fun _ n => n) (fun _ _ => false)).
Example C131_example_update :
  clears (cp_up smk) = false /\ moved (cp_ssk smk) 1 = true /\ caps (cp_ssk smk) 0 1 = 1%nat /\ map sk_t (sec_ssk rx3) = [3; 6; 9]
  /\ forall h, exists b h', c_sk_update_mem smk Debug tpp4 (sk_blob true rx3) (str "a") 4 h = (Ok b, h')
     /\ exists l hd y, In (OldKeys l) (ch_read h') /\ In hd l /\ hd_t hd = 3 /\ in_blocks y (ch_hv h')
        /\ forall m'' msg, verify m'' (forge_with tpp4 hd y msg) tpk4 tpp4 msg = Ok true.
Proof.
  destruct C114_example_signs as (_ & Hu & Ht & _).
  assert (H32 : (pp_depth tpp4 <= 32)%nat) by (cbn; lia).
  repeat (split; [first [reflexivity|exact Ht]|]). intros h.
  assert (HP : thrifty (cp_buf smk)) by (intros c n; cbn; lia).
  pose proof (update_mem_same toy_laws smk Debug Debug tpp4 tpk4 rx3 (str "a") 4 h tpp4_ok H32 HP rx3_reachable) as Hs.
  rewrite (FfiProps.c_update_blobs toy toy_laws Debug Debug tpp4 tpk4 rx3 4 (str "a") tpp4_ok H32 rx3_reachable), Hu in Hs.
  destruct (c_sk_update_mem smk Debug tpp4 (sk_blob true rx3) (str "a") 4 h) as [r h'] eqn:He. cbn [fst] in Hs. subst r.
  exists (sk_blob true rx4), h'. split; [reflexivity|].
  destruct (nth_error (sec_ssk rx3) 0) as [s|] eqn:Hn; [|discriminate Hn].
  assert (Es : sk_t s = 3) by (apply (map_nth_error sk_t) in Hn; rewrite Ht in Hn; injection Hn as <-; reflexivity).
  destruct (update_betrays toy toy_laws smk Debug Debug tpp4 tpk4 rx3 4 (str "a") (sk_blob true rx4) h h' 0 s 1 tpp4_ok H32 rx3_reachable He Hn)
    as (l & hd & y & H1 & H2 & H3 & H4 & H5).
  - rewrite Es. lia.
  - intros s' Hs'. apply (in_map sk_t) in Hs'. rewrite Ht in Hs'. rewrite Es. destruct Hs' as [<-|[<-|[<-|[]]]]; lia.
  - cbn. lia.
  - reflexivity.
  - reflexivity.
  - exists l, hd, y. rewrite H3, Es in *. auto.
Qed.
