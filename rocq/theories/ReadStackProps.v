(** Proofs for C132. *)
From Coq Require Import String.
From Verif Require Import Base Env Time Prng SpecTime SpecPrng SubKey SecretKey Keys Sig SpecKey SpecUpdate
  TimeFacts GroupFacts SubKeyFacts UpdateFacts KeyFacts Api HistoryFacts IO Serdes SpecSer IOFacts Hygiene SpecHyg HygProps VecMem SpecVec VecProps
  ReadMem HvMem SpecHv HvProps ReadProps ReadStack SpecReadStack.
From Coq Require Import Lia ZifyBool ZifyNat ZifyN.
Local Open Scope N_scope.

(** The frame after the loop. *)
Definition with_tmp {E} (l : list (G1 E)) (f : frame E) : frame E :=
  match l with [] => f | _ :: _ => ("tmp"%string, VG1 (last l g1_zero)) :: unset "tmp" f end.
Lemma unset_twice {E} x (v : value E) f : unset x ((x, v) :: unset x f) = unset x f.
Proof.
  unfold unset. cbn [filter fst]. rewrite String.eqb_refl. cbn [negb]. induction f as [|a f IH]; [reflexivity|]. cbn [filter].
  destruct (negb (String.eqb (fst a) x)) eqn:Ha; [cbn [filter]; rewrite Ha; f_equal; exact IH|exact IH].
Qed.
Lemma hv_read_h_eq {E : env} c : forall n r (f : frame E), exists f',
  (forall dead, hv_read_h c n (r, (f, dead)) = (fst (hv_read c n r), (snd (hv_read (E := E) c n r), (f', dead))))
  /\ forall l, fst (hv_read c n r) = Ok l -> f' = with_tmp l f.
Proof.
  induction n as [|n IH]; intros r f; cbn [hv_read_h hv_read].
  - exists f. split; [reflexivity|]. intros l [= <-]. reflexivity.
  - unfold sbind, rd. cbn [fst snd]. destruct (g1_read c r) as [[x|e|p] r1]; cbn [fst snd].
    2,3: exists f; split; [reflexivity|discriminate].
    destruct (IH r1 (("tmp"%string, VG1 x) :: unset "tmp" f)) as (f' & H & Hf).
    exists f'. split.
    + intros dead. unfold mem, var, get_g1, lookup. cbn [fst snd find]. cbn [String.eqb Ascii.eqb Bool.eqb]. cbn [fst snd].
      rewrite H. destruct (hv_read c n r1) as [[l|e|p] r2]; reflexivity.
    + destruct (hv_read c n r1) as [[l|e|p] r2]; cbn [fst snd] in *; [|discriminate..].
      intros l' [= <-]. rewrite (Hf l eq_refl). unfold with_tmp. destruct l as [|y l]; [reflexivity|].
      rewrite unset_twice. reflexivity.
Qed.

Lemma ssk_h_eq {E : env} c r : exists d,
  (forall f dead, ssk_deserialize_h (E := E) c (r, (f, dead)) = (fst (ssk_deserialize c r), (snd (ssk_deserialize (E := E) c r), (f, dead ++ d))))
  /\ forall s, fst (ssk_deserialize c r) = Ok s -> d = sub_cells s.
Proof.
  unfold ssk_deserialize_h, ssk_deserialize, call_r, sbind, rd, slift. cbn [fst snd].
  destruct (read_exact 4 r) as [[tb|e|p] r1]; cbn [fst snd map]; try (exists []; split; [reflexivity|discriminate]).
  destruct (from_be4 tb =? 0); [exists []; split; [reflexivity|discriminate]|].
  cbn [fst snd]. destruct (read1 r1) as [[o|e|p] r2]; cbn [fst snd]; [|exists []; split; [reflexivity|discriminate]..].
  set (n := match o with Some b => b | None => 0 end).
  replace (match o with Some b => (Ok b, r2) | None => (Ok 0, r2) end) with (@Ok N n, r2) by (subst n; destruct o; reflexivity).
  cbn [fst snd]. destruct (g2_read c r2) as [[g2r|e|p] r3]; cbn [fst snd]; try (exists []; split; [reflexivity|discriminate]).
  destruct (g1_read c r3) as [[hp|e|p] r4] eqn:Hg; cbn [fst snd].
  2,3: eexists; split; [intros f dead; unfold mem, var; cbn [fst snd]; rewrite Hg; reflexivity|discriminate].
  destruct (hv_read_h_eq c (N.to_nat n) r4 [("hpoly"%string, VG1 hp); ("g2r"%string, VG2 g2r)]) as (f' & H & Hf).
  destruct (hv_read c (N.to_nat n) r4) as [[l|e|p] r5]; cbn [fst snd] in *.
  2,3: eexists; split; [intros f dead; unfold mem, var; cbn [fst snd]; rewrite Hg; cbn [fst snd unset filter negb String.eqb Ascii.eqb Bool.eqb]; rewrite H; reflexivity|discriminate].
  specialize (Hf l eq_refl). subst f'. exists (sub_cells (SubKey (from_be4 tb) g2r hp l)). split; [|intros s [= <-]; reflexivity].
  intros f dead. unfold mem, var. cbn [fst snd]. rewrite Hg. cbn [fst snd unset filter negb String.eqb Ascii.eqb Bool.eqb]. rewrite H.
  destruct l as [|y l]; cbn; rewrite <- app_assoc; reflexivity.
Qed.

Lemma ssks_h_eq {E : env} c : forall n r, exists d,
  (forall f dead, ssks_read_h (E := E) c n (r, (f, dead)) = (fst (ssks_read c n r), (snd (ssks_read (E := E) c n r), (f, dead ++ d))))
  /\ forall l, fst (ssks_read c n r) = Ok l -> d = flat_map sub_cells l.
Proof.
  induction n as [|n IH]; intros r; cbn [ssks_read_h ssks_read].
  - exists []. split; [intros f dead; rewrite app_nil_r; reflexivity|]. intros l [= <-]. reflexivity.
  - unfold sbind. destruct (ssk_h_eq (E := E) c r) as (d1 & H1 & Hd1). destruct (ssk_deserialize c r) as [[s|e|p] r1]; cbn [fst snd] in *.
    2,3: exists d1; split; [intros f dead; rewrite H1; reflexivity|discriminate].
    destruct (IH r1) as (d2 & H2 & Hd2). exists (d1 ++ d2). split.
    + intros f dead. rewrite H1, H2, app_assoc. destruct (ssks_read c n r1) as [[l|e|p] r2]; reflexivity.
    + destruct (ssks_read c n r1) as [[l|e|p] r2]; cbn [fst snd] in *; [|discriminate..]. intros l' [= <-]. cbn [flat_map].
      rewrite (Hd1 s eq_refl), (Hd2 l eq_refl). reflexivity.
Qed.

Lemma sk_h_eq {E : env} c r : exists d,
  reads (sk_deserialize_h (E := E) c) r (fst (sk_deserialize c r)) (snd (sk_deserialize (E := E) c r)) d
  /\ (forall k r1 g r2, read_exact 2 r = (Ok k, r1) -> read_exact 64 r1 = (Ok g, r2) -> exists d', d = d' ++ [seed_cell "SecretKey::deserialize" g])
  /\ (forall sk, fst (sk_deserialize c r) = Ok sk -> d = read_cells sk).
Proof.
  unfold reads, sk_deserialize_h, sk_deserialize, call_r, sbind, rd, slift. cbn [fst snd].
  destruct (read_exact 2 r) as [[k|e|p] r1]; cbn [fst snd map]; try (exists []; split; [reflexivity|]; split; discriminate).
  destruct (read_exact 64 r1) as [[g|e|p] r2] eqn:Hg; cbn [fst snd map]; try (exists []; split; [reflexivity|]; split; [congruence|discriminate]).
  assert (Hlast : forall (d : list (cell E)) k0 r0 g0 r3, (@Ok bytes k, r1) = (Ok k0, r0) -> read_exact 64 r0 = (Ok g0, r3) ->
    exists d', d ++ [seed_cell "SecretKey::deserialize" g] = d' ++ [seed_cell "SecretKey::deserialize" g0]).
  { intros d k0 r0 g0 r3 Hk Hg0. injection Hk as _ <-. rewrite Hg in Hg0. injection Hg0 as <- _. eauto. }
  destruct (negb (valid_cs (nth 0 k 0))); [exists ([] ++ [seed_cell "SecretKey::deserialize" g]); split; [reflexivity|]; split; [apply Hlast|discriminate]|].
  destruct (nth 1 k 0 =? 0); [exists ([] ++ [seed_cell "SecretKey::deserialize" g]); split; [reflexivity|]; split; [apply Hlast|discriminate]|].
  destruct (ssk_h_eq (E := E) c r2) as (d1 & H1 & Hd1). destruct (ssk_deserialize c r2) as [[s|e|p] r3]; cbn [fst snd] in *.
  2,3: exists (d1 ++ [seed_cell "SecretKey::deserialize" g]); split; [|split; [apply Hlast|discriminate]];
       intros f dead; unfold mem, var; cbn [fst snd]; rewrite H1; cbn; rewrite <- app_assoc; reflexivity.
  destruct (ssks_h_eq (E := E) c (N.to_nat (nth 1 k 0) - 1) r3) as (d2 & H2 & Hd2).
  destruct (ssks_read c (N.to_nat (nth 1 k 0) - 1) r3) as [[l|e|p] r4]; cbn [fst snd] in *.
  2,3: exists ((d1 ++ d2) ++ [seed_cell "SecretKey::deserialize" g]); split; [|split; [apply Hlast|discriminate]];
       intros f dead; unfold mem, var; cbn [fst snd]; rewrite H1, H2; cbn; rewrite <- !app_assoc; reflexivity.
  exists ((d1 ++ d2 ++ [seed_cell "PRNG::new" g]) ++ [seed_cell "SecretKey::deserialize" g]). split; [|split; [apply Hlast|]].
  - intros f dead. unfold mem, var. cbn [fst snd]. rewrite H1, H2. cbn. rewrite <- !app_assoc. reflexivity.
  - intros sk [= <-]. rewrite (Hd1 s eq_refl), (Hd2 l eq_refl). unfold read_cells. cbn [sec_ssk sec_prng flat_map]. rewrite <- !app_assoc. reflexivity.
Qed.

(** * The theorems *)
Lemma read_stack_same : forall (E : env) c r, exists d,
  reads (sk_deserialize_h (E := E) c) r (fst (sk_deserialize c r)) (snd (sk_deserialize (E := E) c r)) d
  /\ (forall k r1 g r2, read_exact 2 r = (Ok k, r1) -> read_exact 64 r1 = (Ok g, r2) -> exists d', d = d' ++ [seed_cell "SecretKey::deserialize" g]).
Proof. intros E c r. destruct (sk_h_eq (E := E) c r) as (d & H1 & H2 & _). eauto. Qed.
Lemma read_stack_leaves : forall (E : env) c r sk r',
  sk_deserialize c r = (Ok sk, r') -> reads (sk_deserialize_h (E := E) c) r (Ok sk) r' (read_cells sk).
Proof.
  intros E c r sk r' H. destruct (sk_h_eq (E := E) c r) as (d & H1 & _ & H3). rewrite H in *. cbn [fst snd] in *. rewrite <- (H3 sk eq_refl). exact H1.
Qed.

Lemma read_stack_signs : forall (E : env) (L : env_laws E) m (pp : pubparam E) pk sk s,
  pp_ok pp -> reachable m pp pk sk -> In s (sec_ssk sk) ->
  exists g2r hpoly y,
    In (Cell "SubSecretKey::deserialize" "g2r" (VG2 g2r)) (read_cells sk)
    /\ In (Cell "SubSecretKey::deserialize" "hpoly" (VG1 hpoly)) (read_cells sk)
    /\ In (Cell "SubSecretKey::deserialize" "tmp" (VG1 y)) (read_cells sk)
    /\ forall m' msg, verify m' (forge_with pp (Head (sk_t s) g2r hpoly) y msg) pk pp msg = Ok true.
Proof.
  intros E L m pp pk sk s Hpp Hr Hs. destruct (reachable_good L m pp pk sk Hpp Hr) as (x & _ & -> & Hg & Hcs).
  pose proof (gsk_honest _ _ _ Hg) as Hh. rewrite Forall_forall in Hh. destruct (Hh s Hs) as (v & r & Hn & Heq).
  pose proof (last_entry_honest pp x (sk_t s) v r Hpp (proj2 (node_at_turn _ _ _ Hn))) as [Hl Hin]. 
  assert (Hsub : forall a, In a (sub_cells s) -> In a (read_cells sk)) by (intros a Ha; unfold read_cells; apply in_or_app; left; apply in_flat_map; eauto).
  exists (sk_g2r s), (sk_hpoly s), (last_entry s). split; [|split; [|split]].
  - apply Hsub. unfold sub_cells. apply in_or_app. right. apply in_or_app. right. right. left. reflexivity.
  - apply Hsub. unfold sub_cells. apply in_or_app. right. apply in_or_app. right. left. reflexivity.
  - apply Hsub. unfold sub_cells. apply in_or_app. right. apply in_or_app. left. rewrite <- Heq in Hin.
    destruct (sk_hvec s) as [|a l]; [destruct Hin|]. left. reflexivity.
  - intros m' msg. replace (forge_with pp (Head (sk_t s) (sk_g2r s) (sk_hpoly s)) (last_entry s) msg) with (honest_sig pp x (sk_t s) v (msg_scalar pp msg) r).
    { apply (verify_honest L); assumption. }
    rewrite <- Heq in Hl. rewrite Hl, Heq. unfold forge_with, honest_sig. cbn [hd_t hd_g2r hd_hpoly honest_ssk sk_t sk_g2r sk_hpoly]. f_equal. unfold sig_val. g1_solve L.
Qed.

Lemma seed_in_read {E : env} (sk : seckey E) fn g : In (seed_cell fn g) (read_cells sk) -> g = sec_prng sk.
Proof.
  unfold read_cells. intros H. apply in_app_or in H as [H|[H|[H|[]]]].
  - apply in_flat_map in H as (s & _ & H). unfold sub_cells in H. apply in_app_or in H as [H|H].
    { destruct H as [H|[H|[]]]; discriminate. }
    apply in_app_or in H as [H|[H|[H|[]]]]; try discriminate. destruct (_ =? _)%nat; [destruct H|destruct H as [H|[]]; discriminate].
  - injection H as _ <-. reflexivity.
  - injection H as _ <-. reflexivity.
Qed.
Lemma read_stack_seed : forall (E : env) (L : env_laws E) m m' (pp : pubparam E) pk sk fn g t msg1 msg2 s1 s2,
  pp_ok pp -> reachable m pp pk sk -> In (seed_cell fn g) (read_cells sk) ->
  sign_present m' t pp msg1 sk = (Ok s1, sk) -> sign_present m' t pp msg2 sk = (Ok s2, sk) ->
  msg_scalar pp msg1 <> msg_scalar pp msg2 ->
  let k msg := spec_scalar (sha512 E) g (sign_info msg t) in
  exists v c,
    node_at (pp_depth pp) t v
    /\ forall m'' msg,
         verify m'' (combine_sigs pp t v s1 s2 (k msg1) (k msg2) (msg_scalar pp msg1) (msg_scalar pp msg2) c (msg_scalar pp msg)) pk pp msg = Ok true.
Proof.
  intros E L m m' pp pk sk fn g t msg1 msg2 s1 s2 Hpp Hr Hin Hs1 Hs2 Hne. rewrite (seed_in_read sk fn g Hin).
  destruct (nonces_forge E L m m' pp pk sk t msg1 msg2 s1 s2 Hpp Hr Hs1 Hs2 Hne) as (v & c & _ & Hn & H). exists v, c. auto.
Qed.
Lemma read_m_plain {E : env} P Q c r (fr fr' : list (old_block E)) sk r' :
  sk_deserialize_m P Q c (r, fr) = (Ok sk, (r', fr')) -> sk_deserialize c r = (Ok sk, r').
Proof.
  intros H. destruct (read_same_result E P Q c r fr) as (fr2 & H'). rewrite H in H'. injection H' as H1 H2 _.
  rewrite (surjective_pairing (sk_deserialize c r)), <- H1, <- H2. reflexivity.
Qed.
