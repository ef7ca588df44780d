(** Facts on what the functions leave in memory. *)
From Coq Require Import String.
From Verif Require Import Base Env Time Hkdf TimeFacts SpecTime Prng SpecPrng PrngFacts SubKey SecretKey Keys Sig IO Serdes
  Api SpecKey SpecUpdate GroupFacts SubKeyFacts UpdateFacts KeyFacts HistoryFacts KeyProps SpecSer IOFacts SerFacts Hygiene SpecHyg.
Local Open Scope N_scope.

(** * Running in a frame *)
Lemma gives_call {E A} fn args (body : hm E A) r f d :
  (forall D, body (args, D) = (r, (f, (D ++ d)%list))) ->
  gives (call fn args body) r (d ++ map (fun v => Cell fn (fst v) (snd v)) f).
Proof. intros H [f0 D]. unfold call. cbn [fst snd]. rewrite H, app_assoc. reflexivity. Qed.

Lemma gives_call' {E A} fn args (body : hm E A) r f d d' :
  (forall D, body (args, D) = (r, (f, (D ++ d)%list))) ->
  d' = (d ++ map (fun v => Cell fn (fst v) (snd v)) f)%list ->
  gives (call fn args body) r d'.
Proof. intros H ->. apply gives_call, H. Qed.

Lemma run_var {E A} x v (k : unit -> hm E A) f D :
  sbind (var x v) k (f, D) = k tt ((x, v) :: unset x f, D).
Proof. reflexivity. Qed.
Lemma run_zeroize {E A} x (k : unit -> hm E A) f D : sbind (zeroize x) k (f, D) = k tt (unset x f, D).
Proof. reflexivity. Qed.
Lemma run_get_int {E A} x (k : N -> hm E A) f D :
  sbind (get_int x) k (f, D) = k (match lookup x f with Some (VInt n) => n | _ => 0 end) (f, D).
Proof. reflexivity. Qed.
Lemma run_get_repr {E A} x (k : list N -> hm E A) f D :
  sbind (get_repr x) k (f, D) = k (match lookup x f with Some (VRepr l) => l | _ => [] end) (f, D).
Proof. reflexivity. Qed.
Lemma run_get_g1 {E A} x (k : G1 E -> hm E A) f D :
  sbind (get_g1 x) k (f, D) = k (match lookup x f with Some (VG1 p) => p | _ => g1_zero end) (f, D).
Proof. reflexivity. Qed.
Lemma run_get_g2 {E A} x (k : G2 E -> hm E A) f D :
  sbind (get_g2 x) k (f, D) = k (match lookup x f with Some (VG2 p) => p | _ => g2_zero end) (f, D).
Proof. reflexivity. Qed.
Lemma run_get_bytes {E A} x (k : bytes -> hm E A) f D :
  sbind (get_bytes x) k (f, D) = k (match lookup x f with Some (VBytes b) => b | _ => [] end) (f, D).
Proof. reflexivity. Qed.
Lemma run_get_points {E A} x (k : list (G1 E) -> hm E A) f D :
  sbind (get_points x) k (f, D) = k (match lookup x f with Some (VPoints l) => l | _ => [] end) (f, D).
Proof. reflexivity. Qed.
Lemma run_lift_ok {E A B} (a : A) (k : A -> hm E B) s : sbind (slift (Ok a)) k s = k a s.
Proof. reflexivity. Qed.
Lemma run_lift_err {E A B} e (k : A -> hm E B) s : sbind (slift (Err e)) k s = (Err e, s).
Proof. reflexivity. Qed.
Lemma run_lift_panic {E A B} p (k : A -> hm E B) s : sbind (slift (Panic p)) k s = (Panic p, s).
Proof. reflexivity. Qed.
Lemma run_gives_ok {E A B} (h : hm E A) a d (k : A -> hm E B) f D :
  gives h (Ok a) d -> sbind h k (f, D) = k a (f, (D ++ d)%list).
Proof. intros H. unfold sbind. rewrite H. reflexivity. Qed.
Lemma run_gives_err {E A B} (h : hm E A) e d (k : A -> hm E B) f D :
  gives h (Err e) d -> sbind h k (f, D) = (Err e, (f, (D ++ d)%list)).
Proof. intros H. unfold sbind. rewrite H. reflexivity. Qed.
Lemma run_gives_panic {E A B} (h : hm E A) p d (k : A -> hm E B) f D :
  gives h (Panic p) d -> sbind h k (f, D) = (Panic p, (f, (D ++ d)%list)).
Proof. intros H. unfold sbind. rewrite H. reflexivity. Qed.

Ltac hsimp := cbn [unset lookup filter find fst snd negb app map
  String.eqb Ascii.eqb Bool.eqb sret slift].
Ltac hrun := repeat (first
  [ rewrite run_var | rewrite run_zeroize | rewrite run_get_int | rewrite run_get_repr
  | rewrite run_get_g1 | rewrite run_get_g2 | rewrite run_get_bytes | rewrite run_get_points
  | rewrite run_lift_ok | rewrite run_lift_err | rewrite run_lift_panic ]; hsimp).

Lemma gives_eq {E A} (h : hm E A) r d r' d' : gives h r d -> r = r' -> d = d' -> gives h r' d'.
Proof. intros H <- <-. exact H. Qed.

(** * The prng *)
Lemma limb_limbs x :
  [limb (u512_to_be x) 56; limb (u512_to_be x) 48; limb (u512_to_be x) 40; limb (u512_to_be x) 32] = limbs x.
Proof.
  unfold limbs. rewrite !limb_spec by lia.
  change (N.of_nat (56 - 56)) with 0. change (N.of_nat (56 - 48)) with 8.
  change (N.of_nat (56 - 40)) with 16. change (N.of_nat (56 - 32)) with 24.
  change (256 ^ 0) with 1. rewrite N.div_1_r. reflexivity.
Qed.

Lemma os2ip_h {E} l : (length l <= 64)%nat ->
  gives (@os2ip_mod_p_h E l) (Ok (os2ip l mod fr_modulus)) [scalar_cell (os2ip l mod fr_modulus)].
Proof.
  intros Hl.
  eapply gives_eq; [apply gives_call with (d := []) (f := [("s"%string, VRepr (limbs (os2ip l mod fr_modulus)))])|reflexivity|reflexivity].
  intros D. unfold u512_from.
  replace (64 <? length l)%nat with false by lia.
  change (64 <? length p_bytes)%nat with false. hrun.
  rewrite p_bytes_val, be_sum_os2ip. set (x := os2ip l mod fr_modulus).
  assert (Hx : x < fr_modulus) by (apply N.mod_lt, fr_modulus_nz).
  assert (Hx' : x < 256 ^ 32) by (apply N.lt_trans with (1 := Hx), fr_modulus_bound).
  rewrite u512_top by exact Hx'.
  replace (bytes_eqb (repeat 0 32) (repeat 0 32)) with true by (symmetry; apply bytes_eqb_eq; reflexivity).
  hrun. unfold fr_from_repr. rewrite u512_limbs by exact Hx'.
  replace (x <? fr_modulus) with true by (symmetry; apply N.ltb_lt; exact Hx).
  rewrite limb_limbs, app_nil_r. reflexivity.
Qed.

Lemma os2ip_h_long {E} l : (64 < length l)%nat -> gives (@os2ip_mod_p_h E l) (Panic P_OS2IP) [].
Proof.
  intros Hl. eapply gives_eq; [apply gives_call with (d := []) (f := [])|reflexivity|reflexivity].
  intros D. unfold u512_from. replace (64 <? length l)%nat with true by lia. hrun.
  rewrite app_nil_r. reflexivity.
Qed.

Lemma prng_init_h_spec {E} (L : env_laws E) seed salt :
  gives (@prng_init_h E seed salt) (Ok (prng_init (sha512 E) seed salt))
    [Cell "PRNG::init" "rng_seed" (VBytes (prng_init (sha512 E) seed salt))].
Proof.
  eapply gives_eq; [apply gives_call with (d := []) (f := [("rng_seed"%string, VBytes (prng_init (sha512 E) seed salt))])|reflexivity|reflexivity].
  intros D. hrun. rewrite app_nil_r. reflexivity.
Qed.

Lemma expand_128 {E} (L : env_laws E) g info :
  expand_or_panic (sha512 E) g info 128 = Ok (hkdf_T1 (sha512 E) g info ++ hkdf_T2 (sha512 E) g info).
Proof. unfold expand_or_panic. rewrite hkdf_expand_128 by exact (hash_len_env L). reflexivity. Qed.

Lemma sample_then_update_h_spec {E} (L : env_laws E) g info :
  gives (@sample_then_update_h E g info)
    (Ok (spec_scalar (sha512 E) g info, spec_next (sha512 E) g info))
    [scalar_cell (spec_scalar (sha512 E) g info)].
Proof.
  pose proof (hash_len_env L) as HH.
  eapply gives_eq; [apply gives_call with (d := [scalar_cell (spec_scalar (sha512 E) g info)]) (f := [])|reflexivity|reflexivity].
  intros D. hrun. rewrite expand_128 by exact L. hrun.
  rewrite firstn_app_len by (apply T1_len; exact HH).
  rewrite run_gives_ok with (1 := os2ip_h (hkdf_T1 (sha512 E) g info) ltac:(rewrite T1_len by exact HH; lia)).
  hrun. rewrite skipn_app_len by (apply T1_len; exact HH).
  rewrite firstn_all2 by (rewrite T2_len by exact HH; lia). reflexivity.
Qed.

Lemma sample_h_spec {E} (L : env_laws E) g info :
  gives (@sample_h E g info) (Ok (spec_scalar (sha512 E) g info))
    [scalar_cell (spec_scalar (sha512 E) g info)].
Proof.
  pose proof (hash_len_env L) as HH.
  eapply gives_eq; [apply gives_call with (d := [scalar_cell (spec_scalar (sha512 E) g info)]) (f := [])|reflexivity|reflexivity].
  intros D. hrun. unfold expand_or_panic. rewrite hkdf_expand_64 by exact HH. hrun.
  rewrite run_gives_ok with (1 := os2ip_h (hkdf_T1 (sha512 E) g info) ltac:(rewrite T1_len by exact HH; lia)).
  hrun. reflexivity.
Qed.

Lemma rerandomize_h_spec {E} (L : env_laws E) g seed info :
  gives (@rerandomize_h E g seed info) (rerandomize (sha512 E) g seed info) [].
Proof.
  eapply gives_eq; [apply gives_call with (d := []) (f := []) (r := rerandomize (sha512 E) g seed info)|reflexivity|reflexivity].
  intros D. unfold rerandomize. hrun. rewrite expand_128 by exact L. hrun. rewrite app_nil_r. reflexivity.
Qed.

(** * Sub keys *)
Lemma firstn_map_app {A} (f : A -> A) : forall d l,
  firstn d (map f (firstn d l) ++ skipn d l) = map f (firstn d l).
Proof.
  induction d as [|d IH]; intros [|h l]; cbn [firstn skipn map app]; try reflexivity. rewrite IH. reflexivity.
Qed.

Lemma ssk_init_h_ok {E} (pp : pubparam E) alpha r : pp_hlist pp <> [] ->
  gives (ssk_init_h pp alpha r) (ssk_init pp alpha r) (init_cells pp alpha r).
Proof.
  intros Hn. unfold ssk_init, init_cells. destruct (pp_hlist pp) as [|h0 hs] eqn:Hh; [congruence|].
  eapply gives_call' with (d := []) (f := [("hlist"%string, _); ("hpoly"%string, _); ("g2r"%string, _); ("alpha"%string, _); ("r"%string, _)]); [|reflexivity].
  intros D. rewrite Hh. hrun. cbn [nth_res nth_error]. hrun.
  cbn [bind]. rewrite app_nil_r. f_equal. f_equal. f_equal.
  rewrite Nat.add_1_r. cbn [firstn skipn app].
  rewrite firstn_map_app. reflexivity.
Qed.

Lemma ssk_init_h_nil {E} (pp : pubparam E) alpha r : pp_hlist pp = [] ->
  gives (ssk_init_h pp alpha r) (ssk_init pp alpha r)
    [Cell "SubSecretKey::init" "g2r" (VG2 (g2_mul r (pp_g2 pp)));
     Cell "SubSecretKey::init" "alpha" (VG1 alpha); Cell "SubSecretKey::init" "r" (VInt r)].
Proof.
  intros Hh. unfold ssk_init. rewrite Hh.
  eapply gives_call' with (d := []);
    [intros D; rewrite Hh; hrun; cbn [nth_res nth_error bind]; hrun; rewrite app_nil_r; reflexivity|reflexivity].
Qed.

Lemma hv_loop_h_spec {E} (hlist : list (G1 E)) r : forall hv base D,
  hv_loop_h hlist base hv ([("r"%string, VInt r)], D)
  = (let (o, l) := hv_loop hlist base r hv in
     match o with Ok _ => Ok l | Err e => Err e | Panic p => Panic p end, ([("r"%string, VInt r)], D)).
Proof.
  induction hv as [|x hv IH]; intros base D; [reflexivity|]. cbn [hv_loop_h hv_loop].
  destruct (nth_res hlist base) as [h|e|p]; hrun; [|reflexivity..].
  unfold sbind at 1. rewrite IH. destruct (hv_loop hlist (S base) r hv) as [[?|?|?] l]; reflexivity.
Qed.

Lemma hv_loop_no_err {E} (hlist : list (G1 E)) r : forall hv base, 
  match fst (hv_loop hlist base r hv) with Err _ => False | _ => True end.
Proof.
  induction hv as [|x hv IH]; intros base; [exact I|]. cbn [hv_loop]. unfold nth_res.
  destruct (nth_error hlist base); [|exact I]. specialize (IH (S base)).
  destruct (hv_loop hlist (S base) r hv) as [o l]. exact IH.
Qed.

Definition cell_r {E} (r : N) : cell E := Cell "randomization" "r" (VInt r).
Definition cell_tmp {E} (pp : pubparam E) (r : N) : cell E :=
  Cell "randomization" "tmp_sec" (VG2 (g2_mul r (pp_g2 pp))).

Lemma randomization_flat {E} m (pp : pubparam E) r s :
  run_mut (randomization m pp r) s =
  (let! tv := tv_init m (sk_t s) (pp_depth pp) in
   let! h0 := nth_res (pp_hlist pp) 0 in
   let! t3 := poly_loop (pp_hlist pp) 0 (tv_vec tv) h0 in
   let (o, l) := hv_loop (pp_hlist pp) (length (tv_vec tv) + 1) r (sk_hvec s) in
   let! _ := o in
   Ok (SubKey (sk_t s) (g2_add (sk_g2r s) (g2_mul r (pp_g2 pp))) (g1_add (sk_hpoly s) (g1_mul r t3)) l)).
Proof.
  unfold run_mut, randomization, ssk_time_vec, sget, sput, slift.
  unfold sbind at 1 2 3 4 5. cbn [sk_t].
  destruct (tv_init m (sk_t s) (pp_depth pp)) as [tv|e|p]; [|reflexivity..].
  destruct (nth_res (pp_hlist pp) 0) as [h0|e|p]; [|reflexivity..].
  cbn [bind]. unfold sbind at 1 2.
  destruct (poly_loop (pp_hlist pp) 0 (tv_vec tv) h0) as [t3|e|p]; [|reflexivity..].
  unfold sbind at 1 2. cbn [bind sk_t sk_hvec sk_g2r sk_hpoly].
  destruct (hv_loop _ _ _ _) as [[u|e|p] l]; reflexivity.
Qed.

Lemma randomization_h_spec {E} m (pp : pubparam E) r s :
  gives (randomization_h m pp r s) (run_mut (randomization m pp r) s) [cell_r r]
  \/ (gives (randomization_h m pp r s) (run_mut (randomization m pp r) s) [cell_tmp pp r; cell_r r]
      /\ match run_mut (randomization m pp r) s with
         | Ok _ => False | Err e => tv_init m (sk_t s) (pp_depth pp) = Err e | Panic _ => True end).
Proof.
  rewrite randomization_flat.
  destruct (tv_init m (sk_t s) (pp_depth pp)) as [tv|e|p] eqn:Htv.
  2,3: right; split; [|reflexivity || exact I];
    (eapply gives_call' with (d := []);
    [intros D; hrun; unfold ssk_time_vec; rewrite Htv; hrun; rewrite app_nil_r; reflexivity|reflexivity]).
  cbn [bind].
  destruct (nth_res (pp_hlist pp) 0) as [h0|e|p] eqn:Hh0.
  2: { unfold nth_res in Hh0. destruct (nth_error _ _); discriminate Hh0. }
  2: { right; split; [|exact I];
    (eapply gives_call' with (d := []);
    [intros D; hrun; unfold ssk_time_vec; rewrite Htv; hrun; rewrite Hh0; hrun; rewrite app_nil_r; reflexivity|reflexivity]). }
  cbn [bind].
  destruct (poly_loop (pp_hlist pp) 0 (tv_vec tv) h0) as [t3|e|p] eqn:Ht3.
  2: { exfalso. revert Ht3. clear. revert h0. generalize 0%nat as i.
       induction (tv_vec tv) as [|a l IH]; intros i h0; cbn [poly_loop]; [discriminate|].
       unfold nth_res. destruct (nth_error _ _); cbn [bind]; [apply IH|discriminate]. }
  2: { right; split; [|exact I];
    (eapply gives_call' with (d := []);
    [intros D; hrun; unfold ssk_time_vec; rewrite Htv; hrun; rewrite Hh0; hrun; rewrite Ht3; hrun; rewrite app_nil_r; reflexivity|reflexivity]). }
  left. eapply gives_eq; [eapply gives_call with (d := []) (f := [("r"%string, VInt r)])|reflexivity|reflexivity].
  intros D; hrun; unfold ssk_time_vec; rewrite Htv; hrun; rewrite Hh0; hrun; rewrite Ht3; hrun.
  unfold sbind. rewrite hv_loop_h_spec.
  rewrite app_nil_r. cbn [bind]. destruct (hv_loop _ _ _ _) as [[u|e|p] l]; reflexivity.
Qed.

Lemma del_loop_h_spec {E} : forall ts (hv : list (G1 E)) hp D,
  del_loop_h hv ts hp ([], D)
  = (let (o, p) := del_loop hv ts hp in let! _ := o in Ok p, ([], D)).
Proof.
  induction ts as [|t ts IH]; intros [|h hv] hp D; try reflexivity.
  cbn [del_loop_h del_loop]. hrun. apply IH.
Qed.

Lemma delegate_flat {E} m tar d (s : subkey E) :
  run_mut (delegate m tar d) s =
  (let! c := tv_init m (sk_t s) d in
   let! t := tv_init m tar d in
   if negb (tv_is_prefix c t) then Err E_TIME_NONE_PREFIX else
   let (o, hp) := del_loop (sk_hvec s) (skipn (length (tv_vec c)) (tv_vec t)) (sk_hpoly s) in
   let! _ := o in
   Ok (SubKey tar (sk_g2r s) hp (skipn (length (tv_vec t) - length (tv_vec c)) (sk_hvec s)))).
Proof.
  unfold run_mut, delegate, sget, sput, slift.
  unfold sbind at 1 2.
  destruct (tv_init m (sk_t s) d) as [c|e|p]; [|reflexivity..].
  unfold sbind at 1. cbn [bind].
  destruct (tv_init m tar d) as [t|e|p]; [|reflexivity..].
  cbn [bind]. destruct (negb (tv_is_prefix c t)); [reflexivity|].
  destruct (del_loop _ _ _) as [[u|e|p] hp]; reflexivity.
Qed.

Lemma delegate_h_spec {E} m tar d (s : subkey E) :
  gives (delegate_h m tar d s) (run_mut (delegate m tar d) s) [].
Proof.
  rewrite delegate_flat.
  eapply gives_eq; [eapply gives_call with (d := []) (f := [])|reflexivity|reflexivity].
  intros D. rewrite app_nil_r.
  destruct (tv_init m (sk_t s) d) as [c|e|p]; [|reflexivity..].
  destruct (tv_init m tar d) as [t|e|p]; [|reflexivity..].
  hrun. cbn [bind]. destruct (negb (tv_is_prefix c t)); [reflexivity|]. 
  unfold sbind. rewrite del_loop_h_spec. destruct (del_loop _ _ _) as [[u|e|p] hp]; reflexivity.
Qed.

(** * Key generation *)
Lemma sk_init_h_spec {E} (L : env_laws E) (pp : pubparam E) alpha g :
  pp_hlist pp <> [] -> valid_cs (pp_cs pp) = true ->
  let r := spec_scalar (sha512 E) g (DOM_SEP_SK_INIT ++ [0; 0; 0; 1]) in
  gives (sk_init_h pp alpha g) (sk_init pp alpha g)
    (scalar_cell r :: init_cells pp alpha r ++ [Cell "SecretKey::init" "alpha" (VG1 alpha)]).
Proof.
  intros Hn Hcs r. unfold sk_init. rewrite Hcs. cbn [negb].
  rewrite sample_then_update_spec by exact (hash_len_env L). cbn [bind]. fold r.
  destruct (ssk_init pp alpha r) as [k|e|p] eqn:Hk.
  2,3: unfold ssk_init in Hk; destruct (pp_hlist pp); [congruence|discriminate Hk].
  pose proof (ssk_init_h_ok pp alpha r Hn) as Hi. rewrite Hk in Hi.
  eapply gives_call' with (d := scalar_cell r :: init_cells pp alpha r) (f := [("alpha"%string, VG1 alpha)]); [|reflexivity].
  intros D. rewrite Hcs. cbn [negb].
  rewrite run_gives_ok with (1 := sample_then_update_h_spec L g _). hrun.
  rewrite run_gives_ok with (1 := Hi). hrun. cbn [bind]. rewrite <- app_assoc. reflexivity.
Qed.

Lemma proof_of_possession_h_spec {E} msk (pk : G2 E) cs :
  gives (proof_of_possession_h msk pk cs) (Ok (bls_sign msk (pop_msg pk) [cs]))
    [Cell "proof_of_possession" "msk" (VInt msk)].
Proof.
  eapply gives_call' with (d := []) (f := [("msk"%string, VInt msk)]); [|reflexivity].
  intros D. hrun. rewrite app_nil_r. reflexivity.
Qed.

Lemma sk_init_h_nil {E} (L : env_laws E) (pp : pubparam E) alpha g : pp_hlist pp = [] ->
  exists d, gives (sk_init_h pp alpha g) (sk_init pp alpha g) d.
Proof.
  intros Hn. unfold sk_init. destruct (valid_cs (pp_cs pp)) eqn:Hcs; cbn [negb].
  2: { eexists. eapply gives_call' with (d := []); [|reflexivity]. intros D. rewrite Hcs, app_nil_r. reflexivity. }
  rewrite sample_then_update_spec by exact (hash_len_env L). cbn [bind].
  pose proof (fun r => ssk_init_h_nil pp alpha r Hn) as Hi.
  unfold ssk_init in *. rewrite Hn in *. cbn [nth_res nth_error bind] in *.
  eexists. eapply gives_call'; [|reflexivity].
  intros D. rewrite Hcs. cbn [negb].
  rewrite run_gives_ok with (1 := sample_then_update_h_spec L g _). hrun.
  rewrite run_gives_panic with (1 := Hi _). rewrite <- app_assoc. reflexivity.
Qed.

Lemma sk_init_h_any {E} (L : env_laws E) (pp : pubparam E) alpha g :
  exists d, gives (sk_init_h pp alpha g) (sk_init pp alpha g) d.
Proof.
  destruct (pp_hlist pp) as [|h0 hs] eqn:Hh; [apply (sk_init_h_nil L), Hh|].
  destruct (valid_cs (pp_cs pp)) eqn:Hcs.
  - eexists. apply (sk_init_h_spec L); [rewrite Hh; discriminate|exact Hcs].
  - eexists. unfold sk_init. rewrite Hcs. cbn [negb].
    eapply gives_call' with (d := []); [|reflexivity]. intros D. rewrite Hcs, app_nil_r. reflexivity.
Qed.

Lemma master_key_gen_h_ok {E} (L : env_laws E) (pp : pubparam E) seed :
  (32 <= length seed)%nat -> valid_cs (pp_cs pp) = true ->
  gives (master_key_gen_h seed pp) (master_key_gen seed pp)
    [Cell "PRNG::init" "rng_seed" (VBytes (rfc_hmac (sha512 E) (DOM_SEP_MASTER_KEY ++ [pp_cs pp]) seed));
     scalar_cell (spec_x pp seed);
     Cell "proof_of_possession" "msk" (VInt (spec_x pp seed));
     Cell "master_key_gen" "x_sec" (VInt (spec_x pp seed))].
Proof.
  intros H Hcs. rewrite (master_key_gen_spec L) by auto.
  eapply gives_call' with (f := [("x_sec"%string, VInt (spec_x pp seed))])
    (d := [Cell "PRNG::init" "rng_seed" (VBytes (rfc_hmac (sha512 E) (DOM_SEP_MASTER_KEY ++ [pp_cs pp]) seed));
     scalar_cell (spec_x pp seed); Cell "proof_of_possession" "msk" (VInt (spec_x pp seed))]); [|reflexivity].
  intros D. replace (length seed <? 32)%nat with false by lia. cbv zeta. rewrite Hcs. cbn [negb].
  rewrite run_gives_ok with (1 := prng_init_h_spec L seed _).
  rewrite prng_init_spec by apply (hash_len_env L).
  rewrite run_gives_ok with (1 := sample_then_update_h_spec L _ _). hrun.
  rewrite run_gives_ok with (1 := proof_of_possession_h_spec _ _ _). hrun.
  rewrite <- !app_assoc. reflexivity.
Qed.

Lemma key_gen_h_any {E} (L : env_laws E) (pp : pubparam E) seed :
  exists d, gives (key_gen_h seed pp) (key_gen seed pp) d.
Proof.
  destruct (Nat.lt_ge_cases (length seed) 32) as [Hs|Hs].
  { exists []. rewrite key_gen_short by exact Hs. eapply gives_call' with (d := []) (f := []); [|reflexivity].
    intros D. replace (length seed <? 32)%nat with true by lia. rewrite app_nil_r. reflexivity. }
  destruct (valid_cs (pp_cs pp)) eqn:Hcs.
  2: { exists []. rewrite key_gen_bad_cs by auto. eapply gives_call' with (d := []) (f := []); [|reflexivity].
    intros D. replace (length seed <? 32)%nat with false by lia.
    assert (Hm : gives (master_key_gen_h seed pp) (Err E_CIPHERSUITE) []).
    { eapply gives_call' with (d := []) (f := []); [|reflexivity].
      intros D'. replace (length seed <? 32)%nat with false by lia. cbv zeta. rewrite Hcs, app_nil_r. reflexivity. }
    rewrite run_gives_err with (1 := Hm). reflexivity. }
  pose proof (master_key_gen_h_ok L pp seed Hs Hcs) as Hm. rewrite (master_key_gen_spec L) in Hm by auto.
  destruct (sk_init_h_any L pp (g1_mul (spec_x pp seed) (pp_h pp)) (spec_g1 pp seed)) as [d Hd].
  unfold key_gen. replace (length seed <? 32)%nat with false by lia. rewrite (master_key_gen_spec L) by auto.
  cbn [bind]. unfold pk_init. rewrite Hcs. cbn [negb bind].
  eexists. eapply gives_call'; [|reflexivity].
  intros D. replace (length seed <? 32)%nat with false by lia.
  rewrite run_gives_ok with (1 := Hm). hrun. unfold pk_init. rewrite Hcs. cbn [negb]. hrun.
  destruct (sk_init pp _ _) as [k|e|p].
  - rewrite run_gives_ok with (1 := Hd). hrun. rewrite <- app_assoc. reflexivity.
  - rewrite run_gives_err with (1 := Hd). hrun. rewrite <- app_assoc. reflexivity.
  - rewrite run_gives_panic with (1 := Hd). hrun. rewrite <- app_assoc. reflexivity.
Qed.

Lemma key_gen_h_ok {E} (L : env_laws E) (pp : pubparam E) seed :
  (32 <= length seed)%nat -> valid_cs (pp_cs pp) = true -> pp_hlist pp <> [] ->
  gives (key_gen_h seed pp) (key_gen seed pp) (keygen_cells pp (spec_master pp seed) (spec_x pp seed) (spec_r pp seed)).
Proof.
  intros Hs Hcs Hn.
  pose proof (master_key_gen_h_ok L pp seed Hs Hcs) as Hm. rewrite (master_key_gen_spec L) in Hm by auto.
  pose proof (sk_init_h_spec L pp (g1_mul (spec_x pp seed) (pp_h pp)) (spec_g1 pp seed) Hn Hcs) as Hd.
  destruct (pp_hlist pp) as [|h0 hs] eqn:Eh; [congruence|].
  destruct (key_gen_head L pp seed h0 hs Hs Hcs Eh) as (k & -> & Hk).
  assert (Hi : sk_init pp (g1_mul (spec_x pp seed) (pp_h pp)) (spec_g1 pp seed) = Ok (SecKey (pp_cs pp) 1 [k] (spec_g2 pp seed))).
  { unfold sk_init. rewrite Hcs. cbn [negb]. rewrite sample_then_update_spec by exact (hash_len_env L).
    cbn [bind]. fold SK_INIT_INFO. fold (spec_r pp seed). rewrite Hk. reflexivity. }
  rewrite Hi in Hd.
  eapply gives_call' with (f := [("msk_sec"%string, VG1 (g1_mul (spec_x pp seed) (pp_h pp)))]).
  2: { unfold keygen_cells. rewrite !app_assoc. cbn [map fst snd].
       change [Cell "SecretKey::init" "alpha" (VG1 (g1_mul (spec_x pp seed) (pp_h pp))); Cell "keygen" "msk_sec" (VG1 (g1_mul (spec_x pp seed) (pp_h pp)))]
         with ([Cell "SecretKey::init" "alpha" (VG1 (g1_mul (spec_x pp seed) (pp_h pp)))] ++ [Cell "keygen" "msk_sec" (VG1 (g1_mul (spec_x pp seed) (pp_h pp)))])%list.
       rewrite app_assoc. reflexivity. }
  intros D. replace (length seed <? 32)%nat with false by lia.
  rewrite run_gives_ok with (1 := Hm). hrun. unfold pk_init. rewrite Hcs. cbn [negb]. hrun.
  rewrite run_gives_ok with (1 := Hd). hrun. rewrite <- app_assoc. reflexivity.
Qed.

(** * Update *)
Definition scals {E : env} (n : nat) (g : prng) : list N :=
  map (fun j => spec_scalar (sha512 E) (draws (sha512 E) j g) DOM_SEP_SK_UPDATE) (seq 0 n).
Lemma scals_S {E : env} n g : @scals E (S n) g = spec_scalar (sha512 E) g DOM_SEP_SK_UPDATE
   :: @scals E n (spec_next (sha512 E) g DOM_SEP_SK_UPDATE).
Proof.
  unfold scals. cbn [seq map]. f_equal. rewrite <- seq_shift, map_map. apply map_ext. intros j.
  rewrite draws_S. reflexivity.
Qed.
Definition left_by {E : env} (n : nat) (g : prng) : list (cell E) := flat_map draw_cells (@scals E n g).
Lemma left_by_S {E : env} n g : @left_by E (S n) g =
  (draw_cells (spec_scalar (sha512 E) g DOM_SEP_SK_UPDATE) ++ left_by n (spec_next (sha512 E) g DOM_SEP_SK_UPDATE))%list.
Proof. unfold left_by. rewrite scals_S. reflexivity. Qed.

Lemma delegate_time {E} m tar d (s s1 : subkey E) : run_mut (delegate m tar d) s = Ok s1 ->
  sk_t s1 = tar /\ exists tv, tv_init m tar d = Ok tv.
Proof.
  rewrite delegate_flat. destruct (tv_init m (sk_t s) d); try discriminate. cbn [bind].
  destruct (tv_init m tar d) as [tv| |]; try discriminate. cbn [bind].
  destruct (negb _); [discriminate|]. destruct (del_loop _ _ _) as [[?|?|?] hp]; try discriminate.
  cbn [bind]. intros [= <-]. split; [reflexivity|eauto].
Qed.

Lemma rerand_new_h_spec {E} (L : env_laws E) m (pp : pubparam E) old i s g :
  (exists tv, tv_init m (sk_t s) (pp_depth pp) = Ok tv) ->
  exists f d, (forall D, rerand_new_h m pp old i s g ([], D) = (rerand_new m pp old i s g, (f, (D ++ d)%list)))
  /\ match rerand_new m pp old i s g with
     | Panic _ => True
     | r => f = [] /\ d = left_by (if (i =? 0)%nat then 0 else 1) g
            /\ match r with Ok (_, g') => g' = draws (sha512 E) (if (i =? 0)%nat then 0 else 1) g | _ => True end
     end.
Proof.
  intros [tv Htv]. unfold rerand_new_h, rerand_new. destruct (i =? 0)%nat eqn:Hi.
  { exists [], []. split; [intros D; rewrite app_nil_r; reflexivity|repeat split]. }
  rewrite sample_then_update_spec by exact (hash_len_env L). cbn [bind].
  set (k := spec_scalar (sha512 E) g DOM_SEP_SK_UPDATE).
  destruct (prng_eqb (spec_next (sha512 E) g DOM_SEP_SK_UPDATE) old) eqn:Hp.
  { eexists _, _. split; [|exact I]. intros D.
    rewrite run_gives_ok with (1 := sample_then_update_h_spec L g _). hrun. rewrite Hp. reflexivity. }
  destruct (randomization_h_spec m pp k s) as [Hr|[Hr Hx]].
  - destruct (run_mut (randomization m pp k) s) as [s'|e|p]; cbn [bind].
    3: { eexists _, _. split; [|exact I]. intros D.
         rewrite run_gives_ok with (1 := sample_then_update_h_spec L g _). hrun. rewrite Hp. hrun.
         unfold sbind, on_err. fold k. rewrite Hr. cbn [fst snd]. rewrite <- app_assoc. reflexivity. }
    all: exists [], (draw_cells k); (split; [|repeat split]).
    all: intros D; rewrite run_gives_ok with (1 := sample_then_update_h_spec L g _); hrun; rewrite Hp;
      hrun; unfold sbind, on_err; fold k; rewrite Hr; cbn [fst snd zeroize]; rewrite <- app_assoc; reflexivity.
  - destruct (run_mut (randomization m pp k) s) as [s'|e|p]; [contradiction Hx|congruence|]; cbn [bind].
    eexists _, _. split; [|exact I]. intros D.
    rewrite run_gives_ok with (1 := sample_then_update_h_spec L g _). hrun. rewrite Hp. hrun.
    unfold sbind, on_err. fold k. rewrite Hr. cbn [fst snd]. rewrite <- app_assoc. reflexivity.
Qed.

Lemma draws_add {E : env} a b g : draws (sha512 E) a (draws (sha512 E) b g) = draws (sha512 E) (a + b) g.
Proof.
  revert g. induction b as [|b IH]; intros g; [rewrite Nat.add_0_r; reflexivity|].
  rewrite Nat.add_succ_r, !draws_S. apply IH.
Qed.
Lemma left_by_add {E : env} a b g : @left_by E (a + b) g = (left_by a g ++ left_by b (draws (sha512 E) a g))%list.
Proof.
  revert g. induction a as [|a IH]; intros g; [reflexivity|].
  cbn [Nat.add]. rewrite !left_by_S, IH, <- app_assoc, draws_S. reflexivity.
Qed.

Lemma update_loop_h_spec {E} (L : env_laws E) m (pp : pubparam E) old : forall gl i ssk g,
  exists f d, (forall D, update_loop_h m pp old i gl ssk g ([], D) = (update_loop m pp old i gl ssk g, (f, (D ++ d)%list)))
  /\ match update_loop m pp old i gl ssk g with
     | Panic _ => True
     | Err _ => f = [] /\ exists n, d = left_by n g
     | Ok (ssk', g') => f = [] /\ exists c,
         length ssk' = (c + length ssk)%nat /\
         let n := (if (i =? 0)%nat then c - 1 else c)%nat in d = left_by n g /\ g' = draws (sha512 E) n g
     end.
Proof.
  induction gl as [|tmptime gl IH]; intros i ssk g; cbn [update_loop_h update_loop].
  { exists [], []. split; [intros D; rewrite app_nil_r; reflexivity|]. split; [reflexivity|]. exists 0%nat.
    destruct (i =? 0)%nat; repeat split. }
  destruct (dup_loop m (pp_depth pp) tmptime (skipn (i + 1) ssk)) as [found|e|p]; cbn [bind].
  2: { exists [], []. split; [intros D; rewrite app_nil_r; reflexivity|]. split; [reflexivity|]. exists 0%nat. reflexivity. }
  2: { exists [], []. split; [intros D; rewrite app_nil_r; reflexivity|exact I]. }
  destruct found.
  { exists [], []. split; [intros D; rewrite app_nil_r; reflexivity|]. split; [reflexivity|]. exists 0%nat.
    destruct (i =? 0)%nat; repeat split. }
  destruct (nth_res ssk 0) as [s0|e|p]; cbn [bind].
  2: { exists [], []. split; [intros D; rewrite app_nil_r; reflexivity|]. split; [reflexivity|]. exists 0%nat. reflexivity. }
  2: { exists [], []. split; [intros D; rewrite app_nil_r; reflexivity|exact I]. }
  pose proof (delegate_h_spec m (tv_time tmptime) (pp_depth pp) s0) as Hdel.
  destruct (run_mut (delegate m (tv_time tmptime) (pp_depth pp)) s0) as [s1|e|p] eqn:Hs1; cbn [bind].
  2: { exists [], []. split; [intros D; rewrite !run_lift_ok; rewrite run_gives_err with (1 := Hdel); reflexivity|].
       split; [reflexivity|]. exists 0%nat. reflexivity. }
  2: { exists [], []. split; [intros D; rewrite !run_lift_ok; rewrite run_gives_panic with (1 := Hdel); reflexivity|exact I]. }
  apply delegate_time in Hs1 as [Ht1 Htv].
  destruct (rerand_new_h_spec L m pp old i s1 g) as (f1 & d1 & Hr & Hc); [rewrite Ht1; exact Htv|].
  assert (Hstep : forall D (k : subkey E * prng -> hm E (list (subkey E) * prng)),
    sbind (rerand_new_h m pp old i s1 g) k ([], D)
    = match rerand_new m pp old i s1 g with
      | Ok a => k a (f1, (D ++ d1)%list) | Err e => (Err e, (f1, (D ++ d1)%list)) | Panic p => (Panic p, (f1, (D ++ d1)%list)) end).
  { intros D k. unfold sbind. rewrite Hr. destruct (rerand_new m pp old i s1 g); reflexivity. }
  destruct (rerand_new m pp old i s1 g) as [[s2 g']|e|p]; cbn [bind].
  2: { destruct Hc as (-> & -> & _). eexists [], _. split.
       - intros D. rewrite !run_lift_ok. rewrite run_gives_ok with (1 := Hdel). rewrite app_nil_r, Hstep. reflexivity.
       - split; [reflexivity|]. eauto. }
  2: { eexists _, _. split; [|exact I]. intros D. rewrite !run_lift_ok. rewrite run_gives_ok with (1 := Hdel).
       rewrite app_nil_r, Hstep. reflexivity. }
  destruct Hc as (-> & -> & ->).
  set (n1 := if (i =? 0)%nat then 0%nat else 1%nat) in *.
  destruct (insert_at (i + 1) s2 ssk) as [ssk'|e|p] eqn:Hins; cbn [bind].
  2: { unfold insert_at in Hins. destruct (i + 1 <=? length ssk)%nat; discriminate Hins. }
  2: { eexists _, _. split; [|exact I]. intros D. rewrite !run_lift_ok. rewrite run_gives_ok with (1 := Hdel).
       rewrite app_nil_r, Hstep, Hins. reflexivity. }
  destruct (IH (S i) ssk' (draws (sha512 E) n1 g)) as (f2 & d2 & Hrun & Hres).
  exists f2, (left_by n1 g ++ d2)%list. split.
  { intros D. rewrite !run_lift_ok. rewrite run_gives_ok with (1 := Hdel). rewrite app_nil_r, Hstep.
    rewrite Hins, run_lift_ok, Hrun, app_assoc. reflexivity. }
  destruct (update_loop m pp old (S i) gl ssk' (draws (sha512 E) n1 g)) as [[ssk'' g'']|e|p]; [| |exact I].
  - destruct Hres as (-> & c & Hlen & Hd2 & Hg2). change (S i =? 0)%nat with false in *. cbv iota zeta in *.
    split; [reflexivity|]. exists (S c). split.
    { rewrite Hlen. unfold insert_at in Hins. destruct (i + 1 <=? length ssk)%nat; [|discriminate Hins].
      injection Hins as <-. rewrite app_length. cbn [length]. pose proof (firstn_skipn (i + 1) ssk) as Hf.
      apply (f_equal (@length _)) in Hf. rewrite app_length in Hf. lia. }
    replace (if (i =? 0)%nat then (S c - 1)%nat else S c) with (n1 + c)%nat by (unfold n1; destruct (i =? 0)%nat; lia).
    cbv zeta. rewrite left_by_add, Hd2. split; [reflexivity|]. rewrite Hg2, draws_add. f_equal. lia.
  - destruct Hres as (-> & n & ->). split; [reflexivity|]. exists (n1 + n)%nat. rewrite left_by_add. reflexivity.
Qed.

(** The model of update without the state. *)
Lemma update_flat {E} m (pp : pubparam E) tar seed sk :
  run_mut (update m pp tar seed) sk =
  (if negb (sec_cs sk =? pp_cs pp) then Err E_CIPHERSUITE else
   let! p := shl64 m (pp_depth pp) in
   let! max_time := sub64 m p 1 in
   if (tar <=? sec_time sk) || (max_time <? tar) then Err E_TIME_STAMP else
   let! dt := find_ancestor sk tar in
   let! g := rerandomize (sha512 E) (sec_prng sk) seed (DOM_SEP_SK_RERANDOMIZE_INFO ++ time_bytes (sec_time sk)) in
   let! ssk := drop_until dt (sec_ssk sk) in
   match ssk with
   | [] => Err E_SSK_EMPTY
   | _ :: _ =>
     if dt =? tar then Ok (SecKey (sec_cs sk) dt ssk g) else
     let! tv := tv_init m tar (pp_depth pp) in
     let! gl := gamma_list m tv (pp_depth pp) in
     let! (ssk', g') := update_loop m pp (sec_prng sk) 0 gl ssk g in
     let! ssk'' := remove_at 0 ssk' in
     let! s0 := nth_res ssk'' 0 in
     Ok (SecKey (sec_cs sk) (sk_t s0) ssk'' g')
   end).
Proof.
  unfold run_mut, update, sget, sput, slift, sbind.
  destruct (negb (sec_cs sk =? pp_cs pp)); [reflexivity|].
  destruct (shl64 m (pp_depth pp)) as [p| |]; [|reflexivity..]. cbn [bind].
  destruct (sub64 m p 1) as [mt| |]; [|reflexivity..]. cbn [bind].
  destruct ((tar <=? sec_time sk) || (mt <? tar)); [reflexivity|].
  destruct (find_ancestor sk tar) as [dt| |]; [|reflexivity..]. cbn [bind].
  destruct (rerandomize _ _ _ _) as [g| |]; [|reflexivity..]. cbn [bind].
  destruct (drop_until dt (sec_ssk sk)) as [[|a l]| |]; [reflexivity| |reflexivity..]. cbn [bind].
  destruct (dt =? tar); [reflexivity|].
  destruct (tv_init m tar (pp_depth pp)) as [tv| |]; [|reflexivity..]. cbn [bind].
  destruct (gamma_list m tv (pp_depth pp)) as [gl| |]; [|reflexivity..]. cbn [bind].
  destruct (update_loop _ _ _ _ _ _ _) as [[ssk' g']| |]; [|reflexivity..]. cbn [bind].
  destruct (remove_at 0 ssk') as [ssk''| |]; [|reflexivity..]. cbn [bind].
  destruct (nth_res ssk'' 0) as [s0| |]; reflexivity.
Qed.

Ltac hgo l := intros D; cbv zeta; repeat first
  [ rewrite run_lift_ok | rewrite l
  | match goal with
    | H : _ = Ok _ |- _ => rewrite H | H : _ = Err _ |- _ => rewrite H | H : _ = Panic _ |- _ => rewrite H
    | H : _ = true |- _ => rewrite H | H : _ = false |- _ => rewrite H end ].

Lemma update_h_spec {E} (L : env_laws E) m (pp : pubparam E) tar seed sk :
  exists d, gives (update_h m pp tar seed sk) (run_mut (update m pp tar seed) sk) d
  /\ match run_mut (update m pp tar seed) sk with
     | Panic _ => True
     | Err _ => exists n, d = left_by n (spec_reseed sk seed)
     | Ok sk' => exists n, d = left_by n (spec_reseed sk seed) /\ sec_prng sk' = draws (sha512 E) n (spec_reseed sk seed)
         /\ exists dt a post, find_ancestor sk tar = Ok dt /\ drop_until dt (sec_ssk sk) = Ok (a :: post)
              /\ n = (length (sec_ssk sk') - length post - 1)%nat
     end.
Proof.
  rewrite update_flat. unfold update_h.
  assert (Hnil : forall (r : res (seckey E)) (b : hm E (seckey E)), (forall D, b ([], D) = (r, ([], D))) ->
     match r with Ok _ => False | _ => True end ->
     exists d, gives (call "update" [] b) r d /\
     match r with
     | Panic _ => True
     | Err _ => exists n, d = left_by n (spec_reseed sk seed)
     | Ok sk' => exists n, d = left_by n (spec_reseed sk seed) /\ sec_prng sk' = draws (sha512 E) n (spec_reseed sk seed)
         /\ exists dt a post, find_ancestor sk tar = Ok dt /\ drop_until dt (sec_ssk sk) = Ok (a :: post)
              /\ n = (length (sec_ssk sk') - length post - 1)%nat
     end).
  { intros r b Hb Hr. exists []. split.
    - eapply gives_call' with (d := []) (f := []); [|reflexivity]. intros D. rewrite app_nil_r. apply Hb.
    - destruct r; [contradiction Hr| |exact I]. exists 0%nat. reflexivity. }
  destruct (negb (sec_cs sk =? pp_cs pp)); [apply Hnil; [reflexivity|exact I]|].
  destruct (shl64 m (pp_depth pp)) as [p| |]; [|apply Hnil; [reflexivity|exact I]..]. cbn [bind].
  destruct (sub64 m p 1) as [mt| |] eqn:Hmt;
    [|apply Hnil; [hgo @run_lift_ok; reflexivity|exact I]..]. cbn [bind].
  destruct ((tar <=? sec_time sk) || (mt <? tar)) eqn:Hrange;
    [apply Hnil; [hgo @run_lift_ok; reflexivity|exact I]|].
  destruct (find_ancestor sk tar) as [dt| |] eqn:Hfa;
    [|apply Hnil; [hgo @run_lift_ok; reflexivity|exact I]..]. cbn [bind].
  pose proof (rerandomize_h_spec L (sec_prng sk) seed (DOM_SEP_SK_RERANDOMIZE_INFO ++ time_bytes (sec_time sk))) as Hre.
  rewrite rerandomize_spec in * by exact (hash_len_env L). fold (spec_reseed sk seed) in *. cbn [bind].
  set (g := spec_reseed sk seed) in *.
  assert (Hgo : forall (k : prng -> hm E (seckey E)) D,
    (do! g <- rerandomize_h (sec_prng sk) seed (DOM_SEP_SK_RERANDOMIZE_INFO ++ time_bytes (sec_time sk)); k g) ([], D) = k g ([], D)).
  { intros k D. rewrite run_gives_ok with (1 := Hre). rewrite app_nil_r. reflexivity. }
  destruct (drop_until dt (sec_ssk sk)) as [ssk| |] eqn:Hdu;
    [|apply Hnil; [hgo Hgo; reflexivity|exact I]..].
  cbn [bind]. destruct ssk as [|a post].
  { apply Hnil; [hgo Hgo; reflexivity|exact I]. }
  destruct (dt =? tar) eqn:Hdt.
  { exists []. split.
    - eapply gives_call' with (d := []) (f := []); [|reflexivity].
      hgo Hgo. rewrite app_nil_r. reflexivity.
    - exists 0%nat. split; [reflexivity|]. split; [reflexivity|]. exists dt, a, post.
      split; [reflexivity|]. split; [exact Hdu|]. cbn [sec_ssk length]. lia. }
  destruct (tv_init m tar (pp_depth pp)) as [tv| |] eqn:Htv;
    [|apply Hnil; [hgo Hgo; reflexivity|exact I]..].
  cbn [bind]. destruct (gamma_list m tv (pp_depth pp)) as [gl| |] eqn:Hgl;
    [|apply Hnil; [hgo Hgo; reflexivity|exact I]..].
  cbn [bind].
  destruct (update_loop_h_spec L m pp (sec_prng sk) gl 0 (a :: post) g) as (f & d & Hl & Hres).
  destruct (update_loop m pp (sec_prng sk) 0 gl (a :: post) g) as [[ssk' g']|e|pn]; cbn [bind].
  3: { eexists. split; [|exact I]. eapply gives_call'; [|reflexivity].
       hgo Hgo.
       unfold sbind. rewrite Hl. reflexivity. }
  2: { destruct Hres as (-> & n & ->). eexists. split; [|exists n; reflexivity].
       eapply gives_call' with (f := []); [|cbn [map]; rewrite app_nil_r; reflexivity].
       hgo Hgo.
       unfold sbind. rewrite Hl. reflexivity. }
  destruct Hres as (-> & c & Hlen & -> & ->). cbn [Nat.eqb].
  assert (Hrun : forall D (k : list (subkey E) * prng -> hm E (seckey E)),
    sbind (update_loop_h m pp (sec_prng sk) 0 gl (a :: post) g) k ([], D)
    = k (ssk', draws (sha512 E) (c - 1) g) ([], (D ++ left_by (c - 1) g)%list)).
  { intros D k. unfold sbind. rewrite Hl. reflexivity. }
  exists (left_by (c - 1) g).
  destruct ssk' as [|b ssk']; [cbn [length] in Hlen; lia|].
  cbn [remove_at Nat.ltb Nat.leb length firstn skipn app bind].
  destruct ssk' as [|s0 ssk'].
  { cbn [nth_res nth_error bind]. split; [|exact I].
    eapply gives_call' with (f := []); [|cbn [map]; rewrite app_nil_r; reflexivity].
    hgo Hgo. rewrite Hrun. reflexivity. }
  cbn [nth_res nth_error bind]. split.
  - eapply gives_call' with (f := []); [|cbn [map]; rewrite app_nil_r; reflexivity].
    hgo Hgo. rewrite Hrun. reflexivity.
  - exists (c - 1)%nat. split; [reflexivity|]. split; [reflexivity|]. exists dt, a, post.
    split; [reflexivity|]. split; [exact Hdu|]. cbn [sec_ssk length] in *. lia.
Qed.

(** * Signing *)
Lemma sign_fr_h_spec {E} m (sk : seckey E) t (pp : pubparam E) M r :
  gives (sign_fr_h m sk t pp M r) (sign_fr m sk t pp M r) [Cell "sign_fr" "r" (VInt r)].
Proof.
  unfold sign_fr. eapply gives_call' with (d := []) (f := [("r"%string, VInt r)]); [|reflexivity].
  intros D. rewrite app_nil_r.
  destruct (negb (sec_time sk =? t)); [reflexivity|].
  destruct (first_ssk sk) as [s| |]; [|reflexivity..]. hrun. cbn [bind].
  destruct (ssk_time_vec m s (pp_depth pp)) as [tv| |]; [|reflexivity..]. hrun. cbn [bind].
  destruct (nth_res (pp_hlist pp) 0) as [h0| |]; [|reflexivity..]. hrun. cbn [bind].
  destruct (poly_loop (pp_hlist pp) 0 (tv_vec tv) h0) as [t3| |]; [|reflexivity..]. hrun. cbn [bind].
  destruct (nth_res (pp_hlist pp) (pp_depth pp)) as [hd| |]; [|reflexivity..]. hrun. cbn [bind].
  destruct (last_hvector_coeff s) as [hv|e|p] eqn:Hlast; cbn [bind].
  - reflexivity.
  - reflexivity.
  - exfalso. unfold last_hvector_coeff in Hlast. destruct (sk_hvec s) as [|h l] eqn:Hh; [discriminate Hlast|].
    unfold nth_res in Hlast. destruct (nth_error _ _) eqn:Hn; [discriminate Hlast|].
    apply nth_error_None in Hn. cbn [length] in Hn. lia.
Qed.

Lemma hash_msg_h_spec {E} (L : env_laws E) (pp : pubparam E) msg :
  gives (@hash_msg_into_fr_h E msg (pp_cs pp)) (Ok (msg_scalar pp msg)) [scalar_cell (msg_scalar pp msg)].
Proof.
  eapply gives_call' with (d := [scalar_cell (msg_scalar pp msg)]) (f := []); [|reflexivity].
  intros D. rewrite os2ip_h by (rewrite (hash_len_env L); lia). reflexivity.
Qed.

Lemma sign_bytes_h_spec {E} (L : env_laws E) m (sk : seckey E) t (pp : pubparam E) msg :
  exists d, gives (sign_bytes_h m sk t pp msg) (sign_bytes m sk t pp msg) d
  /\ match sign_bytes m sk t pp msg with
     | Panic _ => True
     | Err _ => d = [] \/ d = sign_cells pp sk t msg
     | Ok _ => d = sign_cells pp sk t msg
     end.
Proof.
  unfold sign_bytes.
  destruct (valid_cs (pp_cs pp)) eqn:Hcs; cbn [negb].
  2: { exists []. split; [|left; reflexivity]. eapply gives_call' with (d := []) (f := []); [|reflexivity].
       hgo @run_lift_ok. rewrite app_nil_r. reflexivity. }
  destruct (sec_cs sk =? pp_cs pp) eqn:Hcs2; cbn [negb].
  2: { exists []. split; [|left; reflexivity]. eapply gives_call' with (d := []) (f := []); [|reflexivity].
       hgo @run_lift_ok. rewrite app_nil_r. reflexivity. }
  destruct (sec_time sk =? t) eqn:Ht; cbn [negb].
  2: { exists []. split; [|exact I]. eapply gives_call' with (d := []) (f := []); [|reflexivity].
       hgo @run_lift_ok. rewrite app_nil_r. reflexivity. }
  rewrite sample_spec by exact (hash_len_env L). cbn [bind]. rewrite (hash_msg_spec L). cbn [bind].
  fold (sign_info msg t). set (k := spec_scalar (sha512 E) (sec_prng sk) (sign_info msg t)).
  set (M := msg_scalar pp msg).
  pose proof (sign_fr_h_spec m sk t pp M k) as Hs.
  exists (match sign_fr m sk t pp M k with
          | Panic _ => sign_cells pp sk t msg ++ [Cell "sign_bytes" "r_sec" (VInt k)] | _ => sign_cells pp sk t msg end)%list.
  split; [|destruct (sign_fr m sk t pp M k); auto].
  eapply gives_call' with (d := sign_cells pp sk t msg)
    (f := match sign_fr m sk t pp M k with Panic _ => [("r_sec"%string, VInt k)] | _ => [] end).
  2: { destruct (sign_fr m sk t pp M k); cbn [map fst snd]; try rewrite app_nil_r; reflexivity. }
  intros D. cbv zeta. rewrite Hcs, Hcs2, Ht. cbn [negb].
  rewrite run_gives_ok with (1 := sample_h_spec L (sec_prng sk) (sign_info msg t)). fold k. hrun.
  rewrite run_gives_ok with (1 := hash_msg_h_spec L pp msg). fold M. hrun.
  unfold sbind, on_err. rewrite Hs. unfold sign_cells. fold k. fold M.
  destruct (sign_fr m sk t pp M k) as [s|e|p]; cbn [fst snd zeroize]; rewrite <- !app_assoc; reflexivity.
Qed.

Lemma sign_present_h_spec {E} (L : env_laws E) m t (pp : pubparam E) msg (sk : seckey E) :
  exists d, gives (sign_present_h m t pp msg sk) (fst (sign_present m t pp msg sk)) d
  /\ match fst (sign_present m t pp msg sk) with
     | Panic _ => True
     | Err _ => d = [] \/ d = sign_cells pp sk t msg
     | Ok _ => d = sign_cells pp sk t msg
     end.
Proof.
  unfold sign_present, sbind, sget, slift. cbn [fst]. destruct (sec_time sk =? t) eqn:Ht; cbn [negb fst].
  2: { exists []. split; [|left; reflexivity]. eapply gives_call' with (d := []) (f := []); [|reflexivity].
       hgo @run_lift_ok. rewrite app_nil_r. reflexivity. }
  destruct (sign_bytes_h_spec L m sk t pp msg) as (d & Hd & Hc). exists d. split; [|exact Hc].
  eapply gives_call' with (f := []); [|cbn [map]; rewrite app_nil_r; reflexivity].
  intros D. rewrite Ht. cbn [negb]. apply Hd.
Qed.

(** * Serialization *)
Lemma ssk_serialize_h_spec {E} (x : subkey E) c out :
  gives (ssk_serialize_h x c out)
    (if sk_t x <=? 2^32 then Ok (out ++ ssk_blob c x) else Err E_SERIAL)
    [hv_cell x].
Proof.
  eapply gives_call' with (d := []) (f := [("hvector"%string, VPoints (sk_hvec x))]); [|reflexivity].
  intros D. hrun. change (pow2 32) with (2^32). rewrite app_nil_r. destruct (N.leb_spec (sk_t x) (2^32)).
  - replace (2^32 <? sk_t x) with false by lia. hrun.
    rewrite time_bytes_be4, fold_app_concat. unfold ssk_blob, as_u8. cbn [app]. rewrite <- !app_assoc. cbn [app]. rewrite <- !app_assoc. reflexivity.
  - replace (2^32 <? sk_t x) with true by lia. reflexivity.
Qed.

Lemma ssks_serialize_h_spec {E} c : forall (l : list (subkey E)) out D,
  if forallb (fun s => sk_t s <=? 2^32) l
  then ssks_serialize_h l c ([("buf"%string, VBytes out)], D)
       = (Ok tt, ([("buf"%string, VBytes (out ++ concat (map (ssk_blob c) l)))], (D ++ map hv_cell l)%list))
  else exists pre s post, l = (pre ++ s :: post)%list /\ Forall (fun s => sk_t s <= 2^32) pre /\ 2^32 < sk_t s
       /\ forall D, ssks_serialize_h l c ([("buf"%string, VBytes out)], D)
       = (Err E_SERIAL, ([("buf"%string, VBytes (out ++ concat (map (ssk_blob c) pre)))], (D ++ map hv_cell (pre ++ [s]))%list)).
Proof.
  induction l as [|s l IH]; intros out D; cbn [forallb ssks_serialize_h].
  - cbn [map concat]. rewrite !app_nil_r. reflexivity.
  - pose proof (ssk_serialize_h_spec s c out) as Hs. destruct (N.leb_spec (sk_t s) (2^32)) as [Ht|Ht]; cbn [andb].
    + specialize (IH (out ++ ssk_blob c s)). destruct (forallb _ l).
      * hrun. rewrite run_gives_ok with (1 := Hs). hrun. rewrite IH. cbn [map concat]. rewrite <- !app_assoc. reflexivity.
      * destruct (IH D) as (pre & s' & post & -> & Hpre & Hs' & Hrun). exists (s :: pre), s', post.
        split; [reflexivity|]. split; [constructor; assumption|]. split; [exact Hs'|]. intros D'.
        hrun. rewrite run_gives_ok with (1 := Hs). hrun. rewrite Hrun. cbn [map concat app]. rewrite <- !app_assoc. reflexivity.
    + exists [], s, l. split; [reflexivity|]. split; [constructor|]. split; [exact Ht|]. intros D'.
      hrun. rewrite run_gives_err with (1 := Hs). cbn [map concat app]. rewrite app_nil_r. reflexivity.
Qed.

Definition sk_head {E} (x : seckey E) : bytes := [sec_cs x; N.of_nat (length (sec_ssk x)) mod 256] ++ sec_prng x.

Lemma sk_serialize_h_spec {E} (x : seckey E) c w :
  exists d, gives (sk_serialize_h x c w) (run_mut (sk_serialize x c) w) d
  /\ (valid_cs (sec_cs x) = false -> d = [])
  /\ (valid_cs (sec_cs x) = true -> forallb (fun s => sk_t s <=? 2^32) (sec_ssk x) = true ->
       d = (map hv_cell (sec_ssk x) ++ match run_mut (sk_serialize x c) w with Ok _ => [] | _ => [buf_cell (sk_blob c x)] end)%list)
  /\ (valid_cs (sec_cs x) = true -> forallb (fun s => sk_t s <=? 2^32) (sec_ssk x) = false ->
       exists pre s post, sec_ssk x = (pre ++ s :: post)%list /\ Forall (fun s => sk_t s <= 2^32) pre /\ 2^32 < sk_t s
       /\ d = (map hv_cell (pre ++ [s]) ++ [buf_cell (sk_head x ++ concat (map (ssk_blob c) pre))])%list).
Proof.
  unfold run_mut. rewrite sk_serialize_blob. destruct (valid_cs (sec_cs x)) eqn:Hcs.
  2: { exists []. split; [|repeat split; discriminate].
       eapply gives_call' with (d := []) (f := []); [|reflexivity]. intros D. rewrite Hcs, app_nil_r. reflexivity. }
  pose proof (fun D => ssks_serialize_h_spec c (sec_ssk x) ([sec_cs x] ++ [as_u8 (N.of_nat (length (sec_ssk x)))] ++ sec_prng x) D) as H.
  assert (Hb : ([sec_cs x] ++ [as_u8 (N.of_nat (length (sec_ssk x)))] ++ sec_prng x) ++ concat (map (ssk_blob c) (sec_ssk x)) = sk_blob c x).
  { unfold sk_blob, as_u8. rewrite <- !app_assoc. reflexivity. }
  destruct (forallb _ (sec_ssk x)) eqn:Hf.
  - rewrite Hb in H. eexists. split; [|split; [discriminate|split; [intros _ _; reflexivity|discriminate]]].
    cbn [sbind sret]. destruct (write_all (sk_blob c x) w) as [[[]|e|p] w'] eqn:Hw.
    + eapply gives_call' with (f := []); [|cbn [map]; rewrite app_nil_r; symmetry; apply app_nil_r].
      intros D. rewrite Hcs. cbn [negb]. hrun. unfold sbind at 1. rewrite H. hrun.
      unfold run_mut. rewrite Hw. hrun. reflexivity.
    + eapply gives_call' with (f := [("buf"%string, VBytes (sk_blob c x))]); [|cbn [map fst snd]; reflexivity].
      intros D. rewrite Hcs. cbn [negb]. hrun. unfold sbind at 1. rewrite H. hrun.
      unfold run_mut. rewrite Hw. hrun. reflexivity.
    + eapply gives_call' with (f := [("buf"%string, VBytes (sk_blob c x))]); [|cbn [map fst snd]; reflexivity].
      intros D. rewrite Hcs. cbn [negb]. hrun. unfold sbind at 1. rewrite H. hrun.
      unfold run_mut. rewrite Hw. hrun. reflexivity.
  - destruct (H []) as (pre & s & post & Hl & Hpre & Hs & Hrun). eexists.
    split; [|split; [discriminate|split; [discriminate|]]].
    2: { intros _ _. exists pre, s, post. repeat split; try assumption. }
    cbn [sbind slift]. eapply gives_call'.
    + intros D. rewrite Hcs. cbn [negb]. hrun. unfold sbind at 1. rewrite Hrun. reflexivity.
    + cbn [map fst snd]. unfold buf_cell, sk_head. rewrite <- !app_assoc. reflexivity.
Qed.

Lemma digest_h_spec {E} (x : seckey E) :
  exists d, gives (digest_h x) (sk_digest x) d
  /\ (forall v, sk_digest x = Ok v ->
       d = (map hv_cell (sec_ssk x) ++ [Cell "digest" "hashinput" (VBytes (repeat 0 (sk_size x) ++ sk_blob true x))])%list).
Proof.
  unfold sk_digest. destruct (sk_serialize_h_spec x true (vec_writer (repeat 0 (sk_size x)))) as (d & Hg & _ & Hok & _).
  pose proof (sk_aon x true) as Haon. unfold run_mut in *.
  destruct (sk_serialize x true (vec_writer (repeat 0 (sk_size x)))) as [[[]|e|p] w] eqn:Hs.
  - assert (Hv : valid_cs (sec_cs x) && forallb (fun s => sk_t s <=? 2^32) (sec_ssk x) = true).
    { destruct (_ && _); [reflexivity|]. destruct (Haon (vec_writer (repeat 0 (sk_size x)))) as (e & _ & He). rewrite Hs in He. discriminate He. }
    rewrite Hv in Haon. apply andb_true_iff in Hv as [Hv1 Hv2]. specialize (Hok Hv1 Hv2).
    pose proof (aon_vec _ _ (repeat 0 (sk_size x)) Haon) as Hw. rewrite Hs in Hw. injection Hw as ->.
    rewrite app_nil_r in Hok. subst d. eexists. split; [|intros v _; reflexivity].
    eapply gives_call' with (d := map hv_cell (sec_ssk x)) (f := [("hashinput"%string, VBytes (repeat 0 (sk_size x) ++ sk_blob true x))]); [|cbn [w_out vec_writer map fst snd]; reflexivity].
    intros D. hrun. unfold sbind at 1. rewrite Hg. cbn [fst snd]. hrun. reflexivity.
  - eexists. split; [|discriminate]. eapply gives_call'; [|reflexivity].
    intros D. hrun. unfold sbind at 1. rewrite Hg. cbn [fst snd]. hrun. reflexivity.
  - eexists. split; [|discriminate]. eapply gives_call'; [|reflexivity].
    intros D. hrun. unfold sbind at 1. rewrite Hg. cbn [fst snd]. hrun. reflexivity.
Qed.
