(** Lemmas behind Properties_Ctl.v.  Every function is run again in an environment whose
    groups have one element; forgetting the elements before or after a call is the same. *)
From Verif Require Import Base Env Time Hkdf Prng SubKey SecretKey Keys Sig Api SpecCtl.
Local Open Scope N_scope.

Definition one_env (H : bytes -> bytes) : env := {|
  G1 := unit; G2 := unit; GT := unit;
  g1_zero := tt; g1_add := fun _ _ => tt; g1_dbl := fun _ => tt; g1_mul := fun _ _ => tt; g1_eqb := fun _ _ => true; g1_insub := fun _ => true;
  g2_zero := tt; g2_add := fun _ _ => tt; g2_neg := fun _ => tt; g2_mul := fun _ _ => tt; g2_eqb := fun _ _ => true; g2_insub := fun _ => true;
  g2_one := tt; gt_one := tt; gt_mul := fun _ _ => tt; gt_eqb := fun _ _ => true; pairing := fun _ _ => tt; pairing_prod := fun _ => None;
  g1_enc := fun _ _ => []; g1_dec := fun _ _ => None; g2_enc := fun _ _ => []; g2_dec := fun _ _ => None;
  sha512 := H; bls_sign := fun _ _ _ => tt; bls_verify := fun _ _ _ _ => true |}.

Section Erase.
Context {E : env}.
Notation U := (one_env (sha512 E)).
Definition k1 (_ : G1 E) : G1 U := tt.
Definition ep (pp : pubparam E) : pubparam U := PubParam (E := U) (pp_depth pp) (pp_cs pp) tt tt (map k1 (pp_hlist pp)).
Definition es (s : subkey E) : subkey U := SubKey (E := U) (sk_t s) tt tt (map k1 (sk_hvec s)).
Definition ek (sk : seckey E) : seckey U := SecKey (E := U) (sec_cs sk) (sec_time sk) (map es (sec_ssk sk)) (sec_prng sk).
Definition eg (s : signature E) : signature U := Signature (E := U) (sig_cs s) (sig_time s) tt tt.

Lemma nth_res_e {A B} (f : A -> B) l i : nth_res (map f l) i = visible f (nth_res l i).
Proof. unfold nth_res. rewrite nth_error_map. destruct (nth_error l i); reflexivity. Qed.
Lemma insert_at_e {A B} (f : A -> B) i x l : insert_at i (f x) (map f l) = visible (map f) (insert_at i x l).
Proof.
  unfold insert_at. rewrite map_length. destruct (i <=? length l)%nat; [|reflexivity]. cbn [visible].
  rewrite map_app, firstn_map. cbn [map]. rewrite skipn_map. reflexivity.
Qed.
Lemma remove_at_e {A B} (f : A -> B) i l : remove_at i (map f l) = visible (map f) (remove_at i l).
Proof.
  unfold remove_at. rewrite map_length. destruct (i <? length l)%nat; [|reflexivity]. cbn [visible].
  rewrite map_app, firstn_map, skipn_map. reflexivity.
Qed.
Lemma poly_loop_e (hl : list (G1 E)) : forall tv i acc, poly_loop (map k1 hl) i tv tt = visible k1 (poly_loop hl i tv acc).
Proof.
  induction tv as [|x tv IH]; intros i acc; [reflexivity|]. cbn [poly_loop]. rewrite nth_res_e. destruct (nth_res hl (i + 1)) as [h| |]; try reflexivity.
  apply IH.
Qed.
Lemma hv_loop_e (hl : list (G1 E)) r : forall hv base,
  hv_loop (map k1 hl) base r (map k1 hv) = (fst (hv_loop hl base r hv), map k1 (snd (hv_loop hl base r hv))).
Proof.
  induction hv as [|x hv IH]; intros base; [reflexivity|]. cbn [hv_loop map]. rewrite nth_res_e.
  destruct (nth_res hl base) as [h| |]; try reflexivity. cbn [visible]. rewrite IH. destruct (hv_loop hl (S base) r hv) as [o l]. reflexivity.
Qed.
Lemma randomization_e m pp r (s : subkey E) :
  randomization m (ep pp) r (es s) = (fst (randomization m pp r s), es (snd (randomization m pp r s))).
Proof.
  unfold randomization, sbind, sget, sput, slift, ssk_time_vec. cbn [es sk_t ep pp_depth pp_hlist sk_hvec].
  destruct (tv_init m (sk_t s) (pp_depth pp)) as [tv| |]; try reflexivity. rewrite nth_res_e.
  destruct (nth_res (pp_hlist pp) 0) as [h0| |]; try reflexivity. cbn [visible].
  change (k1 h0) with tt. rewrite (poly_loop_e _ _ _ h0). destruct (poly_loop (pp_hlist pp) 0 (tv_vec tv) h0) as [t3| |]; try reflexivity.
  cbn [visible]. rewrite hv_loop_e. destruct (hv_loop (pp_hlist pp) (length (tv_vec tv) + 1) r (sk_hvec s)) as [o l]. reflexivity.
Qed.
Lemma del_loop_e : forall ts (hv : list (G1 E)) hp, del_loop (map k1 hv) ts tt = (fst (del_loop hv ts hp), tt : G1 U).
Proof.
  induction ts as [|t ts IH]; intros hv hp; [reflexivity|]. cbn [del_loop]. destruct hv as [|h hv]; [reflexivity|]. cbn [map]. apply IH.
Qed.
Lemma delegate_e m t d (s : subkey E) : delegate m t d (es s) = (fst (delegate m t d s), es (snd (delegate m t d s))).
Proof.
  unfold delegate, sbind, sget, sput, slift. cbn [es sk_t sk_hvec sk_hpoly].
  destruct (tv_init m (sk_t s) d) as [cur| |]; try reflexivity. destruct (tv_init m t d) as [tar| |]; try reflexivity.
  destruct (negb (tv_is_prefix cur tar)); [reflexivity|]. rewrite (del_loop_e _ _ (sk_hpoly s)).
  destruct (del_loop (sk_hvec s) (skipn (length (tv_vec cur)) (tv_vec tar)) (sk_hpoly s)) as [o hp]. cbn [fst].
  destruct o as [[]| |]; try reflexivity. unfold es. cbn [fst snd sk_t sk_hvec]. rewrite skipn_map. reflexivity.
Qed.
Lemma run_mut_e {A B} (f : A -> B) (a : st A unit) (b : st B unit) s : b (f s) = (fst (a s), f (snd (a s))) -> run_mut b (f s) = visible f (run_mut a s).
Proof. intros H. unfold run_mut. rewrite H. destruct (a s) as [[| |] s']; reflexivity. Qed.
Lemma ancestor_e t : forall (l : list (subkey E)) b, ancestor_loop t b (map es l) = ancestor_loop t b l.
Proof. induction l as [|s l IH]; intros b; [reflexivity|]. cbn [map ancestor_loop]. apply IH. Qed.
Lemma find_ancestor_e (sk : seckey E) t : find_ancestor (ek sk) t = find_ancestor sk t.
Proof.
  unfold find_ancestor. cbn [ek sec_ssk]. destruct (sec_ssk sk) as [|s l]; [reflexivity|]. cbn [map]. rewrite ancestor_e. reflexivity.
Qed.
Lemma drop_until_e dt : forall l : list (subkey E), drop_until dt (map es l) = visible (map es) (drop_until dt l).
Proof. induction l as [|s l IH]; [reflexivity|]. cbn [map drop_until es sk_t]. destruct (sk_t s =? dt); [reflexivity|apply IH]. Qed.
Lemma dup_loop_e m d tv : forall l : list (subkey E), dup_loop m d tv (map es l) = dup_loop m d tv l.
Proof.
  induction l as [|s l IH]; [reflexivity|]. cbn [map dup_loop]. unfold ssk_time_vec. cbn [es sk_t].
  destruct (tv_init m (sk_t s) d) as [tv'| |]; try reflexivity. cbn [bind]. destruct (tv_eqb tv tv'); [reflexivity|apply IH].
Qed.
Definition pe {B} (p : subkey E * B) : subkey U * B := (es (fst p), snd p).
Definition ple {B} (p : list (subkey E) * B) : list (subkey U) * B := (map es (fst p), snd p).
Lemma rerand_e m pp old i (s : subkey E) g : rerand_new m (ep pp) old i (es s) g = visible pe (rerand_new m pp old i s g).
Proof.
  unfold rerand_new. destruct (i =? 0)%nat; [reflexivity|]. cbn [sha512 one_env].
  destruct (sample_then_update (sha512 E) g DOM_SEP_SK_UPDATE) as [[r g']| |]; try reflexivity. cbn [bind].
  destruct (prng_eqb g' old); [reflexivity|]. rewrite (run_mut_e es (randomization m pp r)) by apply randomization_e.
  destruct (run_mut (randomization m pp r) s); reflexivity.
Qed.
Lemma update_loop_e m pp old : forall gl i (l : list (subkey E)) g,
  update_loop m (ep pp) old i gl (map es l) g = visible ple (update_loop m pp old i gl l g).
Proof.
  induction gl as [|tv gl IH]; intros i l g; [reflexivity|]. cbn [update_loop]. rewrite skipn_map, dup_loop_e. cbn [ep pp_depth].
  destruct (dup_loop m (pp_depth pp) tv (skipn (i + 1) l)) as [[|]| |]; try reflexivity. cbn [bind].
  rewrite nth_res_e. destruct (nth_res l 0) as [s0| |]; try reflexivity. cbn [visible bind].
  rewrite (run_mut_e es (delegate m (tv_time tv) (pp_depth pp))) by apply delegate_e.
  destruct (run_mut (delegate m (tv_time tv) (pp_depth pp)) s0) as [s1| |]; try reflexivity. cbn [visible bind].
  change (rerand_new m _ old i (es s1) g) with (rerand_new m (ep pp) old i (es s1) g). rewrite rerand_e.
  destruct (rerand_new m pp old i s1 g) as [[s2 g']| |]; try reflexivity. cbn [visible bind pe fst snd].
  rewrite insert_at_e. destruct (insert_at (i + 1) s2 l) as [l'| |]; try reflexivity. cbn [visible bind]. apply IH.
Qed.
Lemma update_e m pp t seed (sk : seckey E) :
  update m (ep pp) t seed (ek sk) = (fst (update m pp t seed sk), ek (snd (update m pp t seed sk))).
Proof.
  unfold update, sbind, sget, sput, slift. rewrite find_ancestor_e. cbn [ek sec_cs sec_time sec_prng sec_ssk ep pp_cs pp_depth sha512 one_env].
  destruct (negb (sec_cs sk =? pp_cs pp)); [reflexivity|]. destruct (shl64 m (pp_depth pp)) as [p| |]; try reflexivity.
  destruct (sub64 m p 1) as [mt| |]; try reflexivity. destruct ((t <=? sec_time sk) || (mt <? t)); [reflexivity|].
  destruct (find_ancestor sk t) as [dt| |]; try reflexivity. destruct (rerandomize _ _ _ _) as [g| |]; try reflexivity.
  rewrite drop_until_e. destruct (drop_until dt (sec_ssk sk)) as [[|s l]| |]; try reflexivity. cbn [visible map].
  destruct (dt =? t); [reflexivity|]. destruct (tv_init m t (pp_depth pp)) as [tv| |]; try reflexivity.
  destruct (gamma_list m tv (pp_depth pp)) as [gl| |]; try reflexivity.
  change (es s :: map es l) with (map es (s :: l)).
  change (update_loop m _ (sec_prng sk) 0 gl (map es (s :: l)) g) with (update_loop m (ep pp) (sec_prng sk) 0 gl (map es (s :: l)) g).
  rewrite update_loop_e. destruct (update_loop m pp (sec_prng sk) 0 gl (s :: l) g) as [[l' g']| |]; try reflexivity. cbn [visible ple fst snd].
  rewrite remove_at_e. destruct (remove_at 0 l') as [l2| |]; try reflexivity. cbn [visible].
  rewrite nth_res_e. destruct (nth_res l2 0) as [s0| |]; reflexivity.
Qed.
Lemma sign_bytes_e m (sk : seckey E) t pp msg : sign_bytes m (ek sk) t (ep pp) msg = visible eg (sign_bytes m sk t pp msg).
Proof.
  unfold sign_bytes. cbn [ek sec_cs sec_time sec_prng ep pp_cs sha512 one_env]. destruct (negb (valid_cs (pp_cs pp))); [reflexivity|].
  destruct (negb (sec_cs sk =? pp_cs pp)); [reflexivity|]. destruct (negb (sec_time sk =? t)) eqn:Et; [reflexivity|].
  destruct (sample _ _ _) as [r| |]; try reflexivity. cbn [bind]. destruct (hash_msg_into_fr _ _ _) as [hm| |]; try reflexivity. cbn [bind].
  unfold sign_fr. cbn [ek sec_time]. rewrite Et. unfold first_ssk. cbn [ek sec_ssk]. destruct (sec_ssk sk) as [|s l]; [reflexivity|]. cbn [map bind].
  unfold ssk_time_vec. cbn [es sk_t ep pp_depth pp_hlist]. destruct (tv_init m (sk_t s) (pp_depth pp)) as [tv| |]; try reflexivity. cbn [bind].
  rewrite nth_res_e. destruct (nth_res (pp_hlist pp) 0) as [h0| |]; try reflexivity. cbn [visible bind].
  change (k1 h0) with tt. rewrite (poly_loop_e _ _ _ h0). destruct (poly_loop (pp_hlist pp) 0 (tv_vec tv) h0) as [t3| |]; try reflexivity. cbn [visible bind].
  rewrite nth_res_e. destruct (nth_res (pp_hlist pp) (pp_depth pp)) as [hd| |]; try reflexivity. cbn [visible bind].
  unfold last_hvector_coeff. cbn [es sk_hvec]. destruct (sk_hvec s) as [|x hv]; [reflexivity|]. cbn [map].
  change (k1 x :: map k1 hv) with (map k1 (x :: hv)). rewrite map_length, nth_res_e.
  destruct (nth_res (x :: hv) (length (x :: hv) - 1)) as [y| |]; reflexivity.
Qed.
Definition vis_out : res (option (signature E)) -> res (option (signature U)) := visible (option_map eg).
Lemma step_e m pp o (sk : seckey E) : no_reload o = true -> step m (ep pp) o (ek sk) = (vis_out (fst (step m pp o sk)), ek (snd (step m pp o sk))).
Proof.
  intros Ho. destruct o as [t seed|t msg seed|t msg|t msg seed|c]; [| | | |discriminate Ho]; cbn [step]; unfold sbind, sret.
  - rewrite update_e. destruct (update m pp t seed sk) as [[| |] sk']; reflexivity.
  - unfold sign, sbind, sget, slift, sret. cbn [ek sec_time]. destruct (t <? sec_time sk); [reflexivity|].
    destruct (sec_time sk <? t).
    + change (update m (ep pp) t seed _) with (update m (ep pp) t seed (ek sk)). rewrite update_e. destruct (update m pp t seed sk) as [[[]| |] sk']; try reflexivity.
      cbn [fst snd]. rewrite sign_bytes_e. destruct (sign_bytes m sk' t pp msg); reflexivity.
    + change (sign_bytes m _ t (ep pp) msg) with (sign_bytes m (ek sk) t (ep pp) msg). rewrite sign_bytes_e. destruct (sign_bytes m sk t pp msg); reflexivity.
  - unfold sign_present, sbind, sget, slift. cbn [ek sec_time]. destruct (negb _); [reflexivity|].
    change (sign_bytes m _ t (ep pp) msg) with (sign_bytes m (ek sk) t (ep pp) msg). rewrite sign_bytes_e. destruct (sign_bytes m sk t pp msg); reflexivity.
  - unfold sign_then_update, sbind, sget, slift, sret. cbn [ek sec_time]. destruct (negb _); [reflexivity|].
    change (sign_bytes m _ t (ep pp) msg) with (sign_bytes m (ek sk) t (ep pp) msg). rewrite sign_bytes_e. destruct (sign_bytes m sk t pp msg) as [p| |]; try reflexivity.
    cbn [visible]. destruct (add64 m t 1) as [t1| |]; try reflexivity.
    change (update m (ep pp) t1 seed _) with (update m (ep pp) t1 seed (ek sk)). rewrite update_e. destruct (update m pp t1 seed sk) as [[| |] sk']; reflexivity.
Qed.
Lemma run_e m pp : forall ops (sk : seckey E), forallb no_reload ops = true ->
  run m (ep pp) ops (ek sk) = (map vis_out (fst (run m pp ops sk)), ek (snd (run m pp ops sk))).
Proof.
  induction ops as [|o ops IH]; intros sk H; [reflexivity|]. cbn [forallb] in H. apply andb_true_iff in H as [Ho H]. cbn [run].
  rewrite step_e by exact Ho. destruct (step m pp o sk) as [r sk1]. cbn [fst snd]. rewrite IH by exact H. destruct (run m pp ops sk1) as [rs sk2]. reflexivity.
Qed.
End Erase.

(** A key and parameters of a given shape over the one-element groups. *)
Definition units (H : bytes -> bytes) (n : nat) : list (G1 (one_env H)) := repeat (tt : G1 (one_env H)) n.
Definition mk_pp (H : bytes -> bytes) (ps : nat * N * nat) : pubparam (one_env H) :=
  PubParam (E := one_env H) (fst (fst ps)) (snd (fst ps)) tt tt (units H (snd ps)).
Definition mk_ssk (H : bytes -> bytes) (q : N * nat) : subkey (one_env H) := SubKey (E := one_env H) (fst q) tt tt (units H (snd q)).
Definition mk_key (H : bytes -> bytes) (ks : N * N * prng * list (N * nat)) : seckey (one_env H) :=
  SecKey (E := one_env H) (fst (fst (fst ks))) (snd (fst (fst ks))) (map (mk_ssk H) (snd ks)) (snd (fst ks)).

Lemma units_map {E} (l : list (G1 E)) : map k1 l = units (sha512 E) (length l).
Proof. induction l as [|x l IH]; [reflexivity|]. cbn [map length units repeat]. rewrite IH. reflexivity. Qed.
Lemma ep_shape {E} (pp : pubparam E) : ep pp = mk_pp (sha512 E) (pp_shape pp).
Proof. unfold ep, mk_pp, pp_shape. cbn [fst snd]. rewrite units_map. reflexivity. Qed.
Lemma ek_shape {E} (sk : seckey E) : ek sk = mk_key (sha512 E) (key_shape sk).
Proof.
  unfold ek, mk_key, key_shape. cbn [fst snd]. f_equal. rewrite map_map. apply map_ext. intros s.
  unfold es, mk_ssk, ssk_shape. cbn [fst snd]. rewrite units_map. reflexivity.
Qed.
Lemma shape_ek {E} (sk : seckey E) : key_shape (ek sk) = key_shape sk.
Proof.
  unfold key_shape, ek. cbn [sec_cs sec_time sec_prng sec_ssk]. f_equal. rewrite map_map. apply map_ext. intros s.
  unfold ssk_shape, es. cbn [sk_t sk_hvec]. rewrite map_length. reflexivity.
Qed.
Lemma vis_vis {E} (r : res (option (signature E))) : visible (option_map sig_shape) (vis_out r) = visible (option_map sig_shape) r.
Proof. destruct r as [[s|]| |]; reflexivity. Qed.

Lemma step_shape_fun {E} m (pp : pubparam E) o (sk : seckey E) : no_reload o = true ->
  visible (option_map sig_shape) (fst (step m pp o sk)) =
    visible (option_map sig_shape) (fst (step m (mk_pp (sha512 E) (pp_shape pp)) o (mk_key (sha512 E) (key_shape sk)))) /\
  key_shape (snd (step m pp o sk)) = key_shape (snd (step m (mk_pp (sha512 E) (pp_shape pp)) o (mk_key (sha512 E) (key_shape sk)))).
Proof.
  intros Ho. rewrite <- ep_shape, <- ek_shape, step_e by exact Ho. cbn [fst snd]. rewrite vis_vis, shape_ek. split; reflexivity.
Qed.
Lemma run_shape_fun {E} m (pp : pubparam E) ops (sk : seckey E) : forallb no_reload ops = true ->
  map (visible (option_map sig_shape)) (fst (run m pp ops sk)) =
    map (visible (option_map sig_shape)) (fst (run m (mk_pp (sha512 E) (pp_shape pp)) ops (mk_key (sha512 E) (key_shape sk)))) /\
  key_shape (snd (run m pp ops sk)) = key_shape (snd (run m (mk_pp (sha512 E) (pp_shape pp)) ops (mk_key (sha512 E) (key_shape sk)))).
Proof.
  intros Ho. rewrite <- ep_shape, <- ek_shape, run_e by exact Ho. cbn [fst snd]. rewrite shape_ek, map_map. split; [|reflexivity].
  apply map_ext. intros r. symmetry. apply vis_vis.
Qed.

Lemma step_visible_only : forall (E E' : env) m (pp : pubparam E) (pp' : pubparam E') o (sk : seckey E) (sk' : seckey E'),
  sha512 E = sha512 E' -> pp_shape pp = pp_shape pp' -> key_shape sk = key_shape sk' -> no_reload o = true ->
  visible (option_map sig_shape) (fst (step m pp o sk)) = visible (option_map sig_shape) (fst (step m pp' o sk')) /\
  key_shape (snd (step m pp o sk)) = key_shape (snd (step m pp' o sk')).
Proof.
  intros E E' m pp pp' o sk sk' HH Hp Hk Ho. destruct (step_shape_fun m pp o sk Ho) as [-> ->]. destruct (step_shape_fun m pp' o sk' Ho) as [-> ->].
  rewrite HH, Hp, Hk. split; reflexivity.
Qed.

Lemma run_visible_only : forall (E E' : env) m (pp : pubparam E) (pp' : pubparam E') ops (sk : seckey E) (sk' : seckey E'),
  sha512 E = sha512 E' -> pp_shape pp = pp_shape pp' -> key_shape sk = key_shape sk' -> forallb no_reload ops = true ->
  map (visible (option_map sig_shape)) (fst (run m pp ops sk)) = map (visible (option_map sig_shape)) (fst (run m pp' ops sk')) /\
  key_shape (snd (run m pp ops sk)) = key_shape (snd (run m pp' ops sk')).
Proof.
  intros E E' m pp pp' ops sk sk' HH Hp Hk Ho. destruct (run_shape_fun m pp ops sk Ho) as [-> ->]. destruct (run_shape_fun m pp' ops sk' Ho) as [-> ->].
  rewrite HH, Hp, Hk. split; reflexivity.
Qed.

(** Key generation. *)
Lemma key_gen_visible_only : forall (E E' : env) (pp : pubparam E) (pp' : pubparam E') seed,
  sha512 E = sha512 E' -> pp_shape pp = pp_shape pp' ->
  visible (fun r => (pk_cs (fst (fst r)), key_shape (snd (fst r)), pop_cs (snd r))) (key_gen seed pp) =
  visible (fun r => (pk_cs (fst (fst r)), key_shape (snd (fst r)), pop_cs (snd r))) (key_gen seed pp').
Proof.
  intros E E' pp pp' seed HH Hp. unfold pp_shape in Hp. injection Hp as Hd Hc Hl.
  unfold key_gen, master_key_gen. destruct (length seed <? 32)%nat; [reflexivity|]. rewrite Hc. destruct (negb (valid_cs (pp_cs pp'))) eqn:Ev; [reflexivity|].
  rewrite HH. destruct (sample_then_update (sha512 E') _ KEY_INIT_INFO) as [[x g]| |]; try reflexivity. cbn [bind].
  unfold pk_init. rewrite Hc, Ev. cbn [bind].
  unfold sk_init. rewrite Hc, Ev, HH. destruct (sample_then_update (sha512 E') g _) as [[r g']| |]; try reflexivity. cbn [bind].
  unfold ssk_init, nth_res. rewrite Hd. destruct (pp_hlist pp) as [|a l] eqn:Ea; destruct (pp_hlist pp') as [|a' l'] eqn:Ea'; try discriminate Hl; [reflexivity|].
  cbn [nth_error bind visible fst snd pk_cs pop_cs]. unfold key_shape, ssk_shape. cbn [sec_cs sec_time sec_prng sec_ssk map sk_t sk_hvec].
  rewrite !map_length, !skipn_length, !firstn_length, Hl. reflexivity.
Qed.

(** From key generation on. *)
Lemma history_visible_only : forall (E E' : env) m (pp : pubparam E) (pp' : pubparam E') seed ops pk sk pop pk' sk' pop',
  sha512 E = sha512 E' -> pp_shape pp = pp_shape pp' -> forallb no_reload ops = true ->
  key_gen seed pp = Ok (pk, sk, pop) -> key_gen seed pp' = Ok (pk', sk', pop') ->
  map (visible (option_map sig_shape)) (fst (run m pp ops sk)) = map (visible (option_map sig_shape)) (fst (run m pp' ops sk')) /\
  key_shape (snd (run m pp ops sk)) = key_shape (snd (run m pp' ops sk')).
Proof.
  intros E E' m pp pp' seed ops pk sk pop pk' sk' pop' HH Hp Ho Hg Hg'. apply run_visible_only; try assumption.
  pose proof (key_gen_visible_only E E' pp pp' seed HH Hp) as K. rewrite Hg, Hg' in K. cbn [visible fst snd] in K.
  injection K as _ K1 K2 K3 K4 _. unfold key_shape. rewrite K1, K2, K3, K4. reflexivity.
Qed.

(** Aggregation. *)
Lemma agg_check_shape {E E' : env} (s : signature E) (s' : signature E') : sig_shape s = sig_shape s' ->
  forall l l', map sig_shape l = map sig_shape l' -> agg_check s l = agg_check s' l'.
Proof.
  intros Hs. unfold sig_shape in Hs. injection Hs as Hc Ht. induction l as [|x l IH]; intros [|x' l'] H; try discriminate H; [reflexivity|].
  cbn [map] in H. unfold sig_shape at 1 3 in H. injection H as Hxc Hxt H. cbn [agg_check]. rewrite Hc, Ht, Hxc, Hxt, (IH l' H). reflexivity.
Qed.
Lemma agg_fold_shape {E : env} : forall (l : list (signature E)) s,
  sig_shape (fold_left (fun r e => Signature (sig_cs r) (sig_time r) (g2_add (sig_1 r) (sig_1 e)) (g1_add (sig_2 r) (sig_2 e))) l s) = sig_shape s.
Proof. induction l as [|x l IH]; intros s; [reflexivity|]. cbn [fold_left]. rewrite IH. reflexivity. Qed.
Lemma aggregate_visible_only : forall (E E' : env) (l : list (signature E)) (l' : list (signature E')),
  map sig_shape l = map sig_shape l' -> visible sig_shape (aggregate l) = visible sig_shape (aggregate l').
Proof.
  intros E E' [|s l] [|s' l'] H; try discriminate H; [reflexivity|]. cbn [map] in H.
  assert (Hs : sig_shape s = sig_shape s') by (unfold sig_shape; injection H; intros; congruence).
  assert (Hl : map sig_shape l = map sig_shape l') by (injection H; intros; assumption).
  cbn [aggregate]. rewrite (agg_check_shape s s' Hs l l' Hl). destruct (agg_check s' l'); try reflexivity.
  cbn [bind visible]. rewrite !agg_fold_shape, Hs. reflexivity.
Qed.
