(** Lemmas behind Properties_Many.v. *)
From Verif Require Import Base Env Time Hkdf Prng SubKey SecretKey Keys Sig IO Serdes Api
  SpecKey SpecUpdate SpecAgg SpecRed SpecMulti SpecRom SpecPop SpecFwd SpecClean SpecIface SpecCost SpecAdv SpecMany.
Local Open Scope N_scope.

Lemma answered_bind {E A B} H Q (p : asks E A) (k : A -> asks E B) :
  answered H Q (abind p k) = answered H Q (k (answered H Q p)).
Proof. induction p as [a|b j IH|msg cs j IH]; cbn; [reflexivity|apply IH|apply IH]. Qed.
Lemma answered_rbind {E A B} H Q (p : asks E (res A)) (k : A -> asks E (res B)) :
  answered H Q (rbind p k) = bind (answered H Q p) (fun a => answered H Q (k a)).
Proof. unfold rbind. rewrite answered_bind. destruct (answered H Q p); reflexivity. Qed.

Section Code.
Context {E : env} (H : bytes -> bytes) (Q : bytes -> bytes -> G1 E).
Local Notation EH := (code_env E H Q).
Local Notation ans := (answered (E := E) H Q).

(** ** Hashing *)
Lemma hmac_asked key msg : ans (hmac_q key msg) = hmac H key msg.
Proof. unfold hmac_q, hmac. destruct (128 <? length key)%nat; reflexivity. Qed.
Lemma blocks_asked prk info : forall n prev b, ans (blocks_q prk info prev b n) = hkdf_blocks H prk info prev b n.
Proof.
  induction n as [|n IH]; intros prev b; cbn [blocks_q hkdf_blocks]; [reflexivity|].
  rewrite answered_bind, hmac_asked, answered_bind, IH. reflexivity.
Qed.
Lemma expand_asked prk info len : ans (expand_q prk info len) = expand_or_panic H prk info len.
Proof.
  unfold expand_q, expand_or_panic, hkdf_expand. destruct (64 * 255 <? len)%nat; [reflexivity|].
  rewrite answered_bind, blocks_asked. reflexivity.
Qed.
Lemma init_asked seed salt : ans (init_q seed salt) = prng_init H seed salt.
Proof. unfold init_q, prng_init, hkdf_extract. rewrite answered_bind, hmac_asked. reflexivity. Qed.
Lemma draw_asked g info : ans (draw_q g info) = sample_then_update H g info.
Proof. unfold draw_q, sample_then_update. rewrite answered_rbind, expand_asked. reflexivity. Qed.
Lemma sample_asked g info : ans (sample_q g info) = sample H g info.
Proof. unfold sample_q, sample. rewrite answered_rbind, expand_asked. reflexivity. Qed.
Lemma rerandomize_asked g seed info : ans (rerandomize_q g seed info) = rerandomize H g seed info.
Proof.
  unfold rerandomize_q, rerandomize. rewrite answered_rbind, expand_asked.
  destruct (expand_or_panic H g info 128) as [o|e|p]; [|reflexivity|reflexivity].
  cbn [bind]. rewrite answered_bind, hmac_asked. reflexivity.
Qed.

(** ** The same objects there *)
Definition cv_ssk (k : subkey E) : subkey EH := @SubKey EH (sk_t k) (sk_g2r k) (sk_hpoly k) (sk_hvec k).
Definition cv_sk (k : seckey E) : seckey EH := @SecKey EH (sec_cs k) (sec_time k) (map cv_ssk (sec_ssk k)) (sec_prng k).
Lemma uv_cv_ssk k : uv_ssk (cv_ssk k) = k.
Proof. destruct k; reflexivity. Qed.
Lemma uv_cv_sk k : uv_sk (cv_sk k) = k.
Proof.
  destruct k as [c t l g]. unfold uv_sk, cv_sk. cbn. f_equal. rewrite map_map.
  rewrite (map_ext _ (fun x => x)); [apply map_id|apply uv_cv_ssk].
Qed.
Lemma cv_uv_sk (k : seckey EH) : cv_sk (uv_sk k) = k.
Proof.
  destruct k as [c t l g]. unfold uv_sk, cv_sk. cbn. f_equal. rewrite map_map.
  rewrite (map_ext _ (fun x => x)); [apply map_id|intros [? ? ? ?]; reflexivity].
Qed.

Lemma del_loop_cv : forall ts (hv : list (G1 E)) hp, @del_loop EH hv ts hp = @del_loop E hv ts hp.
Proof. induction ts as [|t ts IH]; intros [|h hv] hp; try reflexivity. cbn [del_loop]. apply IH. Qed.
Lemma poly_loop_cv : forall tv (hl : list (G1 E)) i acc, @poly_loop EH hl i tv acc = @poly_loop E hl i tv acc.
Proof.
  induction tv as [|t tv IH]; intros hl i acc; [reflexivity|]. cbn [poly_loop]. change (@nth_res (G1 EH)) with (@nth_res (G1 E)).
  destruct (nth_res hl (i + 1)); [|reflexivity|reflexivity]. cbn [bind]. apply IH.
Qed.
Lemma hv_loop_cv r : forall hv (hl : list (G1 E)) b, @hv_loop EH hl b r hv = @hv_loop E hl b r hv.
Proof.
  induction hv as [|x hv IH]; intros hl b; [reflexivity|]. cbn [hv_loop]. rewrite IH. reflexivity.
Qed.
Lemma hv_read_cv c : forall n rd, @hv_read EH c n rd = @hv_read E c n rd.
Proof.
  induction n as [|n IH]; intros rd; [reflexivity|]. cbn [hv_read]. unfold sbind. change (@g1_read EH) with (@g1_read E).
  destruct (@g1_read E c rd) as [[x|e|p] r]; [|reflexivity|reflexivity]. rewrite IH. reflexivity.
Qed.
Lemma delegate_cv m t d s : @delegate EH m t d (cv_ssk s) = let (r, s') := @delegate E m t d s in (r, cv_ssk s').
Proof.
  destruct s as [t0 g hp hv]. unfold delegate, sbind, sget, sput, slift, cv_ssk. cbn -[tv_init tv_is_prefix del_loop].
  destruct (tv_init m t0 d) as [c|e|p]; [|reflexivity|reflexivity].
  destruct (tv_init m t d) as [c'|e|p]; [|reflexivity|reflexivity].
  destruct (tv_is_prefix c c'); [|reflexivity]. cbn -[del_loop].
  rewrite del_loop_cv.
  destruct (del_loop hv (skipn (length (tv_vec c)) (tv_vec c')) hp) as [[u|e|p] hp']; reflexivity.
Qed.
Lemma randomization_cv m pp r s : @randomization EH m (cv_pp pp) r (cv_ssk s) = let (x, s') := @randomization E m pp r s in (x, cv_ssk s').
Proof.
  destruct s as [t0 g hp hv]. unfold randomization, sbind, sget, sput, slift, cv_ssk, ssk_time_vec. cbn -[tv_init nth_res poly_loop hv_loop].
  destruct (tv_init m t0 (pp_depth pp)) as [c|e|p]; [|reflexivity|reflexivity].
  destruct (nth_res (pp_hlist pp) 0) as [h0|e|p]; [|reflexivity|reflexivity].
  rewrite poly_loop_cv.
  destruct (poly_loop (pp_hlist pp) 0 (tv_vec c) h0) as [h1|e|p]; [|reflexivity|reflexivity].
  cbn -[hv_loop]. rewrite hv_loop_cv. destruct (hv_loop (pp_hlist pp) (length (tv_vec c) + 1) r hv) as [[u|e|p] l]; reflexivity.
Qed.
Lemma run_mut_cv (f : st (subkey EH) unit) (f' : st (subkey E) unit) s :
  f (cv_ssk s) = (let (x, s') := f' s in (x, cv_ssk s')) -> run_mut f (cv_ssk s) = res_map cv_ssk (run_mut f' s).
Proof. unfold run_mut. intros ->. destruct (f' s) as [[u|e|p] s']; reflexivity. Qed.
Lemma dup_cv m d tv : forall l, dup_loop m d tv (map cv_ssk l) = dup_loop m d tv l.
Proof. induction l as [|s l IH]; [reflexivity|]. cbn [map dup_loop]. rewrite IH. reflexivity. Qed.
Lemma ancestor_cv t : forall l b, ancestor_loop t b (map cv_ssk l) = ancestor_loop t b l.
Proof. induction l as [|s l IH]; intros b; [reflexivity|]. cbn [map ancestor_loop]. rewrite IH. reflexivity. Qed.
Lemma find_ancestor_cv sk t : find_ancestor (cv_sk sk) t = find_ancestor sk t.
Proof. destruct sk as [c t0 [|s l] g]; [reflexivity|]. unfold find_ancestor, cv_sk. cbn [sec_ssk map]. rewrite ancestor_cv. reflexivity. Qed.
Lemma drop_cv t : forall l, drop_until t (map cv_ssk l) = res_map (map cv_ssk) (drop_until t l).
Proof. induction l as [|s l IH]; [reflexivity|]. cbn [map drop_until]. rewrite IH. cbn [cv_ssk sk_t]. destruct (sk_t s =? t); reflexivity. Qed.
Lemma nth_cv {A B} (f : A -> B) l i : nth_res (map f l) i = res_map f (nth_res l i).
Proof. unfold nth_res. rewrite nth_error_map. destruct (nth_error l i); reflexivity. Qed.
Lemma insert_cv {A B} (f : A -> B) i a l : insert_at i (f a) (map f l) = res_map (map f) (insert_at i a l).
Proof.
  unfold insert_at. rewrite map_length. destruct (i <=? length l)%nat; [|reflexivity]. cbn. rewrite map_app, firstn_map. cbn [map]. rewrite skipn_map. reflexivity.
Qed.
Lemma remove_cv {A B} (f : A -> B) i l : remove_at i (map f l) = res_map (map f) (remove_at i l).
Proof.
  unfold remove_at. rewrite map_length. destruct (i <? length l)%nat; [|reflexivity]. cbn [res_map]. rewrite map_app, firstn_map, skipn_map. reflexivity.
Qed.

Definition cv_2 {B} (x : list (subkey E) * B) : list (subkey EH) * B := (map cv_ssk (fst x), snd x).
Lemma rerand_cv m pp old i s g :
  @rerand_new EH m (cv_pp pp) old i (cv_ssk s) g = res_map (fun x => (cv_ssk (fst x), snd x)) (ans (rerand_new_q m pp old i s g)).
Proof.
  unfold rerand_new, rerand_new_q. destruct (i =? 0)%nat; [reflexivity|]. rewrite answered_rbind, draw_asked.
  change (sha512 EH) with H. destruct (sample_then_update H g DOM_SEP_SK_UPDATE) as [[r g']|e|p]; [|reflexivity|reflexivity].
  cbn [bind answered]. destruct (prng_eqb g' old); [reflexivity|].
  rewrite (run_mut_cv _ (randomization m pp r)) by apply randomization_cv.
  destruct (run_mut (randomization m pp r) s); reflexivity.
Qed.
Lemma update_loop_cv m pp old : forall gl i l g,
  @update_loop EH m (cv_pp pp) old i gl (map cv_ssk l) g = res_map cv_2 (ans (update_loop_q m pp old i gl l g)).
Proof.
  induction gl as [|tv gl IH]; intros i l g; [reflexivity|].
  cbn [update_loop update_loop_q]. rewrite answered_rbind. cbn [answered]. rewrite skipn_map, dup_cv. cbn [cv_pp pp_depth].
  destruct (dup_loop m (pp_depth pp) tv (skipn (i + 1) l)) as [b|e|p]; [|reflexivity|reflexivity]. cbn [bind].
  destruct b; [reflexivity|]. rewrite answered_rbind. cbn [answered]. rewrite nth_cv.
  destruct (nth_res l 0) as [s0|e|p]; [|reflexivity|reflexivity]. cbn [bind res_map]. rewrite answered_rbind. cbn [answered].
  rewrite (run_mut_cv _ (delegate m (tv_time tv) (pp_depth pp))) by apply delegate_cv.
  destruct (run_mut (delegate m (tv_time tv) (pp_depth pp)) s0) as [s1|e|p]; [|reflexivity|reflexivity]. cbn [bind res_map].
  rewrite answered_rbind, rerand_cv.
  destruct (ans (rerand_new_q m pp old i s1 g)) as [[s2 g']|e|p]; [|reflexivity|reflexivity]. cbn [bind res_map fst snd].
  rewrite answered_rbind. cbn [answered]. rewrite insert_cv. destruct (insert_at (i + 1) s2 l) as [l'|e|p]; [|reflexivity|reflexivity]. apply IH.
Qed.
Definition left {A} (sk : seckey EH) (r : res (seckey E)) (a : A) : res A * seckey EH :=
  match r with Ok k => (Ok a, cv_sk k) | Err e => (Err e, sk) | Panic p => (Panic p, sk) end.
Lemma update_cv m pp t seed sk : @update EH m (cv_pp pp) t seed (cv_sk sk) = left (cv_sk sk) (ans (update_q m pp t seed sk)) tt.
Proof.
  unfold update, update_q, sbind, sget, sput, slift. cbn [cv_pp pp_cs pp_depth]. change (sec_cs (cv_sk sk)) with (sec_cs sk).
  change (sec_time (cv_sk sk)) with (sec_time sk). change (sec_prng (cv_sk sk)) with (sec_prng sk). change (sha512 EH) with H.
  destruct (negb (sec_cs sk =? pp_cs pp)); [reflexivity|]. rewrite answered_rbind. cbn [answered].
  destruct (shl64 m (pp_depth pp)) as [p|e|p]; [|reflexivity|reflexivity]. cbn [bind]. rewrite answered_rbind. cbn [answered].
  destruct (sub64 m p 1) as [mt|e|p']; [|reflexivity|reflexivity]. cbn [bind].
  destruct ((t <=? sec_time sk) || (mt <? t)); [reflexivity|]. rewrite answered_rbind. cbn [answered]. rewrite find_ancestor_cv.
  destruct (find_ancestor sk t) as [dt|e|p']; [|reflexivity|reflexivity]. cbn [bind]. rewrite answered_rbind, rerandomize_asked.
  destruct (rerandomize H (sec_prng sk) seed (DOM_SEP_SK_RERANDOMIZE_INFO ++ time_bytes (sec_time sk))) as [g|e|p']; [|reflexivity|reflexivity].
  cbn [bind]. rewrite answered_rbind. cbn [answered]. change (sec_ssk (cv_sk sk)) with (map cv_ssk (sec_ssk sk)). rewrite drop_cv.
  destruct (drop_until dt (sec_ssk sk)) as [[|s0 l]|e|p']; [reflexivity| |reflexivity|reflexivity]. cbn [bind res_map].
  change (map cv_ssk (s0 :: l)) with (cv_ssk s0 :: map cv_ssk l). cbv iota. destruct (dt =? t); [reflexivity|].
  rewrite answered_rbind. cbn [answered]. destruct (tv_init m t (pp_depth pp)) as [tv|e|p']; [|reflexivity|reflexivity]. cbn [bind].
  rewrite answered_rbind. cbn [answered]. destruct (gamma_list m tv (pp_depth pp)) as [gl|e|p']; [|reflexivity|reflexivity]. cbn [bind].
  rewrite answered_rbind. change (cv_ssk s0 :: map cv_ssk l) with (map cv_ssk (s0 :: l)).
  rewrite update_loop_cv. destruct (ans (update_loop_q m pp (sec_prng sk) 0 gl (s0 :: l) g)) as [[l' g']|e|p']; [|reflexivity|reflexivity].
  cbn [bind res_map cv_2 fst snd answered]. rewrite remove_cv. destruct (remove_at 0 l') as [l''|e|p']; [|reflexivity|reflexivity].
  cbn [bind res_map]. rewrite nth_cv. destruct (nth_res l'' 0); reflexivity.
Qed.

(** ** Signing *)
Lemma last_cv s : @last_hvector_coeff EH (cv_ssk s) = @last_hvector_coeff E s.
Proof. destruct s as [t g hp [|x l]]; reflexivity. Qed.
Lemma sign_fr_cv m sk t pp hm r : @sign_fr EH m (cv_sk sk) t (cv_pp pp) hm r = res_map cv_sig (@sign_fr E m sk t pp hm r).
Proof.
  unfold sign_fr. change (sec_time (cv_sk sk)) with (sec_time sk). destruct (negb (sec_time sk =? t)); [reflexivity|].
  destruct sk as [c t0 [|s l] g]; [reflexivity|]. unfold first_ssk, cv_sk. cbn [sec_ssk map bind].
  change (@ssk_time_vec EH m (cv_ssk s) (pp_depth (cv_pp pp))) with (@ssk_time_vec E m s (pp_depth pp)).
  destruct (ssk_time_vec m s (pp_depth pp)) as [tv|e|p]; [|reflexivity|reflexivity]. cbn [bind].
  change (@pp_hlist EH (cv_pp pp)) with (pp_hlist pp). change (@nth_res (G1 EH)) with (@nth_res (G1 E)).
  destruct (nth_res (pp_hlist pp) 0) as [h0|e|p]; [|reflexivity|reflexivity]. cbn [bind].
  rewrite poly_loop_cv.
  destruct (poly_loop (pp_hlist pp) 0 (tv_vec tv) h0) as [h1|e|p]; [|reflexivity|reflexivity]. cbn [bind].
  change (@pp_depth EH (cv_pp pp)) with (pp_depth pp).
  destruct (nth_res (pp_hlist pp) (pp_depth pp)) as [hd|e|p]; [|reflexivity|reflexivity]. cbn [bind].
  rewrite last_cv. destruct (last_hvector_coeff s); reflexivity.
Qed.
Lemma sign_bytes_cv m sk t pp msg : @sign_bytes EH m (cv_sk sk) t (cv_pp pp) msg = res_map cv_sig (ans (sign_bytes_q m sk t pp msg)).
Proof.
  unfold sign_bytes, sign_bytes_q. change (pp_cs (cv_pp pp)) with (pp_cs pp). destruct (negb (valid_cs (pp_cs pp))); [reflexivity|].
  change (sec_cs (cv_sk sk)) with (sec_cs sk). destruct (negb (sec_cs sk =? pp_cs pp)); [reflexivity|].
  change (sec_time (cv_sk sk)) with (sec_time sk). destruct (negb (sec_time sk =? t)); [reflexivity|].
  change (sec_prng (cv_sk sk)) with (sec_prng sk). change (sha512 EH) with H. rewrite answered_rbind, sample_asked.
  destruct (sample H (sec_prng sk) (DOM_SEP_SIG ++ msg ++ time_bytes t)) as [r|e|p]; [|reflexivity|reflexivity]. cbn [bind answered].
  unfold hash_msg_into_fr. change (DOM_SEP_HASH_TO_MSG ++ [pp_cs pp] ++ msg) with (hash_input (pp_cs pp) msg).
  destruct (os2ip_mod_p (H (hash_input (pp_cs pp) msg))) as [hm|e|p]; [|reflexivity|reflexivity]. cbn [bind]. apply sign_fr_cv.
Qed.

(** ** Saving and loading *)
Lemma ssks_write_cv c : forall l, @ssks_serialize EH (map cv_ssk l) c = @ssks_serialize E l c.
Proof. induction l as [|s l IH]; [reflexivity|]. cbn [map ssks_serialize]. rewrite IH. reflexivity. Qed.
Lemma sk_write_cv sk c : @sk_serialize EH (cv_sk sk) c = @sk_serialize E sk c.
Proof.
  unfold sk_serialize. change (sec_ssk (cv_sk sk)) with (map cv_ssk (sec_ssk sk)). rewrite ssks_write_cv, map_length. reflexivity.
Qed.
Definition sres {S A B} (f : A -> B) (x : res A * S) : res B * S := (res_map f (fst x), snd x).
Lemma ssk_read_cv c rd : @ssk_deserialize EH c rd = sres cv_ssk (@ssk_deserialize E c rd).
Proof.
  unfold ssk_deserialize, sbind. destruct (read_exact 4 rd) as [[tb|e|p] r1]; [|reflexivity|reflexivity].
  destruct (from_be4 tb =? 0); [reflexivity|].
  change (@g2_read EH) with (@g2_read E). change (@g1_read EH) with (@g1_read E).
  destruct (read1 r1) as [[[b|]|e|p] r2]; [| |reflexivity|reflexivity].
  - destruct (@g2_read E c r2) as [[x|e|p] r3]; [|reflexivity|reflexivity].
    destruct (@g1_read E c r3) as [[y|e|p] r4]; [|reflexivity|reflexivity].
    rewrite hv_read_cv. destruct (@hv_read E c (N.to_nat b) r4) as [[z|e|p] r5]; reflexivity.
  - destruct (@g2_read E c r2) as [[x|e|p] r3]; [|reflexivity|reflexivity].
    destruct (@g1_read E c r3) as [[y|e|p] r4]; [|reflexivity|reflexivity].
    rewrite hv_read_cv. destruct (@hv_read E c (N.to_nat 0) r4) as [[z|e|p] r5]; reflexivity.
Qed.
Lemma ssks_read_cv c : forall n rd, @ssks_read EH c n rd = sres (map cv_ssk) (@ssks_read E c n rd).
Proof.
  induction n as [|n IH]; intros rd; [reflexivity|]. cbn [ssks_read]. unfold sbind. rewrite ssk_read_cv.
  destruct (@ssk_deserialize E c rd) as [[x|e|p] r1]; [|reflexivity|reflexivity]. cbn [sres fst snd res_map]. rewrite IH.
  destruct (@ssks_read E c n r1) as [[l|e|p] r2]; reflexivity.
Qed.
Lemma sk_read_cv c rd : @sk_deserialize EH c rd = sres cv_sk (@sk_deserialize E c rd).
Proof.
  unfold sk_deserialize, sbind. destruct (read_exact 2 rd) as [[k|e|p] r1]; [|reflexivity|reflexivity].
  destruct (read_exact 64 r1) as [[sd|e|p] r2]; [|reflexivity|reflexivity].
  destruct (negb (valid_cs (nth 0 k 0))); [reflexivity|]. destruct (nth 1 k 0 =? 0); [reflexivity|]. rewrite ssk_read_cv.
  destruct (@ssk_deserialize E c r2) as [[x|e|p] r3]; [|reflexivity|reflexivity]. cbn [sres fst snd res_map]. rewrite ssks_read_cv.
  destruct (@ssks_read E c (N.to_nat (nth 1 k 0) - 1) r3) as [[l|e|p] r4]; reflexivity.
Qed.
Lemma reload_cv c sk : @reload EH c (cv_sk sk) = let (r, sk') := @reload E c sk in (r, cv_sk sk').
Proof.
  unfold reload. rewrite sk_write_cv. destruct (to_vec (@sk_serialize E sk c)) as [b|e|p]; [|reflexivity|reflexivity].
  unfold from_slice. rewrite sk_read_cv. destruct (@sk_deserialize E c (rpush b [])) as [[k|e|p] r]; reflexivity.
Qed.

(** ** The calls *)
Definition cv_left (x : res (option (signature E)) * seckey E) : res (option (signature EH)) * seckey EH :=
  (res_map (option_map cv_sig) (fst x), cv_sk (snd x)).
Lemma signed_cv m pp t msg sk : ((do! s <- slift (@sign_bytes EH m (cv_sk sk) t (cv_pp pp) msg); sret (Some s)) : st (seckey EH) _) (cv_sk sk)
  = cv_left (ans (signed_q m pp t msg sk)).
Proof.
  unfold sbind, slift, sret, signed_q. rewrite answered_bind, sign_bytes_cv. cbn [answered].
  destruct (ans (sign_bytes_q m sk t pp msg)); reflexivity.
Qed.
Lemma step_cv m pp o sk : @step EH m (cv_pp pp) o (cv_sk sk) = cv_left (ans (step_q m pp o sk)).
Proof.
  destruct o as [t seed|t msg seed|t msg|t msg seed|c]; cbn [step step_q]; unfold sign, sign_present, sign_then_update, sbind, sget, slift, sret.
  - rewrite update_cv. unfold then_key. rewrite answered_bind. destruct (ans (update_q m pp t seed sk)); reflexivity.
  - change (sec_time (cv_sk sk)) with (sec_time sk). destruct (t <? sec_time sk); [reflexivity|]. destruct (sec_time sk <? t).
    + rewrite update_cv. unfold then_key. rewrite answered_bind. destruct (ans (update_q m pp t seed sk)) as [k|e|p]; [|reflexivity|reflexivity].
      cbn [left]. exact (signed_cv m pp t msg k).
    + exact (signed_cv m pp t msg sk).
  - change (sec_time (cv_sk sk)) with (sec_time sk). destruct (negb (sec_time sk =? t)); [reflexivity|]. exact (signed_cv m pp t msg sk).
  - change (sec_time (cv_sk sk)) with (sec_time sk). destruct (negb (sec_time sk =? t)); [reflexivity|]. rewrite answered_bind, sign_bytes_cv.
    destruct (ans (sign_bytes_q m sk t pp msg)) as [s|e|p]; [|reflexivity|reflexivity]. cbn [res_map].
    destruct (add64 m t 1) as [t1|e|p]; [|reflexivity|reflexivity]. rewrite update_cv. unfold then_key. rewrite answered_bind.
    destruct (ans (update_q m pp t1 seed sk)); reflexivity.
  - rewrite reload_cv. destruct (@reload E c sk) as [[u|e|p] k]; reflexivity.
Qed.

(** ** Key generation *)
Definition cv_key (k : pubkey E * seckey E * proof E) : pubkey EH * seckey EH * proof EH :=
  (cv_pk (fst (fst k)), cv_sk (snd (fst k)), cv_pop (snd k)).
Lemma key_gen_cv seed pp : @key_gen EH seed (cv_pp pp) = res_map cv_key (ans (key_gen_q seed pp)).
Proof.
  unfold key_gen, key_gen_q, master_key_gen. change (pp_cs (cv_pp pp)) with (pp_cs pp). destruct (length seed <? 32)%nat; [reflexivity|].
  destruct (valid_cs (pp_cs pp)) eqn:V; cbn [negb]; [|reflexivity]. rewrite answered_bind, init_asked, answered_rbind, draw_asked.
  change (sha512 EH) with H. destruct (sample_then_update H (prng_init H seed (DOM_SEP_MASTER_KEY ++ [pp_cs pp])) KEY_INIT_INFO) as [[x g]|e|p]; [|reflexivity|reflexivity].
  cbn [bind answered]. unfold pk_init, sk_init. change (pp_cs (cv_pp pp)) with (pp_cs pp). rewrite V. cbn [negb bind].
  rewrite answered_rbind, draw_asked. change (sha512 EH) with H.
  destruct (sample_then_update H g (DOM_SEP_SK_INIT ++ [0; 0; 0; 1])) as [[r g']|e|p]; [|reflexivity|reflexivity]. cbn [bind answered].
  unfold ssk_init. cbn [cv_pp pp_hlist pp_depth pp_g2 pp_h]. change (@nth_res (G1 EH)) with (@nth_res (G1 E)).
  destruct (nth_res (pp_hlist pp) 0); reflexivity.
Qed.
Lemma key_gens_cv pp : forall seeds ks', map (fun sd => @key_gen EH sd (cv_pp pp)) seeds = map Ok ks' ->
  exists ks, ans (key_gens_q seeds pp) = Ok ks /\ ks' = map cv_key ks.
Proof.
  induction seeds as [|sd seeds IH]; intros [|k' ks'] Hm; try discriminate Hm.
  - exists []. split; reflexivity.
  - cbn [map] in Hm. injection Hm as Hk Hm. destruct (IH _ Hm) as (ks & Ha & Hks). rewrite key_gen_cv in Hk.
    cbn [key_gens_q]. rewrite answered_rbind. destruct (ans (key_gen_q sd pp)) as [k|e|p]; [|discriminate Hk|discriminate Hk].
    cbn [bind]. rewrite answered_rbind, Ha. cbn [bind answered]. exists (k :: ks). split; [reflexivity|]. cbn [map]. rewrite Hks.
    cbn [res_map] in Hk. injection Hk as ->. reflexivity.
Qed.
End Code.

(** * The two games *)
Section Games.
Context {E : env} (H : bytes -> bytes) (Q : bytes -> bytes -> G1 E) (m : mode) (pp : pubparam E).
Local Notation EH := (code_env E H Q).
Local Notation ans := (answered (E := E) H Q).
Local Notation cvk := (cv_sk H Q).

Lemma put_nth {A} (l : list A) j a i : (j < length l)%nat -> nth_error (put_at l j a) i = if (i =? j)%nat then Some a else nth_error l i.
Proof.
  unfold put_at. revert j i. induction l as [|x l IH]; intros j i Hj; [cbn in Hj; lia|]. destruct j as [|j]; [destruct i; reflexivity|].
  destruct i as [|i]; [reflexivity|]. cbn [firstn skipn app nth_error Nat.eqb]. cbn in Hj. apply (IH j i). lia.
Qed.
Lemma put_len {A} (l : list A) j a : (j < length l)%nat -> length (put_at l j a) = length l.
Proof. intros Hj. unfold put_at. rewrite app_length. cbn [length]. rewrite firstn_length, skipn_length. lia. Qed.
Lemma put_map {A B} (f : A -> B) l j a : map f (put_at l j a) = put_at (map f l) j (f a).
Proof. unfold put_at. rewrite map_app, firstn_map. cbn [map]. rewrite skipn_map. reflexivity. Qed.
Lemma put_put {A} (l : list A) : forall i j a b, i <> j -> put_at (put_at l i a) j b = put_at (put_at l j b) i a \/ (length l <= i)%nat \/ (length l <= j)%nat.
Proof.
  induction l as [|x l IH]; intros i j a b Hn; [right; left; cbn; lia|].
  destruct i as [|i], j as [|j]; [contradiction|left; reflexivity|left; reflexivity|].
  destruct (IH i j a b) as [He|[He|He]]; [intros ->; apply Hn; reflexivity| | |].
  - left. unfold put_at in *. cbn [firstn skipn app] in *. f_equal. exact He.
  - right; left. cbn. lia.
  - right; right. cbn. lia.
Qed.
Lemma put_same {A} (l : list A) : forall j a b, (j < length l)%nat -> put_at (put_at l j a) j b = put_at l j b.
Proof.
  induction l as [|x l IH]; intros j a b Hj; [cbn in Hj; lia|]. destruct j as [|j]; [reflexivity|].
  unfold put_at in *. cbn [firstn skipn app] in *. f_equal. apply IH. cbn in Hj. lia.
Qed.
Lemma put_id {A} (l : list A) : forall j a, nth_error l j = Some a -> put_at l j a = l.
Proof.
  induction l as [|x l IH]; intros j a Hj; [destruct j; discriminate|]. destruct j as [|j]; [injection Hj as ->; reflexivity|].
  unfold put_at in *. cbn [firstn skipn app] in *. f_equal. apply IH. exact Hj.
Qed.
Lemma nth_lt {A} (l : list A) i a : nth_error l i = Some a -> (i < length l)%nat.
Proof. intros Hn. apply nth_error_Some. rewrite Hn. discriminate. Qed.

Lemma tail_asking {A} (p : asks E A) k : tail_run H Q (asking_p p k) = tail_run H Q (k (ans p)).
Proof. induction p as [a|b j IH|msg cs j IH]; cbn [asking_p answered tail_run]; [reflexivity|apply IH|apply IH]. Qed.
Lemma iface_asking {A} sk (p : asks E A) k : iface_run H Q m pp sk (asking_i p k) = iface_run H Q m pp sk (k (ans p)).
Proof. induction p as [a|b j IH|msg cs j IH]; cbn [asking_i answered iface_run]; [reflexivity|apply IH|apply IH]. Qed.
Lemma cnote_some {A} i e (o : option (A * list (nat * event))) a ev : cnote i e o = Some (a, ev) ->
  exists ev', o = Some (a, ev') /\ ev = map (pair i) e ++ ev'.
Proof. unfold cnote. destruct o as [[a' es]|]; [|discriminate]. intros Ho. injection Ho as -> <-. exists es. split; reflexivity. Qed.
Lemma uv_left (x : res (option (signature E))) : res_map (option_map uv_sig) (res_map (option_map (@cv_sig E H Q)) x) = x.
Proof. destruct x as [[[? ? ? ?]|]|e|p]; reflexivity. Qed.

Lemma all_own_run : forall f sks o ev, many_run H Q m pp (map cvk sks) f = Some (o, ev) ->
  tail_run H Q (all_own m pp sks f) = Some o.
Proof.
  induction f as [msg s l|i k IH|i op k IH|b k IH|msg cs k IH]; intros sks o ev; cbn [many_run all_own tail_run].
  - intros Ho. injection Ho as <- _. reflexivity.
  - rewrite nth_error_map. destruct (nth_error sks i) as [sk|]; [|discriminate]. cbn [option_map]. intros Ho. apply cnote_some in Ho.
    destruct Ho as (ev' & Ho & _). rewrite uv_cv_sk in Ho. exact (IH _ _ _ _ Ho).
  - rewrite nth_error_map. destruct (nth_error sks i) as [sk|] eqn:Hi; [|discriminate]. cbn [option_map]. rewrite tail_asking, step_cv.
    unfold cv_left. intros Ho. apply cnote_some in Ho. destruct Ho as (ev' & Ho & _). rewrite uv_left, <- put_map in Ho. exact (IH _ _ _ _ Ho).
  - apply IH.
  - apply IH.
Qed.
Lemma first_break_app j i e ev : (i <> j \/ forall t, ~ In (Broke t) e) -> first_break j (map (pair i) e ++ ev) = first_break j ev.
Proof.
  intros Hd. induction e as [|x e IH]; [reflexivity|]. cbn [map app first_break fold_right]. fold (first_break j (map (pair i) e ++ ev)).
  assert (Hr : first_break j (map (pair i) e ++ ev) = first_break j ev).
  { apply IH. destruct Hd as [Hd|Hd]; [left; exact Hd|right; intros t Ht; apply (Hd t); right; exact Ht]. }
  destruct x as [t msg|t]; [exact Hr|]. destruct (Nat.eqb_spec i j) as [->|_]; [|exact Hr].
  destruct Hd as [Hd|Hd]; [contradiction Hd; reflexivity|]. exfalso. apply (Hd t). left. reflexivity.
Qed.
Lemma given_signed {A} o (r : res A) t : ~ In (Broke t) (given o r).
Proof. destruct o, r; cbn; try tauto; intros [Ht|[]]; discriminate. Qed.
Lemma others_own_run j : forall f sks sk o ev, (j < length sks)%nat ->
  many_run H Q m pp (put_at (map cvk sks) j sk) f = Some (o, ev) ->
  exists ev', iface_run H Q m pp sk (others_own m pp j sks f) = Some (o, ev')
    /\ (forall e, In e ev' -> In (j, e) ev) /\ (first_break j ev <> 0 -> In (Broke (first_break j ev)) ev').
Proof.
  induction f as [msg s l|i k IH|i op k IH|b k IH|msg cs k IH]; intros sks sk o ev Hj; cbn [many_run others_own iface_run].
  - intros Ho. injection Ho as <- <-. exists []. split; [reflexivity|]. split; [intros e []|]. cbn. intros Hn. contradiction Hn. reflexivity.
  - rewrite put_nth by (rewrite map_length; exact Hj). destruct (Nat.eqb_spec i j) as [->|Hn].
    + intros Ho. apply cnote_some in Ho. destruct Ho as (ev' & Ho & ->).
      assert (Ht : tail_run H Q (all_own m pp (put_at sks j (uv_sk sk)) (k (uv_sk sk))) = Some o).
      { apply (all_own_run _ _ _ ev'). rewrite put_map, cv_uv_sk. exact Ho. }
      cbn [iface_run]. rewrite Ht. exists [Broke (sec_time sk)]. split; [reflexivity|]. split.
      * intros e [<-|[]]. left. reflexivity.
      * cbn [map app first_break fold_right]. rewrite Nat.eqb_refl. intros _. left. reflexivity.
    + rewrite nth_error_map. destruct (nth_error sks i) as [sk'|]; [|discriminate]. cbn [option_map]. intros Ho. apply cnote_some in Ho.
      destruct Ho as (ev' & Ho & ->). rewrite uv_cv_sk in Ho. destruct (IH _ _ _ _ _ Hj Ho) as (ev1 & Hr & He & Hb).
      exists ev1. split; [exact Hr|]. rewrite first_break_app by (left; exact Hn). split; [|exact Hb]. intros e Hi. apply in_or_app. right. apply He, Hi.
  - rewrite put_nth by (rewrite map_length; exact Hj). destruct (Nat.eqb_spec i j) as [->|Hn].
    + cbn [iface_run]. destruct (step m (cv_pp pp) op sk) as [r sk'] eqn:Hs. intros Ho. apply cnote_some in Ho. destruct Ho as (ev' & Ho & ->).
      rewrite put_same in Ho by (rewrite map_length; exact Hj). destruct (IH _ _ _ _ _ Hj Ho) as (ev1 & Hr & He & Hb).
      rewrite Hr. exists (given op r ++ ev1). split; [reflexivity|]. rewrite first_break_app by (right; intros t; apply given_signed). split.
      * intros e Hi. apply in_app_or in Hi. apply in_or_app. destruct Hi as [Hi|Hi]; [left; apply in_map; exact Hi|right; apply He, Hi].
      * intros H0. apply in_or_app. right. apply Hb, H0.
    + rewrite nth_error_map. destruct (nth_error sks i) as [sk'|] eqn:Hi; [|discriminate]. cbn [option_map]. rewrite iface_asking, step_cv.
      unfold cv_left. intros Ho. apply cnote_some in Ho. destruct Ho as (ev' & Ho & ->). rewrite uv_left in Ho.
      destruct (put_put (map cvk sks) j i sk (cvk (snd (ans (step_q m pp op sk'))))) as [He|[He|He]]; [intros ->; apply Hn; reflexivity| | |].
      * rewrite He, <- put_map in Ho. apply IH in Ho; [|rewrite put_len; [exact Hj|exact (nth_lt _ _ _ Hi)]].
        destruct Ho as (ev1 & Hr & Hev & Hb). exists ev1. split; [exact Hr|]. rewrite first_break_app by (left; exact Hn). split; [|exact Hb].
        intros e Hin. apply in_or_app. right. apply Hev, Hin.
      * rewrite map_length in He. lia.
      * rewrite map_length in He. apply nth_lt in Hi. lia.
  - apply IH. exact Hj.
  - apply IH. exact Hj.
Qed.
Lemma no_break j ev : (forall t, In (j, Broke t) ev -> 0 < t) -> first_break j ev = 0 -> forall t, ~ In (j, Broke t) ev.
Proof.
  induction ev as [|[i [t0 msg|t0]] ev IH]; intros Hp Hb t; [intros []| |].
  - intros [Hd|Hi]; [discriminate Hd|]. refine (IH _ Hb t Hi). intros t' Ht'. apply Hp. right. exact Ht'.
  - cbn [first_break fold_right] in Hb. destruct (Nat.eqb_spec i j) as [->|Hn].
    + exfalso. specialize (Hp t0 (or_introl eq_refl)). rewrite Hb in Hp. apply (N.lt_irrefl 0). exact Hp.
    + intros [Hd|Hi]; [injection Hd as -> _; contradiction|]. refine (IH _ Hb t Hi). intros t' Ht'. apply Hp. right. exact Ht'.
Qed.
Lemma map_Ok_inj {A} (a b : list A) : map Ok a = map (@Ok A) b -> a = b.
Proof. revert b. induction a as [|x a IH]; intros [|y b] He; try discriminate He; [reflexivity|]. injection He as -> He. f_equal. apply IH, He. Qed.
Lemma map_ok_app {A B} (f : A -> res B) l1 l2 ks : map f (l1 ++ l2) = map Ok ks ->
  exists k1 k2, ks = k1 ++ k2 /\ map f l1 = map Ok k1 /\ map f l2 = map Ok k2.
Proof.
  revert ks. induction l1 as [|x l1 IH]; intros ks He; [exists [], ks; repeat split; exact He|].
  destruct ks as [|k ks]; [discriminate He|]. cbn [app map] in He. injection He as Hx He. destruct (IH _ He) as (k1 & k2 & -> & H1 & H2).
  exists (k :: k1), k2. split; [reflexivity|]. split; [|exact H2]. cbn [map]. rewrite Hx, H1. reflexivity.
Qed.
End Games.

Lemma one_signer : forall (E : env) H Q m (pp : pubparam E) l1 seed l2 tb adv,
  cwins H Q m pp l1 seed l2 tb adv -> iwins H Q m pp seed tb (alone m (pp_depth pp) l1 l2 adv).
Proof.
  intros E H Q m pp l1 seed l2 tb adv (ks' & pk & sk & pop & msg & s & l & ev & Hk & Hi & Hr & Hin & Hl & Hs & Hb & -> & Hv & Hver).
  apply map_ok_app in Hk. destruct Hk as (K1 & K2' & -> & HK1 & HK2). destruct K2' as [|k K2]; [discriminate HK2|].
  cbn [map] in HK2. injection HK2 as Hseed HK2.
  assert (L1 : length K1 = length l1) by (apply (f_equal (@length _)) in HK1; rewrite !map_length in HK1; symmetry; exact HK1).
  rewrite nth_error_app2, L1, Nat.sub_diag in Hi by (rewrite L1; apply le_n). injection Hi as ->.
  destruct (key_gens_cv H Q pp (l1 ++ l2) (K1 ++ K2)) as (ks & Ha & Hks); [rewrite !map_app, HK1, HK2; reflexivity|].
  assert (Lk : length ks = (length K1 + length K2)%nat) by (rewrite <- app_length, Hks, map_length; reflexivity).
  assert (F1 : K1 = map (cv_key H Q) (firstn (length l1) ks)).
  { rewrite <- firstn_map, <- Hks, <- L1, firstn_app, Nat.sub_diag, firstn_all. symmetry. apply app_nil_r. }
  assert (F2 : K2 = map (cv_key H Q) (skipn (length l1) ks)).
  { rewrite <- skipn_map, <- Hks, <- L1, skipn_app, Nat.sub_diag, skipn_all. reflexivity. }
  set (A := firstn (length l1) ks) in *. set (B := skipn (length l1) ks) in *.
  assert (LA : length A = length l1) by (rewrite <- L1, F1, map_length; reflexivity).
  assert (Hrun : exists ev', iface_run H Q m pp sk (alone m (pp_depth pp) l1 l2 adv pp (uv_pk pk) (uv_pop pop)) = Some (msg, s, l, ev')
    /\ (forall e, In e ev' -> In (length l1, e) ev) /\ (first_break (length l1) ev <> 0 -> In (Broke (first_break (length l1) ev)) ev')).
  { unfold alone. rewrite Nat.eqb_refl, iface_asking, Ha. fold A. fold B. cbv zeta.
    apply others_own_run; [rewrite map_length, app_length; cbn [length]; lia|].
    rewrite <- Hr. f_equal.
    - rewrite F1, F2. rewrite !map_app. cbn [map]. rewrite !map_map. unfold put_at.
      rewrite firstn_app, firstn_all2 by (rewrite map_length, LA; apply le_n). rewrite map_length, LA, Nat.sub_diag. cbn [firstn]. rewrite app_nil_r.
      f_equal. cbn [fst snd]. f_equal. rewrite skipn_app, skipn_all2 by (rewrite map_length, LA; lia).
      rewrite map_length, LA. replace (S (length l1) - length l1)%nat with 1%nat by lia. reflexivity.
    - f_equal. rewrite F1, F2, !map_app. cbn [map fst snd]. rewrite !map_map.
      assert (Hm : forall X : list (pubkey E * seckey E * proof E),
        map (fun x => (fst (fst x), snd x)) X = map (fun x => (uv_pk (fst (fst (cv_key H Q x))), uv_pop (snd (cv_key H Q x)))) X).
      { intros X. apply map_ext. intros [[[? ?] ?] [? ?]]. reflexivity. }
      rewrite !Hm. reflexivity. }
  destruct Hrun as (ev' & Hr' & He & Hbk).
  exists pk, sk, pop, msg, s, l, ev'. split; [exact Hseed|]. split; [exact Hr'|]. split; [exact Hin|]. split; [exact Hl|].
  split; [intros Hi; apply Hs, He, Hi|].
  assert (Hpos : forall t, In (length l1, Broke t) ev -> 0 < t) by (intros t Ht; apply N.le_lt_trans with (sig_time s); [apply N.le_0_l|apply Hb, Ht]).
  split; [|split; [exact Hv|exact Hver]].
  destruct (N.eqb_spec (first_break (length l1) ev) 0) as [H0|H0].
  - intros t Ht. exact (no_break _ _ Hpos H0 t (He _ Ht)).
  - split; [exact (Hbk H0)|]. apply Hb, He, Hbk, H0.
Qed.
