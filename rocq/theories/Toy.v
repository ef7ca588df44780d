(** A concrete environment satisfying every assumption of [env_laws], used to run
    the model.  Both groups are integers modulo a multiple of the real group order
    r, with the multiples of the cofactor as the subgroup; the pairing multiplies
    discrete logarithms; encodings are big-endian integers of the real sizes.  The hash
    is any function with 64 bytes of output: a quick one in [toy], which the examples
    run, the real SHA-512 in [toy_sha]. *)
From Coq Require Import ZArith Znumtheory Eqdep_dec.
From Verif Require Import Base Env SpecPrng PrngFacts Sha512 Primality.
Local Open Scope N_scope.

(** Integers modulo n. *)
Record zn (n : positive) := Zn { zv : N; zlt : (zv <? N.pos n) = true }.
Arguments Zn {n}. Arguments zv {n}. Arguments zlt {n}.

(** Reduction, quick for numbers below 2 * n. *)
Definition nmod (x n : N) : N := if x <? n then x else let y := x - n in if y <? n then y else x mod n.
Lemma nmod_spec x n : n <> 0 -> nmod x n = x mod n.
Proof.
  intros Hn. unfold nmod. destruct (N.ltb_spec x n); [symmetry; apply N.mod_small; assumption|].
  destruct (N.ltb_spec (x - n) n); [|reflexivity]. apply N.mod_unique with (q := 1); lia.
Qed.

Lemma mk_lt n x : (nmod x (N.pos n) <? N.pos n) = true.
Proof. rewrite nmod_spec by discriminate. apply N.ltb_lt, N.mod_lt. discriminate. Qed.
(** A proof of [b = true] that computes to [eq_refl]. *)
Definition bforce (b : bool) : b = true -> b = true :=
  if b as b0 return b0 = true -> b0 = true then fun _ => eq_refl else fun H => H.
Definition mk (n : positive) (x : N) : zn n :=
  let y := nmod x (N.pos n) in Zn y (bforce (y <? N.pos n) (mk_lt n x)).

Lemma zn_eq n (x y : zn n) : zv x = zv y -> x = y.
Proof.
  destruct x as [x Hx], y as [y Hy]; cbn. intros ->. f_equal. apply UIP_dec. apply bool_dec.
Qed.
Lemma zv_lt n (x : zn n) : zv x < N.pos n.
Proof. apply N.ltb_lt, zlt. Qed.
Lemma zv_mk n x : zv (mk n x) = x mod N.pos n.
Proof. apply nmod_spec. discriminate. Qed.
Lemma zv_mod n (x : zn n) : zv x mod N.pos n = zv x.
Proof. apply N.mod_small, zv_lt. Qed.

Definition zadd {n} (x y : zn n) : zn n := mk n (zv x + zv y).
Definition zmul {n} (k : N) (x : zn n) : zn n := mk n (k * zv x).
Definition zneg {n} (x : zn n) : zn n := mk n (N.pos n - zv x).
Definition zeqb {n} (x y : zn n) : bool := zv x =? zv y.

Definition rp : positive := Eval vm_compute in Z.to_pos r_modulus.
Definition r1 : positive := Eval vm_compute in (3 * rp)%positive.
Definition r2 : positive := Eval vm_compute in (2 * rp)%positive.
Definition in1 (x : zn r1) : bool := zv x mod 3 =? 0.
Definition in2 (x : zn r2) : bool := zv x mod 2 =? 0.
Definition toy_pairing (x : zn r2) (y : zn r1) : zn rp := mk rp ((zv x / 2) * (zv y / 3)).

(** Fixed length big-endian integers. *)
Fixpoint i2osp (n : nat) (x : N) : bytes :=
  match n with
  | O => []
  | S k => i2osp k (N.shiftr x 8) ++ [N.land x 255]
  end.
Lemma i2osp_S k x : i2osp (S k) x = i2osp k (x / 256) ++ [x mod 256].
Proof.
  cbn [i2osp]. rewrite N.shiftr_div_pow2. change 255 with (N.ones 8). rewrite N.land_ones. reflexivity.
Qed.
Definition toy_enc {n} (len : nat) (x : zn n) : bytes := i2osp len (zv x).
Definition toy_dec n (len : nat) (b : bytes) : option (zn n) :=
  if Nat.eqb (length b) len && (os2ip b <? N.pos n) then Some (mk n (os2ip b)) else None.

(** A quick (and weak) hash function with 64 bytes of output. *)
Definition qstep (a b : N) : N := N.land (a * 6364136223846793005 + b + 1442695040888963407) 18446744073709551615.
Definition qhash (b : bytes) : bytes :=
  i2osp 64 (fold_left qstep b 11 * 0xb6f675cc81e74ef5e8e25d940ed904759531985d5d9dc9f81818e811892f902bd23f0824128b2f330c5c7fd0a6a3a4506513270e269e0d37f2a74de452e6b439).

Definition toy_hash (msg cs : bytes) : zn r1 := mk r1 (3 * os2ip (qhash (msg ++ cs))).
Definition toy_one : zn r2 := mk r2 2.

Definition toyh (H : bytes -> bytes) : env := {|
  G1 := zn r1; G2 := zn r2; GT := zn rp;
  g1_zero := mk r1 0; g1_add := zadd; g1_dbl := fun x => zadd x x; g1_mul := zmul; g1_eqb := zeqb; g1_insub := in1;
  g2_zero := mk r2 0; g2_add := zadd; g2_neg := zneg; g2_mul := zmul; g2_eqb := zeqb; g2_insub := in2;
  g2_one := toy_one;
  gt_one := mk rp 0; gt_mul := zadd; gt_eqb := zeqb; pairing := toy_pairing;
  pairing_prod := fun l => Some (fold_right (fun xy acc => zadd (toy_pairing (fst xy) (snd xy)) acc) (mk rp 0) l);
  g1_enc := fun c => toy_enc (g1_size c); g1_dec := fun c => toy_dec r1 (g1_size c);
  g2_enc := fun c => toy_enc (g2_size c); g2_dec := fun c => toy_dec r2 (g2_size c);
  sha512 := H;
  bls_sign := fun x msg cs => zmul x (toy_hash msg cs);
  bls_verify := fun pk sig msg cs =>
    in2 pk && in1 sig && zeqb (toy_pairing toy_one sig) (toy_pairing pk (toy_hash msg cs)) |}.
Definition toy : env := toyh qhash.
(** The same with the real hash function. *)
Definition toy_sha : env := toyh sha512_real.

(** ** Laws *)
Local Opaque toy_hash i2osp.
Lemma zadd_comm n (x y : zn n) : zadd x y = zadd y x.
Proof. unfold zadd. rewrite N.add_comm. reflexivity. Qed.
Lemma zadd_assoc n (x y z : zn n) : zadd x (zadd y z) = zadd (zadd x y) z.
Proof.
  apply zn_eq. unfold zadd. rewrite !zv_mk. rewrite N.add_mod_idemp_r, N.add_mod_idemp_l by discriminate.
  f_equal. lia.
Qed.
Lemma zadd_zero n (x : zn n) : zadd (mk n 0) x = x.
Proof. apply zn_eq. unfold zadd. rewrite !zv_mk, N.mod_0_l by discriminate. apply zv_mod. Qed.
Lemma zmul0 n (x : zn n) : zmul 0 x = mk n 0.
Proof. apply zn_eq. unfold zmul. rewrite !zv_mk. f_equal. Qed.
Lemma zmul1 n (x : zn n) : zmul 1 x = x.
Proof. apply zn_eq. unfold zmul. rewrite zv_mk, N.mul_1_l. apply zv_mod. Qed.
Lemma zmul_add n k j (x : zn n) : zmul (k + j) x = zadd (zmul k x) (zmul j x).
Proof.
  apply zn_eq. unfold zmul, zadd. rewrite !zv_mk, <- N.add_mod by discriminate. f_equal. lia.
Qed.
Lemma zmul_mul n k j (x : zn n) : zmul (k * j) x = zmul k (zmul j x).
Proof.
  apply zn_eq. unfold zmul. rewrite !zv_mk, N.mul_mod_idemp_r by discriminate. f_equal. lia.
Qed.
Lemma zmul_dist n k (x y : zn n) : zmul k (zadd x y) = zadd (zmul k x) (zmul k y).
Proof.
  apply zn_eq. unfold zmul, zadd. rewrite !zv_mk, <- N.add_mod, N.mul_mod_idemp_r by discriminate. f_equal. lia.
Qed.
Lemma zeqb_eq n (x y : zn n) : zeqb x y = true <-> x = y.
Proof.
  unfold zeqb. rewrite N.eqb_eq. split; [apply zn_eq|intros ->; reflexivity].
Qed.
Lemma zneg_r n (x : zn n) : zadd x (zneg x) = mk n 0.
Proof.
  apply zn_eq. unfold zadd, zneg. rewrite !zv_mk, N.add_mod_idemp_r by discriminate.
  pose proof (zv_lt n x). replace (zv x + (N.pos n - zv x)) with (N.pos n) by lia.
  rewrite N.mod_same, N.mod_0_l by discriminate. reflexivity.
Qed.

(** The subgroups: [x] is in it iff it is the cofactor times something below r. *)
Lemma insub_spec c n q (x : zn n) : 0 < c -> N.pos n = c * N.pos q ->
  (zv x mod c =? 0) = true <-> zv x = c * (zv x / c) /\ zv x / c < N.pos q.
Proof.
  intros Hc Hn. rewrite N.eqb_eq. pose proof (N.div_mod (zv x) c ltac:(lia)). pose proof (zv_lt n x).
  split.
  - intros. split; [lia|]. apply N.div_lt_upper_bound; lia.
  - intros [H1 _]. lia.
Qed.

Lemma r1_val : N.pos r1 = 3 * N.pos rp. Proof. reflexivity. Qed.
Lemma r2_val : N.pos r2 = 2 * N.pos rp. Proof. reflexivity. Qed.
Lemma rp_val : N.pos rp = fr_modulus. Proof. reflexivity. Qed.
Opaque r1 r2 rp.

Lemma mul_mod_l c a q : 0 < c -> 0 < q -> (c * a) mod (c * q) = c * (a mod q).
Proof. intros. apply N.mul_mod_distr_l; lia. Qed.
Lemma mul_mod_c c a : 0 < c -> (c * a) mod c = 0.
Proof. intros. rewrite N.mul_comm. apply N.mod_mul. lia. Qed.
Lemma div_mul_c c a : 0 < c -> c * a / c = a.
Proof. intros. rewrite N.mul_comm. apply N.div_mul. lia. Qed.

Lemma sub_add c n q (x y : zn n) : 0 < c -> N.pos n = c * N.pos q ->
  (zv x mod c =? 0) = true -> (zv y mod c =? 0) = true ->
  (zv (zadd x y) mod c =? 0) = true /\ zv (zadd x y) / c = (zv x / c + zv y / c) mod N.pos q.
Proof.
  intros Hc Hn Hx Hy. rewrite (insub_spec c n q) in Hx, Hy by assumption.
  destruct Hx as [Hx _], Hy as [Hy _]. unfold zadd. rewrite zv_mk, Hn.
  replace (zv x + zv y) with (c * (zv x / c + zv y / c)) by lia.
  rewrite mul_mod_l by lia. rewrite mul_mod_c, div_mul_c by assumption. auto.
Qed.

Lemma sub_neg c n q (x : zn n) : 0 < c -> N.pos n = c * N.pos q ->
  (zv x mod c =? 0) = true -> (zv (zneg x) mod c =? 0) = true.
Proof.
  intros Hc Hn Hx. rewrite (insub_spec c n q) in Hx by assumption.
  destruct Hx as [Hx _]. unfold zneg. rewrite zv_mk, Hn.
  replace (c * N.pos q - zv x) with (c * (N.pos q - zv x / c)) by (rewrite N.mul_sub_distr_l; lia).
  rewrite mul_mod_l by lia. rewrite mul_mod_c by assumption. reflexivity.
Qed.

Lemma sub_order c n q (x : zn n) : 0 < c -> N.pos n = c * N.pos q ->
  (zv x mod c =? 0) = true -> zmul (N.pos q) x = mk n 0.
Proof.
  intros Hc Hn Hx. rewrite (insub_spec c n q) in Hx by assumption.
  destruct Hx as [Hx _]. apply zn_eq. unfold zmul. rewrite !zv_mk, N.mod_0_l by discriminate.
  rewrite Hx, Hn. replace (N.pos q * (c * (zv x / c))) with (zv x / c * (c * N.pos q)) by lia.
  apply N.mod_mul. lia.
Qed.

Lemma sub_mul c n q k (x : zn n) : 0 < c -> N.pos n = c * N.pos q ->
  (zv x mod c =? 0) = true -> (zv (zmul k x) mod c =? 0) = true /\ zv (zmul k x) / c = (k * (zv x / c)) mod N.pos q.
Proof.
  intros Hc Hn Hx. rewrite (insub_spec c n q) in Hx by assumption.
  destruct Hx as [Hx _]. unfold zmul. rewrite zv_mk, Hn.
  replace (k * zv x) with (c * (k * (zv x / c))) by lia.
  rewrite mul_mod_l by lia. rewrite mul_mod_c, div_mul_c by assumption. auto.
Qed.

(** Codecs. *)
Lemma i2osp_len n : forall x, length (i2osp n x) = n.
Proof. induction n; intros x; rewrite ?i2osp_S; cbn [i2osp]; [reflexivity|]. rewrite app_length, IHn. cbn. lia. Qed.
Lemma i2osp_bytes n : forall x, are_bytes (i2osp n x).
Proof.
  induction n; intros x; rewrite ?i2osp_S; cbn [i2osp]; [constructor|]. apply Forall_app. split; [apply IHn|].
  constructor; [apply N.mod_lt; discriminate|constructor].
Qed.
Lemma os2ip_snoc l b : os2ip (l ++ [b]) = os2ip l * 256 + b.
Proof. unfold os2ip. rewrite fold_left_app. reflexivity. Qed.
Lemma os2ip_i2osp n : forall x, x < 256 ^ N.of_nat n -> os2ip (i2osp n x) = x.
Proof.
  induction n; intros x Hx; rewrite ?i2osp_S; cbn [i2osp].
  - cbn in Hx. unfold os2ip. cbn. lia.
  - rewrite os2ip_snoc, IHn; [pose proof (N.div_mod x 256 ltac:(lia)); lia|].
    rewrite Nat2N.inj_succ, N.pow_succ_r' in Hx. apply N.div_lt_upper_bound; lia.
Qed.
Lemma i2osp_os2ip l : are_bytes l -> i2osp (length l) (os2ip l) = l.
Proof.
  induction l as [|b l IH] using rev_ind; intros Hb; [reflexivity|].
  apply Forall_app in Hb as [Hl Hb]. inversion Hb as [|? ? Hlt _]; subst.
  rewrite app_length, Nat.add_1_r, os2ip_snoc. rewrite ?i2osp_S; cbn [i2osp]. unfold is_byte in *.
  rewrite (N.mul_comm _ 256), N.add_comm.
  rewrite N.mul_comm, N.div_add, N.mod_add, (N.div_small b), (N.mod_small b), N.add_0_l, IH by (lia || assumption).
  reflexivity.
Qed.

Lemma toy_enc_dec n len (x : zn n) : N.pos n <= 256 ^ N.of_nat len -> toy_dec n len (toy_enc len x) = Some x.
Proof.
  intros Hn. unfold toy_dec, toy_enc. pose proof (zv_lt n x).
  rewrite i2osp_len, Nat.eqb_refl, os2ip_i2osp by lia.
  replace (zv x <? N.pos n) with true by (symmetry; apply N.ltb_lt; assumption). cbn [andb].
  f_equal. apply zn_eq. rewrite zv_mk. apply zv_mod.
Qed.

Lemma toy_dec_enc n len b (x : zn n) : are_bytes b -> length b = len -> toy_dec n len b = Some x -> toy_enc len x = b.
Proof.
  intros Hb Hl. unfold toy_dec, toy_enc. destruct (_ && _) eqn:E; [|discriminate].
  apply andb_prop in E as [_ E]. apply N.ltb_lt in E. intros [= <-]. rewrite zv_mk, N.mod_small by exact E.
  subst len. apply i2osp_os2ip, Hb.
Qed.

Lemma sizes_ok c : N.pos r1 <= 256 ^ N.of_nat (g1_size c) /\ N.pos r2 <= 256 ^ N.of_nat (g2_size c).
Proof. destruct c; split; vm_compute; discriminate. Qed.

Lemma prod_zero a b : a < N.pos rp -> b < N.pos rp -> (a * b) mod N.pos rp = 0 -> a = 0 \/ b = 0.
Proof.
  intros Ha Hb H. apply N.mod_divide in H; [|discriminate]. destruct H as [q Hq].
  assert (Hd : (Z.of_N (N.pos rp) | Z.of_N a * Z.of_N b)%Z).
  { exists (Z.of_N q). rewrite <- !N2Z.inj_mul. f_equal. exact Hq. }
  assert (Hp : prime (Z.of_N (N.pos rp))).
  { replace (Z.of_N (N.pos rp)) with r_modulus by (vm_compute; reflexivity). exact r_prime. }
  apply prime_mult in Hd; [|exact Hp]. destruct Hd as [Hd|Hd]; [left|right].
  - destruct (N.eq_dec a 0) as [|Hne]; [assumption|]. apply Z.divide_pos_le in Hd; lia.
  - destruct (N.eq_dec b 0) as [|Hne]; [assumption|]. apply Z.divide_pos_le in Hd; lia.
Qed.

Lemma toy_pairing_add_l x x' y : in2 x = true -> in2 x' = true -> in1 y = true ->
  toy_pairing (zadd x x') y = zadd (toy_pairing x y) (toy_pairing x' y).
Proof.
  intros Hx Hx' _. destruct (sub_add 2 r2 rp x x' ltac:(lia) r2_val Hx Hx') as [_ H].
  apply zn_eq. unfold toy_pairing. rewrite H. unfold zadd. rewrite !zv_mk.
  rewrite N.mul_mod_idemp_l, <- N.add_mod by discriminate. f_equal. lia.
Qed.
Lemma toy_pairing_add_r x y y' : in2 x = true -> in1 y = true -> in1 y' = true ->
  toy_pairing x (zadd y y') = zadd (toy_pairing x y) (toy_pairing x y').
Proof.
  intros _ Hx Hx'. destruct (sub_add 3 r1 rp y y' ltac:(lia) r1_val Hx Hx') as [_ H].
  apply zn_eq. unfold toy_pairing. rewrite H. unfold zadd. rewrite !zv_mk.
  rewrite N.mul_mod_idemp_r, <- N.add_mod by discriminate. f_equal. lia.
Qed.
Lemma toy_nondeg x y : in2 x = true -> in1 y = true -> toy_pairing x y = mk rp 0 -> x = mk r2 0 \/ y = mk r1 0.
Proof.
  intros Hx Hy H. apply (f_equal zv) in H. unfold toy_pairing in H. rewrite !zv_mk, N.mod_0_l in H by discriminate.
  apply (insub_spec 2 r2 rp) in Hx as [Hx Hx']; [|lia|apply r2_val].
  apply (insub_spec 3 r1 rp) in Hy as [Hy Hy']; [|lia|apply r1_val].
  apply prod_zero in H; auto. destruct H as [H|H]; [left|right]; apply zn_eq; rewrite zv_mk, N.mod_0_l by discriminate; lia.
Qed.

Lemma toy_one_val : zv toy_one = 2.
Proof. vm_compute. reflexivity. Qed.
Lemma toy_one_sub : in2 toy_one = true.
Proof. vm_compute. reflexivity. Qed.
Local Transparent toy_hash.
Local Opaque qhash.
Lemma toy_hash_sub msg cs : in1 (toy_hash msg cs) = true.
Proof.
  unfold in1, toy_hash. rewrite zv_mk, r1_val, mul_mod_l by lia. rewrite mul_mod_c by lia. reflexivity.
Qed.

Local Opaque toy_hash.
Theorem toyh_laws hf : (forall b, length (hf b) = 64%nat) -> (forall b, are_bytes (hf b)) -> env_laws (toyh hf).
Proof.
  intros Hlen Hbytes. constructor; cbn [toyh G1 G2 GT g1_zero g1_add g1_dbl g1_mul g1_eqb g1_insub g2_zero g2_add g2_neg g2_mul g2_eqb
    g2_insub g2_one gt_one gt_mul gt_eqb pairing pairing_prod g1_enc g1_dec g2_enc g2_dec sha512 bls_sign bls_verify];
    try solve [intros; apply zadd_comm | intros; apply zadd_assoc | intros; apply zadd_zero | intros; apply zmul0
      | intros; apply zmul1 | intros; apply zmul_add | intros; apply zmul_mul | intros; apply zmul_dist
      | intros; apply zeqb_eq | intros; apply zneg_r | intros; reflexivity].
  - intros x y Hx Hy. apply (sub_add 3 r1 rp); auto; lia || apply r1_val.
  - intros x Hx. rewrite <- rp_val. apply (sub_order 3); auto; lia || apply r1_val.
  - intros x y Hx Hy. apply (sub_add 2 r2 rp); auto; lia || apply r2_val.
  - intros x Hx. apply (sub_neg 2 r2 rp); auto; lia || apply r2_val.
  - intros x Hx. rewrite <- rp_val. apply (sub_order 2); auto; lia || apply r2_val.
  - intros H. apply (f_equal zv) in H. rewrite toy_one_val, zv_mk, N.mod_0_l in H by discriminate. discriminate.
  - intros x Hx. exists (zv x / 2). apply zn_eq. unfold zmul. rewrite zv_mk, toy_one_val.
    apply (insub_spec 2 r2 rp) in Hx as [Hx _]; [|lia|apply r2_val].
    replace (zv x / 2 * 2) with (zv x) by lia. symmetry. apply zv_mod.
  - intros x y _ _. exists (zneg (toy_pairing x y)). apply zneg_r.
  - exact toy_pairing_add_l.
  - exact toy_pairing_add_r.
  - exact toy_nondeg.
  - intros c x. apply i2osp_len.
  - intros c x. apply i2osp_bytes.
  - intros c x _. apply toy_enc_dec, sizes_ok.
  - intros b x Hb Hl. apply toy_dec_enc; auto.
  - intros c x. apply i2osp_len.
  - intros c x. apply i2osp_bytes.
  - intros c x _. apply toy_enc_dec, sizes_ok.
  - intros b x Hb Hl. apply toy_dec_enc; auto.
  - exact Hlen.
  - exact Hbytes.
  - intros x msg cs. pose proof (toy_hash_sub msg cs) as Hh. pose proof toy_one_sub as Ho.
    destruct (sub_mul 2 r2 rp x toy_one ltac:(lia) r2_val Ho) as [H1 H2].
    destruct (sub_mul 3 r1 rp x (toy_hash msg cs) ltac:(lia) r1_val Hh) as [H3 H4].
    unfold in2, in1. rewrite H1, H3. cbn [andb]. apply zeqb_eq, zn_eq. unfold toy_pairing.
    rewrite H2, H4, !zv_mk, toy_one_val. rewrite N.mul_mod_idemp_r, N.mul_mod_idemp_l by discriminate.
    f_equal. change (2 / 2) with 1. lia.
  - intros x msg cs. apply (sub_mul 3 r1 rp); [lia|apply r1_val|apply toy_hash_sub].
Qed.

Local Transparent qhash.
Lemma qhash_len b : length (qhash b) = 64%nat.
Proof. unfold qhash. rewrite i2osp_len. reflexivity. Qed.
Lemma qhash_bytes b : are_bytes (qhash b).
Proof. unfold qhash. apply i2osp_bytes. Qed.
Theorem toy_laws : env_laws toy.
Proof. exact (toyh_laws qhash qhash_len qhash_bytes). Qed.
Theorem toy_sha_laws : env_laws toy_sha.
Proof. exact (toyh_laws sha512_real sha512_real_len sha512_real_bytes). Qed.
