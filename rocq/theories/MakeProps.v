(** The targets of the Makefile. *)
From Verif Require Import Base Env Time SpecTime SubKey SecretKey Keys Sig IO Serdes Api Python Ffi Programs GenFs Scripts MakeTest
  SpecKey SpecUpdate SpecSer SpecPy SpecColl SpecProg SpecScripts SpecGen SpecMake ProgProps ScriptProps GenProps.
Local Open Scope N_scope.

Lemma bin_files_bins l : bin_files l = bins l.
Proof. induction l as [|[[n|n| |] b] l IH]; cbn; [reflexivity|f_equal; exact IH|exact IH..]. Qed.

(** * The C program *)
Lemma c_seq_out_ok {E} m (pp : pubparam E) : forall l sk cf, c_seq m pp sk l = Ok cf -> c_seq_out m pp sk l = (true, cf).
Proof.
  induction l as [|i l IH]; intros sk cf H; cbn [c_seq c_seq_out] in *; [injection H as <-; reflexivity|].
  destruct (c_sk_update m pp sk RNGSEED i) as [sk'| |]; try discriminate. cbn [bind] in *.
  destruct (c_sign_present m pp sk' MSG i) as [sig| |]; try discriminate. cbn [bind] in *.
  destruct (c_seq m pp sk' l) as [r| |] eqn:Hr; try discriminate. cbn [bind] in H. injection H as <-.
  rewrite (IH _ _ Hr). reflexivity.
Qed.
Lemma c_vector_out_ok {E} m (pp : pubparam E) cf : c_test_vector m pp = Ok cf -> c_vector_out m pp = (true, cf).
Proof.
  unfold c_test_vector, c_vector_out. destruct (c_keygen pp SEED) as [[[pk sk] pop]| |]; try discriminate. cbn [bind].
  destruct (c_sign_present m pp sk MSG 1) as [sig| |]; try discriminate. cbn [bind].
  destruct (assert_true _); try discriminate. cbn [bind].
  destruct (c_seq m pp sk (range 2 64)) as [r| |] eqn:Hr; try discriminate. cbn [bind]. intros H. injection H as <-.
  rewrite (c_seq_out_ok _ _ _ _ _ Hr). reflexivity.
Qed.

Lemma seq_ops_first : exists r, seq_ops = OpUpdate 2 RNGSEED :: r.
Proof. eexists. vm_compute. reflexivity. Qed.
Lemma breaks_first {E} m (pp : pubparam E) : breaks m pp [(SEED, [OpUpdate 2 RNGSEED])] -> breaks m pp [(SEED, seq_ops); (SEED, jump_ops)].
Proof.
  intros (k & l & o & l' & [Hi|[]] & Hb). destruct seq_ops_first as (r & Hs).
  injection Hi as <- Hl. destruct l as [|x [|y l]]; try discriminate. injection Hl as <- <-.
  exists SEED, [], (OpUpdate 2 RNGSEED), r. split; [left; rewrite Hs; reflexivity|exact Hb].
Qed.

(** Given the vectors of Rust, the C program makes its own and they agree. *)
Lemma c_makes {E} (L : env_laws E) (pp : pubparam E) files :
  pp_ok pp -> (pp_depth pp <= 32)%nat -> 2016 <= last_time (pp_depth pp) -> supported (pp_cs pp) -> pp_g2 pp = g2_one ->
  rs_main Debug pp = Ok files ->
  breaks Debug pp [(SEED, seq_ops); (SEED, jump_ops)]
  \/ exists cf, map fst cf = c_names /\ (forall f, In f cf -> In f files)
     /\ forall t, run_c pp t = (true, Tree (t_vec t) (t_py t) (t_pyparam t) (t_buf t ++ cf) true).
Proof.
  intros Hpp Hd Hlast Hcs Hone Hrs.
  destruct (c_test_outcome E L Debug pp Hpp Hd ltac:(lia) Hcs Hone) as [Ht|[_ Hb]]; [right|left; apply breaks_first, Hb].
  destruct (c_vectors_match E L Debug pp files Hpp Hd Hlast Hcs Hone Hrs) as (cf & Hcf & Hin & _).
  destruct (c_test_vector_outcome E L Debug pp Hpp Hd ltac:(lia) Hcs Hone) as [[Hx _]|(cf' & Hx & Hm)]; [congruence|].
  rewrite Hcf in Hx. injection Hx as <-. exists cf. split; [exact Hm|]. split; [exact Hin|].
  intros t. unfold run_c. rewrite Ht. cbn [is_ok]. rewrite (c_vector_out_ok _ _ _ Hcf). reflexivity.
Qed.

Lemma c_names_nodup : NoDup c_names.
Proof. apply nodupb_ok. vm_compute. reflexivity. Qed.
Lemma c_names_in i n : 1 <= i < 64 -> n = SigBin i \/ n = SkBin i -> In n c_names.
Proof.
  intros Hi Hn. apply in_flat_map. exists i. split; [|destruct Hn as [-> | ->]; cbn [In]; auto].
  unfold range. apply in_map_iff. exists (N.to_nat i). split; [lia|]. apply in_seq. lia.
Qed.

(** The program succeeds exactly if both of its functions do; if not, the files written
    are those of the time stamps before the first that fails. *)
Lemma c_seq_prefix {E} m (pp : pubparam E) : forall l1 l2 sk w, c_seq m pp sk (l1 ++ l2) = Ok w -> exists w1, c_seq m pp sk l1 = Ok w1.
Proof.
  induction l1 as [|i l1 IH]; intros l2 sk w H; [exists []; reflexivity|]. cbn [app c_seq] in *.
  destruct (c_sk_update m pp sk RNGSEED i) as [sk'| |]; try discriminate. cbn [bind] in *.
  destruct (c_sign_present m pp sk' MSG i) as [sig| |]; try discriminate. cbn [bind] in *.
  destruct (c_seq m pp sk' (l1 ++ l2)) as [r| |] eqn:Hr; try discriminate. destruct (IH _ _ _ Hr) as (w1 & ->). cbn [bind]. eauto.
Qed.
Lemma c_seq_out_any {E} m (pp : pubparam E) : forall l sk,
  match c_seq_out m pp sk l with
  | (true, w) => c_seq m pp sk l = Ok w
  | (false, w) => exists l1 i l2, l = l1 ++ i :: l2 /\ c_seq m pp sk l1 = Ok w /\ forall w', c_seq m pp sk (l1 ++ [i]) <> Ok w'
  end.
Proof.
  induction l as [|i l IH]; intros sk; cbn [c_seq c_seq_out]; [reflexivity|].
  destruct (c_sk_update m pp sk RNGSEED i) as [sk'| |] eqn:Hu; cbn [bind].
  2, 3: exists [], i, l; split; [reflexivity|]; split; [reflexivity|]; cbn [app c_seq]; rewrite Hu; discriminate.
  destruct (c_sign_present m pp sk' MSG i) as [sig| |] eqn:Hs; cbn [bind].
  2, 3: exists [], i, l; split; [reflexivity|]; split; [reflexivity|]; cbn [app c_seq]; rewrite Hu; cbn [bind]; rewrite Hs; discriminate.
  specialize (IH sk'). destruct (c_seq_out m pp sk' l) as [[|] w].
  - rewrite IH. reflexivity.
  - destruct IH as (l1 & x & l2 & -> & H1 & H2). exists (i :: l1), x, l2. split; [reflexivity|].
    cbn [app c_seq]. rewrite Hu. cbn [bind]. rewrite Hs. cbn [bind]. split; [rewrite H1; reflexivity|].
    intros w'. destruct (c_seq m pp sk' (l1 ++ [x])) as [r| |]; [|discriminate..]. exfalso. exact (H2 r eq_refl).
Qed.
Lemma range_split a b l1 i l2 : range a b = l1 ++ i :: l2 -> (a + length l1 < b)%nat /\ l1 = range a (a + length l1) /\ l1 ++ [i] = range a (S (a + length l1)).
Proof.
  unfold range. intros H.
  assert (Hl : (length l1 + S (length l2) = b - a)%nat).
  { apply (f_equal (@length N)) in H. rewrite map_length, seq_length, app_length in H. cbn [length] in H. lia. }
  assert (Hs : seq a (b - a) = seq a (length l1) ++ (a + length l1)%nat :: seq (S (a + length l1)) (length l2)).
  { rewrite <- Hl, seq_app. reflexivity. }
  rewrite Hs, map_app in H. cbn [map] in H.
  destruct (app_eq_app _ _ _ _ H) as (z & [[H1 H2]|[H1 H2]]).
  - assert (z = []) by (apply (f_equal (@length N)) in H1; rewrite map_length, seq_length, app_length in H1; destruct z; [reflexivity|cbn in H1; lia]). subst z.
    rewrite app_nil_r in H1. cbn [app] in H2. injection H2 as He _. subst i. split; [lia|].
    replace (a + length l1 - a)%nat with (length l1) by lia. replace (S (a + length l1) - a)%nat with (length l1 + 1)%nat by lia.
    rewrite seq_app, map_app, H1. split; reflexivity.
  - assert (z = []) by (apply (f_equal (@length N)) in H1; rewrite app_length, map_length, seq_length in H1; destruct z; [reflexivity|cbn in H1; lia]). subst z.
    rewrite app_nil_r in H1. cbn [app] in H2. injection H2 as He _. subst i. split; [lia|].
    replace (a + length l1 - a)%nat with (length l1) by lia. replace (S (a + length l1) - a)%nat with (length l1 + 1)%nat by lia.
    rewrite seq_app, map_app, <- H1. split; reflexivity.
Qed.
Lemma range_longer a k k' : (a <= k <= k')%nat -> exists r, range a k' = range a k ++ r.
Proof.
  intros H. exists (map N.of_nat (seq k (k' - k))). unfold range. rewrite <- map_app. f_equal.
  replace (k' - a)%nat with ((k - a) + (k' - k))%nat by lia. rewrite seq_app. f_equal. f_equal. lia.
Qed.
Lemma run_c_exactly : forall (E : env) (pp : pubparam E) t,
  exists r w, run_c pp t = (r, Tree (t_vec t) (t_py t) (t_pyparam t) (t_buf t ++ w) true)
  /\ (r = true <-> c_test Debug pp = Ok tt /\ c_test_vector Debug pp = Ok w)
  /\ (r = false -> c_test Debug pp <> Ok tt -> w = []) /\ (r = false -> c_test Debug pp = Ok tt -> c_stopped pp w).
Proof.
  intros E pp t. unfold run_c. destruct (c_test Debug pp) as [[]| |]; cbn [is_ok].
  2, 3: exists false, []; split; [reflexivity|]; split; [split; [discriminate|intros [? _]; discriminate]|]; split; [reflexivity|discriminate].
  unfold c_vector_out, c_test_vector, c_stopped, c_upto.
  destruct (c_keygen pp SEED) as [[[pk sk] pop]| |]; cbn [bind].
  2, 3: exists false, []; split; [reflexivity|]; split; [split; [discriminate|intros [_ ?]; discriminate]|]; split; [reflexivity|]; left; split; [reflexivity|discriminate].
  destruct (c_sign_present Debug pp sk MSG 1) as [sig| |]; cbn [bind].
  2, 3: exists false, []; split; [reflexivity|]; split; [split; [discriminate|intros [_ ?]; discriminate]|]; split; [reflexivity|]; left; split; [reflexivity|discriminate].
  destruct (assert_true _) as [[]| |]; cbn [bind].
  2, 3: exists false, []; split; [reflexivity|]; split; [split; [discriminate|intros [_ ?]; discriminate]|]; split; [reflexivity|]; left; split; [reflexivity|discriminate].
  pose proof (c_seq_out_any Debug pp (range 2 64) sk) as H. destruct (c_seq_out Debug pp sk (range 2 64)) as [[|] w].
  - exists true, ([(SigBin 1, sig); (SkBin 1, sk)] ++ w). split; [reflexivity|]. rewrite H. cbn [bind]. split; [tauto|]. split; discriminate.
  - destruct H as (l1 & i & l2 & Hl & H1 & H2). destruct (range_split _ _ _ _ _ Hl) as (Hlt & Hr1 & Hr2).
    set (k := (2 + length l1)%nat) in *.
    assert (Hno : forall k' w', (k < k')%nat -> c_seq Debug pp sk (range 2 k') <> Ok w').
    { intros k' w' Hk Hx. destruct (range_longer 2 (S k) k') as (r & Hr); [unfold k in *; lia|]. rewrite Hr, <- Hr2 in Hx.
      apply c_seq_prefix in Hx as (w1 & Hw). exact (H2 w1 Hw). }
    exists false, ([(SigBin 1, sig); (SkBin 1, sk)] ++ w). split; [reflexivity|]. split; [split; [discriminate|]|].
    { intros [_ Hx]. specialize (Hno 64%nat). destruct (c_seq Debug pp sk (range 2 64)) as [w'| |]; try discriminate. exfalso. exact (Hno w' Hlt eq_refl). }
    split; [congruence|]. intros _ _. right. exists k. split; [unfold k in *; lia|]. rewrite <- Hr1, H1. split; [reflexivity|].
    intros k' l Hk. specialize (Hno k'). destruct (c_seq Debug pp sk (range 2 k')) as [w'| |]; [|discriminate..]. exfalso. exact (Hno w' Hk eq_refl).
Qed.

(** * What was there before does not matter *)
Lemma newer (files fs : list file) : NoDup (map fst files) -> Forall (same_file (fs ++ files)) files.
Proof.
  intros Hn. apply Forall_forall. intros [n b] Hi. unfold same_file. cbn [fst snd]. rewrite read_app, (read_file_in files n b Hn Hi). reflexivity.
Qed.
Lemma forall_filter {A} (P : A -> Prop) f l : Forall P l -> Forall P (filter f l).
Proof. rewrite !Forall_forall. intros H x Hx. apply filter_In in Hx as [Hx _]. auto. Qed.

(** The comparison with what the C program has just written. *)
Lemma compare_new files cf vf (old : list file) : NoDup (map fst files) -> map fst cf = c_names -> (forall f, In f cf -> In f files) ->
  (compare_main vf (old ++ cf) = Some tt <-> forall i n, 1 <= i < 64 -> n = SigBin i \/ n = SkBin i -> read_file vf n = read_file files n).
Proof.
  intros Hn Hm Hin. rewrite compare_iff.
  assert (Hr : forall i n, 1 <= i < 64 -> n = SigBin i \/ n = SkBin i ->
    exists b, read_file files n = Some b /\ read_file (old ++ cf) n = Some b).
  { intros i n Hi Hni. pose proof (c_names_in i n Hi Hni) as Hc. rewrite <- Hm in Hc. apply in_map_iff in Hc as ([n' b] & He & Hc).
    cbn [fst] in He. subst n'. exists b. split; [apply read_file_in; auto|]. rewrite read_app, (read_file_in cf n b); [reflexivity| |exact Hc].
    rewrite Hm. apply c_names_nodup. }
  split; intros H i n Hi Hni; destruct (Hr i n Hi Hni) as (b & H1 & H2).
  - destruct (H i n Hi Hni) as (b' & H3 & H4). congruence.
  - exists b. split; [rewrite (H i n Hi Hni); exact H1|exact H2].
Qed.

Lemma and_then_true a b t t1 : a t = (true, t1) -> and_then a b t = b t1.
Proof. unfold and_then. intros ->. reflexivity. Qed.
Lemma and_then_false a b t t1 : a t = (false, t1) -> and_then a b t = (false, t1).
Proof. unfold and_then. intros ->. reflexivity. Qed.

(** * The targets one by one *)
Lemma python_alone : forall (E : env) (L : env_laws E) (pp : pubparam E) ppb files t,
  pp_ok pp -> py_params pp -> 2016 <= last_time (pp_depth pp) -> rs_main Debug pp = Ok files ->
  match make_python ppb pp t with
  | (r, t') => (r = true <-> t_py t <> None /\ Forall (same_file (vec_files t)) (filter makes_all files))
    /\ t_vec t' = t_vec t /\ t_buf t' = t_buf t /\ t_exe t' = t_exe t
    /\ (t_py t = None -> t' = t)
    /\ (forall out, t_py t = Some out -> t_pyparam t' = Some ppb
          /\ exists l1 l2, filter makes_all files = l1 ++ l2 /\ t_py t' = Some (out ++ l1) /\ (r = true -> l2 = []))
  end.
Proof.
  intros E L pp ppb files t Hpp Hp Hlast Hrs. unfold make_python.
  destruct (t_py t) as [out|] eqn:Hpy.
  2: { split; [split; [discriminate|tauto]|]. repeat split; auto; discriminate. }
  destruct (tv_script_outcome E L Debug pp files Hpp Hp Hlast Hrs (vec_files t) out) as (w & Hw & Ho).
  destruct (tv_script pp (vec_files t) out) as [r out']. cbn [fst snd] in Hw, Ho. subst out'. cbn [t_vec t_py t_pyparam t_buf t_exe].
  destruct Ho as [(-> & -> & Hf)|(-> & l1 & f & l2 & He & -> & Hf & Hnf)].
  - split; [split; [intros _; split; [discriminate|exact Hf]|reflexivity]|]. repeat (split; [reflexivity|]). split; [discriminate|].
    intros o Ho. injection Ho as <-. split; [reflexivity|]. exists (filter makes_all files), []. rewrite app_nil_r. auto.
  - split; [split; [discriminate|]|].
    { intros [_ Hx]. rewrite He in Hx. apply Forall_app in Hx as [_ Hx]. inversion Hx; contradiction. }
    repeat (split; [reflexivity|]). split; [discriminate|].
    intros o Ho. injection Ho as <-. split; [reflexivity|]. exists (l1 ++ [f]), l2. rewrite He, <- app_assoc. split; [reflexivity|]. split; [reflexivity|discriminate].
Qed.

Lemma c_alone : forall (E : env) (L : env_laws E) (pp : pubparam E) files t,
  pp_ok pp -> (pp_depth pp <= 32)%nat -> 2016 <= last_time (pp_depth pp) -> supported (pp_cs pp) -> pp_g2 pp = g2_one ->
  rs_main Debug pp = Ok files ->
  breaks Debug pp [(SEED, seq_ops); (SEED, jump_ops)]
  \/ exists r cf, make_c pp t = (r, Tree (t_vec t) (t_py t) (t_pyparam t) (t_buf t ++ cf) true)
     /\ map fst cf = c_names /\ (forall f, In f cf -> In f files)
     /\ (r = true <-> forall i n, 1 <= i < 64 -> n = SigBin i \/ n = SkBin i -> read_file (vec_files t) n = read_file files n).
Proof.
  intros E L pp files t Hpp Hd Hlast Hcs Hone Hrs.
  destruct (c_makes L pp files Hpp Hd Hlast Hcs Hone Hrs) as [Hb|(cf & Hm & Hin & Hrun)]; [left; exact Hb|right].
  unfold make_c. rewrite (and_then_true _ _ _ _ (Hrun t)). unfold compare_c.
  assert (Hn : NoDup (map fst files)) by (rewrite (rs_main_names L Debug pp files Hpp Hd Hlast Hrs); apply vector_names_nodup).
  pose proof (compare_new files cf (vec_files t) (t_buf t) Hn Hm Hin) as Hc.
  eexists _, cf. split; [reflexivity|]. split; [exact Hm|]. split; [exact Hin|].
  change (vec_files (Tree (t_vec t) (t_py t) (t_pyparam t) (t_buf t ++ cf) true)) with (vec_files t). cbn [t_buf].
  rewrite <- Hc. destruct (compare_main _ _) as [[]|]; split; congruence.
Qed.

(** * make test *)
Lemma no_vector_dir : forall (E : env) show ppb (pp : pubparam E) evs t, t_vec t = None -> make_test show ppb pp evs t = (false, t).
Proof. intros E show ppb pp evs t H. unfold make_test, and_then, make_rust. rewrite H. reflexivity. Qed.

Lemma no_python_dir : forall (E : env) show ppb (pp : pubparam E) evs t, t_py t = None ->
  fst (make_test show ppb pp evs t) = false /\ same_but_vec t (snd (make_test show ppb pp evs t)).
Proof.
  intros E show ppb pp evs t H. unfold make_test, and_then, make_rust, same_but_vec. destruct (t_vec t) as [fs|].
  - destruct (gen_main show ppb Debug pp (Disk fs evs)) as [r d]. destruct (is_ok r); [|cbn; auto].
    unfold make_python. cbn [t_py]. rewrite H. cbn. auto.
  - cbn. auto.
Qed.

Lemma test_outcome : forall (E : env) (L : env_laws E) (pp : pubparam E) show ppb evs t,
  pp_ok pp -> py_params pp -> 2016 <= last_time (pp_depth pp) -> pp_g2 pp = g2_one ->
  t_vec t <> None -> t_py t <> None ->
  breaks Debug pp [(SEED, seq_ops); (SEED, jump_ops)]
  \/ exists g pk pop t', map fst g = all_names /\ pk_validate pk pop = true /\ Forall (file_ok Debug pp pk pop) (bins g)
     /\ ((make_test show ppb pp evs t = (true, t') /\ all_written ppb g t t')
         \/ (~ no_failure evs /\ make_test show ppb pp evs t = (false, t') /\ same_but_vec t t'
             /\ exists fs left, t_vec t = Some fs /\ t_vec t' = Some (fs ++ left) /\ cut_short g left)).
Proof.
  intros E L pp show ppb evs t Hpp Hp Hlast Hone Hv Hy. pose proof (pyp_depth _ Hp) as Hd.
  assert (Hcs : supported (pp_cs pp)) by (left; apply (pyp_cs _ Hp)).
  destruct (t_vec t) as [fs|] eqn:Hvec; [clear Hv|congruence]. destruct (t_py t) as [out|] eqn:Hpy; [clear Hy|congruence].
  destruct (gen_main_outcome E L Debug pp show ppb fs evs Hpp Hd Hlast Hcs Hone) as [Hb|(g & pk & pop & Hn & Hval & Hok & Hg)]; [left; exact Hb|].
  assert (Hr : make_rust show ppb pp evs t = (let (r, d) := gen_main show ppb Debug pp (Disk fs evs) in
     (is_ok r, Tree (Some (dk_files d)) (t_py t) (t_pyparam t) (t_buf t) (t_exe t)))) by (unfold make_rust; rewrite Hvec; reflexivity).
  destruct (gen_main show ppb Debug pp (Disk fs evs)) as [r [fs' evs']] eqn:Hgen.
  destruct Hg as (left & -> & [[-> ->]|(Hnf & -> & Hcut)]); cbn [is_ok dk_files] in Hr.
  2: { right. exists g, pk, pop. eexists. split; [exact Hn|]. split; [exact Hval|]. split; [exact Hok|]. right.
       split; [exact Hnf|]. split; [exact (and_then_false _ _ _ _ Hr)|]. split; [repeat split|].
       exists fs, left. auto. }
  destruct (gen_success_accepted E L Debug pp show ppb fs evs _ Hpp Hp Hlast Hgen) as (files & Hrs & Hb & _).
  cbn [dk_files] in Hb. rewrite bins_app in Hb. apply app_inv_head in Hb.
  assert (Hnd : NoDup (map fst files)) by (rewrite (rs_main_names L Debug pp files Hpp Hd Hlast Hrs); apply vector_names_nodup).
  destruct (c_makes L pp files Hpp Hd Hlast Hcs Hone Hrs) as [Hbr|(cf & Hm & Hin & Hrun)]; [left; exact Hbr|right].
  set (t1 := Tree (Some (fs ++ g)) (t_py t) (t_pyparam t) (t_buf t) (t_exe t)) in *.
  assert (Hvf : vec_files t1 = bins fs ++ files) by (unfold vec_files, t1; cbn [t_vec]; rewrite bin_files_bins, bins_app, Hb; reflexivity).
  pose proof (newer files (bins fs) Hnd) as Hnew.
  assert (Hpyt : make_python ppb pp t1 = (true, Tree (t_vec t1) (Some (out ++ filter makes_all files)) (Some ppb) (t_buf t) (t_exe t))).
  { unfold make_python. unfold t1 at 1. cbn [t_py]. rewrite Hpy.
    destruct (tv_script_outcome E L Debug pp files Hpp Hp Hlast Hrs (vec_files t1) out) as (w & Hw & Ho).
    destruct (tv_script pp (vec_files t1) out) as [r o']. cbn [fst snd] in Hw, Ho. subst o'.
    destruct Ho as [(-> & -> & _)|(_ & l1 & f & l2 & He & _ & _ & Hbad)]; [reflexivity|].
    exfalso. apply Hbad. rewrite Hvf. pose proof (forall_filter _ makes_all _ Hnew) as Hx. rewrite He in Hx.
    apply Forall_app in Hx as [_ Hx]. inversion Hx; assumption. }
  set (t2 := Tree (t_vec t1) (Some (out ++ filter makes_all files)) (Some ppb) (t_buf t) (t_exe t)) in *.
  exists g, pk, pop, (Tree (t_vec t1) (Some (out ++ filter makes_all files)) (Some ppb) (t_buf t ++ cf) true).
  split; [exact Hn|]. split; [exact Hval|]. split; [exact Hok|]. left. split.
  - unfold make_test. rewrite (and_then_true _ _ _ _ Hr), (and_then_true _ _ _ _ Hpyt). unfold make_c. rewrite (and_then_true _ _ _ _ (Hrun t2)).
    unfold compare_c. unfold vec_files at 1. cbn [t_vec t_buf t2 t_py t_pyparam]. change (match t_vec t1 with Some f => bin_files f | None => [] end) with (vec_files t1).
    rewrite (proj2 (compare_new files cf (vec_files t1) (t_buf t) Hnd Hm Hin)); [reflexivity|].
    intros i n Hi Hni. rewrite Hvf, read_app. destruct (read_file files n) as [b|] eqn:Ef; [reflexivity|].
    pose proof (c_names_in i n Hi Hni) as Hc. rewrite <- Hm in Hc. apply in_map_iff in Hc as ([n' b] & He & Hc).
    cbn [fst] in He. subst n'. rewrite (read_file_in files n b Hnd (Hin _ Hc)) in Ef. discriminate.
  - unfold all_written. cbn [t_vec t_py t_pyparam t_buf t_exe t1]. rewrite Hb. split; [exists fs; auto|]. split; [exists out; auto|].
    split; [reflexivity|]. split; [|reflexivity]. exists cf. auto.
Qed.

(** * make clean *)
Lemma clean_iff : forall t, fst (make_clean t) = true <-> full t.
Proof.
  intros [[[|x l]|] [[|y k]|] [b|] [|z w] [|]]; unfold full, make_clean, and_then; cbn; split;
    try discriminate; try reflexivity;
    try (intros ((x0 & l0 & H) & (l1 & H1 & [H2|H2]) & H3 & H4); congruence).
  all: intros _; split; [eexists _, _; reflexivity|]; split; [eexists; split; [reflexivity|]; first [left; discriminate|right; discriminate]|]; split; [reflexivity|discriminate].
Qed.
Lemma clean_all : forall t, fst (make_clean t) = true -> snd (make_clean t) = Tree (Some []) (Some []) None [] false.
Proof. intros [[[|x l]|] [[|y k]|] [b|] [|z w] [|]]; unfold make_clean, and_then; cbn; congruence. Qed.
Lemma clean_twice : forall t, fst (make_clean (snd (make_clean t))) = false.
Proof. intros [[[|x l]|] [[|y k]|] [b|] [|z w] [|]]; unfold make_clean, and_then; cbn; reflexivity. Qed.
(** When clean fails, the files of the C program stay, the secret keys among them; without
    Python's files it always fails. *)
Lemma clean_keeps_c : forall t,
  (t_py t = None \/ (t_py t = Some [] /\ t_pyparam t = None) -> fst (make_clean t) = false)
  /\ (fst (make_clean t) = false -> t_buf (snd (make_clean t)) = t_buf t)
  /\ (t_vec t = None \/ t_vec t = Some [] -> make_clean t = (false, t)).
Proof.
  intros [[[|x l]|] [[|y k]|] [b|] [|z w] [|]]; (split; [|split]); cbn; try reflexivity; try discriminate;
    try (intros [H|[H H']]; congruence); try (intros [H|H]; congruence); auto.
Qed.

Lemma clean_after_test : forall ppb g t t', all_written ppb g t t' -> map fst g = all_names -> 
  make_clean t' = (true, Tree (Some []) (Some []) None [] false).
Proof.
  intros ppb g t t' ((fs & _ & Hv) & (out & _ & Hp) & Hpp & (cf & Hb & Hm & _) & He) Hn.
  assert (Hf : full t').
  { split; [rewrite Hv; destruct (fs ++ g) as [|x l] eqn:Ex; [|eauto]; apply app_eq_nil in Ex as [_ ->]; discriminate|].
    split; [exists (out ++ filter makes_all (bins g)); split; [exact Hp|right; rewrite Hpp; discriminate]|].
    split; [exact He|]. rewrite Hb. intros Hx. apply app_eq_nil in Hx as [_ ->]. discriminate. }
  rewrite (surjective_pairing (make_clean t')). rewrite (clean_all t' (proj2 (clean_iff t') Hf)), (proj2 (clean_iff t') Hf). reflexivity.
Qed.
