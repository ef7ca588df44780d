(** The hash calls of the signer in the game of SpecFwd.v: where they are, and on what the
    questions of the forger depend. *)
From Coq Require Import Permutation ListDec.
From Coq Require Import ZifyBool ZifyN ZifyNat.
From Verif Require Import Base Env Time SpecTime Prng SpecPrng PrngFacts SubKey SecretKey Keys Sig SpecKey SpecUpdate SpecAgg
  SpecRed SpecMulti SpecRom SpecPop SpecFwd SpecClean RedProps MultiProps RomProps CountProps PopProps PopCountProps FwdProps FwdCodeProps FwdGameProps FwdMainProps.
Local Open Scope N_scope.

(** * Places of calls *)
Definition key_of (b : bytes) : bytes := map (fun i => N.lxor (nth i b 0) (nth 127 b 0)) (seq 0 64).
Definition zpad (k : bytes) : bytes := map (fun i => nth i k 0) (seq 0 64).
Lemma padded_length p k : length (padded p k) = 128%nat.
Proof. unfold padded. rewrite map_length, seq_length. reflexivity. Qed.
Lemma padded_nth p k i : (i < 128)%nat -> nth i (padded p k) 0 = N.lxor (nth i k 0) p.
Proof.
  intros Hi. unfold padded. rewrite (nth_indep _ 0 ((fun i => N.lxor (nth i k 0) p) 0%nat)) by (rewrite map_length, seq_length; exact Hi).
  rewrite (map_nth (fun i => N.lxor (nth i k 0) p)), seq_nth by exact Hi. reflexivity.
Qed.
Lemma padded_tag p k r : (length k <= 64)%nat -> nth 127 (padded p k ++ r) 0 = p.
Proof.
  intros Hk. rewrite app_nth1 by (rewrite padded_length; lia). rewrite padded_nth by lia. rewrite nth_overflow by lia. apply N.lxor_0_l.
Qed.
Lemma padded_rest p k r : skipn 128 (padded p k ++ r) = r.
Proof. rewrite <- (padded_length p k) at 1. rewrite skipn_app, skipn_all, Nat.sub_diag. reflexivity. Qed.
Lemma key_of_padded p k r : (length k <= 64)%nat -> key_of (padded p k ++ r) = zpad k.
Proof.
  intros Hk. unfold key_of, zpad. rewrite (padded_tag p k r Hk). apply map_ext_in. intros i Hi. apply in_seq in Hi.
  rewrite app_nth1 by (rewrite padded_length; lia). rewrite padded_nth by lia. rewrite N.lxor_assoc, N.lxor_nilpotent, N.lxor_0_r. reflexivity.
Qed.
Lemma map_nth_seq (k : bytes) : map (fun i => nth i k 0) (seq 0 (length k)) = k.
Proof.
  induction k as [|a k IH]; [reflexivity|]. cbn [length seq map nth]. f_equal. rewrite <- seq_shift, map_map. exact IH.
Qed.
Lemma zpad_64 k : length k = 64%nat -> zpad k = k.
Proof. intros H. unfold zpad. rewrite <- H. apply map_nth_seq. Qed.
Lemma key_of_64 p k r : length k = 64%nat -> key_of (padded p k ++ r) = k.
Proof. intros H. rewrite key_of_padded by lia. apply zpad_64, H. Qed.
Lemma place_inj p k r p' k' r' : length k = 64%nat -> length k' = 64%nat -> padded p k ++ r = padded p' k' ++ r' -> p = p' /\ k = k' /\ r = r'.
Proof.
  intros H H' He. split; [|split].
  - rewrite <- (padded_tag p k r), <- (padded_tag p' k' r') by lia. rewrite He. reflexivity.
  - rewrite <- (key_of_64 p k r H), <- (key_of_64 p' k' r' H'), He. reflexivity.
  - rewrite <- (padded_rest p k r), <- (padded_rest p' k' r'), He. reflexivity.
Qed.
(** The places of a call. *)
Lemma calls_places key text u out : map fst (calls key text u out) = [padded 0x36 key ++ text; padded 0x5c key ++ u].
Proof. reflexivity. Qed.
Lemma place_key key text u out b : length key = 64%nat -> In b (map fst (calls key text u out)) -> key_of b = key.
Proof. intros H. rewrite calls_places. intros [<-|[<-|[]]]; apply key_of_64, H. Qed.
Lemma nodup_app {A} (l l' : list A) : NoDup l -> NoDup l' -> (forall a, In a l -> In a l' -> False) -> NoDup (l ++ l').
Proof.
  intros H H' Hd. induction H as [|a l Ha Hl IH]; [exact H'|]. cbn [app]. constructor.
  - rewrite in_app_iff. intros [Hi|Hi]; [exact (Ha Hi)|]. apply (Hd a); [left; reflexivity|exact Hi].
  - apply IH. intros a' H1 H2. apply (Hd a'); [right; exact H1|exact H2].
Qed.
Lemma nodup_calls key text u out : length key = 64%nat -> NoDup (map fst (calls key text u out)).
Proof.
  intros H. rewrite calls_places. constructor; [|constructor; [intros []|constructor]]. intros [He|[]]. apply place_inj in He as (Hp & _); auto. discriminate Hp.
Qed.
(** Two calls with one key. *)
Lemma two_calls key text u out text' u' out' : length key = 64%nat -> text <> text' -> u <> u' -> forall b,
  In b (map fst (calls key text u out)) -> In b (map fst (calls key text' u' out')) -> False.
Proof.
  intros H Ht Hu b. rewrite !calls_places. intros [<-|[<-|[]]] [He|[He|[]]]; apply place_inj in He as (Hp & _ & Hr); auto; try discriminate Hp; congruence.
Qed.
Lemma last_differs (a b : bytes) (x y : N) : x <> y -> a ++ [x] <> b ++ [y].
Proof. intros Hn He. apply app_inj_tail in He as [_ He]. exact (Hn He). Qed.

(** * The calls of one state of the prng after the other *)
Lemma draw_keys_calls r : forall ts g A ks us l g' A' ks' us' cl, draw_keys r ts g A ks us = Some (l, g', A', ks', us', cl) ->
  NoDup (g :: ks) -> NoDup us -> Forall (fun k => length k = 64%nat) (g :: ks) ->
  (exists mid, g :: ks = mid ++ g' :: ks' /\ forall b, In b (map fst cl) -> In (key_of b) mid)
  /\ (exists e, us = e ++ us') /\ NoDup (map fst cl).
Proof.
  induction ts as [|t ts IH]; intros g A ks us l g' A' ks' us' cl H Hk Hu Hl; cbn [draw_keys] in H.
  - injection H as _ <- _ <- <- <-. split; [exists []; split; [reflexivity|intros b []]|]. split; [exists []; reflexivity|constructor].
  - destruct A as [|b0 A]; [discriminate H|]. destruct ks as [|g1 ks]; [discriminate H|]. destruct us as [|u1 [|u2 us]]; try discriminate H.
    destruct (draw_keys r ts g1 A ks us) as [[[[[[l2 g2] A2] ks2] us2] cl2]|] eqn:Q; [|discriminate H].
    assert (Hc : cl = calls g (DOM_SEP_SK_UPDATE ++ [1]) u1 b0 ++ calls g (b0 ++ DOM_SEP_SK_UPDATE ++ [2]) u2 g1 ++ cl2 /\ g' = g2 /\ ks' = ks2 /\ us' = us2)
      by (apply some_pair in H as [H ->]; injection H as _ <- _ <- <-; auto).
    destruct Hc as (-> & -> & -> & ->). clear H.
    inversion Hk as [|? ? Hk1 Hk2]; subst. inversion Hu as [|? ? Hu1 Hu2]; subst. inversion Hu2 as [|? ? Hu3 Hu4]; subst. inversion Hl as [|? ? Hl1 Hl2]; subst.
    destruct (IH _ _ _ _ _ _ _ _ _ _ Q Hk2 Hu4 Hl2) as ((mid & Hm & Hb) & (e & He) & Hn).
    split; [|split].
    + exists (g :: mid). split; [cbn [app]; congruence|]. intros b. rewrite !map_app, !in_app_iff. intros [Hi|[Hi|Hi]].
      * left. symmetry. exact (place_key _ _ _ _ _ Hl1 Hi).
      * left. symmetry. exact (place_key _ _ _ _ _ Hl1 Hi).
      * right. exact (Hb b Hi).
    + exists (u1 :: u2 :: e). cbn [app]. congruence.
    + rewrite !map_app. apply nodup_app; [apply nodup_calls, Hl1| |].
      * apply nodup_app; [apply nodup_calls, Hl1|exact Hn|]. intros b Hi Hj. apply (place_key _ _ _ _ _ Hl1) in Hi. apply Hb in Hj. rewrite Hi in Hj.
        apply Hk1. rewrite Hm. apply in_or_app. left. exact Hj.
      * intros b Hi Hj. apply in_app_iff in Hj as [Hj|Hj].
        -- revert b Hi Hj. apply two_calls; [exact Hl1| |].
           ++ rewrite app_assoc. apply last_differs. discriminate.
           ++ intros ->. apply Hu1. left. reflexivity.
        -- apply (place_key _ _ _ _ _ Hl1) in Hi. apply Hb in Hj. rewrite Hi in Hj. apply Hk1. rewrite Hm. apply in_or_app. left. exact Hj.
Qed.

(** What is kept: [C] are the places of the calls made so far. *)
Record kept {E} (w : world E) (C : list bytes) : Prop := {
  kp_nodup : NoDup C;
  kp_old : forall b, In b C -> ~ In (key_of b) (w_ks w);
  kp_own : forall b, In b C -> key_of b = w_g w -> In b (map fst (w_own w));
  kp_text : forall b, In b (map fst (w_own w)) ->
    (exists msg s, lookup (w_cache w) msg = Some s /\ b = padded 0x36 (w_g w) ++ sign_info msg (w_time w) ++ [1])
    \/ (exists u, ~ In u (w_us w) /\ b = padded 0x5c (w_g w) ++ u);
  kp_keys : NoDup (w_g w :: w_ks w);
  kp_us : NoDup (w_us w);
  kp_64 : Forall (fun k => length k = 64%nat) (w_g w :: w_ks w) }.

Lemma sign_info_not_update (msg : bytes) t (s : N) x : DOM_SEP_SK_RERANDOMIZE_INFO ++ time_bytes s ++ x <> sign_info msg t ++ [1].
Proof.
  unfold sign_info. intros He. apply (f_equal (fun l => nth 6 l 0)) in He. rewrite <- !app_assoc in He. cbn in He. discriminate He.
Qed.
Lemma nodup_tail {A} (e l : list A) : NoDup (e ++ l) -> NoDup l.
Proof. induction e as [|a e IH]; cbn [app]; [auto|]. intros H. inversion H; auto. Qed.

Section Kept.
Context {E : env} (pp : pubparam E) (x tb : N) (hs : list bytes) (pts : list (G1 E)).
Notation d := (pp_depth pp).

(** The world at the break-in or at the end, and how the forger goes on. *)
Fixpoint stop (w : world E) (f : aforger E) : option (world E * (seckey E -> pforger E)) :=
  match f with
  | AForge msg s l => if tb =? 0 then Some (w, fun _ => PForge msg s l) else None
  | ABreak k => if negb (tb =? 0) && (w_time w =? tb) then Some (w, k) else None
  | AUpdate t seed k =>
    if (w_time w <? t) && (t <=? last_time d) then
      if (tb =? 0) || (t <=? tb) then
        match s_update pp w t seed with
        | None => None
        | Some (w', cl) => stop w' (k (Ok tt))
        end
      else None
    else stop w (k (Err E_TIME_STAMP))
  | ASign t msg k =>
    if negb (w_time w =? t) then stop w (k (Err E_TIME_STAMP))
    else match lookup (w_cache w) msg with
         | Some s => stop w (k (Ok s))
         | None =>
           let b := hash_input (pp_cs pp) msg in
           match nth_error hs (position (w_tbl w) b), w_us w, (if t =? tb then w_B w else w_A w) with
           | Some h, u :: us, blk :: rest =>
             let r := (snd (hd (0, 0) (w_rho w)) + scalar_of blk) mod fr_modulus in
             let s := honest_sig pp x t (path_of d t) (scalar_of h) r in
             let cl := calls (w_g w) (sign_info msg t ++ [1]) u blk in
             stop (World t (w_rho w) (w_g w) ((msg, s) :: w_cache w)
                     (if t =? tb then w_A w else rest) (if t =? tb then rest else w_B w)
                     (w_ks w) us (w_trash w) (enter (w_tbl w) b) (w_ptbl w) (cl ++ w_own w)) (k (Ok s))
           | _, _, _ => None
           end
         end
  | AAskHash b k =>
    match nth_error hs (position (w_tbl w) b) with
    | None => None
    | Some h => stop (set_tbl w (enter (w_tbl w) b)) (k h)
    end
  | AAskPoint msg cs k =>
    let b := point_input msg cs in
    match nth_error pts (position (w_ptbl w) b) with
    | None => None
    | Some p => stop (set_ptbl w (enter (w_ptbl w) b)) (k p)
    end
  end.
Definition the_key (w : world E) : seckey E := SecKey (pp_cs pp) (w_time w) (s_ssks pp x (w_rho w)) (w_g w).

Lemma update_kept w t seed w' cl C : s_update pp w t seed = Some (w', cl) -> kept w C ->
  kept w' (C ++ map fst cl) /\ (exists mid, w_g w :: w_ks w = mid ++ w_g w' :: w_ks w' /\ forall b, In b (map fst cl) -> In (key_of b) mid).
Proof.
  intros H [K1 K2 K3 K4 K5 K6 K7]. unfold s_update in H.
  destruct (w_ks w) as [|k2 [|g0 ks]] eqn:Qk; [discriminate|discriminate|]. destruct (w_us w) as [|u1 [|v [|u2 [|u3 us]]]] eqn:Qu; try discriminate.
  set (info := DOM_SEP_SK_RERANDOMIZE_INFO ++ time_bytes (w_time w)) in *.
  set (cl1 := calls (w_g w) (info ++ [1]) u1 v) in *. set (cl2 := calls (w_g w) (v ++ info ++ [2]) u2 k2) in *. set (cl3 := calls k2 (v ++ seed) u3 g0) in *.
  inversion K7 as [|? ? Lg K7']; subst. inversion K7' as [|? ? Lk2 K7'']; subst.
  inversion K5 as [|? ? Ng K5']; subst. inversion K5' as [|? ? Nk2 K5'']; subst.
  assert (Nu : NoDup us) by exact (nodup_tail [u1; v; u2; u3] us K6).
  assert (Hcl : exists l g' A' ks' us' cl', cl = (cl1 ++ cl2 ++ cl3) ++ cl' /\ w_g w' = g' /\ w_ks w' = ks' /\ w_us w' = us' /\ w_own w' = [] /\ w_cache w' = []
            /\ ((l = [] /\ g' = g0 /\ A' = w_A w /\ ks' = ks /\ us' = us /\ cl' = []) \/ exists ts r, draw_keys r ts g0 (w_A w) ks us = Some (l, g', A', ks', us', cl'))).
  { destruct (made d (w_time w) t) as [|t0 ts].
    - apply some_pair in H as [-> ->]. exists [], g0, (w_A w), ks, us, []. rewrite app_nil_r. cbn [w_g w_ks w_us w_own w_cache]. split; [reflexivity|]. split; [reflexivity|]. split; [reflexivity|]. split; [reflexivity|]. split; [reflexivity|]. split; [reflexivity|]. left. auto 10.
    - destruct (draw_keys _ ts g0 (w_A w) ks us) as [[[[[[l g'] A'] ks'] us'] cl']|] eqn:Q; [|discriminate H]. apply some_pair in H as [-> ->].
      exists l, g', A', ks', us', cl'. cbn [w_g w_ks w_us w_own w_cache]. split; [reflexivity|]. split; [reflexivity|]. split; [reflexivity|]. split; [reflexivity|]. split; [reflexivity|]. split; [reflexivity|]. right. eauto. }
  clear H. destruct Hcl as (l & g' & A' & ks' & us' & cl' & -> & Eg & Ek & Eu & Eo & Ec & Hd).
  assert (Hd' : (exists mid, g0 :: ks = mid ++ g' :: ks' /\ forall b, In b (map fst cl') -> In (key_of b) mid) /\ (exists e, us = e ++ us') /\ NoDup (map fst cl')).
  { destruct Hd as [(-> & -> & -> & -> & -> & ->)|(ts & r & Hd)]; [split; [exists []; split; [reflexivity|intros b []]|]; split; [exists []; reflexivity|constructor]|].
    exact (draw_keys_calls _ _ _ _ _ _ _ _ _ _ _ _ Hd K5'' Nu K7''). }
  clear Hd. destruct Hd' as ((mid & Hm & Hb) & (e & He) & Hn).
  assert (Hmid : forall b, In b (map fst ((cl1 ++ cl2 ++ cl3) ++ cl')) -> In (key_of b) (w_g w :: k2 :: mid)).
  { intros b. rewrite !map_app, !in_app_iff. intros [[Hi|[Hi|Hi]]|Hi].
    - left. symmetry. exact (place_key _ _ _ _ _ Lg Hi).
    - left. symmetry. exact (place_key _ _ _ _ _ Lg Hi).
    - right. left. symmetry. exact (place_key _ _ _ _ _ Lk2 Hi).
    - right. right. exact (Hb b Hi). }
  assert (Hsplit : w_g w :: k2 :: g0 :: ks = (w_g w :: k2 :: mid) ++ g' :: ks') by (cbn [app]; congruence).
  assert (Hall : NoDup ((w_g w :: k2 :: mid) ++ g' :: ks')) by (rewrite <- Hsplit; exact K5).
  assert (Hsep : forall k, In k (w_g w :: k2 :: mid) -> ~ In k (g' :: ks')).
  { intros k H1 H2. clear - Hall H1 H2. revert Hall H1. generalize (w_g w :: k2 :: mid). intros l0 Hall H1. induction l0 as [|a l0 IH]; [destruct H1|]. inversion Hall as [|? ? Ha Hl]; subst.
    destruct H1 as [->|H1]; [apply Ha, in_or_app; right; exact H2|exact (IH Hl H1)]. }
  (* places in C with one of the keys used now *)
  assert (HC : forall b, In b C -> ~ In (key_of b) (k2 :: mid)).
  { intros b Hi Hj. apply (K2 b Hi). destruct Hj as [Hj|Hj]; [left; exact Hj|]. right. rewrite Hm. apply in_or_app. left. exact Hj. }
  assert (Hg : forall b, In b C -> In b (map fst (cl1 ++ cl2)) -> False).
  { intros b Hi Hj. rewrite map_app, in_app_iff in Hj.
    assert (Hkb : key_of b = w_g w) by (destruct Hj as [Hj|Hj]; exact (place_key _ _ _ _ _ Lg Hj)).
    destruct (K4 b (K3 b Hi Hkb)) as [(msg & s & _ & ->)|(u & Hu & ->)].
    - destruct Hj as [[Hj|[Hj|[]]]|[Hj|[Hj|[]]]]; cbn [fst] in Hj; apply place_inj in Hj as (Hp & _ & Hr); auto; try discriminate Hp.
      + unfold info in Hr. rewrite <- app_assoc in Hr. exact (sign_info_not_update _ _ _ _ Hr).
      + rewrite app_assoc in Hr. revert Hr. apply last_differs. discriminate.
    - destruct Hj as [[Hj|[Hj|[]]]|[Hj|[Hj|[]]]]; cbn [fst] in Hj; apply place_inj in Hj as (Hp & _ & Hr); auto; try discriminate Hp.
      + apply Hu. left. exact Hr.
      + apply Hu. right. right. left. exact Hr. }
  assert (Hnew : NoDup (map fst ((cl1 ++ cl2 ++ cl3) ++ cl'))).
  { rewrite !map_app. apply nodup_app; [|exact Hn|].
    - apply nodup_app; [apply nodup_calls, Lg| |].
      + apply nodup_app; [apply nodup_calls, Lg|apply nodup_calls, Lk2|]. intros b Hi Hj. apply (place_key _ _ _ _ _ Lg) in Hi. apply (place_key _ _ _ _ _ Lk2) in Hj. apply Ng. left. congruence.
      + intros b Hi Hj. apply in_app_iff in Hj as [Hj|Hj].
        * revert b Hi Hj. apply two_calls; [exact Lg| |].
          -- rewrite app_assoc. apply last_differs. discriminate.
          -- intros ->. inversion K6 as [|? ? Hx _]; subst. apply Hx. right. left. reflexivity.
        * apply (place_key _ _ _ _ _ Lg) in Hi. apply (place_key _ _ _ _ _ Lk2) in Hj. apply Ng. left. congruence.
    - intros b Hi Hj. apply Hb in Hj. assert (Hg0 : In (key_of b) (w_g w :: [k2])).
      { rewrite !in_app_iff in Hi. destruct Hi as [Hi|[Hi|Hi]]; [left|left|right; left]; symmetry; [exact (place_key _ _ _ _ _ Lg Hi)|exact (place_key _ _ _ _ _ Lg Hi)|exact (place_key _ _ _ _ _ Lk2 Hi)]. }
      assert (Hj2 : In (key_of b) (g0 :: ks)) by (rewrite Hm; apply in_or_app; left; exact Hj).
      destruct Hg0 as [Hg0|[Hg0|[]]]; rewrite <- Hg0 in Hj2; [apply Ng; right; exact Hj2|exact (Nk2 Hj2)]. }
  split.
  - constructor.
    + apply nodup_app; [exact K1|exact Hnew|]. intros b Hi Hj. pose proof (Hmid b Hj) as Hk. destruct Hk as [Hk|Hk]; [|exact (HC b Hi Hk)].
      rewrite app_assoc, <- app_assoc, map_app, in_app_iff in Hj. destruct Hj as [Hj|Hj]; [exact (Hg b Hi Hj)|].
      rewrite map_app, in_app_iff in Hj. destruct Hj as [Hj|Hj].
      * apply (place_key _ _ _ _ _ Lk2) in Hj. apply Ng. left. congruence.
      * apply Hb in Hj. apply Ng. right. rewrite Hm. rewrite Hk. apply in_or_app. left. exact Hj.
    + intros b Hi Hj. rewrite Ek in Hj. apply in_app_iff in Hi as [Hi|Hi].
      * apply (K2 b Hi). right. rewrite Hm. apply in_or_app. right. right. exact Hj.
      * apply (Hsep _ (Hmid b Hi)). right. exact Hj.
    + intros b Hi Hj. exfalso. rewrite Eg in Hj. apply in_app_iff in Hi as [Hi|Hi].
      * apply (K2 b Hi). right. rewrite Hm. apply in_or_app. right. left. symmetry. exact Hj.
      * apply (Hsep _ (Hmid b Hi)). left. symmetry. exact Hj.
    + rewrite Eo. intros b [].
    + rewrite Eg, Ek. exact (nodup_tail _ _ Hall).
    + rewrite Eu. apply (nodup_tail e). rewrite <- He. exact Nu.
    + rewrite Eg, Ek. rewrite Hsplit in K7. apply Forall_app in K7. exact (proj2 K7).
  - exists (w_g w :: k2 :: mid). split; [rewrite Eg, Ek; exact Hsplit|exact Hmid].
Qed.

Lemma sign_info_inj msg msg' t : sign_info msg t ++ [1] = sign_info msg' t ++ [1] -> msg = msg'.
Proof.
  unfold sign_info. intros He. apply app_inj_tail in He as [He _]. apply app_inv_head in He. apply app_inv_tail in He. exact He.
Qed.
Lemma sign_kept (w : world E) msg s u us blk A B tbl C : kept w C -> w_us w = u :: us -> lookup (w_cache w) msg = None ->
  kept (World (w_time w) (w_rho w) (w_g w) ((msg, s) :: w_cache w) A B (w_ks w) us (w_trash w) tbl (w_ptbl w)
          (calls (w_g w) (sign_info msg (w_time w) ++ [1]) u blk ++ w_own w))
    (C ++ map fst (calls (w_g w) (sign_info msg (w_time w) ++ [1]) u blk)).
Proof.
  intros [K1 K2 K3 K4 K5 K6 K7] Hu Hc. rewrite Hu in *. inversion K7 as [|? ? Lg _]; subst. inversion K5 as [|? ? Ng _]; subst. inversion K6 as [|? ? Nu _]; subst.
  constructor; cbn [w_g w_ks w_us w_own w_cache w_time].
  - apply nodup_app; [exact K1|apply nodup_calls, Lg|]. intros b Hi Hj. pose proof (place_key _ _ _ _ _ Lg Hj) as Hk.
    destruct (K4 b (K3 b Hi Hk)) as [(msg' & s' & Hl & ->)|(u' & Hu' & ->)].
    + destruct Hj as [Hj|[Hj|[]]]; cbn [fst] in Hj; apply place_inj in Hj as (Hp & _ & Hr); auto; try discriminate Hp. apply sign_info_inj in Hr. congruence.
    + destruct Hj as [Hj|[Hj|[]]]; cbn [fst] in Hj; apply place_inj in Hj as (Hp & _ & Hr); auto; try discriminate Hp. apply Hu'. left. exact Hr.
  - intros b Hi. apply in_app_iff in Hi as [Hi|Hi]; [exact (K2 b Hi)|]. rewrite (place_key _ _ _ _ _ Lg Hi). exact Ng.
  - intros b Hi Hk. rewrite map_app, in_app_iff. apply in_app_iff in Hi as [Hi|Hi]; [right; exact (K3 b Hi Hk)|left; exact Hi].
  - intros b Hi. rewrite map_app, in_app_iff in Hi. destruct Hi as [[<-|[<-|[]]]|Hi].
    + left. exists msg, s. rewrite lookup_cons. replace (bytes_eqb msg msg) with true by (symmetry; apply bytes_eqb_eq; reflexivity). split; reflexivity.
    + right. exists u. split; [exact Nu|reflexivity].
    + destruct (K4 b Hi) as [(msg' & s' & Hl & ->)|(u' & Hu' & ->)].
      * left. destruct (bytes_eqb msg msg') eqn:Q; [apply bytes_eqb_eq in Q; congruence|]. exists msg', s'. rewrite lookup_cons, Q. auto.
      * right. exists u'. split; [|reflexivity]. intros H. apply Hu'. right. exact H.
  - exact K5.
  - inversion K6; assumption.
  - exact K7.
Qed.
Lemma kept_tbl (w : world E) C tbl : kept w C -> kept (set_tbl w tbl) C.
Proof. intros [K1 K2 K3 K4 K5 K6 K7]. constructor; assumption. Qed.
Lemma kept_ptbl (w : world E) C tbl : kept w C -> kept (set_ptbl w tbl) C.
Proof. intros [K1 K2 K3 K4 K5 K6 K7]. constructor; assumption. Qed.
Lemma enter_le {V} (l : list V) tbl b v : nth_error l (position tbl b) = Some v -> (length tbl <= length l)%nat -> (length (enter tbl b) <= length l)%nat.
Proof.
  intros Hn Hl. assert (Hp : (position tbl b < length l)%nat) by (apply nth_error_Some; congruence). unfold enter. destruct (_ <? _)%nat eqn:Q; [exact Hl|].
  rewrite app_length. cbn [length]. pose proof (position_le tbl b). lia.
Qed.

Lemma run_kept : forall f w o C, kept w C -> s_run pp x tb hs pts w f = Some o -> (length (w_tbl w) <= length hs)%nat ->
  exists w1 k o1, stop w f = Some (w1, k) /\ s_tail pp hs pts w1 (k (the_key w1)) = Some o1 /\ o_tbl o = o_tbl o1
    /\ kept w1 (C ++ map fst (o_calls o)) /\ (length (w_tbl w1) <= length hs)%nat
    /\ exists mid, w_g w :: w_ks w = mid ++ w_g w1 :: w_ks w1 /\ forall b, In b (map fst (o_calls o)) -> In (key_of b) (mid ++ [w_g w1]).
Proof.
  induction f as [msg s l|k|t seed k IH|t msg k IH|b k IH|msg cs k IH]; intros w o C HC H Ht; cbn [s_run] in H; cbn [stop].
  - destruct (tb =? 0); [|discriminate H]. apply add_some in H as (o' & H & ->). exists w, (fun _ => PForge msg s l), o'. cbn [o_tbl o_calls].
    split; [reflexivity|]. split; [exact H|]. split; [reflexivity|]. apply s_end_some in H as (_ & _ & ->). cbn [o_calls app map]. rewrite app_nil_r.
    split; [exact HC|]. split; [exact Ht|]. exists []. split; [reflexivity|intros b []].
  - destruct (negb _ && _); [|discriminate H]. apply add_some in H as (o' & H & ->). exists w, k, o'. cbn [o_tbl o_calls].
    split; [reflexivity|]. split; [exact H|]. split; [reflexivity|]. apply s_tail_grows in H as (_ & _ & -> & _). cbn [app map]. rewrite app_nil_r.
    split; [exact HC|]. split; [exact Ht|]. exists []. split; [reflexivity|intros b []].
  - destruct (_ && _); [|exact (IH _ _ _ _ HC H Ht)]. destruct (_ || _); [|discriminate H].
    destruct (s_update pp w t seed) as [[w' cl]|] eqn:Q; [|discriminate H]. apply add_some in H as (o' & H & ->).
    destruct (update_kept _ _ _ _ _ _ Q HC) as (HC' & mid & Hm & Hb).
    assert (Ht' : (length (w_tbl w') <= length hs)%nat) by (rewrite (proj1 (s_update_tables pp w t seed w' cl Q)); exact Ht).
    destruct (IH _ w' o' _ HC' H Ht') as (w1 & k1 & o1 & H1 & H2 & H3 & H4 & H5 & mid' & Hm' & Hb').
    exists w1, k1, o1. cbn [o_tbl o_calls]. rewrite map_app, app_assoc. split; [exact H1|]. split; [exact H2|]. split; [exact H3|]. split; [exact H4|]. split; [exact H5|].
    exists (mid ++ mid'). split; [rewrite Hm, Hm', app_assoc; reflexivity|]. intros b Hi. rewrite <- app_assoc. apply in_or_app. apply in_app_iff in Hi as [Hi|Hi]; [left; exact (Hb b Hi)|right; exact (Hb' b Hi)].
  - destruct (negb (w_time w =? t)) eqn:Qt; [exact (IH _ _ _ _ HC H Ht)|]. apply Bool.negb_false_iff, N.eqb_eq in Qt. subst t.
    destruct (lookup (w_cache w) msg) as [s|] eqn:Ql.
    + apply add_some in H as (o' & H & ->). destruct (IH _ _ _ _ HC H Ht) as (w1 & k1 & o1 & H1 & H2 & H3 & H4 & H5 & H6). exists w1, k1, o1. cbn [o_tbl o_calls app]. auto 10.
    + cbv zeta in H |- *. destruct (nth_error hs _) as [h|] eqn:Qh; [|discriminate H]. destruct (w_us w) as [|u us] eqn:Qu; [discriminate H|].
      destruct (if w_time w =? tb then w_B w else w_A w) as [|blk rest]; [discriminate H|]. apply add_some in H as (o' & H & ->).
      match type of H with s_run _ _ _ _ _ ?w0 _ = _ => set (w' := w0) in * end.
      pose proof (sign_kept w msg (honest_sig pp x (w_time w) (path_of d (w_time w)) (scalar_of h) ((snd (hd (0, 0) (w_rho w)) + scalar_of blk) mod fr_modulus)) u us blk
                    (if w_time w =? tb then w_A w else rest) (if w_time w =? tb then rest else w_B w) (enter (w_tbl w) (hash_input (pp_cs pp) msg)) C HC Qu Ql) as HC'.
      destruct (IH _ w' o' _ HC' H (enter_le _ _ _ _ Qh Ht)) as (w1 & k1 & o1 & H1 & H2 & H3 & H4 & H5 & mid' & Hm' & Hb').
      exists w1, k1, o1. cbn [o_tbl o_calls]. rewrite map_app, app_assoc. split; [exact H1|]. split; [exact H2|]. split; [exact H3|]. split; [exact H4|]. split; [exact H5|].
      exists mid'. split; [exact Hm'|]. intros b Hi. apply in_app_iff in Hi as [Hi|Hi]; [|exact (Hb' b Hi)].
      pose proof (kp_64 _ _ HC) as K7. inversion K7 as [|? ? Lg _]; subst. rewrite (place_key _ _ _ _ _ Lg Hi).
      change (w_g w' :: w_ks w') with (w_g w :: w_ks w) in Hm'. destruct mid' as [|a mid']; cbn [app] in Hm' |- *; injection Hm' as Hm' _; left; symmetry; exact Hm'.
  - destruct (nth_error hs _) as [h|] eqn:Qh; [|discriminate H]. destruct (IH _ (set_tbl w (enter (w_tbl w) b)) o C (kept_tbl _ _ _ HC) H (enter_le _ _ _ _ Qh Ht)) as (w1 & k1 & o1 & H1). exists w1, k1, o1. exact H1.
  - cbv zeta in H |- *. destruct (nth_error pts _) as [p|] eqn:Qp; [|discriminate H]. destruct (IH _ (set_ptbl w (enter (w_ptbl w) (point_input msg cs))) o C (kept_ptbl _ _ _ HC) H Ht) as (w1 & k1 & o1 & H1). exists w1, k1, o1. exact H1.
Qed.

(** * After the break-in *)
Lemma tail_asked : forall f w o, s_tail pp hs pts w f = Some o -> (length (w_tbl w) <= length hs)%nat ->
  (length (o_tbl o) <= length hs)%nat
  /\ forall b, In b (o_tbl o) -> In b (w_tbl w) \/ lookup (w_own w) b = None \/ exists msg, b = hash_input (pp_cs pp) msg.
Proof.
  assert (Hin : forall tbl b b', In b (enter tbl b') -> In b tbl \/ b = b').
  { intros tbl b b'. unfold enter. destruct (_ <? _)%nat; [auto|]. rewrite in_app_iff. intros [H|[H|[]]]; auto. }
  induction f as [msg s l|t k IH|t msg k IH|b k IH|msg cs k IH]; intros w o H Ht; cbn [s_tail] in H; try discriminate H.
  - apply s_end_some in H as ((h & Hh) & _ & ->). cbn [o_tbl]. split; [exact (enter_le _ _ _ _ Hh Ht)|]. intros b Hb. apply Hin in Hb as [Hb| ->]; eauto.
  - destruct (lookup (w_own w) b) as [v|] eqn:Ql; [exact (IH _ _ _ H Ht)|]. destruct (nth_error hs _) as [h|] eqn:Qh; [|discriminate H].
    destruct (IH _ (set_tbl w (enter (w_tbl w) b)) o H (enter_le _ _ _ _ Qh Ht)) as [H1 H2]. split; [exact H1|]. intros b' Hb. destruct (H2 b' Hb) as [Hi|Hi]; [|right; exact Hi].
    apply Hin in Hi as [Hi| ->]; auto.
  - cbv zeta in H. destruct (nth_error pts _) as [p|]; [|discriminate H]. exact (IH _ (set_ptbl w _) o H Ht).
Qed.
Lemma tail_same : forall f w w', w_own w = w_own w' -> w_tbl w = w_tbl w' -> w_ptbl w = w_ptbl w' -> s_tail pp hs pts w f = s_tail pp hs pts w' f.
Proof.
  induction f as [msg s l|t k IH|t msg k IH|b k IH|msg cs k IH]; intros w w' H1 H2 H3; cbn [s_tail]; try reflexivity.
  - unfold s_end. rewrite H2, H3. reflexivity.
  - rewrite H1, H2. destruct (lookup _ b); [apply IH; assumption|]. destruct (nth_error hs _); [|reflexivity]. apply IH; [assumption| |assumption]. cbn [set_tbl w_tbl]. reflexivity.
  - cbv zeta. rewrite H3. destruct (nth_error pts _); [|reflexivity]. apply IH; [assumption|assumption|]. cbn [set_ptbl w_ptbl]. reflexivity.
Qed.

(** * Two runs with different states of the prng *)
Definition calls_of (g : bytes) (s : list (bytes * bytes * bytes)) : list (bytes * bytes) := flat_map (fun c => let '(text, u, v) := c in calls g text u v) s.
Record alike (w w' : world E) : Prop := {
  al_time : w_time w = w_time w'; al_rho : w_rho w = w_rho w'; al_cache : w_cache w = w_cache w';
  al_A : w_A w = w_A w'; al_B : w_B w = w_B w'; al_us : w_us w = w_us w'; al_trash : w_trash w = w_trash w';
  al_tbl : w_tbl w = w_tbl w'; al_ptbl : w_ptbl w = w_ptbl w';
  al_ks : length (w_ks w) = length (w_ks w');
  al_own : exists s, w_own w = calls_of (w_g w) s /\ w_own w' = calls_of (w_g w') s }.
Lemma draw_keys_alike r : forall ts g g1 A ks ks1 us, length ks = length ks1 ->
  match draw_keys r ts g A ks us, draw_keys r ts g1 A ks1 us with
  | Some (l, _, A', ks', us', _), Some (l1, _, A1', ks1', us1', _) => l = l1 /\ A' = A1' /\ us' = us1' /\ length ks' = length ks1'
  | None, None => True
  | _, _ => False
  end.
Proof.
  induction ts as [|t ts IH]; intros g g1 A ks ks1 us Hl; cbn [draw_keys]; [auto|].
  destruct A as [|b A]; [exact I|]. destruct ks as [|k ks], ks1 as [|k1 ks1]; try discriminate Hl; [exact I|]. destruct us as [|u1 [|u2 us]]; try exact I. injection Hl as Hl.
  specialize (IH k k1 A ks ks1 us Hl). destruct (draw_keys r ts k A ks us) as [[[[[[l g'] A'] ks'] us'] cl']|], (draw_keys r ts k1 A ks1 us) as [[[[[[l1 g1'] A1'] ks1'] us1'] cl1']|]; try exact IH.
  destruct IH as (-> & H2 & H3 & H4). auto.
Qed.
Lemma update_alike w w' t seed : alike w w' ->
  match s_update pp w t seed, s_update pp w' t seed with
  | Some (w1, _), Some (w1', _) => alike w1 w1'
  | None, None => True
  | _, _ => False
  end.
Proof.
  intros [A1 A2 A3 A4 A5 A6 A7 A8 A9 A10 A11]. unfold s_update. rewrite <- A1, <- A2, <- A6.
  destruct (w_ks w) as [|k2 [|g0 ks]], (w_ks w') as [|k2' [|g0' ks']]; try discriminate A10; try exact I. injection A10 as A10.
  destruct (w_us w) as [|u1 [|v [|u2 [|u3 us]]]]; try exact I. destruct (made d (w_time w) t) as [|t0 ts].
  - constructor; cbn; try assumption; try reflexivity; [rewrite A7; reflexivity|]. exists []. auto.
  - rewrite <- A4. pose proof (draw_keys_alike (snd (last (filter (fun p => fst p <=? t) (w_rho w)) (0, 0))) ts g0 g0' (w_A w) ks ks' us A10) as Hd.
    destruct (draw_keys _ ts g0 (w_A w) ks us) as [[[[[[l g'] A'] ks1] us1] cl1]|], (draw_keys _ ts g0' (w_A w) ks' us) as [[[[[[l' g''] A''] ks1'] us1'] cl1']|]; try exact Hd.
    destruct Hd as (-> & -> & -> & Hk). constructor; cbn; try assumption; try reflexivity; [rewrite A7; reflexivity|]. exists []. auto.
Qed.
Lemma alike_tbl w w' tbl : alike w w' -> alike (set_tbl w tbl) (set_tbl w' tbl).
Proof. intros [A1 A2 A3 A4 A5 A6 A7 A8 A9 A10 A11]. constructor; try assumption. reflexivity. Qed.
Lemma alike_ptbl w w' tbl : alike w w' -> alike (set_ptbl w tbl) (set_ptbl w' tbl).
Proof. intros [A1 A2 A3 A4 A5 A6 A7 A8 A9 A10 A11]. constructor; try assumption. reflexivity. Qed.
Lemma stop_alike : forall f w w', alike w w' ->
  match stop w f, stop w' f with
  | Some (w1, k), Some (w1', k') => k = k' /\ alike w1 w1'
  | None, None => True
  | _, _ => False
  end.
Proof.
  induction f as [msg s l|k|t seed k IH|t msg k IH|b k IH|msg cs k IH]; intros w w' H; cbn [stop]; pose proof H as [A1 A2 A3 A4 A5 A6 A7 A8 A9 A10 A11].
  - destruct (tb =? 0); auto.
  - rewrite <- A1. destruct (negb _ && _); auto.
  - rewrite <- A1. destruct (_ && _); [|exact (IH _ _ _ H)]. destruct (_ || _); [|exact I]. pose proof (update_alike w w' t seed H) as Hu.
    destruct (s_update pp w t seed) as [[w1 c1]|], (s_update pp w' t seed) as [[w2 c2]|]; try contradiction; [|exact I]. exact (IH _ _ _ Hu).
  - rewrite <- A1. destruct (negb (w_time w =? t)); [exact (IH _ _ _ H)|]. rewrite <- A3. destruct (lookup (w_cache w) msg) as [s|]; [exact (IH _ _ _ H)|].
    cbv zeta. rewrite <- A2, <- A4, <- A5, <- A6, <- A7, <- A8, <- A9. destruct (nth_error hs _) as [h|]; [|exact I]. destruct (w_us w) as [|u us]; [exact I|].
    destruct (if t =? tb then w_B w else w_A w) as [|blk rest]; [exact I|]. apply IH. constructor; try reflexivity; [exact A10|].
    destruct A11 as (s0 & S1 & S2). exists ((sign_info msg t ++ [1], u, blk) :: s0). cbn [w_own w_g calls_of flat_map]. unfold calls_of in S1, S2. rewrite S1, S2. auto.
  - rewrite <- A8. destruct (nth_error hs _); [|exact I]. apply IH, alike_tbl, H.
  - cbv zeta. rewrite <- A9. destruct (nth_error pts _); [|exact I]. apply IH, alike_ptbl, H.
Qed.

Lemma draw_keys_mid r ts g A ks us l g' A' ks' us' cl : draw_keys r ts g A ks us = Some (l, g', A', ks', us', cl) -> exists mid, g :: ks = mid ++ g' :: ks'.
Proof.
  revert g A ks us l g' A' ks' us' cl. induction ts as [|t ts IH]; intros g A ks us l g' A' ks' us' cl H; cbn [draw_keys] in H.
  - injection H as _ <- _ <- _ _. exists []. reflexivity.
  - destruct A as [|b0 A]; [discriminate H|]. destruct ks as [|g1 ks]; [discriminate H|]. destruct us as [|u1 [|u2 us]]; try discriminate H.
    destruct (draw_keys r ts g1 A ks us) as [[[[[[l2 g2] A2] ks2] us2] cl2]|] eqn:Q; [|discriminate H].
    assert (Hc : g' = g2 /\ ks' = ks2) by (apply some_pair in H as [H _]; injection H as _ <- _ <- _; auto). destruct Hc as [-> ->].
    destruct (IH _ _ _ _ _ _ _ _ _ _ Q) as (mid & Hm). exists (g :: mid). rewrite Hm. reflexivity.
Qed.
Lemma update_mid w t seed w' cl : s_update pp w t seed = Some (w', cl) -> exists mid, w_g w :: w_ks w = mid ++ w_g w' :: w_ks w'.
Proof.
  unfold s_update. destruct (w_ks w) as [|k2 [|g0 ks]]; [discriminate|discriminate|]. destruct (w_us w) as [|u1 [|v [|u2 [|u3 us]]]]; try discriminate.
  destruct (made d (w_time w) t) as [|t0 ts]; intros H.
  - apply some_pair in H as [-> _]. exists [w_g w; k2]. reflexivity.
  - destruct (draw_keys _ ts g0 (w_A w) ks us) as [[[[[[l g'] A'] ks'] us'] cl']|] eqn:Q; [|discriminate H]. apply some_pair in H as [-> _]. cbn [w_g w_ks].
    destruct (draw_keys_mid _ _ _ _ _ _ _ _ _ _ _ _ Q) as (mid & Hm). exists (w_g w :: k2 :: mid). rewrite Hm. reflexivity.
Qed.
Lemma run_stop : forall f w o, s_run pp x tb hs pts w f = Some o -> (length (w_tbl w) <= length hs)%nat ->
  exists w1 k o1, stop w f = Some (w1, k) /\ s_tail pp hs pts w1 (k (the_key w1)) = Some o1 /\ o_tbl o = o_tbl o1
    /\ (length (w_tbl w1) <= length hs)%nat /\ exists mid, w_g w :: w_ks w = mid ++ w_g w1 :: w_ks w1.
Proof.
  induction f as [msg s l|k|t seed k IH|t msg k IH|b k IH|msg cs k IH]; intros w o H Ht; cbn [s_run] in H; cbn [stop].
  - destruct (tb =? 0); [|discriminate H]. apply add_some in H as (o' & H & ->). exists w, (fun _ => PForge msg s l), o'. cbn [o_tbl].
    split; [reflexivity|]. split; [exact H|]. split; [reflexivity|]. split; [exact Ht|]. exists []. reflexivity.
  - destruct (negb _ && _); [|discriminate H]. apply add_some in H as (o' & H & ->). exists w, k, o'. cbn [o_tbl].
    split; [reflexivity|]. split; [exact H|]. split; [reflexivity|]. split; [exact Ht|]. exists []. reflexivity.
  - destruct (_ && _); [|exact (IH _ _ _ H Ht)]. destruct (_ || _); [|discriminate H].
    destruct (s_update pp w t seed) as [[w' cl]|] eqn:Q; [|discriminate H]. apply add_some in H as (o' & H & ->).
    destruct (update_mid _ _ _ _ _ Q) as (mid & Hm).
    assert (Ht' : (length (w_tbl w') <= length hs)%nat) by (rewrite (proj1 (s_update_tables pp w t seed w' cl Q)); exact Ht).
    destruct (IH _ w' o' H Ht') as (w1 & k1 & o1 & H1 & H2 & H3 & H5 & mid' & Hm').
    exists w1, k1, o1. cbn [o_tbl]. split; [exact H1|]. split; [exact H2|]. split; [exact H3|]. split; [exact H5|].
    exists (mid ++ mid'). rewrite Hm, Hm', app_assoc. reflexivity.
  - destruct (negb (w_time w =? t)) eqn:Qt; [exact (IH _ _ _ H Ht)|].
    destruct (lookup (w_cache w) msg) as [s|] eqn:Ql.
    + apply add_some in H as (o' & H & ->). destruct (IH _ _ _ H Ht) as (w1 & k1 & o1 & H1 & H2 & H3 & H4 & H5). exists w1, k1, o1. cbn [o_tbl]. auto 10.
    + cbv zeta in H |- *. destruct (nth_error hs _) as [h|] eqn:Qh; [|discriminate H]. destruct (w_us w) as [|u us] eqn:Qu; [discriminate H|].
      destruct (if t =? tb then w_B w else w_A w) as [|blk rest]; [discriminate H|]. apply add_some in H as (o' & H & ->).
      destruct (IH _ _ o' H (enter_le _ _ _ _ Qh Ht)) as (w1 & k1 & o1 & H1 & H2 & H3 & H5 & mid' & Hm').
      exists w1, k1, o1. cbn [o_tbl]. split; [exact H1|]. split; [exact H2|]. split; [exact H3|]. split; [exact H5|]. exists mid'. exact Hm'.
  - destruct (nth_error hs _) as [h|] eqn:Qh; [|discriminate H]. destruct (IH _ (set_tbl w (enter (w_tbl w) b)) o H (enter_le _ _ _ _ Qh Ht)) as (w1 & k1 & o1 & H1). exists w1, k1, o1. exact H1.
  - cbv zeta in H |- *. destruct (nth_error pts _) as [p|] eqn:Qp; [|discriminate H]. destruct (IH _ (set_ptbl w (enter (w_ptbl w) (point_input msg cs))) o H Ht) as (w1 & k1 & o1 & H1). exists w1, k1, o1. exact H1.
Qed.
End Kept.

(** * The whole game *)
Definition first_key (cs : N) : bytes := DOM_SEP_MASTER_KEY ++ [cs].
Definition stopped {E} (g : G1 E) (d : nat) (cs tb : N) (bx : bytes) (adv : aforger_for E) (z : fcoins) : option (world E * (seckey E -> pforger E)) :=
  let '(y, ys, hs, zs, (seed, A, B, ks, us)) := z in
  let pp := exp_params g d cs y ys in
  let x := scalar_of bx in
  let pk := PubKey cs (g2_mul x g2_one) in
  let pts := map (fun e => g1_mul e g) zs in
  match s_init cs pk seed bx A B ks us with
  | None => None
  | Some (w, cl) => stop pp x tb hs pts w (adv pp pk (Pop cs (g1_mul x (nth 0 pts g1_zero))))
  end.
(** The questions that do not depend on the [j]-th state. *)
Definition asked {E} (nk j : nat) (w1 : world E) (o : outcome E) : list bytes :=
  if (j + 1 + length (w_ks w1) =? nk)%nat then w_tbl w1 else o_tbl o.
(** Begins like the input of the message hash. *)
Definition begins (cs : N) (k : bytes) : Prop :=
  firstn 22 (padded 0x36 k) = DOM_SEP_HASH_TO_MSG ++ [cs] \/ firstn 22 (padded 0x5c k) = DOM_SEP_HASH_TO_MSG ++ [cs].

Lemma place_key' key text u out b : (length key <= 64)%nat -> In b (map fst (calls key text u out)) -> key_of b = zpad key.
Proof. intros H. rewrite calls_places. intros [<-|[<-|[]]]; apply key_of_padded, H. Qed.
Lemma nodup_calls' key text u out : (length key <= 64)%nat -> NoDup (map fst (calls key text u out)).
Proof.
  intros H. rewrite calls_places. constructor; [|constructor; [intros []|constructor]]. intros [He|[]]. apply (f_equal (fun l => nth 127 l 0)) in He. rewrite !padded_tag in He by exact H. discriminate He.
Qed.
Lemma init_kept {E} cs (pk : pubkey E) seed bx A B ks us w cl : s_init cs pk seed bx A B ks us = Some (w, cl) ->
  NoDup (zpad (first_key cs) :: ks) -> NoDup us -> Forall (fun k => length k = 64%nat) ks -> kept w (map fst cl).
Proof.
  intros H Hk Hu Hl. destruct A as [|b0 A]; [discriminate H|]. destruct ks as [|s0 [|s1 [|s2 ks]]]; try discriminate H. destruct us as [|u0 [|u1 [|u2 [|u3 [|u4 us]]]]]; try discriminate H.
  unfold s_init in H. apply some_pair in H as [-> ->].
  inversion Hl as [|? ? L0 Hl']; subst. inversion Hl' as [|? ? L1 Hl'']; subst.
  inversion Hk as [|? ? Nz Hk']; subst. inversion Hk' as [|? ? N0 Hk'']; subst. inversion Hk'' as [|? ? N1 Hk3]; subst.
  assert (Lz : (length (first_key cs) <= 64)%nat) by (cbn; lia). fold (first_key cs).
  set (c0 := calls (first_key cs) seed u0 s0). set (c1 := calls s0 (KEY_INIT_INFO ++ [1]) u1 bx). set (c2 := calls s0 (bx ++ KEY_INIT_INFO ++ [2]) u2 s1).
  set (c3 := calls s1 (DOM_SEP_SK_INIT ++ time_bytes 1 ++ [1]) u3 b0). set (c4 := calls s1 (b0 ++ DOM_SEP_SK_INIT ++ time_bytes 1 ++ [2]) u4 s2).
  assert (P0 : forall b, In b (map fst c0) -> key_of b = zpad (first_key cs)) by (intros b; apply place_key', Lz).
  assert (P1 : forall b, In b (map fst c1) -> key_of b = s0) by (intros b; apply place_key, L0).
  assert (P2 : forall b, In b (map fst c2) -> key_of b = s0) by (intros b; apply place_key, L0).
  assert (P3 : forall b, In b (map fst c3) -> key_of b = s1) by (intros b; apply place_key, L1).
  assert (P4 : forall b, In b (map fst c4) -> key_of b = s1) by (intros b; apply place_key, L1).
  assert (Hkeys : forall b, In b (map fst (c0 ++ c1 ++ c2 ++ c3 ++ c4)) -> In (key_of b) [zpad (first_key cs); s0; s1]).
  { intros b. rewrite !map_app, !in_app_iff. intros [H|[H|[H|[H|H]]]]; [left; symmetry; exact (P0 b H)|right; left; symmetry; exact (P1 b H)|right; left; symmetry; exact (P2 b H)|right; right; left; symmetry; exact (P3 b H)|right; right; left; symmetry; exact (P4 b H)]. }
  assert (Hsep : forall k, In k [zpad (first_key cs); s0; s1] -> ~ In k (s2 :: ks)).
  { intros k [<-|[<-|[<-|[]]]] Hi; [apply Nz; right; right; exact Hi|apply N0; right; exact Hi|exact (N1 Hi)]. }
  inversion Hu as [|? ? U0 Hu0]; subst. inversion Hu0 as [|? ? U1 Hu1]; subst. inversion Hu1 as [|? ? U2 Hu2]; subst. inversion Hu2 as [|? ? U3 Hu3]; subst.
  assert (D : forall b k k', In k (s0 :: s1 :: s2 :: ks) -> key_of b = zpad (first_key cs) -> key_of b = k' -> k' = k -> False) by (intros b k k' Hi H1 H2 H3; apply Nz; congruence).
  constructor; cbn [w_g w_ks w_us w_own w_cache w_time].
  - rewrite !map_app. apply nodup_app; [apply nodup_calls', Lz| |].
    2:{ intros b H1 H2. apply P0 in H1. apply Nz. rewrite <- H1. rewrite !in_app_iff in H2. destruct H2 as [H2|[H2|[H2|H2]]]; [left; symmetry; exact (P1 b H2)|left; symmetry; exact (P2 b H2)|right; left; symmetry; exact (P3 b H2)|right; left; symmetry; exact (P4 b H2)]. }
    apply nodup_app; [apply nodup_calls, L0| |].
    2:{ intros b H1 H2. rewrite !in_app_iff in H2. destruct H2 as [H2|H2].
        - revert b H1 H2. apply two_calls; [exact L0| |]; [rewrite (app_assoc bx); apply last_differs; discriminate|]. intros ->. apply U1. left. reflexivity.
        - apply P1 in H1. apply N0. left. rewrite <- H1. destruct H2 as [H2|H2]; symmetry; [exact (P3 b H2)|exact (P4 b H2)]. }
    apply nodup_app; [apply nodup_calls, L0| |].
    2:{ intros b H1 H2. apply P2 in H1. apply N0. left. rewrite <- H1. rewrite in_app_iff in H2. destruct H2 as [H2|H2]; symmetry; [exact (P3 b H2)|exact (P4 b H2)]. }
    apply nodup_app; [apply nodup_calls, L1|apply nodup_calls, L1|]. apply two_calls; [exact L1| |].
    + rewrite !app_assoc. apply last_differs. discriminate.
    + intros ->. apply U3. left. reflexivity.
  - intros b Hi Hj. apply (Hsep _ (Hkeys b Hi)). right. exact Hj.
  - intros b Hi Hj. exfalso. apply (Hsep _ (Hkeys b Hi)). left. symmetry. exact Hj.
  - intros b [].
  - exact Hk3.
  - inversion Hu3; assumption.
  - exact Hl''.
Qed.
Lemma hash_begins cs msg p k t : padded p k ++ t = hash_input cs msg -> firstn 22 (padded p k) = DOM_SEP_HASH_TO_MSG ++ [cs].
Proof.
  intros H. apply (f_equal (firstn 22)) in H. rewrite firstn_app in H. rewrite padded_length in H. change (22 - 128)%nat with 0%nat in H. rewrite firstn_O, app_nil_r in H. rewrite H. unfold hash_input. reflexivity.
Qed.

(** The coins are clean if nothing of the kind happens. *)
Lemma clean_from {E} (g : G1 E) d cs tb bx adv y ys hs zs seed A B ks us o n nb nk nu ls q p :
  fcoins_any d n nb nk nu ls q p (y, ys, hs, zs, (seed, A, B, ks, us)) ->
  sampled g d cs tb bx adv (y, ys, hs, zs, (seed, A, B, ks, us)) = Some o ->
  NoDup (zpad (first_key cs) :: ks) -> NoDup us -> (forall k, In k ks -> ~ begins cs k) ->
  (forall w1 k, stopped g d cs tb bx adv (y, ys, hs, zs, (seed, A, B, ks, us)) = Some (w1, k) ->
     forall j, (j < nk)%nat -> ~ In (nth j ks []) (map key_of (asked nk j w1 o))) ->
  ~ In (padded 0x36 (first_key cs) ++ seed) (o_tbl o) -> ~ In (nth 0 us []) (map (skipn 128) (o_tbl o)) ->
  clean (y, ys, hs, zs, (seed, A, B, ks, us)) o.
Proof.
  intros (_ & _ & [Hq _] & _ & _ & _ & _ & [Hnk Fk] & _) H Nk Nu Hbeg Hask Hseed Hu0.
  assert (Lk : Forall (fun k => length k = 64%nat) ks) by (eapply Forall_impl; [|exact Fk]; intros k Hk; exact (proj1 Hk)).
  unfold sampled in H. cbv zeta in H. unfold stopped in Hask. cbv zeta in Hask.
  set (pp := exp_params g d cs y ys) in *. set (pk := PubKey cs (g2_mul (scalar_of bx) g2_one)) in *. set (pts := map (fun e => g1_mul e g) zs) in *.
  destruct (s_init cs pk seed bx A B ks us) as [[w cl]|] eqn:Qi; [|discriminate H]. apply add_some in H as (o' & H & ->).
  pose proof (init_kept _ _ _ _ _ _ _ _ _ _ Qi Nk Nu Lk) as HC.
  assert (Hw : w_tbl w = []) by (clear - Qi; destruct A; [discriminate|]; destruct ks as [|? [|? [|? ?]]]; try discriminate; destruct us as [|? [|? [|? [|? [|? ?]]]]]; try discriminate; unfold s_init in Qi; apply some_pair in Qi as [-> _]; reflexivity).
  destruct (run_kept pp (scalar_of bx) tb hs pts _ w o' _ HC H) as (w1 & k1 & o1 & H1 & H2 & H3 & H4 & H5 & mid & Hm & Hb); [rewrite Hw; cbn; lia|].
  specialize (Hask w1 k1 H1). clear H1. cbn [o_tbl o_calls] in *.
  assert (Hks : exists s0 s1, ks = (s0 :: s1 :: mid) ++ w_g w1 :: w_ks w1
            /\ (forall b, In b (map fst cl) -> b = padded 0x36 (first_key cs) ++ seed \/ b = padded 0x5c (first_key cs) ++ nth 0 us [] \/ In (key_of b) [s0; s1])).
  { clear - Qi Hm Lk. destruct A as [|b0 A]; [discriminate Qi|]. destruct ks as [|s0 [|s1 [|s2 ks]]]; try discriminate Qi. destruct us as [|u0 [|u1 [|u2 [|u3 [|u4 us]]]]]; try discriminate Qi.
    unfold s_init in Qi. apply some_pair in Qi as [-> ->]. cbn [w_g w_ks] in Hm. exists s0, s1. split; [cbn [app]; rewrite Hm; reflexivity|].
    inversion Lk as [|? ? L0 Hl']; subst. inversion Hl' as [|? ? L1 _]; subst. intros b. rewrite !map_app, !in_app_iff.
    intros [[Hi|[Hi|[]]]|[Hi|[Hi|[Hi|Hi]]]]; [left; symmetry; exact Hi|right; left; symmetry; exact Hi| | | |]; right; right;
      [left|left|right; left|right; left]; symmetry; eapply place_key; try exact Hi; assumption. }
  destruct Hks as (s0 & s1 & Hks & Hcl).
  assert (Hlive : forall b, In b (o_tbl o1) -> In b (map fst cl ++ map fst (o_calls o')) -> key_of b = w_g w1 -> False).
  { intros b Hi Hj Hk. pose proof (kp_own _ _ H4 b Hj Hk) as Ho.
    destruct (tail_asked pp hs pts _ _ _ H2 H5) as [_ Hta]. destruct (Hta b Hi) as [Ht|[Ht|(msg & Ht)]].
    - apply (Hask (length (s0 :: s1 :: mid))).
      + rewrite <- Hnk, Hks, app_length. cbn [length]. lia.
      + rewrite Hks at 1. rewrite app_nth2 by lia. rewrite Nat.sub_diag. cbn [nth]. rewrite <- Hk. apply in_map. unfold asked.
        replace (_ =? _)%nat with true; [exact Ht|]. symmetry. apply Nat.eqb_eq. rewrite <- Hnk, Hks, app_length. cbn [length]. lia.
    - destruct (proj1 (in_map_iff _ _ _) Ho) as ([b' v] & Hb' & Hin). cbn [fst] in Hb'. subst b'. clear - Ht Hin. induction (w_own w1) as [|[b' v'] l IH]; [destruct Hin|].
      rewrite lookup_cons in Ht. destruct (bytes_eqb b' b) eqn:Q; [discriminate Ht|]. destruct Hin as [Hin|Hin]; [|exact (IH Ht Hin)].
      apply (f_equal fst) in Hin. cbn [fst] in Hin. apply bytes_eqb_eq in Hin. congruence.
    - apply (Hbeg (w_g w1)); [rewrite Hks; apply in_or_app; right; left; reflexivity|].
      destruct (kp_text _ _ H4 b Ho) as [(msg' & s & _ & Hp)|(u & _ & Hp)]; rewrite Hp in Ht; [left|right]; exact (hash_begins _ _ _ _ _ Ht). }
  assert (Hdead : forall b, In b (o_tbl o1) -> In (key_of b) (s0 :: s1 :: mid) -> False).
  { intros b Hi Hj. apply (In_nth _ _ []) in Hj as (j & Hj & Hn). apply (Hask j).
    - rewrite <- Hnk, Hks, app_length. unfold bytes in *. cbn [length] in *. lia.
    - assert (Hnth : nth j ks [] = key_of b) by (rewrite Hks; etransitivity; [apply app_nth1; exact Hj|exact Hn]). rewrite Hnth. apply in_map. unfold asked.
      replace (_ =? _)%nat with false; [cbn [o_tbl]; rewrite H3; exact Hi|]. symmetry. apply Nat.eqb_neq. rewrite <- Hnk, Hks, app_length. unfold bytes in *. cbn [length] in *. lia. }
  unfold clean. cbn [o_tbl o_calls]. rewrite map_app. split; [exact (kp_nodup _ _ H4)|]. split; [|inversion Nk; assumption].
  intros b Hi Ht. rewrite H3 in Ht, Hseed, Hu0. pose proof Hi as Hi'. apply in_app_iff in Hi as [Hi|Hi].
  - destruct (Hcl b Hi) as [->|[->|Hk]]; [exact (Hseed Ht)| |].
    + apply Hu0. apply in_map_iff. exists (padded 0x5c (first_key cs) ++ nth 0 us []). split; [apply padded_rest|exact Ht].
    + apply (Hdead b Ht). destruct Hk as [Hk|[Hk|[]]]; [left; exact Hk|right; left; exact Hk].
  - specialize (Hb b Hi). apply in_app_iff in Hb as [Hb|[Hb|[]]]; [apply (Hdead b Ht); right; right; exact Hb|]. exact (Hlive b Ht Hi' (eq_sym Hb)).
Qed.
