(** Properties C01-C05: time stamps and time vectors (src/time.rs).
    Specification vocabulary: SpecTime.v ([preorder], [node_at], [below], [last_time]). *)
From Coq Require Import Sorting.Sorted.
From Verif Require Import Base Time SpecTime TimeFacts TimeProps.
Local Open Scope N_scope.

(** C01: [TimeVec::init] is the pre-order numbering. *)
Theorem C01_init_is_preorder : forall m d t tv,
  (1 <= d < 64)%nat ->
  (tv_init m t d = Ok tv <-> tv_time tv = t /\ node_at d t (tv_vec tv)).
Proof. exact tv_init_iff. Qed.
Print Assumptions C01_init_is_preorder.

Theorem C01_init_ok_iff_in_range : forall m d t,
  (1 <= d < 64)%nat ->
  (is_ok (tv_init m t d) = true <-> 1 <= t <= last_time d).
Proof. exact tv_init_is_ok. Qed.
Print Assumptions C01_init_ok_iff_in_range.

(** Out of range stamps: which error; in particular no panic, in both build modes. *)
Theorem C01_init_out_of_range : forall m d t,
  (1 <= d < 64)%nat -> t = 0 \/ last_time d < t ->
  tv_init m t d = Err (if t =? last_time d + 1 then E_TIME_DEPTH else E_TIME_STAMP).
Proof. exact tv_init_out. Qed.
Print Assumptions C01_init_out_of_range.

(** The specification itself is a bijection between 1..2^d-1 and the paths shorter
    than d. *)
Theorem C01_numbering_bijective : forall d,
  (forall t, 1 <= t <= last_time d -> exists! v, node_at d t v) /\
  (forall v, Forall (fun x => x = 1 \/ x = 2) v -> (length v < d)%nat ->
             exists! t, node_at d t v).
Proof. exact numbering_bijective. Qed.
Print Assumptions C01_numbering_bijective.

Example C01_example : tv_init Debug 12 4 = Ok (TimeVec 12 [2; 1; 2]) /\ last_time 4 = 15.
Proof. vm_compute. auto. Qed.

(** C02: round trip. *)
Theorem C02_round_trip : forall m d t tv,
  (1 <= d < 64)%nat -> tv_init m t d = Ok tv -> vec_to_time m (tv_vec tv) d = Ok t.
Proof. exact time_vec_round_trip. Qed.
Print Assumptions C02_round_trip.

Theorem C02_round_trip_vec : forall m d v,
  (1 <= d < 64)%nat -> Forall (fun x => x = 1 \/ x = 2) v -> (length v < d)%nat ->
  exists t, vec_to_time m v d = Ok t /\ tv_init m t d = Ok (TimeVec t v).
Proof. exact vec_time_round_trip. Qed.
Print Assumptions C02_round_trip_vec.

Theorem C02_injective : forall m d t t' tv tv',
  (1 <= d < 64)%nat -> tv_init m t d = Ok tv -> tv_init m t' d = Ok tv' ->
  tv_vec tv = tv_vec tv' -> t = t'.
Proof. exact tv_init_injective. Qed.
Print Assumptions C02_injective.

Theorem C02_gamma_entries_consistent : forall m d t tv l e,
  (1 <= d < 64)%nat -> tv_init m t d = Ok tv -> gamma_list m tv d = Ok l -> In e l ->
  tv_init m (tv_time e) d = Ok e /\ vec_to_time m (tv_vec e) d = Ok (tv_time e).
Proof. exact gamma_entries_consistent. Qed.
Print Assumptions C02_gamma_entries_consistent.

Example C02_example : vec_to_time Release [2; 1; 2] 4 = Ok 12.
Proof. reflexivity. Qed.

(** C03: the gamma list. *)
Theorem C03_gamma_list : forall m d t tv,
  (1 <= d < 64)%nat -> tv_init m t d = Ok tv ->
  exists l, gamma_list m tv d = Ok l
    /\ StronglySorted N.lt (map tv_time l)
    /\ (exists l', l = tv :: l')
    /\ (length l <= d)%nat
    /\ (forall s, t <= s <= last_time d ->
          exists e, In e l /\ below d (tv_time e) s
                    /\ forall e', In e' l -> below d (tv_time e') s -> e' = e)
    /\ (forall s e, In e l -> below d (tv_time e) s -> t <= s).
Proof. exact gamma_list_covers. Qed.
Print Assumptions C03_gamma_list.

Example C03_example :
  gamma_list Debug (TimeVec 4 [1;1;1]) 4
  = Ok [TimeVec 4 [1;1;1]; TimeVec 5 [1;1;2]; TimeVec 6 [1;2]; TimeVec 9 [2]].
Proof. reflexivity. Qed.

(** C04: [is_prefix] is strict ancestry; a subtree is an interval of stamps. *)
Theorem C04_is_prefix : forall m d a b ta tb,
  (1 <= d < 64)%nat -> tv_init m a d = Ok ta -> tv_init m b d = Ok tb ->
  (tv_is_prefix ta tb = true <-> strictly_below d a b) /\
  (tv_is_prefix ta tb = true <-> a < b < a + (pow2 (d - length (tv_vec ta)) - 1)).
Proof. exact is_prefix_ancestry. Qed.
Print Assumptions C04_is_prefix.

Example C04_example :
  tv_is_prefix (TimeVec 9 [2]) (TimeVec 12 [2;1;2]) = true /\
  tv_is_prefix (TimeVec 9 [2]) (TimeVec 9 [2]) = false /\
  tv_is_prefix (TimeVec 3 [1;1]) (TimeVec 6 [1;2]) = false.
Proof. repeat split. Qed.

(** C05: unsupported depths. *)
Theorem C05_depth_zero : forall m t, tv_init m t 0 = Err E_TIME_DEPTH.
Proof. exact tv_init_depth_zero. Qed.
Print Assumptions C05_depth_zero.

Theorem C05_debug_panics : forall d t, (64 <= d)%nat -> tv_init Debug t d = Panic P_ARITH.
Proof. exact tv_init_debug_large. Qed.
Print Assumptions C05_debug_panics.

(** In a release build every depth from 64 on rejects some valid u64 stamp ... *)
Theorem C05_release_rejects_valid : forall d,
  (64 <= d)%nat ->
  exists t, 1 <= t <= last_time d /\ t < two64 /\ tv_init Release t d = Err E_TIME_STAMP.
Proof. exact tv_init_release_rejects. Qed.
Print Assumptions C05_release_rejects_valid.

(** ... and "[init] succeeds only with the correct vector" is false. *)
Theorem C05_release_wrong_vector_refuted :
  exists d t tv, (64 <= d)%nat /\ tv_init Release t d = Ok tv /\ ~ node_at d t (tv_vec tv).
Proof. exact tv_init_release_wrong. Qed.
Print Assumptions C05_release_wrong_vector_refuted.
