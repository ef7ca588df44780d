(** Property C129: the benchmarks of the curve (BenchCurve.v) run through, and what they compute.
    Specification vocabulary: SpecBenchCurve.v ([uses], [sample], [read_off], [good_draw]). *)
From Verif Require Import Base Env BenchCurve SpecBenchCurve BenchCurveProps Toy.
Local Open Scope N_scope.

(** C129 *)
Theorem C129_multiplication : forall (E : env) (L : env_laws E) (draws : list (G1 E * G2 E * N)) n1 n2, draws <> [] ->
  exists l1 l2, bench_group_multiplication draws n1 n2 = Ok (l1, l2)
  /\ length l1 = length draws /\ length l2 = length draws
  /\ forall i x y r, nth_error draws i = Some (x, y, r) ->
       nth_error l1 i = Some (g1_mul (r ^ N.of_nat (uses (length draws) n1 i)) x)
       /\ nth_error l2 i = Some (g2_mul (r ^ N.of_nat (uses (length draws) n2 i)) y).
Proof. exact curve_multiplication. Qed.
Print Assumptions C129_multiplication.
Theorem C129_membership : forall (E : env) (draws : list (G1 E * G2 E)) n1 n2, draws <> [] ->
  exists b1 b2, bench_membership_testing draws n1 n2 = Ok (b1, b2)
  /\ read_off (fun d => g1_insub (fst d)) draws n1 b1 /\ read_off (fun d => g2_insub (snd d)) draws n2 b2.
Proof. exact curve_membership. Qed.
Print Assumptions C129_membership.
Theorem C129_pairing : forall (E : env) (L : env_laws E) (draws : list (pair_draw E)) n1 n2 n3, draws <> [] -> Forall good_draw draws ->
  let e1 d := pairing (d11 d) (d21 d) in let e2 d := pairing (d12 d) (d22 d) in let e3 d := pairing (d13 d) (d23 d) in
  exists p1 p2 p3, bench_pairing draws n1 n2 n3 = Ok (p1, p2, p3)
  /\ read_off e1 draws n1 p1
  /\ read_off (fun d => gt_mul (e1 d) (e2 d)) draws n2 p2
  /\ read_off (fun d => gt_mul (e1 d) (gt_mul (e2 d) (e3 d))) draws n3 p3.
Proof. exact curve_pairing. Qed.
Print Assumptions C129_pairing.
Theorem C129_uses : forall s n i, (i < s)%nat -> (uses s n i = (n + (s - 1 - i)) / s)%nat.
Proof. exact uses_even. Qed.
Print Assumptions C129_uses.

(** Three samples instead of a hundred.  Seven runs use the first sample three times and the others twice. *)
Definition c129d : list (G1 toy * G2 toy * N) := [(mk r1 5, mk r2 7, 2); (mk r1 1, mk r2 1, 3); (mk r1 0, mk r2 2, 0)].
Example C129_example_mul :
  uses 3 7 0 = 3%nat /\ uses 3 7 1 = 2%nat /\ uses 3 7 2 = 2%nat
  /\ bench_group_multiplication c129d 7 1 = Ok ([mk r1 40; mk r1 9; mk r1 0], [mk r2 14; mk r2 1; mk r2 2]).
Proof. split; [reflexivity|]. split; [reflexivity|]. split; [reflexivity|]. vm_compute. reflexivity. Qed.
(** Points of the subgroups, and one outside. *)
Definition c129m : list (G1 toy * G2 toy) := [(mk r1 0, toy_one); (mk r1 1, mk r2 1)].
Example C129_example_member :
  bench_membership_testing c129m 3 2 = Ok ([true; false; true], [true; false]).
Proof. vm_compute. reflexivity. Qed.
(** In [toy] the pairing of [2 a] and [3 b] is [a b], and GT is written with addition. *)
Definition c129p : list (pair_draw toy) :=
  [@PairDraw toy (mk r2 2) (mk r2 4) (mk r2 6) (mk r1 3) (mk r1 6) (mk r1 9);
   @PairDraw toy (mk r2 10) (mk r2 2) (mk r2 0) (mk r1 21) (mk r1 3) (mk r1 3)].
Example C129_example_pairing :
  Forall good_draw c129p
  /\ bench_pairing c129p 3 2 2 = Ok ([mk rp 1; mk rp 35; mk rp 1], [mk rp 5; mk rp 36], [mk rp 14; mk rp 36]).
Proof. split; [repeat constructor; vm_compute; reflexivity|vm_compute; reflexivity]. Qed.
