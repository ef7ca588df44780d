(** Model of benches/benchmarks/bench_curve.rs.  What the generator supplies is an argument: one tuple for each run of the
    loops 19-23, 55-58 and 91-98, in the order of the pushes; SAMPLES is the number of tuples.  [n] is how often criterion runs a
    closure.  The closures drop what they compute; here it is returned.  The point types are those of the crate: G1 of
    bench_pairing is PixelG2, and G2 is PixelG1.  Names for the reports are left out. *)
From Verif Require Import Base Env.
Local Open Scope N_scope.

(** [list[i] = a]. *)
Fixpoint put_at {A} (i : nat) (a : A) (l : list A) : list A :=
  match l, i with
  | [], _ => []
  | _ :: l', O => a :: l'
  | x :: l', S i' => x :: put_at i' a l'
  end.
(** [counter = (counter + 1) % SAMPLES]; the remainder panics if SAMPLES is zero. *)
Definition next_counter (samples counter : nat) : res nat :=
  match samples with O => Panic P_ARITH | S _ => Ok ((counter + 1) mod samples)%nat end.

(** bench_curve.rs 28-33 and 36-41: [list[counter].mul_assign(scalars[counter])], [n] times. *)
Fixpoint run_mul {A} (mul : N -> A -> A) (scalars : list N) (n : nat) (l : list A) (counter : nat) : res (list A * nat) :=
  match n with
  | O => Ok (l, counter)
  | S n' =>
    let! x := nth_res l counter in
    let! r := nth_res scalars counter in
    let! c := next_counter (length scalars) counter in
    run_mul mul scalars n' (put_at counter (mul r x) l) c
  end.
(** bench_curve.rs 11-42: bench_group_multiplication. *)
Definition bench_group_multiplication {E} (draws : list (G1 E * G2 E * N)) (n1 n2 : nat) : res (list (G1 E) * list (G2 E)) :=
  let g1list := map (fun d => fst (fst d)) draws in
  let g2list := map (fun d => snd (fst d)) draws in
  let r1list := map snd draws in
  let! (l1, _) := run_mul g1_mul r1list n1 g1list 0 in
  let! (l2, _) := run_mul g2_mul r1list n2 g2list 0 in
  Ok (l1, l2).

(** A closure that only reads: [n] times, with what it computes. *)
Fixpoint run_read {A B} (f : A -> res B) (l : list A) (n counter : nat) : res (list B) :=
  match n with
  | O => Ok []
  | S n' =>
    let! x := nth_res l counter in
    let! y := f x in
    let! c := next_counter (length l) counter in
    let! r := run_read f l n' c in
    Ok (y :: r)
  end.
(** bench_curve.rs 46-76: bench_membership_testing. *)
Definition bench_membership_testing {E} (draws : list (G1 E * G2 E)) (n1 n2 : nat) : res (list bool * list bool) :=
  let! b1 := run_read (fun x => Ok (g1_insub x)) (map fst draws) n1 0 in
  let! b2 := run_read (fun x => Ok (g2_insub x)) (map snd draws) n2 0 in
  Ok (b1, b2).

(** final_exponentiation(miller_loop(..)).unwrap(); a failing unwrap is P_ASSERT, as in Tests.v. *)
Definition pair_all {E} (l : list (G2 E * G1 E)) : res (GT E) :=
  match pairing_prod l with Some x => Ok x | None => Panic P_ASSERT end.
(** bench_curve.rs 80-170: bench_pairing; a draw is the three points of G1 and the three of G2 pushed in one run of the loop. *)
Record pair_draw (E : env) := PairDraw { d11 : G2 E; d12 : G2 E; d13 : G2 E; d21 : G1 E; d22 : G1 E; d23 : G1 E }.
Arguments PairDraw {E}. Arguments d11 {E}. Arguments d12 {E}. Arguments d13 {E}. Arguments d21 {E}. Arguments d22 {E}. Arguments d23 {E}.
Definition bench_pairing {E} (draws : list (pair_draw E)) (n1 n2 n3 : nat) : res (list (GT E) * list (GT E) * list (GT E)) :=
  let! p1 := run_read (fun d => pair_all [(d11 d, d21 d)]) draws n1 0 in
  let! p2 := run_read (fun d => pair_all [(d11 d, d21 d); (d12 d, d22 d)]) draws n2 0 in
  let! p3 := run_read (fun d => pair_all [(d11 d, d21 d); (d12 d, d22 d); (d13 d, d23 d)]) draws n3 0 in
  Ok (p1, p2, p3).
