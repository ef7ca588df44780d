(** What the benchmark programs should do.  A benchmark passes if all times it draws are
    large enough ([good]); otherwise an assertion of its preparation fails.  In both cases
    the exception is a panic of an update, and then the hash function breaks. *)
From Verif Require Import Base Env Time SpecTime SubKey SecretKey Api SpecColl SpecTest.
Local Open Scope N_scope.

Definition outcome {E} (m : mode) (pp : pubparam E) (hs : list (bytes * list op)) (good : Prop) (r : res unit) : Prop :=
  (good -> passes m pp hs r) /\ (~ good -> r = Panic P_ASSERT \/ (r = Panic P_PRNG /\ breaks m pp hs)).

(** The time [gen_range(0, max_time - k)] gives. *)
Definition drawn {E} (pp : pubparam E) (k : N) (p : bytes * N) : N := snd p mod (last_time (pp_depth pp) - k).
Definition all_from {E} (pp : pubparam E) (k lo : N) (ps : list (bytes * N)) : Prop :=
  Forall (fun p => lo <= drawn pp k p) ps.
(** The time [gen_range(t + 1, max_time - 1)] gives. *)
Definition redrawn {E} (pp : pubparam E) (t d : N) : N := t + 1 + d mod (last_time (pp_depth pp) - 1 - (t + 1)).

(** The histories: an update to the drawn time, and one more operation. *)
Definition next_histories {E} (pp : pubparam E) (k : N) (o : N -> op) (ps : list (bytes * N)) : list (bytes * list op) :=
  map (fun p => (fst p, [OpUpdate (drawn pp k p) []; o (drawn pp k p)])) ps.
Definition random_histories {E} (pp : pubparam E) (k : N) (o : N -> op) (ps : list (bytes * N)) (ds : list N)
  : list (bytes * list op) :=
  flat_map (fun p => map (fun d => (fst p, [OpUpdate (drawn pp k p) []; o (redrawn pp (drawn pp k p) d)])) ds) ps
  ++ map (fun p => (fst p, [OpUpdate (drawn pp k p) []])) ps.
