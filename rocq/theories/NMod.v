(** Commutative monoids with N-multiples, and a reflective solver for equations
    between N-linear combinations. *)
From Coq Require Import List Arith NArith Lia Setoid Ring.
Import ListNotations.
Local Open Scope N_scope.

Record nmod {A : Type} (zero : A) (add : A -> A -> A) (mul : N -> A -> A) : Prop := NMod {
  nm_comm : forall x y, add x y = add y x;
  nm_assoc : forall x y z, add x (add y z) = add (add x y) z;
  nm_zero : forall x, add zero x = x;
  nm_mul0 : forall x, mul 0 x = zero;
  nm_mul1 : forall x, mul 1 x = x;
  nm_mul_add : forall n k x, mul (n + k) x = add (mul n x) (mul k x);
  nm_mul_mul : forall n k x, mul (n * k) x = mul n (mul k x);
  nm_mul_dist : forall n x y, mul n (add x y) = add (mul n x) (mul n y) }.

Inductive nexp := NZero | NAtom (i : nat) | NAdd (a b : nexp) | NMul (n : N) (a : nexp).

Fixpoint nden {A} (zero : A) (add : A -> A -> A) (mul : N -> A -> A) (env : list A) (e : nexp) : A :=
  match e with
  | NZero => zero
  | NAtom i => nth i env zero
  | NAdd a b => add (nden zero add mul env a) (nden zero add mul env b)
  | NMul n a => mul n (nden zero add mul env a)
  end.

Fixpoint ncoef (i : nat) (e : nexp) : N :=
  match e with
  | NZero => 0
  | NAtom j => if Nat.eqb i j then 1 else 0
  | NAdd a b => ncoef i a + ncoef i b
  | NMul n a => n * ncoef i a
  end.

Fixpoint nsum {A} (zero : A) (add : A -> A -> A) (mul : N -> A -> A) (env : list A) (k : nat) (e : nexp) : A :=
  match env with
  | [] => zero
  | x :: env' => add (mul (ncoef k e) x) (nsum zero add mul env' (S k) e)
  end.

Fixpoint neqs (k n : nat) (a b : nexp) : Prop :=
  match n with
  | O => True
  | S n' => ncoef k a = ncoef k b /\ neqs (S k) n' a b
  end.

Lemma nm_mulz {A} (zero : A) (add : A -> A -> A) (mul : N -> A -> A) (L : nmod zero add mul) n : mul n zero = zero.
Proof. rewrite <- (nm_mul0 _ _ _ L zero) at 1. rewrite <- (nm_mul_mul _ _ _ L), N.mul_0_r. apply (nm_mul0 _ _ _ L). Qed.

Lemma nm_zero_r {A} (zero : A) (add : A -> A -> A) (mul : N -> A -> A) (L : nmod zero add mul) x : add x zero = x.
Proof. rewrite (nm_comm _ _ _ L). apply (nm_zero _ _ _ L). Qed.

Lemma nsum_zero {A} (zero : A) (add : A -> A -> A) (mul : N -> A -> A) (L : nmod zero add mul) env k : nsum zero add mul env k NZero = zero.
Proof.
  revert k; induction env; intros k; simpl; [reflexivity|].
  rewrite IHenv, (nm_mul0 _ _ _ L), (nm_zero _ _ _ L). reflexivity.
Qed.

Lemma nsum_add {A} (zero : A) (add : A -> A -> A) (mul : N -> A -> A) (L : nmod zero add mul) env k a b :
  nsum zero add mul env k (NAdd a b) = add (nsum zero add mul env k a) (nsum zero add mul env k b).
Proof.
  revert k; induction env; intros k; cbn [nsum ncoef].
  - rewrite (nm_zero _ _ _ L). reflexivity.
  - rewrite IHenv, (nm_mul_add _ _ _ L).
    rewrite <- !(nm_assoc _ _ _ L). f_equal. rewrite !(nm_assoc _ _ _ L). f_equal. apply (nm_comm _ _ _ L).
Qed.

Lemma nsum_mul {A} (zero : A) (add : A -> A -> A) (mul : N -> A -> A) (L : nmod zero add mul) env k n a :
  nsum zero add mul env k (NMul n a) = mul n (nsum zero add mul env k a).
Proof.
  revert k; induction env; intros k; cbn [nsum ncoef].
  - symmetry. apply (nm_mulz _ _ _ L).
  - rewrite IHenv, (nm_mul_mul _ _ _ L), (nm_mul_dist _ _ _ L). reflexivity.
Qed.

Lemma nsum_atom {A} (zero : A) (add : A -> A -> A) (mul : N -> A -> A) (L : nmod zero add mul) env k i :
  nsum zero add mul env k (NAtom i) = if Nat.ltb i k then zero else nth (i - k) env zero.
Proof.
  revert k; induction env; intros k; cbn [nsum ncoef].
  - destruct (Nat.ltb i k); [reflexivity|]. destruct (i - k)%nat; reflexivity.
  - rewrite IHenv. destruct (Nat.eqb_spec k i).
    + subst. rewrite (nm_mul1 _ _ _ L), Nat.ltb_irrefl, Nat.sub_diag.
      replace (Nat.ltb i (S i)) with true by (symmetry; apply Nat.ltb_lt; lia).
      apply (nm_zero_r _ _ _ L).
    + rewrite (nm_mul0 _ _ _ L), (nm_zero _ _ _ L).
      destruct (Nat.ltb_spec i k); destruct (Nat.ltb_spec i (S k)); try lia; try reflexivity.
      replace (i - k)%nat with (S (i - S k)) by lia. reflexivity.
Qed.

Lemma nden_nsum {A} (zero : A) (add : A -> A -> A) (mul : N -> A -> A) (L : nmod zero add mul) env e :
  nden zero add mul env e = nsum zero add mul env 0 e.
Proof.
  induction e; simpl nden.
  - symmetry. apply (nsum_zero _ _ _ L).
  - rewrite (nsum_atom _ _ _ L). simpl. rewrite Nat.sub_0_r. reflexivity.
  - rewrite (nsum_add _ _ _ L), IHe1, IHe2. reflexivity.
  - rewrite (nsum_mul _ _ _ L), IHe. reflexivity.
Qed.

Lemma nsum_eq {A} (zero : A) (add : A -> A -> A) (mul : N -> A -> A) env k a b :
  neqs k (length env) a b -> nsum zero add mul env k a = nsum zero add mul env k b.
Proof.
  revert k; induction env; intros k H; simpl in *; [reflexivity|].
  destruct H as [-> H]. f_equal. apply IHenv; exact H.
Qed.

Lemma nmod_eq {A} (zero : A) (add : A -> A -> A) (mul : N -> A -> A) (L : nmod zero add mul) env a b :
  neqs 0 (length env) a b -> nden zero add mul env a = nden zero add mul env b.
Proof. intros H. rewrite !(nden_nsum _ _ _ L). apply nsum_eq; exact H. Qed.

Ltac nm_find x env :=
  match env with
  | x :: _ => constr:(0%nat)
  | _ :: ?l => let i := nm_find x l in constr:(S i)
  end.
Ltac nm_in x env :=
  match env with
  | x :: _ => constr:(true)
  | _ :: ?l => nm_in x l
  | _ => constr:(false)
  end.
Ltac nm_atoms zero add mul e env :=
  match e with
  | zero => env
  | add ?a ?b => let env := nm_atoms zero add mul a env in nm_atoms zero add mul b env
  | mul _ ?a => nm_atoms zero add mul a env
  | _ => match nm_in e env with true => env | false => constr:(e :: env) end
  end.
Ltac nm_reify zero add mul e env :=
  match e with
  | zero => constr:(NZero)
  | add ?a ?b => let a := nm_reify zero add mul a env in
                 let b := nm_reify zero add mul b env in constr:(NAdd a b)
  | mul ?n ?a => let a := nm_reify zero add mul a env in constr:(NMul n a)
  | _ => let i := nm_find e env in constr:(NAtom i)
  end.
(** [nmod_solve L]: prove [x = y] in the structure with laws [L]. *)
Ltac nmod_solve_with L zero add mul :=
  match goal with
  | |- @eq ?A ?x ?y =>
    let env := nm_atoms zero add mul x (@nil A) in
    let env := nm_atoms zero add mul y env in
    let a := nm_reify zero add mul x env in
    let b := nm_reify zero add mul y env in
    change (nden zero add mul env a = nden zero add mul env b);
    apply (nmod_eq zero add mul L);
    cbn [neqs length ncoef Nat.eqb];
    repeat match goal with |- _ /\ _ => split end; try exact I; try ring
  end.
