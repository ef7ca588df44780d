(** Specification vocabulary for keys and arrays in the memory of the C interface. *)
From Verif Require Import Base Env SubKey SecretKey Keys Sig Ffi FfiMem.
Local Open Scope N_scope.

(** In memory [mm] the C program holds a secret key [k] for the public key [pk] and time
    [t]: c_keygen returned it, or c_sk_update on such a key did, and the program has not
    written to its block since.  Everything else may happen in between. *)
Inductive held {E} (m : mode) (pp : pubparam E) : bytes -> pixel_sk -> N -> mem -> Prop :=
| held_keygen p n mm pk k pop mm' :
    exec m pp (CKeygen p n) mm = Some (Ok (RKeys pk k pop), mm') -> held m pp pk k 1 mm'
| held_update pk k t p n t' mm k' mm' :
    held m pp pk k t mm -> exec m pp (CUpdate k p n t') mm = Some (Ok (RSk k'), mm') -> held m pp pk k' t' mm'
| held_step pk k t s mm mm' :
    held m pp pk k t mm -> cstep_exec m pp s mm = Some mm' ->
    match s with SWrite p _ => fst p <> fst (ps_data k) | _ => True end -> held m pp pk k t mm'.

(** The [l] elements of [k] bytes of an array at [p]. *)
Definition elements (mm : mem) (p : ptr) (k : nat) (l : list bytes) : Prop :=
  load mm p (length l * k) <> None
  /\ forall i b, nth_error l i = Some b -> load mm (fst p, (snd p + i * k)%nat) k = Some b.

(** Two results that differ at most in the block a new key was put in. *)
Definition same_ret (r r' : res cret) : Prop :=
  match r, r' with
  | Ok (RKeys pk k pop), Ok (RKeys pk' k' pop') => pk = pk' /\ pop = pop' /\ ps_len k = ps_len k'
  | Ok (RSk k), Ok (RSk k') => ps_len k = ps_len k'
  | _, _ => r = r'
  end.
