(** Specification vocabulary for the memory of the C interface. *)
From Verif Require Import Base Env SubKey SecretKey Keys Sig Ffi FfiMem.
Local Open Scope N_scope.

(** The program does not write to block [blk] itself. *)
Definition no_write (blk : nat) (l : list cstep) : Prop :=
  Forall (fun s => match s with SWrite p _ => fst p <> blk | _ => True end) l.

(** The secret key a call returned, if any. *)
Definition new_key (r : res cret) : option pixel_sk :=
  match r with Ok (RKeys _ sk _) => Some sk | Ok (RSk sk) => Some sk | _ => None end.

(** A chain of c_sk_update calls, each on the key returned by the one before; the seeds
    are given as pointers.  Returns the keys in order and the memory. *)
Fixpoint mem_updates {E} (m : mode) (pp : pubparam E) (l : list (N * (ptr * nat))) (sk : pixel_sk) (mm : mem)
  : option (list pixel_sk * mem) :=
  match l with
  | [] => Some ([], mm)
  | (t, (p, n)) :: l' =>
    match exec m pp (CUpdate sk p n t) mm with
    | Some (Ok (RSk sk'), mm') =>
      match mem_updates m pp l' sk' mm' with
      | Some (ks, mm'') => Some (sk' :: ks, mm'')
      | None => None
      end
    | _ => None
    end
  end.

(** The buffers a call is given: a signature has 149 bytes, a public key 49. *)
Definition buffers (c : ccall) : list (ptr * nat) :=
  match c with
  | CKeygen p n => [(p, n)]
  | CSign sk p n _ => [(p, n); (ps_data sk, ps_len sk)]
  | CVerify _ p n _ => [(p, n)]
  | CUpdate sk p n _ => [(p, n); (ps_data sk, ps_len sk)]
  | CAggregate p n => [(p, (n * 149)%nat)]
  | CVerifyAgg p n q k _ => [(p, (n * 49)%nat); (q, k)]
  | CVerifyPop _ _ => []
  end.

Definition zeros (n : nat) : bytes := repeat 0 n.
