(** What the memory of an update may still hold, for the properties of [update_v]. *)
From Verif Require Import Base Env SubKey SecretKey Sig SpecUpdate SpecHyg VecMem.
Local Open Scope N_scope.

(** The capacities a Vec with [c] slots takes on when it is enlarged again and again. *)
Definition caps (P : policy) (c k : nat) : nat := Nat.iter k (fun c => Nat.max (grow P c) (S c)) c.

(** Some of the blocks holds the contents of a sub key for a time stamp before [t]. *)
Definition holds_past {E} (t : N) (bl : list (slots E)) : Prop :=
  exists b hd, In b bl /\ In (Some hd) b /\ hd_t hd < t.

(** A signature from the contents [hd] of an old slot and the last entry of the h-vector of the
    first sub key of the current key. *)
Definition forge_from {E} (pp : pubparam E) (hd : head E) (sk : seckey E) (msg : bytes) : signature E :=
  Signature (pp_cs pp) (hd_t hd) (hd_g2r hd)
    (g1_add (hd_hpoly hd)
       (g1_mul (msg_scalar pp msg)
          (match sec_ssk sk with s :: _ => last (sk_hvec s) g1_zero | [] => g1_zero end))).

(** The sub key whose contents are [hd], if the current key is for its [c]-th child
    ([half] inverts 2). *)
Definition half : N := (fr_modulus + 1) / 2.
Definition recover_from {E} (c : N) (hd : head E) (sk : seckey E) : subkey E :=
  match sec_ssk sk with
  | s :: _ => SubKey (hd_t hd) (hd_g2r hd) (hd_hpoly hd)
                (g1_mul (if c =? 1 then 1 else half) (g1_minus (sk_hpoly s) (hd_hpoly hd)) :: sk_hvec s)
  | [] => SubKey 0 g2_zero g1_zero []
  end.

(** One update after the other, to the given time stamps with the given seeds. *)
Definition updates_v {E} (P : policy) (m : mode) (pp : pubparam E) (l : list (N * bytes)) (s : seckey E * heap E) : seckey E * heap E :=
  fold_left (fun s ts => snd (update_v P m pp (fst ts) (snd ts) s)) l s.

(** Growth of a Vec as in std, with an allocator that moves every block, or none. *)
Definition std_moves : policy := Policy (fun n => (2 * n)%nat) (fun _ => true) true.
Definition std_stays : policy := Policy (fun n => (2 * n)%nat) (fun _ => false) true.
