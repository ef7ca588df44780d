(** Specification vocabulary of C130: all blocks a call of c_sk_update frees. *)
From Verif Require Import Base Env SubKey SecretKey SpecSer VecMem HvMem ReadMem SpecRead SpecHv BufMem SpecBuf FfiBuf CallMem.
Local Open Scope N_scope.

(** Blocks are never moved, and dropping a Vec overwrites its spare slots. *)
Record tidy (C : cpolicy) : Prop := Tidy {
  ti_hv : forall n, moved (cp_hv C) n = false;
  ti_ssk : forall n, moved (cp_ssk C) n = false;
  ti_up : forall n, moved (cp_up C) n = false;
  ti_clears : clears (cp_up C) = true;
  ti_buf : forall n, bmoved (cp_buf C) n = false;
  ti_fit : forall c n, smoved (cp_fit C) c n = false
}.

(** A caller who keeps a key up to date. *)
Fixpoint c_updates_mem {E} (C : cpolicy) (m : mode) (pp : pubparam E) (l : list (N * bytes)) (skb : bytes) : st (cheap E) bytes :=
  match l with
  | [] => sret skb
  | (t, seed) :: l' => do! b <- c_sk_update_mem C m pp skb seed t; c_updates_mem C m pp l' b
  end.

(** What the blocks [new], freed by an update of the key [k] to the key [k'], may hold. *)
Record left_by {E} (C : cpolicy) (k k' : seckey E) (new : cheap E) : Prop := LeftBy {
  (* of reading: exactly the beginnings of the vectors of the old key that were outgrown in a block that was moved; *)
  lb_read : forall b, In b (ch_read new) <->
    (exists s l, In s (sec_ssk k) /\ b = OldPoints l /\ outgrown (cp_hv C) l (sk_hvec s))
    \/ (exists l, b = OldKeys (map head_of l) /\ outgrown (cp_ssk C) l (sec_ssk k));
  (* of the Vec of sub keys: sub keys of the old and the new key, without their h-vectors; *)
  lb_vec : forall b hd, In b (ch_vec new) -> In (Some hd) b -> exists s, In s (sec_ssk k ++ sec_ssk k') /\ hd = head_of s;
  (* of the h-vectors: last entries of those of the old key; *)
  lb_hv : forall b x, In b (ch_hv new) -> In (Some x) b -> exists s, In s (sec_ssk k) /\ x = last_entry s;
  (* of the buffers: beginnings of the new key and of its sub keys, or all of it. *)
  lb_buf : forall b, In b (ch_buf new) -> b = sk_blob true k' \/ begins b (sk_blob true k') \/ exists s, In s (sec_ssk k') /\ begins b (ssk_blob true s)
}.
Definition more {E} (a b : cheap E) : cheap E :=
  CHeap (ch_read a ++ ch_read b) (ch_vec a ++ ch_vec b) (ch_hv a ++ ch_hv b) (ch_buf a ++ ch_buf b).
