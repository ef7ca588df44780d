(** Model of src/ffi.rs with the memory shared between the caller and the library.
    A memory is a list of blocks; a pointer is a block and an offset in it.  The memory
    Rust uses inside a call and frees before returning is not part of it.  The functions
    on byte strings are those of [Ffi].  [None] is undefined behaviour: a pointer and
    length that do not lie in a block.  A panic leaves the memory as it is (unwinding out
    of an extern "C" function is not modelled).  The assertion that shrink_to_fit leaves
    no spare capacity (ffi.rs 125, 263) is taken to hold here (FfiBuf.v has it). *)
From Verif Require Import Base Env SubKey SecretKey Keys Sig Ffi.
Local Open Scope N_scope.

Definition mem := list bytes.
Definition ptr := (nat * nat)%type.

(** [std::slice::from_raw_parts(data, len)]. *)
Definition load (mm : mem) (p : ptr) (len : nat) : option bytes :=
  match nth_error mm (fst p) with
  | Some b => if (snd p + len <=? length b)%nat then Some (firstn len (skipn (snd p) b)) else None
  | None => None
  end.

(** src/ffi.rs 14-17: pixel_sk; the other types (22-67) are arrays passed by value. *)
Record pixel_sk := PixelSk { ps_data : ptr; ps_len : nat }.

(** The calls of c_wrapper/pixel_c.h that take or return memory. *)
Inductive ccall :=
| CKeygen (seed : ptr) (seed_len : nat)
| CSign (sk : pixel_sk) (msg : ptr) (msg_len : nat) (t : N)
| CVerify (pk : bytes) (msg : ptr) (msg_len : nat) (sig : bytes)
| CUpdate (sk : pixel_sk) (seed : ptr) (seed_len : nat) (t : N)
| CAggregate (sigs : ptr) (sig_num : nat)
| CVerifyAgg (pks : ptr) (pk_num : nat) (msg : ptr) (msg_len : nat) (sig : bytes)
| CVerifyPop (pk pop : bytes).

Inductive cret :=
| RKeys (pk : bytes) (sk : pixel_sk) (pop : bytes)
| RSk (sk : pixel_sk)
| RSig (sig : bytes)
| RBool (b : bool).

Notation "'load!' x := e 'in' k" := (match e with Some x => k | None => None end)
  (at level 200, x pattern, e at level 200, k at level 200).

(** An array of [n] elements of [k] bytes. *)
Fixpoint chunks (k n : nat) (b : bytes) : list bytes :=
  match n with O => [] | S n' => firstn k b :: chunks k n' (skipn k b) end.

(** [std::mem::forget] of a Vec with bytes [b]: the block stays. *)
Definition leak (mm : mem) (b : bytes) : pixel_sk * mem := (PixelSk (length mm, 0%nat) (length b), mm ++ [b]).

(** src/ffi.rs 86-388. *)
Definition exec {E} (m : mode) (pp : pubparam E) (c : ccall) (mm : mem) : option (res cret * mem) :=
  match c with
  | CKeygen seed len =>
    load! s := load mm seed len in
    match c_keygen pp s with
    | Ok (pk, b, pop) => let (sk, mm') := leak mm b in Some (Ok (RKeys pk sk pop), mm')
    | Err e => Some (Err e, mm)
    | Panic p => Some (Panic p, mm)
    end
  | CSign sk msg len t =>
    load! ms := load mm msg len in
    load! k := load mm (ps_data sk) (ps_len sk) in
    Some (let! s := c_sign_present m pp k ms t in Ok (RSig s), mm)
  | CVerify pk msg len sig =>
    load! ms := load mm msg len in
    Some (let! b := c_verify m pp pk ms sig in Ok (RBool b), mm)
  | CUpdate sk seed len t =>
    load! s := load mm seed len in
    load! k := load mm (ps_data sk) (ps_len sk) in
    match c_sk_update m pp k s t with
    | Ok b => let (sk', mm') := leak mm b in Some (Ok (RSk sk'), mm')
    | Err e => Some (Err e, mm)
    | Panic p => Some (Panic p, mm)
    end
  | CAggregate sigs n =>
    load! b := load mm sigs (n * SIG_LEN) in
    Some (let! s := @c_aggregation E (chunks SIG_LEN n b) in Ok (RSig s), mm)
  | CVerifyAgg pks n msg len sig =>
    load! b := load mm pks (n * PK_LEN) in
    load! ms := load mm msg len in
    Some (let! r := c_verify_agg m pp (chunks PK_LEN n b) ms sig in Ok (RBool r), mm)
  | CVerifyPop pk pop => Some (let! r := @c_verify_pop E pk pop in Ok (RBool r), mm)
  end.

(** What the caller does between calls: get memory, and write to it. *)
Inductive cstep :=
| SCall (c : ccall)
| SAlloc (b : bytes)
| SWrite (p : ptr) (b : bytes).

Definition overwrite (old : bytes) (off : nat) (b : bytes) : bytes :=
  firstn off old ++ b ++ skipn (off + length b) old.
Fixpoint store (mm : mem) (blk off : nat) (b : bytes) : option mem :=
  match mm, blk with
  | [], _ => None
  | x :: mm', O => if (off + length b <=? length x)%nat then Some (overwrite x off b :: mm') else None
  | x :: mm', S blk' => load! r := store mm' blk' off b in Some (x :: r)
  end.

Definition cstep_exec {E} (m : mode) (pp : pubparam E) (s : cstep) (mm : mem) : option mem :=
  match s with
  | SCall c => load! (_, mm') := exec m pp c mm in Some mm'
  | SAlloc b => Some (mm ++ [b])
  | SWrite p b => store mm (fst p) (snd p) b
  end.
(** A run of the C program; it goes on after a panic. *)
Fixpoint crun {E} (m : mode) (pp : pubparam E) (l : list cstep) (mm : mem) : option mem :=
  match l with
  | [] => Some mm
  | s :: l' => load! mm' := cstep_exec m pp s mm in crun m pp l' mm'
  end.
