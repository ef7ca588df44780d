(** Representation of Rust results, machine integers and byte strings.
    Nothing here comes from /repo except the list of error messages. *)
From Coq Require Export List Arith NArith ZArith Lia Bool.
From Coq Require Ascii String.
Export ListNotations.
Local Open Scope N_scope.

(** Build profile of the Rust crate: with or without overflow checks
    (Cargo's dev profile panics on overflow, the release profile wraps). *)
Inductive mode := Debug | Release.

(** Error messages: src/pixel_err.rs lines 3-12.  [E_IO] stands for an error of
    the underlying reader/writer (including unexpected EOF), [E_POINT] for an
    error of the group element decoder of the dependency pixel_param. *)
Inductive error :=
| E_SEED_TOO_SHORT | E_CIPHERSUITE | E_COMPRESS | E_TIME_STAMP
| E_TIME_NONE_PREFIX | E_SSK_EMPTY | E_TIME_DEPTH | E_SERIAL | E_DESERIAL
| E_IO | E_POINT.

(** Panic sites.  [P_ARITH]: arithmetic/shift overflow in a debug build;
    [P_INDEX]: slice index, [Vec::insert]/[Vec::remove] out of range;
    [P_HKDF]: "hkdf expand failed" (prng.rs 91, 131, 157);
    [P_OS2IP]: U512::from on more than 64 bytes, the assert_eq! of prng.rs 220
    or the Err arm of Fr::from_repr (prng.rs 248);
    [P_PRNG]: "prng not updated" (secret_key.rs 392);
    [P_TIME]: "The time stamps does not match!" (sig.rs 191, 231);
    [P_FFI]: the explicit panics and asserts of ffi.rs;
    [P_COPY]: copy_from_slice with different lengths;
    [P_ASSERT]: a failed assert or unwrap of the test programs. *)
Inductive panic :=
| P_ARITH | P_INDEX | P_HKDF | P_OS2IP | P_PRNG | P_TIME | P_FFI | P_COPY | P_ASSERT.

Inductive res (A : Type) :=
| Ok (a : A)
| Err (e : error)
| Panic (p : panic).
Arguments Ok {A} a.
Arguments Err {A} e.
Arguments Panic {A} p.

Definition bind {A B} (x : res A) (k : A -> res B) : res B :=
  match x with Ok a => k a | Err e => Err e | Panic p => Panic p end.

Notation "'let!' x := e 'in' k" := (bind e (fun x => k))
  (at level 200, x pattern, e at level 100, k at level 200, right associativity).

Definition is_ok {A} (x : res A) : bool := match x with Ok _ => true | _ => false end.
Definition is_panic {A} (x : res A) : bool := match x with Panic _ => true | _ => false end.

(** Powers of two; [two_p] is used for u64 constants. *)
Definition pow2 (n : nat) : N := 2 ^ N.of_nat n.

(** u64 arithmetic.  [1u64 << d] with a usize [d]: overflow means [d >= 64];
    the release build masks the shift amount. *)
Definition two64 : N := 18446744073709551616.
Definition ovf {A} (m : mode) (wrapped : A) : res A :=
  match m with Debug => Panic P_ARITH | Release => Ok wrapped end.
Definition shl64 (m : mode) (d : nat) : res N :=
  if (d <? 64)%nat then Ok (pow2 d) else ovf m (pow2 (d mod 64)).
Definition sub64 (m : mode) (a b : N) : res N :=
  if b <=? a then Ok (a - b) else ovf m (two64 + a - b).
Definition add64 (m : mode) (a b : N) : res N :=
  if a + b <? two64 then Ok (a + b) else ovf m ((a + b) mod two64).
Definition mul64 (m : mode) (a b : N) : res N :=
  if a * b <? two64 then Ok (a * b) else ovf m ((a * b) mod two64).

(** Slice indexing and Vec operations: a bad index is a panic. *)
Definition nth_res {A} (l : list A) (i : nat) : res A :=
  match nth_error l i with Some x => Ok x | None => Panic P_INDEX end.
Definition insert_at {A} (i : nat) (x : A) (l : list A) : res (list A) :=
  if (i <=? length l)%nat then Ok (firstn i l ++ x :: skipn i l) else Panic P_INDEX.
Definition remove_at {A} (i : nat) (l : list A) : res (list A) :=
  if (i <? length l)%nat then Ok (firstn i l ++ skipn (S i) l) else Panic P_INDEX.

(** Byte strings. *)
Definition bytes := list N.
Definition is_byte (b : N) : Prop := b < 256.
Definition are_bytes (l : bytes) : Prop := Forall is_byte l.

Definition bytes_eqb (a b : bytes) : bool :=
  if list_eq_dec N.eq_dec a b then true else false.

(** A Rust string literal as bytes. *)
Fixpoint str (s : String.string) : bytes :=
  match s with
  | String.EmptyString => []
  | String.String c s' => Ascii.N_of_ascii c :: str s'
  end.
Arguments str s%string_scope.

(** [x as u8] for a u64 or usize. *)
Definition as_u8 (x : N) : N := x mod 256.

(** The four bytes [(t >> 24 & 0xFF) as u8, ...] that appear in
    secret_key.rs 227-232, sig.rs 193-198, serdes.rs 87-93 and 302-307. *)
Definition time_bytes (t : N) : bytes :=
  [ as_u8 (N.land (N.shiftr t 24) 255);
    as_u8 (N.land (N.shiftr t 16) 255);
    as_u8 (N.land (N.shiftr t 8) 255);
    as_u8 (N.land t 255) ].

(** [u32::from_be_bytes] on four bytes (serdes.rs 121, 338). *)
Definition from_be4 (l : bytes) : N :=
  match l with
  | [a; b; c; d] => ((a * 256 + b) * 256 + c) * 256 + d
  | _ => 0
  end.

(** State passing for [&mut self] methods: the result together with the state
    left behind, also on [Err] and [Panic]. *)
Definition st (S A : Type) := S -> res A * S.
Definition sret {S A} (a : A) : st S A := fun s => (Ok a, s).
Definition slift {S A} (r : res A) : st S A := fun s => (r, s).
Definition sget {S} : st S S := fun s => (Ok s, s).
Definition sput {S} (s' : S) : st S unit := fun _ => (Ok tt, s').
Definition sbind {S A B} (x : st S A) (k : A -> st S B) : st S B :=
  fun s => match x s with
           | (Ok a, s') => k a s'
           | (Err e, s') => (Err e, s')
           | (Panic p, s') => (Panic p, s')
           end.
Notation "'do!' x <- e ; k" := (sbind e (fun x => k))
  (at level 200, x pattern, e at level 100, k at level 200, right associativity).

(** Use of a [&mut] method on a local variable: keep the new value. *)
Definition run_mut {S} (f : st S unit) (s : S) : res S :=
  match f s with
  | (Ok _, s') => Ok s'
  | (Err e, _) => Err e
  | (Panic p, _) => Panic p
  end.
