(** std::io::Read and std::io::Write as schedules of events. *)
From Verif Require Import Base.
Local Open Scope N_scope.

(** One call of [Read::read]: some bytes are available, the call is interrupted
    (ErrorKind::Interrupted), or it fails.  When the schedule is used up the reader
    is at end of file.  A byte slice [b] is the reader [rpush b []]. *)
Inductive revent := RData (b : bytes) | RIntr | RFail.
Definition reader := list revent.

Definition rpush (b : bytes) (r : reader) : reader :=
  match b with [] => r | _ => RData b :: r end.

(** [Read::read] into a one-byte buffer: [Ok None] is [Ok(0)]. *)
Definition read1 : st reader (option N) := fun r =>
  match r with
  | [] => (Ok None, [])
  | RIntr :: r' => (Err E_IO, r')
  | RFail :: r' => (Err E_IO, r')
  | RData [] :: r' => (Ok None, r')
  | RData (b :: bs) :: r' => (Ok (Some b), rpush bs r')
  end.

(** [Read::read_exact] for a buffer of [n] bytes: loops over [read], retries when
    interrupted, UnexpectedEof when [read] returns 0. *)
Fixpoint read_exact_loop (r : reader) (n : nat) : res bytes * reader :=
  match n with
  | O => (Ok [], r)
  | _ =>
    match r with
    | [] => (Err E_IO, [])
    | RIntr :: r' => read_exact_loop r' n
    | RFail :: r' => (Err E_IO, r')
    | RData [] :: r' => (Err E_IO, r')
    | RData bs :: r' =>
      if (n <=? length bs)%nat then (Ok (firstn n bs), rpush (skipn n bs) r')
      else match read_exact_loop r' (n - length bs) with
           | (Ok l, r'') => (Ok (bs ++ l), r'')
           | (Err e, r'') => (Err e, r'')
           | (Panic p, r'') => (Panic p, r'')
           end
    end
  end.
Definition read_exact (n : nat) : st reader bytes := fun r => read_exact_loop r n.

(** One call of [Write::write]: accepts up to [n] bytes, is interrupted, or fails.
    When the schedule is used up everything is accepted (a Vec is the writer with
    the empty schedule). *)
Inductive wevent := WAccept (n : nat) | WIntr | WFail.
Record writer := Writer { w_out : bytes; w_script : list wevent }.

(** [Write::write_all]. *)
Fixpoint write_all_loop (script : list wevent) (out buf : bytes) : res unit * writer :=
  match buf with
  | [] => (Ok tt, Writer out script)
  | _ =>
    match script with
    | [] => (Ok tt, Writer (out ++ buf) [])
    | WIntr :: s => write_all_loop s out buf
    | WFail :: s => (Err E_IO, Writer out s)
    | WAccept O :: s => (Err E_IO, Writer out s)
    | WAccept n :: s => write_all_loop s (out ++ firstn n buf) (skipn n buf)
    end
  end.
Definition write_all (buf : bytes) : st writer unit :=
  fun w => write_all_loop (w_script w) (w_out w) buf.

Definition vec_writer (b : bytes) : writer := Writer b [].
