(** Model of src/time.rs. *)
From Verif Require Import Base.
Local Open Scope N_scope.

(** src/time.rs 15-18: struct TimeVec. *)
Record timevec := TimeVec { tv_time : N; tv_vec : list N }.

(** src/time.rs 103-150: time_to_vec.  [1 << d] is a u64 (inferred from the
    comparison with [time]); the debug println! is left out. *)
Fixpoint time_to_vec (m : mode) (time : N) (d : nat) : res (list N) :=
  match d with
  | O => Err E_TIME_DEPTH
  | S d1 =>
    let! max_t := shl64 m d in
    if (max_t <? time) || (time =? 0) then Err E_TIME_STAMP
    else if time =? 1 then Ok []
    else
      let! threshold := shl64 m d1 in
      if threshold <? time then
        let! t1 := sub64 m time threshold in
        let! tmp := time_to_vec m t1 d1 in
        Ok (2 :: tmp)
      else
        let! t1 := sub64 m time 1 in
        let! tmp := time_to_vec m t1 d1 in
        Ok (1 :: tmp)
  end.

(** src/time.rs 154-178: vec_to_time.  The operands of
    [1 + (tmp[0]-1) * ((1u64 << (d-1)) - 1) + vec_to_time(t_vec, d-1)?] are
    evaluated left to right. *)
Fixpoint vec_to_time (m : mode) (v : list N) (d : nat) : res N :=
  match d with
  | O => Err E_TIME_DEPTH
  | S d1 =>
    match v with
    | [] => Ok 1
    | x :: v' =>
      let! a := sub64 m x 1 in
      let! p := shl64 m d1 in
      let! b := sub64 m p 1 in
      let! ab := mul64 m a b in
      let! l := add64 m 1 ab in
      let! r := vec_to_time m v' d1 in
      add64 m l r
    end
  end.

(** src/time.rs 46-49: TimeVec::init. *)
Definition tv_init (m : mode) (time : N) (depth : nat) : res timevec :=
  let! v := time_to_vec m time depth in
  Ok (TimeVec time v).

(** slice::starts_with of std. *)
Fixpoint starts_with (l p : list N) {struct p} : bool :=
  match p with
  | [] => true
  | x :: p' => match l with [] => false | y :: l' => (x =? y) && starts_with l' p' end
  end.

(** src/time.rs 57-63: TimeVec::is_prefix. *)
Definition tv_is_prefix (self other : timevec) : bool :=
  if tv_time other <=? tv_time self then false
  else starts_with (tv_vec other) (tv_vec self).

(** src/time.rs 14: derived PartialEq. *)
Definition tv_eqb (a b : timevec) : bool :=
  (tv_time a =? tv_time b) && bytes_eqb (tv_vec a) (tv_vec b).

(** src/time.rs 84-96: the loop of gamma_list.  [pre] is [self.vec[0..i]] and
    [rest] is [self.vec[i..]]. *)
Fixpoint gamma_loop (m : mode) (depth : nat) (pre rest : list N) (acc : list timevec)
  : res (list timevec) :=
  match rest with
  | [] => Ok acc
  | x :: rest' =>
    let! acc' :=
      (if x =? 1 then
         let tmp := pre ++ [2] in
         let! t := vec_to_time m tmp depth in
         insert_at 1 (TimeVec t tmp) acc
       else Ok acc) in
    gamma_loop m depth (pre ++ [x]) rest' acc'
  end.

(** src/time.rs 73-98: TimeVec::gamma_list. *)
Definition gamma_list (m : mode) (self : timevec) (depth : nat) : res (list timevec) :=
  gamma_loop m depth [] (tv_vec self) [self].
