(** Vocabulary for the properties about several objects in one stream. *)
From Verif Require Import Base Env SubKey SecretKey Keys Sig IO Serdes SpecSer.
Local Open Scope N_scope.

(** Objects with the form (compressed or not) they are written in; signatures are compressed. *)
Inductive item (E : env) :=
| ISig (s : signature E) | IPk (c : bool) (x : pubkey E) | IPop (c : bool) (x : proof E) | ISk (c : bool) (x : seckey E).
Arguments ISig {E}. Arguments IPk {E}. Arguments IPop {E}. Arguments ISk {E}.

(** What a reader has to know. *)
Inductive kind := KSig | KPk (c : bool) | KPop (c : bool) | KSk (c : bool).
Definition kind_of {E} (i : item E) : kind :=
  match i with ISig _ => KSig | IPk c _ => KPk c | IPop c _ => KPop c | ISk c _ => KSk c end.

Definition fits {E} (i : item E) : Prop :=
  match i with ISig s => wf_sig s | IPk _ x => wf_pk x | IPop _ x => wf_pop x | ISk _ x => wf_sk x end.
Definition item_blob {E} (i : item E) : bytes :=
  match i with ISig s => sig_blob true s | IPk c x => pk_blob c x | IPop c x => pop_blob c x | ISk c x => sk_blob c x end.
Definition blobs {E} (l : list (item E)) : bytes := concat (map item_blob l).

(** One call of serialize and deserialize. *)
Definition write_item {E} (i : item E) : st writer unit :=
  match i with ISig s => sig_serialize s true | IPk c x => pk_serialize x c | IPop c x => pop_serialize x c | ISk c x => sk_serialize x c end.
Definition read_item {E} (k : kind) : st reader (item E) :=
  match k with
  | KSig => do! s <- sig_deserialize true ; sret (ISig s)
  | KPk c => do! x <- pk_deserialize c ; sret (IPk c x)
  | KPop c => do! x <- pop_deserialize c ; sret (IPop c x)
  | KSk c => do! x <- sk_deserialize c ; sret (ISk c x)
  end.

(** One after the other, up to the first error. *)
Fixpoint write_items {E} (l : list (item E)) : st writer unit :=
  match l with [] => sret tt | i :: l' => do! _ <- write_item i ; write_items l' end.
Fixpoint read_items {E} (l : list kind) : st reader (list (item E)) :=
  match l with [] => sret [] | k :: l' => do! i <- read_item k ; do! r <- read_items l' ; sret (i :: r) end.
