(** Model of the parts of [bitcointx.core.serialize] and [bitcointx.core] that
    elementstx inherits.  bitcointx is an external dependency and is NOT in
    /repo: these definitions are assumptions about it (listed in DESIGN.md). *)
From Verif Require Import Base.
Local Open Scope Z_scope.

(** A deserializer reads a value from the front of a stream. *)
Definition parser (A : Type) := bytes -> res (A * bytes).

Definition pret {A} (a : A) : parser A := fun s => Ok (a, s).
Definition pfail {A} (e : exn) : parser A := fun _ => Raise e.
Definition pbind {A B} (p : parser A) (k : A -> parser B) : parser B :=
  fun s => match p s with Ok (a, r) => k a r | Raise e => Raise e end.

Notation "'do!' x ':=' p 'in' k" := (pbind p (fun x => k))
  (at level 200, x pattern, p at level 100, k at level 200, right associativity).

(** bitcointx.core.serialize.MAX_SIZE *)
Definition MAX_SIZE : Z := 0x02000000.

(** bitcointx.core.serialize.ser_read(f, n); [n] is never negative in the
    modelled callers. *)
Definition ser_read (n : Z) : parser bytes := fun s =>
  if MAX_SIZE <? n then Raise ESerialization
  else if blen s <? n then Raise ETruncation
  else Ok (firstn (Z.to_nat n) s, skipn (Z.to_nat n) s).

(** [struct.unpack("<H"/"<I"/"<Q", ser_read(f, n))[0]] *)
Definition read_le (n : nat) : parser Z :=
  do! b := ser_read (Z.of_nat n) in pret (le_val b).

(** VarIntSerializer (Bitcoin "compact size"). Negative values cannot occur:
    it is only applied to lengths. *)
Definition ser_varint (i : Z) : res bytes :=
  if i <? 0xfd then Ok [zb i]
  else if i <=? 0xffff then let! b := pack_le 2 i in Ok (zb 0xfd :: b)
  else if i <=? 0xffffffff then let! b := pack_le 4 i in Ok (zb 0xfe :: b)
  else let! b := pack_le 8 i in Ok (zb 0xff :: b).

Definition deser_varint : parser Z :=
  do! c := ser_read 1 in
  let r := le_val c in
  if r <? 0xfd then pret r
  else if r =? 0xfd then read_le 2
  else if r =? 0xfe then read_le 4
  else read_le 8.

(** BytesSerializer *)
Definition ser_bytes (b : bytes) : res bytes :=
  let! n := ser_varint (blen b) in Ok (n ++ b).
Definition deser_bytes : parser bytes :=
  do! n := deser_varint in ser_read n.

(** [for i in range(n): r.append(p(f))] with a count [n] read from the wire,
    by recursion on the binary count (so that a huge count is harmless). *)
Fixpoint prep_pos {A} (p : parser A) (n : positive) : parser (list A) :=
  match n with
  | xH => do! x := p in pret [x]
  | xO k => do! l1 := prep_pos p k in do! l2 := prep_pos p k in pret (l1 ++ l2)
  | xI k => do! x := p in do! l1 := prep_pos p k in do! l2 := prep_pos p k in pret (x :: l1 ++ l2)
  end.
Definition prep {A} (p : parser A) (n : Z) : parser (list A) :=
  match n with
  | Zpos k => prep_pos p k
  | _ => pret []
  end.

(** [tuple(p(f) for dummy in range(k))] *)
Fixpoint prep_nat {A} (p : parser A) (k : nat) : parser (list A) :=
  match k with
  | O => pret []
  | S k' => do! x := p in do! l := prep_nat p k' in pret (x :: l)
  end.

(** [for x in l: x.stream_serialize(f)] *)
Fixpoint ser_list {A} (f : A -> res bytes) (l : list A) : res bytes :=
  match l with
  | [] => Ok []
  | x :: r => let! b := f x in let! bs := ser_list f r in Ok (b ++ bs)
  end.

(** VectorSerializer *)
Definition ser_vector {A} (f : A -> res bytes) (l : list A) : res bytes :=
  let! n := ser_varint (Z.of_nat (length l)) in
  let! b := ser_list f l in Ok (n ++ b).
Definition deser_vector {A} (p : parser A) : parser (list A) :=
  do! n := deser_varint in prep p n.

(** Uint256 / COutPoint.hash: 32 raw bytes. *)
Definition deser_uint256 : parser bytes := ser_read 32.

(** CScriptWitness: count, then each stack item as bytes. *)
Definition ser_scriptwitness (st : list bytes) : res bytes := ser_vector ser_bytes st.
Definition deser_scriptwitness : parser (list bytes) := deser_vector deser_bytes.

(** Serializable.deserialize(buf): raises on trailing data. *)
Definition deserialize_all {A} (p : parser A) (s : bytes) : res A :=
  match p s with
  | Ok (a, []) => Ok a
  | Ok (_, _ :: _) => Raise EExtraData
  | Raise e => Raise e
  end.
