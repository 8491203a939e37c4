(** Small pieces: result objects, packed arrays, library handle, witness aliasing. *)
From Coq Require Import Strings.String.
From Verif Require Import Base Serialize TxModel.
Local Open Scope Z_scope.

(** * Result objects, core/__init__.py:92-187 *)
(** bitcointx [MoneyRange] with the default MAX_MONEY. *)
Definition MAX_MONEY : Z := 21000000 * 100000000.
Definition MoneyRange (a : Z) : bool := (0 <=? a) && (a <=? MAX_MONEY).

(** A result object: core/__init__.py:116-127 [BlindingOrUnblindingFailure] (and its two
    subclasses), 140-161 [BlindingSuccess], 168-180 [UnblindingSuccess]. Uint256 and
    CAsset values are their bytes. *)
Inductive result :=
| Failure (error_message : string)
| BlindingSuccess (num_successfully_blinded : Z) (blinding_factors asset_blinding_factors : list bytes)
| UnblindingSuccess (asset : bytes) (amount : Z) (blinding_factor asset_blinding_factor : bytes).

(** core/__init__.py:121-124: [assert bool(error_msg)] *)
Definition new_failure (msg : string) : res result :=
  let! _ := rassert (negb (String.eqb msg EmptyString)) EAssert in Ok (Failure msg).
(** core/__init__.py:153-161: the assertions are on types *)
Definition new_blinding_success (n : Z) (bfs abfs : list bytes) : res result := Ok (BlindingSuccess n bfs abfs).
(** core/__init__.py:174-180 *)
Definition new_unblinding_success (asset : bytes) (amount : Z) (bf abf : bytes) : res result :=
  let! _ := rassert (MoneyRange amount) EAssert in Ok (UnblindingSuccess asset amount bf abf).

(** core/__init__.py:117-119, 131-133: [error] *)
Definition result_error (r : result) : string :=
  match r with Failure m => m | _ => EmptyString end.
(** core/__init__.py:105-113: [ok] *)
Definition result_ok (r : result) : bool := if String.eqb (result_error r) EmptyString then true else false.
(** core/__init__.py:93-98: [__bool__] always raises *)
Definition result_bool (r : result) : res bool := Raise EType.

(** * secp256k1.py:201-211 [build_aligned_data_array] *)
Definition build_aligned_data_array (data_list : list bytes) (expected_len : Z) : res bytes :=
  let! _ := rassert (expected_len mod 32 =? 0) EAssert in
  let buf := concat data_list in
  let! _ := (if expected_len =? 0 then Raise EZeroDivision else Ok tt) in
  let! _ := rassert (blen buf mod expected_len =? 0) EAssert in
  let! _ := rassert (blen buf / expected_len =? Z.of_nat (length data_list)) EAssert in
  Ok buf.

(** * Library handle: secp256k1.py:27-77 and elementstx/__init__.py:46-64 *)
Section Handle.
Context {lib : Type}.
(** What the outside world answers at step [n] of a history: [os.path.isfile],
    bitcointx [secp256k1_load_library], presence of secp256k1_rangeproof_info. *)
Record world := mkWorld {
  isfile : nat -> string -> bool;
  load_library : nat -> option string -> res lib;
  has_rangeproof_info : lib -> bool
}.
(** secp256k1.py:35-47: [Secp256k1_ZKP]; the blinding context exists or is None. *)
Record handle := mkHandle { h_lib : lib; h_has_zkp : bool; h_blind_ctx : bool }.
(** module state: [elementstx.util._secp256k1_library_path], [_secp256k1] *)
Record lstate := mkL { lib_path : option string; the_handle : option handle }.
Inductive event := ESetPath (p : string) | EGetPath | EGetLib.
Inductive answer := AUnit | APath (p : option string) | AHandle (h : handle) | AExc (e : exn).

(** One call at step [n]: the answer, the new state and whether the loader was called
    (and with which path). *)
Definition step (w : world) (n : nat) (s : lstate) (e : event) : answer * lstate * option (option string) :=
  match e with
  | ESetPath p =>
      if isfile w n p then (AUnit, mkL (Some p) (the_handle s), None) else (AExc EValue, s, None)
  | EGetPath => (APath (lib_path s), s, None)
  | EGetLib =>
      match the_handle s with
      | Some h => (AHandle h, s, None)
      | None =>
          match load_library w n (lib_path s) with
          | Raise x => (AExc x, s, Some (lib_path s))
          | Ok l =>
              let has_zkp := has_rangeproof_info w l in
              let h := mkHandle l has_zkp has_zkp in
              (AHandle h, mkL (lib_path s) (Some h), Some (lib_path s))
          end
      end
  end.
Fixpoint run (w : world) (n : nat) (s : lstate) (evs : list event) : list (answer * option (option string)) :=
  match evs with
  | [] => []
  | e :: evs' => let '(a, s', l) := step w n s e in (a, l) :: run w (S n) s' evs'
  end.
Definition init_state : lstate := mkL None None.
End Handle.
Arguments world : clear implicits.
Arguments handle : clear implicits.
Arguments lstate : clear implicits.
Arguments answer : clear implicits.

(** * Aliasing of constructor arguments *)
(** A [bytes] argument is immutable; a [bytearray] argument is a reference to a buffer. *)
Inductive pybuf := PBytes (b : bytes) | PByteArray (addr : nat).
Definition heap := nat -> bytes.
Definition deref (h : heap) (x : pybuf) : bytes := match x with PBytes b => b | PByteArray a => h a end.
(** Python [bytes(x)]: a copy *)
Definition py_bytes (h : heap) (x : pybuf) : pybuf := PBytes (deref h x).

Record in_obj := mkInObj { io_script : list bytes; io_issproof : pybuf; io_keysproof : pybuf; io_pegin : list bytes }.
Record out_obj := mkOutObj { oo_surj : pybuf; oo_range : pybuf }.

(** core/__init__.py:441-459 [CElementsTxInWitness.__init__]: [bytes(...)] copies.
    CScriptWitness arguments are immutable already. *)
Definition new_in_witness (h : heap) (sw : list bytes) (iss keys : pybuf) (pegin : list bytes) : in_obj :=
  mkInObj sw (py_bytes h iss) (py_bytes h keys) pegin.
(** core/__init__.py:550-555 [CElementsTxOutWitness.__init__]: stored as given. *)
Definition new_out_witness (h : heap) (surj range : pybuf) : out_obj := mkOutObj surj range.

(** core/__init__.py:478-482, 568-570: serialization reads the buffers as they are now. *)
Definition serialize_in (h : heap) (o : in_obj) : res bytes :=
  ser_inwit (mkInWit (io_script o) (deref h (io_issproof o)) (deref h (io_keysproof o)) (io_pegin o)).
Definition serialize_out (h : heap) (o : out_obj) : res bytes :=
  ser_outwit (mkOutWit (deref h (oo_surj o)) (deref h (oo_range o))).

(** The caller's later mutations: buffer [a] now holds [b]. *)
Definition mutate (h : heap) (m : nat * bytes) : heap := fun a => if Nat.eqb a (fst m) then snd m else h a.
Definition mutations (h : heap) (ms : list (nat * bytes)) : heap := fold_left mutate ms h.
