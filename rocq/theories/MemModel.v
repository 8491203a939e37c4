(** Calls of the library through memory: the buffers that core/__init__.py makes with ctypes, the pointers it hands over, what
    libsecp256k1-zkp reads and writes there.

    Memory is a list of objects, an address is the number of an object. Python's bytes objects must not be written to; buffers
    (ctypes.create_string_buffer) may be. A run that ends in [None] has undefined behaviour: it read or wrote past the end of an
    object, wrote into a bytes object, gave the library arguments that it takes to be an error of the program, or failed the assertion
    of 1674-1678. Integers handed over by reference (ctypes.byref) are results here; the library's own objects (surjection proofs,
    [LifeModel.v]) are values. *)
From Coq Require Import ZArith List Bool.
From Verif Require Import Base TxModel BlindModel.
Import ListNotations.
Local Open Scope Z_scope.

Record mobj := mkObj { o_buffer : bool; o_data : bytes }.
Definition mem := list mobj.
Definition K (A : Type) : Type := mem -> option (A * mem).
Definition kret {A} (a : A) : K A := fun m => Some (a, m).
Definition kbind {A B} (k : K A) (f : A -> K B) : K B := fun m => match k m with None => None | Some (a, m') => f a m' end.
Notation "x <~~ k ;; f" := (kbind k (fun x => f)) (at level 61, k at next level, right associativity).
Definition undefined {A} : K A := fun _ => None.
Fixpoint kmap {A B} (f : A -> K B) (l : list A) : K (list B) :=
  match l with [] => kret [] | x :: l' => y <~~ f x ;; ys <~~ kmap f l' ;; kret (y :: ys) end.

(** ctypes.create_string_buffer(n), create_string_buffer(data, len(data)) *)
Definition kalloc (o : mobj) : K nat := fun m => Some (length m, m ++ [o]).
Definition new_buffer (n : nat) : K nat := kalloc (mkObj true (zeros n)).
(** buf.raw, bytes(buf), or the contents of a bytes object *)
Definition kraw (a : nat) : K bytes := fun m => match nth_error m a with Some o => Some (o_data o, m) | None => None end.
(** The library reads [n] bytes at [a] *)
Definition kread (a n : nat) : K bytes := fun m =>
  match nth_error m a with
  | Some o => if (length (o_data o) <? n)%nat then None else Some (firstn n (o_data o), m)
  | None => None
  end.
(** The library writes [b] at [a] *)
Definition kwrite (a : nat) (b : bytes) : K unit := fun m =>
  match nth_error m a with
  | Some (mkObj true d) => if (length d <? length b)%nat then None
      else Some (tt, firstn a m ++ mkObj true (b ++ skipn (length b) d) :: skipn (S a) m)
  | _ => None
  end.

Section Library.
Variable z : Crypto.
(** What the library leaves in a buffer when it fails *)
Variable junk : bytes.
Definition debris (n : nat) : bytes := firstn n (junk ++ zeros n).

(** * The library's functions, signatures as declared in core/secp256k1.py:78-199 *)
(** A result of [n] bytes written to [out]; true: the function returns 1 *)
Definition c_out (out n : nat) (r : option bytes) : K bool :=
  match r with
  | Some b => _ <~~ kwrite out b ;; kret true
  | None => _ <~~ kwrite out (debris n) ;; kret false
  end.
Definition c_generator_parse (out inp : nat) : K bool := x <~~ kread inp 33 ;; c_out out 64 (gen_parse z x).
Definition c_generator_generate (out key : nat) : K bool := x <~~ kread key 32 ;; c_out out 64 (gen_generate z x).
Definition c_generator_generate_blinded (out key blind : nat) : K bool :=
  x <~~ kread key 32 ;; b <~~ kread blind 32 ;; c_out out 64 (gen_generate_blinded z x b).
Definition c_generator_serialize (out gen : nat) : K bool := g <~~ kread gen 64 ;; c_out out 33 (gen_serialize z g).
Definition c_pedersen_commit (out blind : nat) (value : Z) (gen : nat) : K bool :=
  b <~~ kread blind 32 ;; g <~~ kread gen 64 ;; c_out out 64 (ped_commit z b value g).
Definition c_pedersen_commitment_serialize (out commit : nat) : K bool := c <~~ kread commit 64 ;; c_out out 33 (ped_serialize z c).
Definition c_pedersen_commitment_parse (out inp : nat) : K bool := x <~~ kread inp 33 ;; c_out out 64 (ped_parse z x).
(** Arrays of [n_total] values and pointers; the last of the [n_total] blinding factors is overwritten *)
Definition c_blind_sum (values : list Z) (gptrs bptrs : list nat) (n_total n_inputs : nat) : K bool :=
  if (length values <? n_total)%nat || (length gptrs <? n_total)%nat || (length bptrs <? n_total)%nat || (n_total <=? n_inputs)%nat then undefined
  else
    gs <~~ kmap (fun a => kread a 32) (firstn n_total gptrs) ;;
    bs <~~ kmap (fun a => kread a 32) (firstn n_total bptrs) ;;
    c_out (nth (n_total - 1) bptrs O) 32 (blind_sum z (firstn n_total values) gs bs n_total n_inputs).
(** [len] bytes at a pointer, or none at a null pointer *)
Definition read_opt (p : option nat) (len : nat) : K bytes :=
  match p with Some a => kread a len | None => if (len =? 0)%nat then kret [] else undefined end.
(** The result: the new *plen; a proof longer than *plen is a failure *)
Definition c_rangeproof_sign (out plen : nat) (minv : Z) (commit blind nonce : nat) (e bits value : Z) (msg msglen : nat)
    (extra : option nat) (extralen gen : nat) : K (option nat) :=
  c <~~ kread commit 64 ;; b <~~ kread blind 32 ;; n <~~ kread nonce 32 ;; ms <~~ kread msg msglen ;; ex <~~ read_opt extra extralen ;;
  g <~~ kread gen 64 ;;
  match rp_sign z minv c b n e bits value ms ex g with
  | Some p => if (plen <? length p)%nat then _ <~~ kwrite out (debris plen) ;; kret None else _ <~~ kwrite out p ;; kret (Some (length p))
  | None => _ <~~ kwrite out (debris plen) ;; kret None
  end.
(** The result: the amount and the length of the message *)
Definition c_rangeproof_rewind (blind_out msg_out nonce commit proof plen : nat) (extra : option nat) (extralen gen : nat) : K (option (Z * nat)) :=
  n <~~ kread nonce 32 ;; c <~~ kread commit 64 ;; p <~~ kread proof plen ;; ex <~~ read_opt extra extralen ;; g <~~ kread gen 64 ;;
  match rp_rewind z n c p ex g with
  | Some (b, v, ms) => _ <~~ kwrite blind_out b ;; _ <~~ kwrite msg_out ms ;; kret (Some (v, length ms))
  | None => _ <~~ kwrite blind_out (debris 32) ;; kret None
  end.
Definition c_surjectionproof_init (tags n k asset : nat) (iterations : Z) (seed : nat) : K (option (bytes * nat)) :=
  t <~~ kread tags (32 * n) ;; a <~~ kread asset 32 ;; s <~~ kread seed 32 ;; kret (sp_init z t n k a iterations s).
Definition c_surjectionproof_generate (proof : bytes) (gens n gen i ib ob : nat) : K (option bytes) :=
  b <~~ kread gens (64 * n) ;; g <~~ kread gen 64 ;; x <~~ kread ib 32 ;; y <~~ kread ob 32 ;; kret (sp_generate z proof b n g i x y).
Definition c_surjectionproof_verify (proof : bytes) (gens n gen : nat) : K bool :=
  b <~~ kread gens (64 * n) ;; g <~~ kread gen 64 ;; kret (sp_verify z proof b n g).
(** restype c_int (186) *)
Definition c_surjectionproof_serialized_size (proof : bytes) : Z := c_int (blen (sp_serialize z proof)).
Definition c_surjectionproof_serialize (out outlen : nat) (proof : bytes) : K nat :=
  let b := sp_serialize z proof in
  if (outlen <? length b)%nat then kret outlen else _ <~~ kwrite out b ;; kret (length b).

(** * The calls in core/__init__.py: arguments are addresses of bytes objects, [None] the failure of the library *)
(** out = create_string_buffer(n); ret = f(out, ..); if ret != 1: ..; out.raw *)
Definition py_out (n : nat) (f : nat -> K bool) : K (option bytes) :=
  out <~~ new_buffer n ;; ok <~~ f out ;; if ok : bool then b <~~ kraw out ;; kret (Some b) else kret None.
(** core/__init__.py:1317-1324, 1397-1406, 2027-2034 *)
Definition py_generator_parse (a : nat) := py_out 64 (fun out => c_generator_parse out a).
(** core/__init__.py:313-317, 1366-1374, 1382-1388, 2036-2042 *)
Definition py_generator_generate (a : nat) := py_out 64 (fun out => c_generator_generate out a).
(** core/__init__.py:1329-1338, 1780-1785, 2085-2094 *)
Definition py_generator_generate_blinded (a b : nat) := py_out 64 (fun out => c_generator_generate_blinded out a b).
(** core/__init__.py:318-324, 1786-1793, 2096-2110; CConfidentialAsset._committedSize is 33 *)
Definition py_generator_serialize (g : nat) := py_out 33 (fun out => c_generator_serialize out g).
(** core/__init__.py:1801-1807 *)
Definition py_pedersen_commit (b : nat) (v : Z) (g : nat) := py_out 64 (fun out => c_pedersen_commit out b v g).
(** core/__init__.py:1808-1815 *)
Definition py_pedersen_commitment_serialize (c : nat) := py_out 33 (fun out => c_pedersen_commitment_serialize out c).
(** core/__init__.py:2044-2051 *)
Definition py_pedersen_commitment_parse (a : nat) := py_out 64 (fun out => c_pedersen_commitment_parse out a).
(** core/__init__.py:1639-1680: [assetblinds], [blinds] are the addresses of the factors' data. The two hashes of 1662 and 1674 are
    compared as the texts hashed. *)
Definition py_blind_sum (amounts : list Z) (assetblinds blinds : list nat) (n k : nat) : K (option bytes) :=
  d <~~ kraw (last blinds O) ;;
  last_blind <~~ kalloc (mkObj true d) ;;
  let blindptrs := removelast blinds ++ [last_blind] in
  before <~~ kmap kraw blinds ;;
  ok <~~ c_blind_sum amounts assetblinds blindptrs n k ;;
  if ok : bool then
    after <~~ kmap kraw blinds ;;
    if bytes_eqb (concat before) (concat after) then b <~~ kraw last_blind ;; kret (Some b) else undefined
  else kret None.
(** core/__init__.py:1855-1892 *)
Definition py_rangeproof_sign (minv : Z) (commit blind nonce : nat) (e bits value : Z) (msg msglen script scriptlen gen : nat) : K (option bytes) :=
  out <~~ new_buffer (Z.to_nat 5134) ;;
  r <~~ c_rangeproof_sign out (Z.to_nat 5134) minv commit blind nonce e bits value msg msglen
          (if (scriptlen =? 0)%nat then None else Some script) scriptlen gen ;;
  match r with Some n => b <~~ kraw out ;; kret (Some (firstn n b)) | None => kret None end.
(** core/__init__.py:2018-2084: the first [msg_size] bytes of [msg]; only 64 are used, 2079-2084 *)
Definition py_rangeproof_rewind (nonce commit proof plen script scriptlen gen : nat) : K (option (bytes * Z * bytes)) :=
  msg <~~ new_buffer (Z.to_nat 4096) ;;
  blinding_factor_out <~~ new_buffer 32 ;;
  r <~~ c_rangeproof_rewind blinding_factor_out msg nonce commit proof plen (if (scriptlen =? 0)%nat then None else Some script) scriptlen gen ;;
  match r with
  | Some (v, n) => b <~~ kraw blinding_factor_out ;; ms <~~ kraw msg ;; kret (Some (b, v, firstn n ms))
  | None => kret None
  end.
(** core/__init__.py:1965-1975; a negative size makes create_string_buffer raise *)
Definition py_surjectionproof_serialize (proof : bytes) : K bytes :=
  let expected := c_surjectionproof_serialized_size proof in
  if expected <? 0 then undefined
  else
    out <~~ new_buffer (Z.to_nat expected) ;;
    n <~~ c_surjectionproof_serialize out (Z.to_nat expected) proof ;;
    if Z.of_nat n =? expected then kraw out else undefined.

(** * The library as the calls above make it appear *)
(** Memory when a call begins, and which values given to it are objects of that memory: the values for which [share] is true are taken from
    there if there is such a bytes object, the others are objects of their own. *)
Variable m0 : mem.
Variable share : bytes -> bool.
Fixpoint find_obj (m : mem) (b : bytes) (k : nat) : option nat :=
  match m with
  | [] => None
  | mkObj false d :: m' => if bytes_eqb d b then Some k else find_obj m' b (S k)
  | _ :: m' => find_obj m' b (S k)
  end.
Definition obj_of (b : bytes) : K nat := fun m =>
  match (if share b then find_obj m b O else None) with Some a => Some (a, m) | None => kalloc (mkObj false b) m end.
Fixpoint mem_eqb (m m' : mem) : bool :=
  match m, m' with
  | [], [] => true
  | mkObj w d :: m, mkObj w' d' :: m' => Bool.eqb w w' && bytes_eqb d d' && mem_eqb m m'
  | _, _ => false
  end.
(** The result of a call; anything ([u]) if it has undefined behaviour or changes an object that was there before. *)
Definition run {A} (u : A) (k : K A) : A :=
  match k m0 with
  | Some (a, m) => if mem_eqb (firstn (length m0) m) m0 then a else u
  | None => u
  end.
Variable u_bytes : option bytes.
Variable u_rewind : option (bytes * Z * bytes).
Variable u_init : option (bytes * nat).
Variable u_bool : bool.
Definition through_memory : Crypto := mkCrypto (c_hash z) (c_sha z) (c_mid z)
  (fun x => run u_bytes (a <~~ obj_of x ;; py_generator_parse a))
  (fun x => run u_bytes (a <~~ obj_of x ;; py_generator_generate a))
  (fun x y => run u_bytes (a <~~ obj_of x ;; b <~~ obj_of y ;; py_generator_generate_blinded a b))
  (fun g => run u_bytes (a <~~ obj_of g ;; py_generator_serialize a))
  (fun b v g => run u_bytes (x <~~ obj_of b ;; y <~~ obj_of g ;; py_pedersen_commit x v y))
  (fun c => run u_bytes (a <~~ obj_of c ;; py_pedersen_commitment_serialize a))
  (fun x => run u_bytes (a <~~ obj_of x ;; py_pedersen_commitment_parse a))
  (fun vs gs bs n k => run u_bytes (ga <~~ kmap obj_of gs ;; ba <~~ kmap obj_of bs ;; py_blind_sum vs ga ba n k))
  (fun minv c b nonce e bits v msg extra g => run u_bytes
     (c' <~~ obj_of c ;; b' <~~ obj_of b ;; n' <~~ obj_of nonce ;; m' <~~ obj_of msg ;; x' <~~ obj_of extra ;; g' <~~ obj_of g ;;
      py_rangeproof_sign minv c' b' n' e bits v m' (length msg) x' (length extra) g'))
  (fun nonce c proof extra g => run u_rewind
     (n' <~~ obj_of nonce ;; c' <~~ obj_of c ;; p' <~~ obj_of proof ;; x' <~~ obj_of extra ;; g' <~~ obj_of g ;;
      py_rangeproof_rewind n' c' p' (length proof) x' (length extra) g'))
  (fun tags n k a it seed => run u_init (t' <~~ obj_of tags ;; a' <~~ obj_of a ;; s' <~~ obj_of seed ;; c_surjectionproof_init t' n k a' it s'))
  (fun p buf n gen i ib ob => run u_bytes
     (b' <~~ obj_of buf ;; g' <~~ obj_of gen ;; x' <~~ obj_of ib ;; y' <~~ obj_of ob ;; c_surjectionproof_generate p b' n g' i x' y'))
  (fun p buf n gen => run u_bool (b' <~~ obj_of buf ;; g' <~~ obj_of gen ;; c_surjectionproof_verify p b' n g'))
  (fun p => run (match u_bytes with Some b => b | None => [] end) (py_surjectionproof_serialize p))
  (pk_fullyvalid z) (sk_valid z) (sk_pub z) (ecdh z).
End Library.
