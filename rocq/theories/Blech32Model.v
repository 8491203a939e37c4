(** Model of /repo/elementstx/liquid_addr.py: blech32 and segwit addresses.

    A Python [str] is the list of its code points ([list Z]); Python ints are
    [Z], with [&], [^], [>>], [<<] the two's complement operations
    [Z.land], [Z.lxor], [Z.shiftr], [Z.shiftl] (as Python's). *)
From Coq Require Import ZArith List Bool.
From Verif Require Import Base.
Import ListNotations.
Local Open Scope Z_scope.

(** A Python str. *)
Definition pystr := list Z.

(** Python [==] on str and on lists of ints. *)
Fixpoint zl_eqb (a b : list Z) : bool :=
  match a, b with
  | [], [] => true
  | x :: a', y :: b' => (x =? y) && zl_eqb a' b'
  | _, _ => false
  end.

(** liquid_addr.py:30 [CHARSET], as code points. *)
Definition charset : pystr :=
  (* q   p   z   r   y   9  x   8  g   f   2  t   v   d   w   0 *)
  [113;112;122;114;121;57;120;56;103;102;50;116;118;100;119;48;
  (* s   3  j   n   5  4  k   h   c  e   6  m   u   a  7  l *)
   115;51;106;110;53;52;107;104;99;101;54;109;117;97;55;108].

(** liquid_addr.py:33-34 *)
Definition BECH32_CONST : Z := 1.
Definition BECH32M_CONST : Z := 0x455972a3350f7a1.

(** liquid_addr.py:37-40 *)
Inductive encoding := BECH32 | BECH32M.

Definition encoding_eqb (a b : encoding) : bool :=
  match a, b with BECH32, BECH32 | BECH32M, BECH32M => true | _, _ => false end.

(** liquid_addr.py:45 [generator] *)
Definition generator : list Z :=
  [0x7d52fba40bd886; 0x5e8dbf1a03950c; 0x1c3a3c74072a18; 0x385d72fa0e5139; 0x7093e5a608865b].

(** liquid_addr.py:50-51: [for i in range(5): chk ^= generator[i] if ((top >> i) & 1) else 0],
    [i] counting up while the list of generators is consumed. *)
Fixpoint polymod_gen (gens : list Z) (top : Z) (i : Z) (chk : Z) : Z :=
  match gens with
  | [] => chk
  | g :: r =>
      polymod_gen r top (i + 1)
        (Z.lxor chk (if Z.land (Z.shiftr top i) 1 =? 0 then 0 else g))
  end.

(** liquid_addr.py:48-51, one iteration of the loop over [values]. *)
Definition polymod_step (chk value : Z) : Z :=
  let top := Z.shiftr chk 55 in
  let chk := Z.lxor (Z.shiftl (Z.land chk 0x7fffffffffffff) 5) value in
  polymod_gen generator top 0 chk.

(** liquid_addr.py:43-52 [blech32_polymod] *)
Definition blech32_polymod (values : list Z) : Z := fold_left polymod_step values 1.

(** liquid_addr.py:55-57 [blech32_hrp_expand] *)
Definition blech32_hrp_expand (hrp : pystr) : list Z :=
  map (fun x => Z.shiftr x 5) hrp ++ [0] ++ map (fun x => Z.land x 31) hrp.

(** liquid_addr.py:60-68 [blech32_verify_checksum] *)
Definition blech32_verify_checksum (hrp : pystr) (data : list Z) : option encoding :=
  let check := blech32_polymod (blech32_hrp_expand hrp ++ data) in
  if check =? BECH32_CONST then Some BECH32
  else if check =? BECH32M_CONST then Some BECH32M
  else None.

(** [range(12)] as Python ints. *)
Definition range12 : list Z := [0;1;2;3;4;5;6;7;8;9;10;11].

(** liquid_addr.py:71-77 [blech32_create_checksum] *)
Definition blech32_create_checksum (enc : encoding) (hrp : pystr) (data : list Z) : list Z :=
  let values := blech32_hrp_expand hrp ++ data in
  let const := if encoding_eqb enc BECH32M then BECH32M_CONST else BECH32_CONST in
  let polymod := Z.lxor (blech32_polymod (values ++ repeat 0 12)) const in
  map (fun i => Z.land (Z.shiftr polymod (5 * (11 - i))) 31) range12.

(** [CHARSET[d]]: IndexError outside -32..31, negative indices count from the end. *)
Definition charset_at (d : Z) : res Z :=
  let i := if d <? 0 then d + 32 else d in
  if (0 <=? i) && (i <? 32) then Ok (nth (Z.to_nat i) charset 0) else Raise EIndex.

(** liquid_addr.py:81-84 [blech32_encode]; the separator '1' is code point 49. *)
Definition blech32_encode (enc : encoding) (hrp : pystr) (data : list Z) : res pystr :=
  let combined := data ++ blech32_create_checksum enc hrp data in
  let! cs := rmap charset_at combined in
  Ok (hrp ++ [49] ++ cs).

(** [str.lower]/[str.upper] on ASCII (the only strings they are applied to here,
    because of the short-circuit [or] of liquid_addr.py:89-90). *)
Definition lower_c (c : Z) : Z := if (65 <=? c) && (c <=? 90) then c + 32 else c.
Definition upper_c (c : Z) : Z := if (97 <=? c) && (c <=? 122) then c - 32 else c.
Definition lower (s : pystr) : pystr := map lower_c s.
Definition upper (s : pystr) : pystr := map upper_c s.

(** [str.rfind('1')]: the last index of code point 49, or -1. *)
Fixpoint rfind1_from (s : pystr) (i : Z) (found : Z) : Z :=
  match s with
  | [] => found
  | c :: r => rfind1_from r (i + 1) (if c =? 49 then i else found)
  end.
Definition rfind1 (s : pystr) : Z := rfind1_from s 0 (-1).

(** [CHARSET.find(x)] for a single character: first index, or -1. *)
Fixpoint find_from (l : list Z) (x : Z) (i : Z) : Z :=
  match l with
  | [] => -1
  | c :: r => if c =? x then i else find_from r x (i + 1)
  end.
Definition charset_find (x : Z) : Z := find_from charset x 0.

(** [x in CHARSET] *)
Definition in_charset (x : Z) : bool := existsb (Z.eqb x) charset.

(** liquid_addr.py:87-103 [blech32_decode]; the triple of three None is [None]. *)
Definition blech32_decode (bech : pystr) : option (encoding * pystr * list Z) :=
  if existsb (fun x => (x <? 33) || (x >? 126)) bech
     || (negb (zl_eqb (lower bech) bech) && negb (zl_eqb (upper bech) bech))
  then None
  else
    let bech := lower bech in
    let pos := rfind1 bech in
    let len := Z.of_nat (length bech) in
    if (pos <? 1) || (pos + 13 >? len) || (len >? 1000) then None
    else
      let tail := skipn (Z.to_nat (pos + 1)) bech in
      if negb (forallb in_charset tail) then None
      else
        let hrp := firstn (Z.to_nat pos) bech in
        let data := map charset_find tail in
        match blech32_verify_checksum hrp data with
        | None => None
        | Some enc => Some (enc, hrp, firstn (length data - 12) data)
        end.

(** liquid_addr.py:119-121, the inner [while bits >= tobits] loop.  [fuel] bounds the
    number of turns; each turn removes [tobits > 0] bits, so [Z.to_nat bits] turns
    suffice (bits < frombits + tobits always, at most 12 here). *)
Fixpoint drain (fuel : nat) (acc bits tobits maxv : Z) (ret : list Z) : Z * list Z :=
  match fuel with
  | O => (bits, ret)
  | S k =>
      if tobits <=? bits then
        let bits := bits - tobits in
        drain k acc bits tobits maxv (ret ++ [Z.land (Z.shiftr acc bits) maxv])
      else (bits, ret)
  end.

(** liquid_addr.py:114-121, the loop over [data]: None is the early [return None]. *)
Fixpoint convert_loop (frombits tobits maxv max_acc : Z) (data : list Z)
         (acc bits : Z) (ret : list Z) : option (Z * Z * list Z) :=
  match data with
  | [] => Some (acc, bits, ret)
  | value :: r =>
      if (value <? 0) || negb (Z.shiftr value frombits =? 0) then None
      else
        let acc := Z.land (Z.lor (Z.shiftl acc frombits) value) max_acc in
        let bits := bits + frombits in
        let '(bits, ret) := drain (Z.to_nat bits) acc bits tobits maxv ret in
        convert_loop frombits tobits maxv max_acc r acc bits ret
  end.

(** liquid_addr.py:106-127 [convertbits].  Modelled for positive [frombits] and
    [tobits] (the module only uses 5 and 8). *)
Definition convertbits (data : list Z) (frombits tobits : Z) (pad : bool) : option (list Z) :=
  let maxv := Z.shiftl 1 tobits - 1 in
  let max_acc := Z.shiftl 1 (frombits + tobits - 1) - 1 in
  match convert_loop frombits tobits maxv max_acc data 0 0 [] with
  | None => None
  | Some (acc, bits, ret) =>
      if pad then
        if negb (bits =? 0) then Some (ret ++ [Z.land (Z.shiftl acc (tobits - bits)) maxv])
        else Some ret
      else if (frombits <=? bits) || negb (Z.land (Z.shiftl acc (tobits - bits)) maxv =? 0)
      then None
      else Some ret
  end.

(** [bytes(l)] for a list of ints: ValueError if one is outside 0..255. *)
Definition bytes_of_list (l : list Z) : res bytes :=
  if forallb (fun z => (0 <=? z) && (z <? 256)) l then Ok (map zb l) else Raise EValue.

(** liquid_addr.py:130-148 [decode]; [(None, None)] is [Ok None].
    [hrp] is a str, so [hrpgot != hrp] holds when [hrpgot] is None. *)
Definition decode (hrp : pystr) (addr : pystr) : res (option (Z * bytes)) :=
  match blech32_decode addr with
  | None => Ok None
  | Some (enc, hrpgot, data) =>
      if negb (zl_eqb hrpgot hrp) then Ok None
      else
        match convertbits (skipn 1 data) 5 8 false with
        | None => Ok None
        | Some decoded =>
            let n := Z.of_nat (length decoded) in
            if (n <? 2) || (n >? 40 + 33) then Ok None
            else
              let! d0 := match data with d :: _ => Ok d | [] => Raise EIndex end in
              if d0 >? 16 then Ok None
              else if (d0 =? 0) && negb (n =? 20 + 33) && negb (n =? 32 + 33) then Ok None
              else if ((d0 =? 0) && negb (encoding_eqb enc BECH32))
                      || (negb (d0 =? 0) && negb (encoding_eqb enc BECH32M)) then Ok None
              else let! b := bytes_of_list decoded in Ok (Some (d0, b))
        end
  end.

(** liquid_addr.py:151-160 [encode] *)
Definition encode (hrp : pystr) (witver : Z) (witprog : bytes) : res (option pystr) :=
  let enc := if witver =? 0 then BECH32 else BECH32M in
  match convertbits (map bz witprog) 8 5 true with
  | None => Ok None
  | Some decoded =>
      let! ret := blech32_encode enc hrp (witver :: decoded) in
      let! back := decode hrp ret in
      match back with
      | None => Ok None
      | Some _ => Ok (Some ret)
      end
  end.
