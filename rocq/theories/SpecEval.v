(** Specification: what Python computes from the text of an expression, for the expressions that [repr] prints: calls with
    positional and named arguments, lists, ints, booleans and strings of hexadecimal digits. *)
From Coq Require Import Strings.String Strings.Ascii ZArith.
From Verif Require Import Base TxModel SpecPrint.
Import ListNotations.
Local Open Scope string_scope.

(** Objects; [m]: of the mutable class *)
Inductive pyval :=
| VBytes (b : bytes) | VInt (z : Z) | VBool (b : bool) | VList (l : list pyval)
| VUint256 (d : bytes) | VAsset (d : bytes) | VScript (s : bytes) | VStack (l : list bytes) | VField (c : cclass) (d : bytes) | VIssuance (i : issuance)
| VOutPoint (m : bool) (o : outpoint) | VInWit (m : bool) (w : inwit) | VOutWit (m : bool) (w : outwit) | VTxWit (m : bool) (w : txwit)
| VTxIn (m : bool) (i : txin) | VTxOut (m : bool) (o : txout).

Definition class (m : bool) (name : string) : string := (if m then "CElementsMutable" else "CElements") ++ name.
Definition field_class (c : cclass) : string :=
  match c with CConfAsset => "CConfidentialAsset" | CConfValue => "CConfidentialValue" | CConfNonce => "CConfidentialNonce" end.
Definition zero256 : bytes := repeat x00 32.

(** An argument: the name, if given, and the value. *)
Definition arg : Type := (option string * pyval)%type.
Definition pos (v : pyval) : arg := (None, v).

(** The constructors: arguments that they take, and the object they make. Left out: other names of the same arguments, and
    objects of the other mutability, which the constructors convert. *)
Inductive Calls : string -> list arg -> pyval -> Prop :=
| C_uint256 d : blen d = 32%Z -> Calls "Uint256" [pos (VBytes d)] (VUint256 d)
| C_asset d : blen d = 32%Z -> Calls "CAsset" [pos (VBytes d)] (VAsset d)
| C_no_field c : Calls (field_class c) [] (VField c [])
| C_field c b f : conf_new c b = Ok f -> Calls (field_class c) [pos (VBytes b)] (VField c f)
| C_amount z f : conf_value_of_amount z = Ok f -> Calls (field_class CConfValue) [pos (VInt z)] (VField CConfValue f)
| C_explicit a f : conf_asset_of_asset a = Ok f -> Calls (field_class CConfAsset) [pos (VAsset a)] (VField CConfAsset f)
| C_stack l : Calls "CScriptWitness" [pos (VList (map VBytes l))] (VStack l)
| C_no_outpoint m : Calls (class m "OutPoint") [] (VOutPoint m (mkOutPoint zero256 (2 ^ 32 - 1)))
| C_outpoint m h n : blen h = 32%Z -> (0 <= n < 2 ^ 32)%Z -> Calls (class m "OutPoint") [pos (VBytes h); pos (VInt n)] (VOutPoint m (mkOutPoint h n))
| C_no_outwit m : Calls (class m "TxOutWitness") [] (VOutWit m (mkOutWit [] []))
| C_outwit m s r : Calls (class m "TxOutWitness") [pos (VBytes s); pos (VBytes r)] (VOutWit m (mkOutWit s r))
| C_no_inwit m : Calls (class m "TxInWitness") [] (VInWit m (mkInWit [] [] [] []))
| C_inwit m s a k p : Calls (class m "TxInWitness") [pos (VStack s); pos (VBytes a); pos (VBytes k); pos (VStack p)] (VInWit m (mkInWit s a k p))
| C_txwit m i o : Calls (class m "TxWitness") [pos (VList (map (VInWit m) i)); pos (VList (map (VOutWit m) o))] (VTxWit m (mkTxWit i o))
(** all arguments have defaults: any number of them, from the left *)
| C_issuance n e v k l : l = [pos (VUint256 n); pos (VUint256 e); pos (VField CConfValue v); pos (VField CConfValue k)] ->
    forall j, Calls "CAssetIssuance" (firstn j l) (VIssuance (mkIssuance (match j with 0 => zero256 | _ => n end) (match j with 0 | 1 => zero256 | _ => e end)
                                                      (match j with 0 | 1 | 2 => [] | _ => v end) (match j with 0 | 1 | 2 | 3 => [] | _ => k end)))%nat
| C_txin m o s q i b : (0 <= q < 2 ^ 32)%Z ->
    Calls (class m "TxIn") [pos (VOutPoint m o); pos (VScript s); pos (VInt q); pos (VIssuance i); (Some "is_pegin", VBool b)] (VTxIn m (mkTxIn o s q i b))
| C_txout m v s a n :
    Calls (class m "TxOut") [pos (VField CConfValue v); pos (VScript s); pos (VField CConfAsset a); pos (VField CConfNonce n)] (VTxOut m (mkTxOut v s a n)).

(** digits of a hexadecimal literal *)
Fixpoint hexadecimal (acc : Z) (s : string) : option Z :=
  match s with
  | EmptyString => Some acc
  | String c r => match digit_value c with Some d => hexadecimal (16 * acc + d)%Z r | None => None end
  end.

(** [Ev s v]: the expression [s] has the value [v]; [scripts]: which expressions have which script as value, of those that
    bitcointx prints for scripts *)
Section Eval.
Variable scripts : string -> bytes -> Prop.
Inductive Ev : string -> pyval -> Prop :=
| Ev_x h b : unhex h = Some b -> Ev ("x('" ++ h ++ "')") (VBytes b)
| Ev_lx h b : unhex h = Some b -> Ev ("lx('" ++ h ++ "')") (VBytes (rev b))
| Ev_decimal s : is_literal s = true -> Ev s (VInt (literal s))
| Ev_hexadecimal s z : s <> "" -> hexadecimal 0 s = Some z -> Ev ("0x" ++ s) (VInt z)
| Ev_true : Ev "True" (VBool true)
| Ev_false : Ev "False" (VBool false)
| Ev_script s b : scripts s b -> Ev s (VScript b)
| Ev_list t l : Args t (map pos l) -> Ev ("[" ++ t ++ "]") (VList l)
| Ev_call f t l v : Args t l -> Calls f l v -> Ev (f ++ "(" ++ t ++ ")") v
(** arguments or elements, separated by commas and perhaps spaces *)
with Args : string -> list arg -> Prop :=
| A_none : Args "" []
| A_last s a : Arg s a -> Args s [a]
| A_more s a t l : Arg s a -> Args t l -> l <> [] -> Args (s ++ "," ++ t) (a :: l)
with Arg : string -> arg -> Prop :=
| A_space s a : Arg s a -> Arg (" " ++ s) a
| A_positional s v : Ev s v -> Arg s (pos v)
| A_named k s v : Ev s v -> Arg (k ++ "=" ++ s) (Some k, v).
End Eval.
