(** Specification: what examples/unblind.py prints about a transaction. *)
From Coq Require Import Strings.String.
From Verif Require Import Base TxModel MiscModel BlindModel UnblindModel WalletModel SpecWire SpecBlind ViewModel.
Local Open Scope Z_scope.

Section Spec.
Variable z : Crypto.
Variable cur : chain.
Variable find : bytes -> option (kind * bytes).      (* the address of a script *)
Variable rp_info : bytes -> option (Z * Z * Z * Z).  (* what a range proof reveals to everyone *)
Variable t : tx.
Variable bkey : bytes.

Definition coins : Z := 2100000000000000.
(** The answer of unblinding output [n], [o], with the key. *)
Definition Answer (n : nat) (o : txout) (r : res result) : Prop :=
  (forall v, ~ ExplicitValue (nValue o) v)
  /\ match nth_error (vtxoutwit (wit t)) n with Some w => r = txout_unblind z o bkey (ow_range w) | None => r = Raise EIndex end.
Definition Revealed (n : nat) (l : list line) : Prop :=
  match nth_error (vtxoutwit (wit t)) n with
  | Some w => match rp_info (ow_range w) with
    | Some (e, m, lo, hi) => NullWit (wit t) /\ l = [] \/ ~ NullWit (wit t) /\ l = [LExponent e; LBits m; LMinimum lo; LMaximum hi]
    | None => l = [] end
  | None => False end.
(** The lines about an output *)
Inductive Shown (n : nat) (o : txout) : list line -> Prop :=
| sh_fee v a : ExplicitValue (nValue o) v -> ExplicitAsset (nAsset o) a -> scriptPubKey o = [] -> v <= coins ->
    Shown n o [LVout n HFee; LAmount v; LAsset a; LBlank]
| sh_explicit v a k d : ExplicitValue (nValue o) v -> ExplicitAsset (nAsset o) a -> scriptPubKey o <> [] -> find (scriptPubKey o) = Some (k, d) -> v <= coins ->
    Shown n o [LVout n HExplicit; LAddress (mkAddr cur k false d); LAmount v; LAsset a; LBlank]
| sh_cannot e k d l : Answer n o (Ok (Failure e)) -> find (scriptPubKey o) = Some (k, d) -> Revealed n l ->
    Shown n o ([LVout n (HCannot e); LAddress (mkAddr cur k false d)] ++ l ++ [LBlank])
| sh_unblinded asset v bf abf k d : Answer n o (Ok (UnblindingSuccess asset v bf abf)) -> find (scriptPubKey o) = Some (k, d) ->
    Shown n o [LVout n HUnblinded; LDestination; LConfidential (mkAddr cur k true (sk_pub z bkey ++ d)); LUnconfidential (mkAddr cur k false d);
               LAmount v; LFactor bf; LAsset asset; LAssetFactor abf; LBlank].
(** The output at which the program fails, and what it has printed about it by then *)
Inductive Stops (n : nat) (o : txout) : list line -> exn -> Prop :=
| st_mixed v : ExplicitValue (nValue o) v -> (forall a, ~ ExplicitAsset (nAsset o) a) -> Stops n o [] EAssert
| st_fee v a : ExplicitValue (nValue o) v -> ExplicitAsset (nAsset o) a -> scriptPubKey o = [] -> coins < v -> Stops n o [LVout n HFee] EValue
| st_explicit v a : ExplicitValue (nValue o) v -> ExplicitAsset (nAsset o) a -> scriptPubKey o <> [] -> find (scriptPubKey o) = None -> Stops n o [LVout n HExplicit] EAddress
| st_amount v a k d : ExplicitValue (nValue o) v -> ExplicitAsset (nAsset o) a -> scriptPubKey o <> [] -> find (scriptPubKey o) = Some (k, d) -> coins < v ->
    Stops n o [LVout n HExplicit; LAddress (mkAddr cur k false d)] EValue
| st_raises e : Answer n o (Raise e) -> Stops n o [] e
| st_cannot e : Answer n o (Ok (Failure e)) -> find (scriptPubKey o) = None -> Stops n o [LVout n (HCannot e)] EAddress
| st_unblinded asset v bf abf : Answer n o (Ok (UnblindingSuccess asset v bf abf)) -> find (scriptPubKey o) = None -> Stops n o [LVout n HUnblinded] EAddress.
(** From output [n] on: all outputs in turn, up to the first that makes the program fail. *)
Inductive Prints : nat -> list txout -> list line -> option exn -> Prop :=
| pr_end n : Prints n [] [] None
| pr_shown n o outs l rest e : Shown n o l -> Prints (S n) outs rest e -> Prints n (o :: outs) (l ++ rest) e
| pr_stops n o outs l e : Stops n o l e -> Prints n (o :: outs) l (Some e).
End Spec.
