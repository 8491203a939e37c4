(** Specification: how the parties to a transaction come to describe its inputs. *)
From Verif Require Import Base TxModel MiscModel BlindModel UnblindModel CommModel SpendModel SpecBlind SpecMulti SpecNode.
Local Open Scope Z_scope.

Section Spend.
Variable z : Crypto.

(** The owner of output [u] reads it off, or unblinds it with some key and some range proof. If the asset is in plain sight, the
    asset that unblinding reports is that one, not blinded. *)
Inductive Described (u : txout) : input_desc -> Prop :=
| D_explicit a v : ExplicitAsset (nAsset u) a -> ExplicitValue (nValue u) v -> Described u (mkDesc a v (zeros 32) (zeros 32))
| D_unblinded key proof r d : txout_unblind z u key proof = Ok r -> get_descriptor r = Some d ->
    (forall a, ExplicitAsset (nAsset u) a -> d_asset d = a /\ d_abf d = zeros 32) -> Described u d.
(** Plain outputs on the chain have a possible asset and a positive amount in range. *)
Definition Existing (u : txout) : Prop :=
  forall a v, ExplicitAsset (nAsset u) a -> ExplicitValue (nValue u) v -> gen_generate z a <> None /\ 0 < v <= money.
(** A party gives the owner's description of input [i], or a null one together with the asset's commitment: the field of
    the output if that is a commitment, otherwise made from the asset. *)
Definition Gives (args : blind_args) (i : nat) (u : txout) (d : input_desc) : Prop :=
  exists g, nth_error (a_descs args) i = Some g
  /\ ((g = d /\ d_asset d <> zeros 32)
      \/ (d_asset g = zeros 32 /\ exists c, nth_error (a_aux args) i = Some c
           /\ ((c = nAsset u /\ hd x00 c <> x01) \/ exists a, ExplicitAsset (nAsset u) a /\ to_commitment z a = Ok c))).
(** The parties in turn turned [t] into [t']. *)
Record Spending (calls : list blind_args) (us : list txout) (descs : list input_desc) (t t' : tx) : Prop := {
  sp_calls : calls <> [] \/ forall inp ps, In inp (vin t) -> iss_field ps inp = [];
  sp_blindings : Blindings z calls t t';
  sp_unblinded : Unblinded z calls us t;
  sp_inputs : length us = length (vin t);
  sp_existing : Forall Existing us;
  sp_described : Forall2 Described us descs;
  sp_gives : forall args i u d, In args calls -> nth_error us i = Some u -> nth_error descs i = Some d -> Gives args i u d;
  sp_once : described_once calls descs;
  sp_conserves : Conserves z calls descs t
}.
End Spend.
