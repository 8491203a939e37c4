(** Specification for C101: what others see of a blinded transaction. *)
From Verif Require Import Base TxModel BlindModel SpecBlind.
Local Open Scope Z_scope.

(** A library whose results tell nothing: generators do not depend on the asset, commitments not on amount and factor, range proofs not on amount,
    factor and message, surjection proofs not on the assets, generators and factors of the inputs and the asset of the output. *)
Record Veils (z : Crypto) : Prop := {
  ve_gen : forall a a' b g g', gen_generate_blinded z a b = Some g -> gen_generate_blinded z a' b = Some g' -> g = g';
  ve_commit : forall b b' v v' gen c c', ped_commit z b v gen = Some c -> ped_commit z b' v' gen = Some c' -> c = c';
  ve_range : forall m com b b' nonce e bits v v' msg msg' x gen p p',
    rp_sign z m com b nonce e bits v msg x gen = Some p -> rp_sign z m com b' nonce e bits v' msg' x gen = Some p' -> p = p';
  ve_surj : forall tags tags' n k asset asset' it seed p0 p0' i i' gens gens' gen inb inb' outb p p',
    sp_init z tags n k asset it seed = Some (p0, i) -> sp_init z tags' n k asset' it seed = Some (p0', i') ->
    sp_generate z p0 gens n gen i inb outb = Some p -> sp_generate z p0' gens' n gen i' inb' outb = Some p' ->
    sp_serialize z p = sp_serialize z p'
}.

(** The same request, with other amounts, assets and factors of the inputs. *)
Definition SameRequest (args args' : blind_args) : Prop :=
  a_pubkeys args' = a_pubkeys args /\ a_asset_keys args' = a_asset_keys args /\ a_token_keys args' = a_token_keys args
  /\ length (a_aux args') = length (a_aux args)
  /\ a_ct_exponent args' = a_ct_exponent args /\ a_ct_bits args' = a_ct_bits args /\ a_strict args' = a_strict args.

(** Inputs [i] that differ at most in the amounts that are to be hidden. *)
Record SameSeenIn (args : blind_args) (i : nat) (a a' : txin) : Prop := {
  si_prevout : prevout a' = prevout a;
  si_script : scriptSig a' = scriptSig a;
  si_sequence : nSequence a' = nSequence a;
  si_pegin : is_pegin a' = is_pegin a;
  si_nonce : is_nonce (assetIssuance a') = is_nonce (assetIssuance a);
  si_entropy : is_entropy (assetIssuance a') = is_entropy (assetIssuance a);
  si_amount : nth i (a_asset_keys args) None = None -> is_amount (assetIssuance a') = is_amount (assetIssuance a);
  si_keys : nth i (a_token_keys args) None = None -> is_keys (assetIssuance a') = is_keys (assetIssuance a)
}.
(** Transactions that differ at most in what is to be hidden: amount and asset of the outputs with a public key, issued amounts with a key. *)
Record SameSeen (args : blind_args) (t t' : tx) : Prop := {
  ss_version : nVersion t' = nVersion t;
  ss_locktime : nLockTime t' = nLockTime t;
  ss_wit : wit t' = wit t;
  ss_nin : length (vin t') = length (vin t);
  ss_nout : length (vout t') = length (vout t);
  ss_in : forall i a a', nth_error (vin t) i = Some a -> nth_error (vin t') i = Some a' -> SameSeenIn args i a a';
  ss_out : forall j o o', nth_error (vout t) j = Some o -> nth_error (vout t') j = Some o' ->
    scriptPubKey o' = scriptPubKey o /\ (nth j (a_pubkeys args) [] = [] -> o' = o)
}.
(** No output is left as it was. *)
Definition AllHidden (args : blind_args) (t t' : tx) : Prop := forall j, In j (output_tasks args) -> nth_error (vout t') j <> nth_error (vout t) j.
