(** Specification vocabulary for blind(): what may change, what a blinded output and a blinded
    issuance are, which randomness goes where, and the balance equation.  Written against the
    transaction type and the [Crypto] record only, not against the code of blind_transaction. *)
From Verif Require Import Base TxModel BlindModel.
Local Open Scope Z_scope.

Section Frame.
Variable args : blind_args.

(** Output [j] has a (non-empty) blinding pubkey. *)
Definition wants_output (j : nat) : Prop := nth j (a_pubkeys args) [] <> [].
(** Input [i] has an issuance-amount key and a non-null issuance amount. *)
Definition amount_target (t : tx) (i : nat) : Prop :=
  nth i (a_asset_keys args) None <> None
  /\ exists inp, nth_error (vin t) i = Some inp /\ is_amount (assetIssuance inp) <> [].
(** Input [i] has a token key, a non-null token amount, and is a new issuance. *)
Definition keys_target (t : tx) (i : nat) : Prop :=
  nth i (a_token_keys args) None <> None
  /\ exists inp, nth_error (vin t) i = Some inp /\ is_keys (assetIssuance inp) <> []
                 /\ is_nonce (assetIssuance inp) = zeros 32.

(** Witness [i] of a list; missing entries count as empty ones. *)
Definition inwit_at (t : tx) (i : nat) : inwit := nth i (vtxinwit (wit t)) (mkInWit [] [] [] []).
Definition outwit_at (t : tx) (j : nat) : outwit := nth j (vtxoutwit (wit t)) (mkOutWit [] []).

(** Nothing but the issuance amounts of the inputs in [TA], the token amounts of the inputs in [TK], their
    proofs, and the wanted outputs differs between [t] and [t']. *)
Record FrameOf (TA TK : nat -> Prop) (t t' : tx) : Prop := {
  fr_version : nVersion t' = nVersion t;
  fr_locktime : nLockTime t' = nLockTime t;
  fr_nin : length (vin t') = length (vin t);
  fr_nout : length (vout t') = length (vout t);
  fr_in : forall i a a', nth_error (vin t) i = Some a -> nth_error (vin t') i = Some a' ->
    prevout a' = prevout a /\ scriptSig a' = scriptSig a /\ nSequence a' = nSequence a
    /\ is_pegin a' = is_pegin a
    /\ is_nonce (assetIssuance a') = is_nonce (assetIssuance a)
    /\ is_entropy (assetIssuance a') = is_entropy (assetIssuance a)
    /\ (~ TA i -> is_amount (assetIssuance a') = is_amount (assetIssuance a))
    /\ (~ TK i -> is_keys (assetIssuance a') = is_keys (assetIssuance a));
  fr_out : forall j o o', nth_error (vout t) j = Some o -> nth_error (vout t') j = Some o' ->
    scriptPubKey o' = scriptPubKey o /\ (~ wants_output j -> o' = o);
  fr_inwit : forall i,
    iw_script (inwit_at t' i) = iw_script (inwit_at t i)
    /\ iw_pegin (inwit_at t' i) = iw_pegin (inwit_at t i)
    /\ (~ TA i -> iw_issproof (inwit_at t' i) = iw_issproof (inwit_at t i))
    /\ (~ TK i -> iw_keysproof (inwit_at t' i) = iw_keysproof (inwit_at t i));
  fr_outwit : forall j, ~ wants_output j -> outwit_at t' j = outwit_at t j;
  fr_ninwit : (length (vtxinwit (wit t)) <= length (vtxinwit (wit t'))
               <= Nat.max (length (vtxinwit (wit t))) (length (vin t)))%nat;
  (** witnesses are added only up to the last input in [TA] or [TK] *)
  fr_lastinwit : forall n, (forall i, (n <= i)%nat -> ~ TA i /\ ~ TK i) ->
    (length (vtxinwit (wit t')) <= Nat.max (length (vtxinwit (wit t))) n)%nat;
  fr_noutwit : (length (vtxoutwit (wit t)) <= length (vtxoutwit (wit t'))
               <= Nat.max (length (vtxoutwit (wit t))) (length (vout t)))%nat;
  (** output witnesses are added all at once *)
  fr_outwits : length (vtxoutwit (wit t')) = length (vtxoutwit (wit t))
               \/ length (vtxoutwit (wit t')) = Nat.max (length (vtxoutwit (wit t))) (length (vout t))
}.
(** Everything blind() must leave alone. *)
Definition Frame (t t' : tx) : Prop := FrameOf (amount_target t) (keys_target t) t t'.
End Frame.

(** Sizes documented for the objects of libsecp256k1-zkp, SHA-256 and compressed keys. *)
Record SizesOk (z : Crypto) : Prop := {
  so_hash : forall x, blen (c_hash z x) = 32;
  so_sha : forall x, blen (c_sha z x) = 32;
  so_mid : forall x, blen (c_mid z x) = 32;
  so_parse : forall x g, gen_parse z x = Some g -> blen g = 64;
  so_gen : forall a g, gen_generate z a = Some g -> blen g = 64;
  so_genb : forall a b g, gen_generate_blinded z a b = Some g -> blen g = 64;
  so_genser : forall g s, gen_serialize z g = Some s -> exists d, blen d = 32 /\ (s = x0a :: d \/ s = x0b :: d);
  so_commit : forall b v g c, ped_commit z b v g = Some c -> blen c = 64;
  so_comser : forall c s, ped_serialize z c = Some s -> exists d, blen d = 32 /\ (s = x08 :: d \/ s = x09 :: d);
  so_pub : forall k, sk_valid z k = true -> exists d, blen d = 32 /\ (sk_pub z k = x02 :: d \/ sk_pub z k = x03 :: d);
  so_sum : forall v a b n i r, blind_sum z v a b n i = Some r -> blen r = 32
}.

(** Every draw is 32 bytes and a valid private key (all but a fraction 2^-127 of random strings are). *)
Definition RandOk (z : Crypto) (rand : nat -> bytes) : Prop :=
  forall k, blen (rand k) = 32 /\ sk_valid z (rand k) = true.

(** The documented argument errors of blind(). *)
Definition bad_arguments (args : blind_args) (t : tx) : Prop :=
  (length (a_pubkeys args) > length (vout t))%nat
  \/ (length (a_asset_keys args) > length (vin t))%nat
  \/ (length (a_token_keys args) > length (vin t))%nat
  \/ length (a_descs args) <> length (vin t)
  \/ (a_aux args <> [] /\
      ((length (a_aux args) < length (vin t))%nat \/ exists g, In g (a_aux args) /\ blen g <> 33)).

(** * What a blinded issuance and a blinded output are *)

(** Explicit fields, by their bytes. [u] is the amount as an unsigned 64-bit number, the form in which
    the library receives it. *)
Definition ExplicitValue (x : bytes) (u : Z) : Prop := exists d, x = x01 :: d /\ length d = 8%nat /\ be_val d = u.
Definition ExplicitAsset (x a : bytes) : Prop := x = x01 :: a /\ length a = 32%nat.

(** [false]: the issued asset; [true]: the reissuance tokens. *)
Definition iss_field (ps : bool) (i : txin) : bytes := if ps then is_keys (assetIssuance i) else is_amount (assetIssuance i).
Definition iss_proof (ps : bool) (w : inwit) : bytes := if ps then iw_keysproof w else iw_issproof w.

(** Asset entropy of an input: from the spent outpoint and the contract hash for a new
    issuance, as given for a reissuance. *)
Definition EntropyOf (z : Crypto) (i : txin) (e : bytes) : Prop :=
  (is_nonce (assetIssuance i) = zeros 32
   /\ exists n, length n = 4%nat /\ le_val n = op_n (prevout i)
        /\ e = c_mid z (c_hash z (op_hash (prevout i) ++ n) ++ is_entropy (assetIssuance i)))
  \/ (is_nonce (assetIssuance i) <> zeros 32 /\ e = is_entropy (assetIssuance i)).
(** 32-byte little-endian 0, 1, 2 *)
Definition tag32 (b : byte) : bytes := b :: repeat x00 31.

(** What a C int of 32 bits holds of [v]: the number in [-2^31, 2^31) that is equal to it modulo 2^32 *)
Definition int32 (v : Z) : Z := (v + 2 ^ 31) mod 2 ^ 32 - 2 ^ 31.

Section Blinded.
Variables (z : Crypto) (args : blind_args).

Definition ct_exp : Z := int32 (match a_ct_exponent args with Some e => e | None => 0 end).
Definition ct_bits : Z := int32 (match a_ct_bits args with Some b => b | None => 52 end).

(** Input [i] became [i'] with witness [w']: its issuance field [ps] was blinded with factor [bf]
    and a range proof readable with [key]. *)
Definition BlindedIssuance (ps : bool) (key bf : bytes) (i i' : txin) (w' : inwit) : Prop :=
  exists u e asset gen commit,
    ExplicitValue (iss_field ps i) u
    /\ EntropyOf z i e /\ (ps = true -> is_nonce (assetIssuance i) = zeros 32)
    /\ asset = c_mid z (e ++ tag32 (if ps then x02 else x00))
    /\ gen_generate_blinded z asset (zeros 32) = Some gen
    /\ ped_commit z bf u gen = Some commit
    /\ ped_serialize z commit = Some (iss_field ps i')
    /\ rp_sign z 0 commit bf key ct_exp ct_bits u (asset ++ zeros 32) [] gen = Some (iss_proof ps w').

(** One surjection target: asset tag, generator, blinding factor of the generator. *)
Record target := mkTarget { tg_tag : bytes; tg_gen : bytes; tg_blind : bytes }.

(** Scripts for which the range proof must allow the value 0. *)
Definition Unspendable (s : bytes) : Prop := s = [] \/ exists r, s = x6a :: r.

(** Output [o] became [o'] with witness [w'], blinded for [pub] with value factor [bf], asset
    factor [abf], ephemeral key [eph] and surjection seed [seed]. *)
Definition BlindedOutput (targets : list target) (pub bf abf eph seed : bytes) (o o' : txout) (w' : outwit) : Prop :=
  exists u asset gen commit shared minv,
    ExplicitValue (nValue o) u /\ ExplicitAsset (nAsset o) asset
    /\ gen_generate_blinded z asset abf = Some gen
    /\ gen_serialize z gen = Some (nAsset o')
    /\ ped_commit z bf u gen = Some commit
    /\ ped_serialize z commit = Some (nValue o')
    /\ sk_valid z eph = true /\ nNonce o' = sk_pub z eph /\ ecdh z eph pub = Some shared
    /\ scriptPubKey o' = scriptPubKey o
    /\ (Unspendable (scriptPubKey o) -> minv = 0) /\ (~ Unspendable (scriptPubKey o) -> minv = 1)
    /\ rp_sign z minv commit bf (c_sha z shared) ct_exp ct_bits u (asset ++ abf) (scriptPubKey o) gen = Some (ow_range w')
    /\ exists proof0 idx tg proof,
         sp_init z (concat (map tg_tag targets)) (length targets) (Nat.min 3 (length targets)) asset 100 seed = Some (proof0, idx)
         /\ nth_error targets idx = Some tg
         /\ sp_generate z proof0 (concat (map tg_gen targets)) (length targets) gen idx (tg_blind tg) abf = Some proof
         /\ sp_verify z proof (concat (map tg_gen targets)) (length targets) gen = true
         /\ ow_surj w' = sp_serialize z proof /\ ow_surj w' <> [].

(** * Surjection targets, in order *)
(** The targets contributed by input [i]: the spent output; the issued asset; the token. [tok] is the last
    token computed by an earlier new issuance, [tok'] the one after this input. *)
Definition InputTargets (i : nat) (tok : option bytes) (inp : txin) (l : list target) (tok' : option bytes) : Prop :=
  exists d g l1 l2,
    nth_error (a_descs args) i = Some d
    /\ (d_asset d <> zeros 32 -> gen_generate_blinded z (d_asset d) (d_abf d) = Some g)
    /\ (d_asset d = zeros 32 -> exists ag, nth_error (a_aux args) i = Some ag /\ gen_parse z ag = Some g)
    /\ l = mkTarget (d_asset d) g (d_abf d) :: l1 ++ l2
    /\ ((is_amount (assetIssuance inp) = [] /\ is_keys (assetIssuance inp) = [] /\ l1 = [] /\ l2 = [] /\ tok' = tok)
        \/ exists e,
            (is_amount (assetIssuance inp) <> [] \/ is_keys (assetIssuance inp) <> [])
            /\ EntropyOf z inp e
            /\ (is_nonce (assetIssuance inp) <> zeros 32 -> tok' = tok)
            /\ (is_nonce (assetIssuance inp) = zeros 32 ->
                 tok' = Some (c_mid z (e ++ tag32 (match nth i (a_token_keys args) None with Some _ => x02 | None => x01 end))))
            /\ ((is_amount (assetIssuance inp) = [] /\ l1 = [])
                \/ (is_amount (assetIssuance inp) <> [] /\ exists gi, gen_generate z (c_mid z (e ++ tag32 x00)) = Some gi
                    /\ l1 = [mkTarget (c_mid z (e ++ tag32 x00)) gi (zeros 32)]))
            /\ ((is_keys (assetIssuance inp) = [] /\ l2 = [])
                \/ (is_keys (assetIssuance inp) <> [] /\ exists token gt, tok' = Some token /\ gen_generate z token = Some gt
                    /\ l2 = [mkTarget token gt (zeros 32)]))).
(** [TargetsFrom i tok inputs l tok']: the inputs from number [i] on contribute [l]. *)
Inductive TargetsFrom : nat -> option bytes -> list txin -> list target -> option bytes -> Prop :=
| TF_nil i tok : TargetsFrom i tok [] [] tok
| TF_cons i tok inp rest l tok' ls tok'' : InputTargets i tok inp l tok' -> TargetsFrom (S i) tok' rest ls tok'' ->
    TargetsFrom i tok (inp :: rest) (l ++ ls) tok''.
Definition AuxTarget (ag : bytes) (tg : target) : Prop :=
  exists g, gen_parse z ag = Some g /\ tg = mkTarget (zeros 32) g (zeros 32).
Definition SurjectionTargets (t : tx) (targets : list target) : Prop :=
  exists l1 l2 tok, TargetsFrom 0 None (vin t) l1 tok /\ Forall2 AuxTarget (skipn (length (vin t)) (a_aux args)) l2
    /\ targets = l1 ++ l2.

(** * What blind() is asked to do, in the order in which it does it *)
Definition issuance_slots (n : nat) : list (nat * bool) := flat_map (fun i => [(i, false); (i, true)]) (seq 0 n).
Definition wants_issuance (x : nat * bool) : bool :=
  match nth (fst x) (if snd x then a_token_keys args else a_asset_keys args) None with Some _ => true | None => false end.
Definition issuance_tasks (t : tx) : list (nat * bool) := filter wants_issuance (issuance_slots (length (vin t))).
Definition output_tasks : list nat :=
  filter (fun j => match nth j (a_pubkeys args) [] with [] => false | _ => true end) (seq 0 (length (a_pubkeys args))).

(** An issuance key was given for an input that issues nothing. *)
Definition stray_key (t : tx) : Prop := exists i ps inp, In (i, ps) (issuance_tasks t) /\ nth_error (vin t) i = Some inp
  /\ is_amount (assetIssuance inp) = [] /\ is_keys (assetIssuance inp) = [].
End Blinded.

(** Inputs that carry a blinding factor. *)
Definition blinded_inputs (args : blind_args) : list input_desc :=
  filter (fun d => negb (bytes_eqb (d_bf d) (zeros 32) && bytes_eqb (d_abf d) (zeros 32))) (a_descs args).

(** * The result of a complete blinding *)
(** Explicit amounts of the original transaction, unsigned. *)
Definition issued_amount (t : tx) (x : nat * bool) : Z :=
  match nth_error (vin t) (fst x) with Some inp => be_val (tl (iss_field (snd x) inp)) | None => 0 end.
Definition out_amount (t : tx) (j : nat) : Z :=
  match nth_error (vout t) j with Some o => be_val (tl (nValue o)) | None => 0 end.

Section Outcome.
Variables (z : Crypto) (rand : nat -> bytes) (args : blind_args) (t : tx).
Let tasks := issuance_tasks args t.
Let K := length tasks.

(** The issuances [tasks] and the outputs [done] of [t] are blinded in [t'], with draws number
    0, 1, ... for the issuances, then four for each output: value factor, asset factor, ephemeral
    key, surjection seed. The reported factors [bfs], [abfs] are those used; they are zero for the
    outputs not blinded. *)
Record AllBlinded (targets : list target) (done : list nat) (t' : tx) (bfs abfs : list bytes) : Prop := {
  ab_nwit : (length (vout t) <= length (vtxoutwit (wit t')))%nat;
  ab_bfs : length bfs = length (vout t);
  ab_abfs : length abfs = length (vout t);
  ab_iss : forall k i ps, nth_error tasks k = Some (i, ps) ->
    exists key inp inp', nth i (if ps then a_token_keys args else a_asset_keys args) None = Some key
      /\ nth_error (vin t) i = Some inp /\ nth_error (vin t') i = Some inp'
      /\ BlindedIssuance z args ps key (rand k) inp inp' (inwit_at t' i);
  ab_out : forall k j, nth_error done k = Some j ->
    exists bf abf o o', nth_error bfs j = Some bf /\ nth_error abfs j = Some abf
      /\ nth_error (vout t) j = Some o /\ nth_error (vout t') j = Some o'
      /\ abf = rand (K + 4 * k + 1)
      /\ (S k <> length (output_tasks args) -> bf = rand (K + 4 * k))
      /\ BlindedOutput z args targets (nth j (a_pubkeys args) []) bf abf (rand (K + 4 * k + 2)) (rand (K + 4 * k + 3)) o o' (outwit_at t' j);
  ab_rest : forall j, (j < length (vout t))%nat -> ~ In j done ->
    nth_error bfs j = Some (zeros 32) /\ nth_error abfs j = Some (zeros 32) /\ nth_error (vout t') j = nth_error (vout t) j
}.

(** The library was asked for the factor [r] that makes the last output [j] balance the inputs and
    issuances against the outputs [pre] blinded before it. *)
Definition FinalSum (pre : list nat) (j : nat) (bfs abfs : list bytes) (r : bytes) : Prop :=
  let ins := blinded_inputs args in
  let k := length pre in
  blind_sum z (map (fun d => d_amount d mod 2 ^ 64) ins ++ map (issued_amount t) tasks ++ map (out_amount t) (pre ++ [j]))
              (map d_abf ins ++ repeat (zeros 32) K ++ map (fun i => nth i abfs []) pre ++ [rand (K + 4 * k + 1)])
              (map d_bf ins ++ map rand (seq 0 K) ++ map (fun i => nth i bfs []) pre ++ [rand (K + 4 * k)])
              (length ins + K + k + 1) (length ins + K) = Some r.

(** Complete: every requested output blinded, the last one with the balancing factor. *)
Definition Complete (targets : list target) (t' : tx) (bfs abfs : list bytes) : Prop :=
  AllBlinded targets (output_tasks args) t' bfs abfs
  /\ (output_tasks args = [] -> tasks = [])
  /\ forall pre j, output_tasks args = pre ++ [j] ->
       exists bf, nth_error bfs j = Some bf /\ bf <> zeros 32 /\ FinalSum pre j bfs abfs bf.
(** The balancing factor came out zero: the last output is left as it was, but counted. *)
Definition NullFinal (targets : list target) (t' : tx) (bfs abfs : list bytes) : Prop :=
  exists pre j, output_tasks args = pre ++ [j] /\ AllBlinded targets pre t' bfs abfs
    /\ FinalSum pre j bfs abfs (zeros 32).
End Outcome.
