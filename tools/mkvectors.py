#!/usr/bin/env python3
"""Generate a Coq file that runs the transaction model on the repository's own test data.

    python3 tools/mkvectors.py            writes rocq/theories/TestVectors.v (transactions up to LIMIT bytes)
    python3 tools/mkvectors.py --all DIR  writes DIR/AllVectors.v (every transaction of the data file)
"""
import json, sys
DATA = '/repo/elementstx/tests/data/elements_txs.json'
LIMIT = 400
def sat(v): return int(round(v * 100000000))
def h(s): return '(hex "%s")' % s
def lx(s): return h(bytes.fromhex(s)[::-1].hex())
def checks(x):
    c = ['(nVersion t =? %d)' % x['version'], '(nLockTime t =? %d)' % x['locktime'],
         '(length (vin t) =? %d)%%nat' % len(x['vin']), '(length (vout t) =? %d)%%nat' % len(x['vout'])]
    for n, o in enumerate(x['vout']):
        c.append('out_script t %d %s' % (n, h(o['scriptPubKey']['hex'])))
        if 'amountcommitment' in o: c.append('out_field nValue t %d %s' % (n, h(o['amountcommitment'])))
        elif 'value' in o and 'value-minimum' not in o: c.append('out_amount_is t %d %d' % (n, sat(o['value'])))
        if 'assetcommitment' in o: c.append('out_field nAsset t %d %s' % (n, h(o['assetcommitment'])))
        elif 'asset' in o: c.append('out_asset_is t %d %s' % (n, lx(o['asset'])))
        s = o['scriptPubKey']
        if 'pegout_type' in s: c.append('pegout_is t %d %s %s' % (n, lx(s['pegout_chain']), h(s['pegout_hex'])))
    for n, i in enumerate(x['vin']):
        if 'scriptSig' in i: c.append('in_is (fun i => bytes_eqb (scriptSig i) %s) t %d' % (h(i['scriptSig']['hex']), n))
        if 'txid' in i: c.append('in_is (fun i => bytes_eqb (op_hash (prevout i)) %s) t %d' % (lx(i['txid']), n))
        if 'vout' in i: c.append('in_is (fun i => op_n (prevout i) =? %d) t %d' % (i['vout'], n))
        if 'sequence' in i: c.append('in_is (fun i => nSequence i =? %d) t %d' % (i['sequence'], n))
        if 'is_pegin' in i: c.append('in_is (fun i => eqb (is_pegin i) %s) t %d' % (str(i['is_pegin']).lower(), n))
        if 'issuance' in i:
            s = i['issuance']
            c.append('in_is (fun i => bytes_eqb (is_nonce (assetIssuance i)) %s) t %d' % (lx(s['assetBlindingNonce']), n))
            if s['isreissuance']:
                c.append('in_is (fun i => reissue_ok i %s %s) t %d' % (lx(s['assetEntropy']), lx(s['asset']), n))
            else:
                c.append('in_is (fun i => issue_ok i %s %s %s) t %d' % (lx(s['assetEntropy']), lx(s['asset']), lx(s['token']), n))
            for k, f in (('asset', 'is_amount'), ('token', 'is_keys')):
                if k + 'amount' in s: c.append('in_is (fun i => amount_is (%s (assetIssuance i)) %d) t %d' % (f, sat(s[k + 'amount']), n))
                elif k + 'amountcommitment' in s: c.append('in_is (fun i => bytes_eqb (%s (assetIssuance i)) %s) t %d' % (f, h(s[k + 'amountcommitment']), n))
    return '\n  && '.join(c)
HEAD = '''(** Generated by tools/mkvectors.py from elementstx/tests/data/elements_txs.json: the transaction model run on
    transactions of the reference node. Tests, not proofs: they check the model, not the code. *)
From Coq Require Import Strings.String Strings.Ascii.
From Verif Require Import Base Serialize TxModel IssuanceModel ScriptModel Sha256.
From Coq Require Import ZArith List Bool.
Import ListNotations.
Local Open Scope Z_scope.

Definition hexdigit (c : ascii) : Z := let n := Z.of_N (N_of_ascii c) in if n <? 58 then n - 48 else n - 87.
Fixpoint hex (s : string) : bytes :=
  match s with String a (String b r) => zb (16 * hexdigit a + hexdigit b) :: hex r | _ => [] end.
Definition no_wit : default_wit := fun _ _ => mkTxWit [] [].
Definition out_is (p : txout -> bool) (t : tx) (n : nat) : bool := match nth_error (vout t) n with Some o => p o | None => false end.
Definition in_is (p : txin -> bool) (t : tx) (n : nat) : bool := match nth_error (vin t) n with Some i => p i | None => false end.
Definition out_script t n s := out_is (fun o => bytes_eqb (scriptPubKey o) s) t n.
Definition out_field (f : txout -> bytes) t n s := out_is (fun o => bytes_eqb (f o) s) t n.
Definition amount_is (x : bytes) (v : Z) : bool := match to_amount x with Ok a => a =? v | Raise _ => false end.
Definition out_amount_is t n v := out_is (fun o => amount_is (nValue o) v) t n.
Definition res_is (r : res bytes) (b : bytes) : bool := match r with Ok a => bytes_eqb a b | Raise _ => false end.
Definition out_asset_is t n a := out_is (fun o => res_is (to_asset (nAsset o)) a) t n.
Definition pegout_is t n g s := out_is (fun o => match get_pegout_data (scriptPubKey o) with Ok (Some (g', s')) => bytes_eqb g g' && bytes_eqb s s' | _ => false end) t n.
Definition issue_ok (i : txin) (e a k : bytes) : bool :=
  match generate_asset_entropy sha256d sha_midstate (prevout i) (is_entropy (assetIssuance i)) with
  | Ok e' => bytes_eqb e e' && res_is (calculate_asset sha_midstate e') a
             && res_is (calculate_reissuance_token sha_midstate e' (conf_is_commitment CConfValue (is_amount (assetIssuance i)))) k
  | Raise _ => false
  end.
Definition reissue_ok (i : txin) (e a : bytes) : bool :=
  bytes_eqb (is_entropy (assetIssuance i)) e && res_is (calculate_asset sha_midstate (is_entropy (assetIssuance i))) a.
(** parse, compare fields, serialise back, hash and id *)
Definition vector (raw hash txid : bytes) (p : tx -> bool) : bool :=
  match tx_deserialize no_wit raw with
  | Ok t => p t && res_is (tx_serialize t) raw && bytes_eqb (sha256d raw) hash
            && match ser_tx false false t with Ok b => bytes_eqb (sha256d b) txid | Raise _ => false end
  | Raise _ => false
  end.
'''
def main():
    ts = [x for x in json.load(open(DATA)) if isinstance(x, dict)]
    allv = len(sys.argv) > 1
    out = HEAD
    for k, x in enumerate(ts):
        if not allv and len(x['hex']) // 2 > LIMIT: continue
        out += 'Example vector_%02d : vector %s\n  %s %s (fun t => %s) = true.\nProof. vm_compute. reflexivity. Qed.\n' % (k, h(x['hex']), lx(x['hash']), lx(x['txid']), checks(x))
    open(sys.argv[2] + '/AllVectors.v' if allv else '/verif/rocq/theories/TestVectors.v', 'w').write(out)
main()
