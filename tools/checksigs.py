# Model legacy signature hash against the recorded signatures (ECDSA checked here). Scratch in /tmp/vec.
import json,subprocess,re
d=json.load(open('/repo/elementstx/tests/data/elements_txs_blinding.json'))
P=2**256-2**32-977;N=0xFFFFFFFFFFFFFFFFFFFFFFFFFFFFFFFEBAAEDCE6AF48A03BBFD25E8CD0364141
G=(0x79BE667EF9DCBBAC55A06295CE870B07029BFCDB2DCE28D959F2815B16F81798,0x483ADA7726A3C4655DA4FBFC0E1108A8FD17B448A68554199C47D08FFB10D4B8)
def add(a,b):
    if a is None:return b
    if b is None:return a
    if a[0]==b[0]:
        if (a[1]+b[1])%P==0:return None
        l=3*a[0]*a[0]*pow(2*a[1],-1,P)%P
    else: l=(b[1]-a[1])*pow(b[0]-a[0],-1,P)%P
    x=(l*l-a[0]-b[0])%P; return (x,(l*(a[0]-x)-a[1])%P)
def mul(k,p):
    r=None
    while k:
        if k&1:r=add(r,p)
        p=add(p,p);k>>=1
    return r
def pub(b):
    x=int.from_bytes(b[1:33],'big'); y=pow(x*x*x+7,(P+1)//4,P)
    if (y&1)!=(b[0]&1): y=P-y
    return (x,y)
def verify(pk,sig,e):
    i=4; assert sig[0]==0x30 and sig[2]==2
    lr=sig[3]; r=int.from_bytes(sig[4:4+lr],'big'); ls=sig[5+lr]; s=int.from_bytes(sig[6+lr:6+lr+ls],'big')
    w=pow(s,-1,N); X=add(mul(e*w%N,G),mul(r*w%N,pub(pk))); return X is not None and X[0]%N==r
src=open('/verif/rocq/theories/TestVectors.v').read().split('Example')[0].replace('Sha256.','Sha256 LegacyModel.')
todo=[]
for bi,b in enumerate(d):
    src+='Definition raw%d : bytes := Eval vm_compute in hex "%s".\n'%(bi,b['signed_hex'])
    for n,u in enumerate(b['vin_utxo']):
        src+='Eval vm_compute in (match tx_deserialize no_wit raw%d with Ok t => match nth_error (vin t) %d, legacy_sighash sha256d (hex "%s") t %d 1 with Some i, Ok (h, false) => (be_val h, length (scriptSig i), be_val (scriptSig i)) | _, _ => (0, 0%%nat, 0) end | _ => (1, 0%%nat, 0) end).\n'%(bi,n,u['scriptPubKey'],n)
        todo.append((bi,n))
open('/tmp/vec/Sig.v','w').write(src)
o=subprocess.run(['coqc','-Q','/verif/rocq/theories','Verif','/tmp/vec/Sig.v'],capture_output=True,text=True); print(o.stderr[:500])
res=re.findall(r'= \((\d+),\s*(\d+)(?:%nat)?,\s*(\d+)\)',o.stdout)
print(len(res),len(todo))
for (bi,n),(e,l,s) in zip(todo,res):
    sc=int(s).to_bytes(int(l),'big'); k=sc[0]; sig=sc[1:1+k]; pk=sc[2+k:]
    print(bi,n,sig[-1],verify(pk,sig[:-1],int(e)))
