# Writes Coq files that run the model on the vectors of /repo/tests under vm_compute ("fails" prints the number of checks and those that fail).
# Usage: python3 vectors.py OUTDIR; then coqc -Q /verif/rocq/theories Verif OUTDIR/t*.v.  Not part of the build; a sanity check of the model, not a proof.
import sys, os
OUT=sys.argv[1]
os.makedirs(OUT,exist_ok=True)
import re
def rd(f): return open('/repo/tests/'+f,encoding='utf8').read()
L=lambda b:'['+'; '.join(str(x) for x in b)+']'
S=lambda s:L(s.encode('latin1'))
def joinlits(s):
    return re.sub(r'"\s*\n\s*"','',s)
out=["""From Coq Require Import ZArith List. Import ListNotations.
From Verif Require Import Base M_Hex M_Base32 M_Base58 M_Base64 M_Varint M_Sha1 M_Sha2 M_Ripemd M_Hash M_Base58Check M_Bech32 M_Address M_Secp M_Key.
Open Scope Z_scope.
Definition eqb := bytes_eqb.
Definition okb (r:res (list Z)) (x:list Z) := match r with Ok y => eqb y x | _ => false end.
Definition oknb (r:res (nat * list Z)) (n:nat) (x:list Z) := match r with Ok (m,y) => andb (Nat.eqb n m) (eqb (firstn n y) x) | _ => false end.
Definition fails (l:list bool) := (length l, filter (fun p => negb (snd p)) (combine (seq 0 (length l)) l)).
"""]
def emit(name,items): out.append("Definition t_%s := [%s].\nEval vm_compute in fails t_%s.\n"%(name,';\n '.join(items),name))
# base32
vi=["","f","fo","foo","foob","fooba","foobar","abcdefghijklmn"]
vo=["","my======","mzxq====","mzxw6===","mzxw6yq=","mzxw6ytb","mzxw6ytboi======","mfrggzdfmztwq2lknnwg23q="]
it=[]
for a,b in zip(vi,vo):
    it.append(f"eqb (to_base32 {S(a)}) {S(b)}")
    it.append(f"oknb (from_base32 ({S(b)}++[0]) {len(b)}) {len(a)} {S(a)}")
    it.append(f"match from_base32_length ({S(b)}++[0]) {len(b)} with Ok n => Nat.eqb n {len(a)} | _ => false end")
    it.append(f"let '(n,o) := to_base32_raw {S(a)} in oknb (from_base32_raw (o++repeat 0 8) n) {len(a)} {S(a)}")
it.append("match from_base32 (%s++[0]) 17 with Ok (n,_) => Nat.eqb n 5 | _ => false end"%S("mzxw6ytb#mzxw6ytb"))
emit('base32',it)
# varint
t=rd('compress_integer.cpp')
it=[]
parts=t.split('TEST(')
for part,enc,dec in ((parts[1],'encode_varint','V'),(parts[2],'encode_zigzag','Z')):
    for m in re.finditer(r'\{\s*(-?)(0x[0-9A-Fa-f]+|0)[UL]*,\s*\{([^}]*)\},\s*(\d+)\}',part):
        v=int(m[2],16)*(-1 if m[1] else 1)
        b=[int(x,16) for x in m[3].split(',')]; n=int(m[4]); assert len(b)==n,(m[0])
        it.append(f"oknb ({enc} ({v})) {n} {L(b)}")
        if dec=='V': it.append(f"match decode_varint {L(b)} {n} with Ok (k,w) => andb (Nat.eqb k {n}) (w =? {v}) | _ => false end")
        else: it.append(f"match decode_zigzag {L(b)} {n} 0 with Ok (k,w) => andb (Nat.eqb k {n}) (w =? {v}) | _ => false end")
emit('varint',it)
# base58
t=joinlits(rd('base58.cpp'))
it=[]
for m in re.finditer(r'encdec_test\(\s*"([0-9a-f]*)",\s*"(\w*)"\)',t):
    h=bytes.fromhex(m[1]); s=m[2]
    it.append(f"oknb (to_base58 {L(h)}) {len(s)} {S(s)}")
    it.append(f"oknb (from_base58 ({S(s)}++[0]) {len(s)}) {len(h)} {L(h)}")
s=" vYxp6yFC7qiVtK1RcGQQt3L6EqTc8YhEDLnSMLqDvp8D "
it.append(f"match from_base58 ({S(s)}++[0]) 46 with Ok (n,_) => Nat.eqb n 33 | _ => false end")
it.append(f"match from_base58 ({S(s+'aa')}++[0]) 48 with Ok (n,_) => Nat.eqb n 0 | _ => false end")
emit('base58',it)
# hash
t=joinlits(rd('hash.cpp'))
it=[]
fn={'ripmd160':'ripemd160','sha1':'sha1','sha256':'sha2_256','sha512':'sha2_512','btc_hash160':'btc_hash160','btc_hash256':'btc_hash256'}
for m in re.finditer(r'test_(\w+)\(\s*"([^"]*)",\s*"([0-9a-fA-F]+)"\);',t):
    if m[1] in fn: it.append(f"okb ({fn[m[1]]} {S(m[2])} {len(m[2])}) {L(bytes.fromhex(m[3]))}")
for m in re.finditer(r'test_hmac_(\w+)\(\s*"([^"]*)",\s*"([^"]*)",\s*"([0-9a-fA-F]+)"\);',t):
    k=bytes.fromhex(m[2]);v=bytes.fromhex(m[3])
    it.append(f"okb (hmac_{m[1]} {L(k)} {len(k)} {L(v)} {len(v)}) {L(bytes.fromhex(m[4]))}")
emit('hash',it)
# bech32
t=joinlits(rd('btc/bech32.cpp'))
CH="qpzry9x8gf2tvdw0s3jn54khce6mua7l"
good=["A12UEL5L","a12uel5l","an83characterlonghumanreadablepartthatcontainsthenumber1andtheexcludedcharactersbio1tt5tgs","abcdef1qpzry9x8gf2tvdw0s3jn54khce6mua7lmqqqxw","11"+"q"*82+"c8247j","split1checkupstagehandshakeupstreamerranterredcaperred2y9e3w","?1ezyfcl"]
it=[]
for g in good:
    assert g in t or g.startswith('11'),g
    i=g.rindex('1'); hrp=g[:i].lower(); d=[CH.index(c) for c in g[i+1:-6].lower()]
    it.append(f"okb (bech32_encode {S(hrp)} {L(d)}) ({S(g.lower())}++[0])||okb (bech32_encode {S(hrp)} {L(d)}) ({S(g.lower())})")
    it.append(f"match bech32_decode ({S(g)}++[0]) {len(g)} 256 with Ok r => true | _ => false end")
    out.append(f"Eval vm_compute in bech32_decode ({S(g)}++[0]) {len(g)} 256.\n")
bad=[" 1nwldj5","\x7f1axkwrx","\x801eym55h","an84characterslonghumanreadablepartthatcontainsthenumber1andtheexcludedcharactersbio1569pvx","pzry9x0s0muk","1pzry9x0s0muk","x1b4n0q5v","li1dgmt3","de1lg7wt\xff","A1G7SGD8","10a06t8","1qzzfhee","a12UEL5L","A12uEL5L"]
out.append("Open Scope bool_scope.\n")
emit('bech',it)
for b in bad:
    sg=[x if x<128 else x-256 for x in b.encode('latin1')]
    for hs in (8,256): out.append(f"Eval vm_compute in bech32_decode ({L(b.encode('latin1'))}++[0]) {len(b)} {hs}.\n")
# address
t=joinlits(rd('btc/address.cpp'))
net={'mainnet':'mainnet','testnet':'testnet','regnet':'regnet'}
for m in re.finditer(r'test_address\(\s*"(\w+)",\s*"(\w+)",\s*&g_(\w+)_chain',t):
    out.append(f"(* {m[1]} {m[2]} *) Eval vm_compute in (address_decode ({S(m[1])}++[0]) {len(m[1])} 512 {m[3]}, {S(m[2][:8])}).\n") if 0 else None
    h=bytes.fromhex(m[2])
open(OUT+'/addr.txt','w').write('\n'.join(f"{m[1]} {m[2]} {m[3]}" for m in re.finditer(r'test_address\(\s*"(\w+)",\s*"(\w+)",\s*&g_(\w+)_chain',t)))
open(OUT+'/keys.txt','w').write('\n'.join(f"{m[1]} {m[2]} {m[3]} {1 if m[4] and 'true' in m[4] else 0}" for m in re.finditer(r'test_key\(\s*"(\w+)",\s*"(\w+)",\s*&g_(\w+)_chain_parameters(, \w+)?\)',joinlits(rd('btc/key.cpp')))))
open(OUT+'/t1.v','w').write('\n'.join(x for x in out if x))
o2=[]
it=[]
st="(repeat 7 128)"
for l in open(OUT+'/addr.txt'):
    a,h,n=l.split(); h=bytes.fromhex(h)
    if h[:3]==b'\x76\xa9\x14': k,d,f='PUBKEY_ADDRESS',h[3:23],'to_address_pubkey'
    elif h[:2]==b'\xa9\x14': k,d,f='SCRIPT_ADDRESS',h[2:22],'to_address_script'
    elif h[:2]==b'\0\x14': k,d,f='WITNESSV0_KEYHASH_ADDRESS',h[2:],'to_address_witnessv0_keyhash'
    elif h[:2]==b'\0\x20': k,d,f='WITNESSV0_SCRIPTHASH_ADDRESS',h[2:],'to_address_witnessv0_scripthash'
    else: k,d,f='WITNESS_UNKNOWN_ADDRESS',bytes([h[0]-0x50])+h[2:],'to_address_witness_unknown'
    it.append(f"match address_decode ({S(a)}++[0]) {len(a)} 512 {n} {st} with Ok r => match a_kind r with {k} => true | _ => false end && Nat.eqb (a_size r) {len(d)} && eqb (firstn {len(d)} (a_out r)) {L(d)} | _ => false end")
    it.append(f"oknb ({f} {L(d)} 256 {n}) {len(a)} {S(a)}")
for a in ["xx1qpqyqszqgpqyqszqgpqyqszqgpqyqszqg23t9q4","bc1qpqyqszqgpqyqszqgpqyqszqgpqyqszqgpqyqpnzxff","bc17pqyqszqgpqyqszqgpqyqszqgpqyqszqg8d0gmc"]:
    it.append(f"match address_decode ({S(a)}++[0]) {len(a)} 1024 mainnet {st} with Ok r => match a_kind r with BAD_ADDRESS => true | _ => false end | _ => false end")
kid=S("keyid")
it.append(f"match to_address_pubkey {kid} 1 mainnet with Ok (0%nat,_) => true | _ => false end")
it.append(f"match to_address_script {kid} 1 mainnet with Ok (0%nat,_) => true | _ => false end")
it.append(f"match address_decode ({kid}++[0]) 5 1 mainnet {st} with Ok r => match a_kind r with BAD_ADDRESS => true | _ => false end | _ => false end")
out_str=re.search(r'out_str =\s*"(\w+)"',t)[1]
it.append(f"oknb (to_base58_check (repeat 8 512) {S('prefix')}) {len(out_str)} {S(out_str)}")
for l in open(OUT+'/keys.txt'):
    a,h,n,c=l.split(); h=bytes.fromhex(h)
    it.append(f"match key_from_string ({S(a)}++[0]) {len(a)} (repeat 0 32) 77 {n} with Ok (1,k,{c}) => eqb k {L(h)} | _ => false end")
    it.append(f"oknb (key_to_string {L(h)} {'true' if c=='1' else 'false'} {n}) {len(a)} {S(a)}")
b="1HV9Lc3sNHZxwj4Zk6fB38tEmBryq2cBiF"
it.append(f"match key_from_string ({S(b)}++[0]) {len(b)} (repeat 0 32) 77 mainnet with Ok (0,_,_) => true | _ => false end")
head=out[0]
out=[head,"Open Scope bool_scope.\n"]
emit('addr',it)
open(OUT+'/t2.v','w').write('\n'.join(out))
