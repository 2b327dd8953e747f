# Writes Coq files that run the model on the vectors of /repo/tests under vm_compute ("fails" prints the number of checks and those that fail).
# Usage: python3 curve_vectors.py OUTDIR; then coqc -Q /verif/rocq/theories Verif OUTDIR/t*.v.  Not part of the build; a sanity check of the model, not a proof.
import os
import re
exec(open(os.path.join(os.path.dirname(os.path.abspath(__file__)),'vectors.py')).read().split('# base32')[0])
out[0]=out[0].replace("M_Secp M_Key.","M_Secp M_Key M_Exkey S_Words M_Endian M_Random.")
out.append(r"""
Definition P := 0xFFFFFFFFFFFFFFFFFFFFFFFFFFFFFFFFFFFFFFFFFFFFFFFFFFFFFFFEFFFFFC2F.
Definition Gx := 0x79BE667EF9DCBBAC55A06295CE870B07029BFCDB2DCE28D959F2815B16F81798.
Definition Gy := 0x483ADA7726A3C4655DA4FBFC0E1108A8FD17B448A68554199C47D08FFB10D4B8.
Definition red x := x mod P.
Fixpoint powp (m b : Z) (e : positive) : Z := match e with xH => b mod m | xO e => let r := powp m b e in (r*r) mod m | xI e => let r := powp m b e in (r*r mod m * b) mod m end.
Definition inv m x := match m - 2 with Zpos e => powp m x e | _ => 0 end.
Definition jdbl (p : Z*Z*Z) := let '(x,y,z) := p in
  if z =? 0 then p else
  let a := red (x*x) in let b := red (y*y) in let c := red (b*b) in
  let d := red (2*((x+b)*(x+b) - a - c)) in let e := 3*a in let f := red (e*e) in
  let x3 := red (f - 2*d) in let y3 := red (e*(d-x3) - 8*c) in (x3, y3, red (2*y*z)).
Definition jadd (p q : Z*Z*Z) := let '(x1,y1,z1) := p in let '(x2,y2,z2) := q in
  if z1 =? 0 then q else if z2 =? 0 then p else
  let z1z1 := red (z1*z1) in let z2z2 := red (z2*z2) in
  let u1 := red (x1*z2z2) in let u2 := red (x2*z1z1) in
  let s1 := red (y1*z2*z2z2) in let s2 := red (y2*z1*z1z1) in
  if u1 =? u2 then (if s1 =? s2 then jdbl p else (1,1,0)) else
  let h := red (u2-u1) in let r := red (s2-s1) in let hh := red (h*h) in let hhh := red (h*hh) in let v := red (u1*hh) in
  let x3 := red (r*r - hhh - 2*v) in (x3, red (r*(v-x3) - s1*hhh), red (h*z1*z2)).
Fixpoint jmul (e : positive) (p : Z*Z*Z) := match e with xH => p | xO e => jdbl (jmul e p) | xI e => jadd (jdbl (jmul e p)) p end.
Definition smul k p := match k with Zpos e => jmul e p | _ => (1,1,0) end.
Definition aff (p : Z*Z*Z) : option (Z*Z) := let '(x,y,z) := p in if z =? 0 then None else let i := inv P z in let ii := red (i*i) in Some (red (x*ii), red (y*ii*i)).
Definition jac (p : Z*Z) := (fst p, snd p, 1).
Definition G := (Gx,Gy,1).
Definition c_pub k := match aff (smul k G) with Some p => p | None => (0,0) end.
Definition c_add (p : Z*Z) t := aff (jadd (jac p) (smul t G)).
Definition c_ser (c:bool) (p : Z*Z) := if c then (2 + snd p mod 2) :: be_bytes 32 (fst p) else 4 :: be_bytes 32 (fst p) ++ be_bytes 32 (snd p).
Definition sqrtp x := match (P+1)/4 with Zpos e => powp P x e | _ => 0 end.
Definition c_parse (bs : list Z) : option (Z*Z) := match bs with
  | 2 :: r | 3 :: r => if negb (Nat.eqb (length r) 32) then None else let x := be_val r in if P <=? x then None else
      let y := sqrtp (red (x*x*x+7)) in if negb (red (y*y) =? red (x*x*x+7)) then None else
      let odd := match bs with 3 :: _ => 1 | _ => 0 end in Some (x, if y mod 2 =? odd then y else P - y)
  | 4 :: r => if negb (Nat.eqb (length r) 64) then None else let x := be_val (firstn 32 r) in let y := be_val (skipn 32 r) in
      if (P <=? x) || (P <=? y) || negb (red (y*y) =? red (x*x*x+7)) then None else Some (x,y)
  | _ => None end%bool.
Definition c_ok (sg : Z*Z) (h : list Z) (p : Z*Z) := let '(r,s) := sg in
  if (r =? 0) || (s =? 0) then false else
  let w := inv secp_n s in let z := be_val h in
  match aff (jadd (smul (z*w mod secp_n) G) (smul (r*w mod secp_n) (jac p))) with Some (x,_) => x mod secp_n =? r | None => false end%bool.
Definition c_sign (k h : list Z) (e : option (list Z)) : option (Z*Z) :=
  match sha2_256 (k ++ h ++ match e with Some e => e | None => [] end) (length (k ++ h ++ match e with Some e => e | None => [] end)) with
  | Ok n => let n := be_val n mod secp_n in let '(x,_) := c_pub n in let r := x mod secp_n in
      let s := (inv secp_n n * (be_val h + r * be_val k)) mod secp_n in Some (r, if secp_n/2 <? s then secp_n - s else s)
  | _ => None end.
Definition E := mkSecp (Z*Z) c_pub c_add c_ser c_parse c_ok c_sign.
Definition g := mkGlobals (Some (mkCtx true false 0)) (Some (mkCtx false true 1)).
Definition e0 := mkExt 0 0 0 (repeat 0 32).
Definition k0 := mkExKey e0 (repeat 0 32).
Definition p0 := mkExPub e0 (repeat 0 33).
Definition ext_eqb a b := (x_depth a =? x_depth b) && (x_fingerprint a =? x_fingerprint b) && (x_child a =? x_child b) && eqb (x_chain_code a) (x_chain_code b).
Definition sk_eqb a b := ext_eqb (xk_ext a) (xk_ext b) && eqb (xk_key a) (xk_key b).
Definition pk_eqb a b := ext_eqb (xp_ext a) (xp_ext b) && eqb (xp_c_pubkey a) (xp_c_pubkey b).
Fixpoint run (key : ex_key) (pub : ex_pubkey) (ds : list (list Z * list Z * Z)) : list bool :=
  match ds with [] => [] | (ps,ss,child) :: ds =>
   (oknb (exkey_to_string key mainnet) (length ss) ss) ::
   (match exkey_from_string (ss++[0]) (length ss) k0 mainnet with Ok (1,k) => sk_eqb k key | _ => false end) ::
   (oknb (expubkey_to_string pub mainnet) (length ps) ps) ::
   (match expubkey_from_string (ps++[0]) (length ps) p0 mainnet with Ok (1,k) => pk_eqb k pub | _ => false end) ::
   match key_fingerprint E g (xk_key key) true with Ok fp =>
   match exkey_derive E g key k0 child fp with Ok (true,nk) =>
   match exkey_get_pub E g nk p0 with Ok np =>
     (if child <? 2^31 then match pubkey_fingerprint (xp_c_pubkey pub) with Ok fp2 => match expubkey_derive E g pub p0 child fp2 with Ok (true,np2) => pk_eqb np np2 | _ => false end | _ => false end else true)
      :: run nk np ds
   | _ => [false] end | _ => [false] end | _ => [false] end end.
Definition start seed ds := match exkey_init k0 seed (length seed) with Ok k => match exkey_get_pub E g k p0 with Ok p => run k p ds | _ => [false] end | _ => [false] end.
Open Scope bool_scope.
""")
t=joinlits(rd('btc/exkey.cpp'))
for i,m in enumerate(re.finditer(r'TestVector\(\s*"(\w+)"\)((?:\(\s*"\w+",\s*"\w+",\s*\w+\))+);',t)):
    ds=re.findall(r'"(\w+)",\s*"(\w+)",\s*(\w+)\)',m[2])
    out.append(f"Eval vm_compute in fails (start {L(bytes.fromhex(m[1]))} [{'; '.join(f'({S(a)}, {S(b)}, {int(c,0)})' for a,b,c in ds)}]).")
k=joinlits(rd('btc/key.cpp'))
sec=dict(re.findall(r'static const std::string (\w+) =\s*"(\w+)"',k))
it=[]
for n in '12':
    for c in ('','C'):
        w=sec['strSecret'+n+c]; a=sec['addr'+n+c]; b='true' if c else 'false'
        it.append(f"match key_from_string ({S(w)}++[0]) {len(w)} (repeat 0 32) 7 mainnet with Ok (1,kk,cc) => (cc =? {1 if c else 0}) && match key_keyid E g kk {b} with Ok id => match address_decode ({S(a)}++[0]) {len(a)} 64 mainnet (repeat 7 128) with Ok r => match a_kind r with PUBKEY_ADDRESS => eqb (firstn 20 (a_out r)) id | _ => false end | _ => false end | _ => false end | _ => false end")
key=bytes(range(7,39)); h=bytes(range(90,122))
it.append(f"match key_get_pub E g {L(key)} with Ok p => match key_sign 50 E g {L(key)} {L(h)} with Ok (Returned sg) => match key_verify E g p {L(h)} sg with Ok b => b | _ => false end && match key_verify E g p {L(h)} (0,0) with Ok b => negb b | _ => false end && match signature_encode g sg with Ok (n,o) => match signature_decode g (o++repeat 0 8) n with Ok (1,sg2) => (fst sg =? fst sg2) && (snd sg =? snd sg2) | _ => false end | _ => false end | _ => false end | _ => false end")
for n in (214,279):
    it.append(f"match key_encode E g {L(key)} (repeat 0 {n}) {n} with Ok (true,o) => match key_decode g o with Ok (true,k) => eqb k {L(key)} | _ => false end | _ => false end")
for n in (33,65):
    it.append(f"match key_get_pub E g {L(key)} with Ok p => match pubkey_encode E g p (repeat 0 {n}) {n} with Ok (true,o) => match pubkey_decode E g o {n} with Ok (Some q) => (fst p =? fst q) && (snd p =? snd q) | _ => false end | _ => false end | _ => false end")
emit('key',it)
open(OUT+'/t3.v','w').write('\n'.join(out))
# t4 base64 hex
out2=out; out=[out2[0]]
out.append("Definition buf := map Z.of_nat (seq 0 256).\nOpen Scope bool_scope.\n")
it=[]
for f,enc,dec,ln,el in (('standard','to_base64','from_base64','from_base64_length','to_base64_length'),('urlsafe','to_base64_urlsafe','from_base64_urlsafe','',' to_base64_urlsafe_length')):
    v=re.findall(r'"([^"]*)"',open(f'/repo/tests/data/base64_{f}.data').read()); 
    print(len(v))
    for i,s in enumerate(v):
        if i>70 and i%9: continue
        if i>=256: continue
        it.append(f"eqb ({enc} (firstn {i} buf)) {S(s)} && Nat.eqb ({el} {i}) {len(s)} && oknb ({dec} ({S(s)}++[0]) {len(s)}) {i} (firstn {i} buf)")
emit('b64',it)
it=[]
it.append('oknb (from_base64 (%s++[0]) 9) 3 [0;1;2]'%S("AAEC#AwQF"))
for s,n,r in (("00112233",6,3),("00112233",7,3),("00112233",8,4),("001122T3",8,3),("0011223T",8,3)):
    it.append(f"match from_hex ({S(s)}++[0]) {n} with Ok (k,_) => Nat.eqb k {r} | _ => false end")
for i in range(0,256,17):
    b=bytes(range(i))
    it.append(f"eqb (to_hex (firstn {i} buf) 1) {S(b.hex().upper())} && eqb (to_hex (firstn {i} buf) 0) {S(b.hex())} && oknb (from_hex {S(b.hex().upper())} {2*i}) {i} (firstn {i} buf) && oknb (from_hex {S(b.hex())} {2*i}) {i} (firstn {i} buf)")
emit('hex',it)
open(OUT+'/t4.v','w').write('\n'.join(out))
