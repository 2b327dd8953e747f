(** Vocabulary for C110 and C111: library calls, threads that make them, and what it means that a thread was not disturbed. *)
From Verif Require Import Base M_Endian M_Random M_Secp M_Key M_Exkey M_Threads.

(** The calls that use the shared contexts, with their arguments. *)
Inductive call (E : secp) : Type :=
| CNew (fuel rand_fuel : nat) (draw : nat -> os) (mem : list Z)
| CEncode (key32 out : list Z) (len : nat)
| CDecode (encoded : list Z)
| CGetPub (key32 : list Z)
| CPubEncode (P : pt E) (out : list Z) (len : nat)
| CPubDecode (encoded : list Z) (len : nat)
| CDerive (key32 chain32 out_key32 out_chain32 : list Z) (child : Z)
| CPubDerive (pubkey33 chain32 out_pubkey33 out_chain32 : list Z) (child : Z)
| CSign (fuel : nat) (key32 hash32 : list Z)
| CSigEncode (sig : Z * Z)
| CSigDecode (encoded : list Z) (len : nat)
| CVerify (P : pt E) (hash32 : list Z) (sig : Z * Z)
| CPubKeyid (P : pt E) (compress : bool)
| CKeyid (key32 : list Z) (compress : bool)
| CFingerprint (key32 : list Z) (compress : bool)
| CExDerive (key derived : ex_key) (child fingerprint : Z)
| CExPubDerive (pubkey derived : ex_pubkey) (child fingerprint : Z)
| CExGetPub (key : ex_key) (pubkey : ex_pubkey).
Arguments CNew {E}. Arguments CEncode {E}. Arguments CDecode {E}. Arguments CGetPub {E}. Arguments CPubEncode {E}.
Arguments CPubDecode {E}. Arguments CDerive {E}. Arguments CPubDerive {E}. Arguments CSign {E}. Arguments CSigEncode {E}.
Arguments CSigDecode {E}. Arguments CVerify {E}. Arguments CPubKeyid {E}. Arguments CKeyid {E}. Arguments CFingerprint {E}.
Arguments CExDerive {E}. Arguments CExPubDerive {E}. Arguments CExGetPub {E}.

(** What a call gives back. *)
Inductive value (E : secp) : Type :=
| VNew (r : outcome (list Z)) | VFlag (r : bool * list Z) | VPoint (r : pt E) | VPoint0 (r : option (pt E))
| VPair (r : bool * list Z * list Z) | VSig (r : outcome (Z * Z)) | VText (r : nat * list Z) | VSig0 (r : Z * (Z * Z))
| VBool (r : bool) | VBytes (r : list Z) | VWord (r : Z) | VEx (r : bool * ex_key) | VExPub (r : bool * ex_pubkey) | VPub (r : ex_pubkey).
Arguments VNew {E}. Arguments VFlag {E}. Arguments VPoint {E}. Arguments VPoint0 {E}. Arguments VPair {E}. Arguments VSig {E}.
Arguments VText {E}. Arguments VSig0 {E}. Arguments VBool {E}. Arguments VBytes {E}. Arguments VWord {E}. Arguments VEx {E}.
Arguments VExPub {E}. Arguments VPub {E}.

Definition give {A B} (f : A -> B) (p : prog A) : prog B := a <~ p ;; Halt (Ok (f a)).
Definition given {A B} (f : A -> B) (r : res A) : res B := a <- r ;; Ok (f a).

(** The call as a thread makes it. *)
Definition call_prog {E : secp} (c : call E) : prog (value E) :=
  match c with
  | CNew f rf d m => give VNew (key_new_t f rf d 0 m)
  | CEncode k o l => give VFlag (key_encode_t E k o l)
  | CDecode e => give VFlag (key_decode_t e)
  | CGetPub k => give VPoint (key_get_pub_t E k)
  | CPubEncode P o l => give VFlag (pubkey_encode_t E P o l)
  | CPubDecode e l => give VPoint0 (pubkey_decode_t E e l)
  | CDerive k c ok oc i => give VPair (key_derive_t E k c ok oc i)
  | CPubDerive k c ok oc i => give VPair (pubkey_derive_t E k c ok oc i)
  | CSign f k h => give VSig (key_sign_t f E k h)
  | CSigEncode s => give VText (signature_encode_t s)
  | CSigDecode e l => give VSig0 (signature_decode_t e l)
  | CVerify P h s => give VBool (key_verify_t E P h s)
  | CPubKeyid P b => give VBytes (pubkey_keyid_t E P b)
  | CKeyid k b => give VBytes (key_keyid_t E k b)
  | CFingerprint k b => give VWord (key_fingerprint_t E k b)
  | CExDerive k d i f => give VEx (exkey_derive_t E k d i f)
  | CExPubDerive k d i f => give VExPub (expubkey_derive_t E k d i f)
  | CExGetPub k p => give VPub (exkey_get_pub_t E k p)
  end.

(** The call made by a program with one thread: the functions of M_Key and M_Exkey. *)
Definition call_alone {E : secp} (g : globals) (c : call E) : res (value E) :=
  match c with
  | CNew f rf d m => given VNew (key_new f rf d 0 g m)
  | CEncode k o l => given VFlag (key_encode E g k o l)
  | CDecode e => given VFlag (key_decode g e)
  | CGetPub k => given VPoint (key_get_pub E g k)
  | CPubEncode P o l => given VFlag (pubkey_encode E g P o l)
  | CPubDecode e l => given VPoint0 (pubkey_decode E g e l)
  | CDerive k c ok oc i => given VPair (key_derive E g k c ok oc i)
  | CPubDerive k c ok oc i => given VPair (pubkey_derive E g k c ok oc i)
  | CSign f k h => given VSig (key_sign f E g k h)
  | CSigEncode s => given VText (signature_encode g s)
  | CSigDecode e l => given VSig0 (signature_decode g e l)
  | CVerify P h s => given VBool (key_verify E g P h s)
  | CPubKeyid P b => given VBytes (pubkey_keyid E g P b)
  | CKeyid k b => given VBytes (key_keyid E g k b)
  | CFingerprint k b => given VWord (key_fingerprint E g k b)
  | CExDerive k d i f => given VEx (exkey_derive E g k d i f)
  | CExPubDerive k d i f => given VExPub (expubkey_derive E g k d i f)
  | CExGetPub k p => given VPub (exkey_get_pub E g k p)
  end.

(** A thread makes calls one after the other and collects the results. *)
Fixpoint thread_prog {E : secp} (cs : list (call E)) : prog (list (value E)) :=
  match cs with
  | [] => Halt (Ok [])
  | c :: cs => v <~ call_prog c ;; vs <~ thread_prog cs ;; Halt (Ok (v :: vs))
  end.
Fixpoint thread_alone {E : secp} (g : globals) (cs : list (call E)) : res (list (value E)) :=
  match cs with
  | [] => Ok []
  | c :: cs => v <- call_alone g c ;; vs <- thread_alone g cs ;; Ok (v :: vs)
  end.

(** Two threads whose next steps access one location, at least one of them to write it. *)
Definition race {A} (pool : nat -> prog A) : Prop :=
  exists i j l wi wj, i <> j /\ access (pool i) = Some (l, wi) /\ access (pool j) = Some (l, wj) /\ wi || wj = true.

(** How often thread [i] is scheduled. *)
Definition turns (i : nat) (sched : list nat) : nat := count_occ Nat.eq_dec sched i.
