(** Model of src/btc/key.c and exkey.c with several threads.  What the threads share are the two context pointers of key.c:329-330
    and the contexts they point to; every other buffer is taken to belong to one thread.  A call is a program whose steps are the
    accesses to the shared objects, in the order of the code; what happens between two such accesses takes no step.
    Memory is sequentially consistent.  A call of libsecp256k1 that takes a [const] context is one step that reads the context
    (the library documents such calls as safe to make concurrently); create, destroy and randomize are steps of their own. *)
From Verif Require Import Base M_Endian M_Hash M_Address M_Random M_Secp M_Key M_Exkey.

(** src/btc/key.c:329-330 *)
Inductive ptr := PSign | PVerify.

(** A call in progress: [Halt r] has returned (or is undefined, or has failed an assertion). *)
(** src/btc/key.c:329-628 (the accesses to the two variables and to what they point to) *)
Inductive prog (A : Type) : Type :=
| Halt (r : res A)
| Load (p : ptr) (k : option context -> prog A)
| Store (p : ptr) (v : option context) (k : prog A)
| Lib (c : option context) (k : prog A)
| Randomize (c : option context) (k : prog A)
| Create (sign verify : bool) (k : context -> prog A)
| Destroy (c : context) (k : prog A).
Arguments Halt {A} r.
Arguments Load {A} p k.
Arguments Store {A} p v k.
Arguments Lib {A} c k.
Arguments Randomize {A} c k.
Arguments Create {A} sign verify k.
Arguments Destroy {A} c k.

(** Sequencing. *)
(** src/btc/key.c (the C semicolon) *)
Fixpoint bindp {A B} (x : prog A) (f : A -> prog B) : prog B :=
  match x with
  | Halt (Ok a) => f a
  | Halt UB => Halt UB
  | Halt Abort => Halt Abort
  | Load p k => Load p (fun c => bindp (k c) f)
  | Store p v k => Store p v (bindp k f)
  | Lib c k => Lib c (bindp k f)
  | Randomize c k => Randomize c (bindp k f)
  | Create s v k => Create s v (fun c => bindp (k c) f)
  | Destroy c k => Destroy c (bindp k f)
  end.
Notation "x <~ e1 ;; e2" := (bindp e1 (fun x => e2)) (at level 61, e1 at next level, right associativity).
Notation "' p <~ e1 ;; e2" := (bindp e1 (fun p => e2)) (at level 61, p pattern, e1 at next level, right associativity).

(** [secp256k1_f(secp256k1_context_sign, ...)]: the variable is read, then the library is called. *)
(** src/btc/key.c:357,421,438,450,457,474,477,495,513,520,538,548,562,581,597,599 *)
Definition lib {A} (p : ptr) (f : option context -> res A) : prog A := Load p (fun c => Lib c (Halt (f c))).

(** src/btc/key.c:332-343 *)
Definition key_init_t (fuel : nat) (o : os) : prog (outcome unit) :=
  let rand_buffer := uninit 32 in
  Load PVerify (fun v =>
  _ <~ Halt (c_assert (is_null v)) ;;
  Create false true (fun cv =>
  Store PVerify (Some cv) (
  Load PSign (fun s =>
  _ <~ Halt (c_assert (is_null s)) ;;
  Create true false (fun cs =>
  Store PSign (Some cs) (
  r <~ Halt (os_rand_bytes fuel o rand_buffer 32) ;;
  match r with
  | Returned rand_buffer =>
      Load PSign (fun s => Randomize s (
      _ <~ Halt (sign_ctx s) ;;
      _ <~ Halt (cleanse rand_buffer 0 32) ;;
      Halt (Ok (Returned tt))))
  | Fatal => Halt (Ok Fatal)
  | Running => Halt (Ok Running)
  end)))))).

(** src/btc/key.c:345-352; each variable is read again after the assertion. *)
Definition key_uninit_t : prog unit :=
  Load PSign (fun s =>
  _ <~ Halt (c_assert (negb (is_null s))) ;;
  Load PSign (fun s =>
  _ <~ match s with Some cs => Destroy cs (Halt (Ok tt)) | None => Halt (Ok tt) end ;;
  Store PSign None (
  Load PVerify (fun v =>
  _ <~ Halt (c_assert (negb (is_null v))) ;;
  Load PVerify (fun v =>
  _ <~ match v with Some cv => Destroy cv (Halt (Ok tt)) | None => Halt (Ok tt) end ;;
  Store PVerify None (Halt (Ok tt))))))).

(** src/btc/key.c:354-358 *)
Fixpoint key_new_t (fuel : nat) (rand_fuel : nat) (draw : nat -> os) (j : nat) (mem : list Z) : prog (outcome (list Z)) :=
  match fuel with
  | O => Halt (Ok Running)
  | S fuel' =>
      r <~ Halt (os_rand_bytes rand_fuel (draw j) mem 32) ;;
      match r with
      | Returned mem =>
          ok <~ lib PSign (fun c => secp_seckey_verify c mem) ;;
          if ok : bool then Halt (Ok (Returned mem)) else key_new_t fuel' rand_fuel draw (S j) mem
      | Fatal => Halt (Ok Fatal)
      | Running => Halt (Ok Running)
      end
  end.

(** src/btc/key.c:428-446; the variable is read once and handed to [ec_privkey_export_der], whose library calls are one step. *)
Definition key_encode_t (E : secp) (key32 encoded_key : list Z) (encoded_key_len : nat) : prog (bool * list Z) :=
  _ <~ Halt (c_assert ((encoded_key_len =? BTC_PRIVATE_KEY_SIZE) || (encoded_key_len =? BTC_COMPRESSED_PRIVATE_KEY_SIZE))%nat) ;;
  '(r, encoded_len, out) <~ lib PSign (fun c =>
     export_der E c encoded_key encoded_key_len key32 (encoded_key_len =? BTC_COMPRESSED_PRIVATE_KEY_SIZE)%nat) ;;
  let r := if (encoded_len =? encoded_key_len)%nat then r else false in
  _ <~ Halt (c_assert (encoded_len =? encoded_key_len)%nat) ;;
  Halt (Ok (r, out)).

(** src/btc/key.c:448-452; as above (the library is taken to be called even for inputs that are refused before). *)
Definition key_decode_t (encoded_key : list Z) : prog (bool * list Z) := lib PSign (fun c => import_der c encoded_key).

(** src/btc/key.c:454-461 *)
Definition key_get_pub_t (E : secp) (key32 : list Z) : prog (pt E) :=
  p <~ lib PSign (fun c => secp_pubkey_create E c key32) ;;
  match p with Some P => Halt (Ok P) | None => Halt Abort end.

(** src/btc/key.c:483-501 *)
Definition pubkey_encode_t (E : secp) (P : pt E) (out : list Z) (len : nat) : prog (bool * list Z) :=
  _ <~ Halt (c_assert ((len =? BTC_PUBLIC_KEY_SIZE) || (len =? BTC_COMPRESSED_PUBLIC_KEY_SIZE))%nat) ;;
  bs <~ lib PSign (fun c => secp_pubkey_serialize E c P len (len =? 33)%nat) ;;
  out <~ Halt (store out 0 bs) ;;
  let out_len := length bs in
  let r := (out_len =? len)%nat in
  _ <~ Halt (c_assert (out_len =? len)%nat) ;;
  Halt (Ok (r, out)).

(** src/btc/key.c:503-515 *)
Definition pubkey_decode_t (E : secp) (encoded_pubkey : list Z) (len : nat) : prog (option (pt E)) :=
  _ <~ Halt (c_assert ((len =? BTC_PUBLIC_KEY_SIZE) || (len =? BTC_COMPRESSED_PUBLIC_KEY_SIZE))%nat) ;;
  lib PVerify (fun c => secp_pubkey_parse E c encoded_pubkey len).

(** src/btc/key.c:401-426 *)
Definition key_derive_t (E : secp) (key32 chain32 out_key32 out_chain32 : list Z) (child : Z) : prog (bool * list Z * list Z) :=
  '(ret, out) <~ (if Z.shiftr child 31 =? 0 then
       pubkey64 <~ key_get_pub_t E key32 ;;
       '(ret, encoded_pubkey) <~ pubkey_encode_t E pubkey64 (uninit BTC_COMPRESSED_PUBLIC_KEY_SIZE) BTC_COMPRESSED_PUBLIC_KEY_SIZE ;;
       header <~ Halt (rd encoded_pubkey 0) ;;
       out <~ Halt (btc_bip32_hash chain32 child header (skipn 1 encoded_pubkey)) ;;
       _ <~ Halt (cleanse encoded_pubkey 0 BTC_COMPRESSED_PUBLIC_KEY_SIZE) ;;
       Halt (Ok (ret, out))
     else
       out <~ Halt (btc_bip32_hash chain32 child 0 key32) ;;
       Halt (Ok (true, out))) ;;
  if negb ret then Halt (Ok (ret, out_key32, out_chain32))
  else
    k <~ Halt (slice key32 0 32) ;;
    out_key32 <~ Halt (store out_key32 0 k) ;;
    c <~ Halt (slice out 32 32) ;;
    out_chain32 <~ Halt (store out_chain32 0 c) ;;
    '(ret, k) <~ lib PSign (fun c => secp_privkey_tweak_add c out_key32 out) ;;
    out_key32 <~ Halt (store out_key32 0 k) ;;
    Halt (Ok (ret, out_key32, out_chain32)).

(** src/btc/key.c:463-481 *)
Definition pubkey_derive_t (E : secp) (encoded_pubkey33 chain32 out_pubkey33 out_chain32 : list Z) (child : Z)
  : prog (bool * list Z * list Z) :=
  _ <~ Halt (c_assert (Z.shiftr child 31 =? 0)) ;;
  header <~ Halt (rd encoded_pubkey33 0) ;;
  _ <~ Halt (c_assert ((header =? 2) || (header =? 3))) ;;
  p <~ pubkey_decode_t E encoded_pubkey33 33 ;;
  match p with
  | None => Halt (Ok (false, out_pubkey33, out_chain32))
  | Some _ =>
      out <~ Halt (btc_bip32_hash chain32 child header (skipn 1 encoded_pubkey33)) ;;
      c <~ Halt (slice out 32 32) ;;
      out_chain32 <~ Halt (store out_chain32 0 c) ;;
      p <~ lib PVerify (fun c => secp_pubkey_parse E c encoded_pubkey33 33) ;;
      match p with
      | None => Halt (Ok (false, out_pubkey33, out_chain32))
      | Some P =>
          q <~ lib PVerify (fun c => secp_pubkey_tweak_add E c P out) ;;
          match q with
          | None => Halt (Ok (false, out_pubkey33, out_chain32))
          | Some Q =>
              '(r, out_pubkey33) <~ pubkey_encode_t E Q out_pubkey33 33 ;;
              Halt (Ok (r, out_pubkey33, out_chain32))
          end
      end
  end.

(** src/btc/key.c:518-532 *)
Definition SigHasLowR_t (sig : Z * Z) : prog bool :=
  compact_sig <~ lib PSign (fun c => secp_serialize_compact c sig) ;;
  b <~ Halt (rd compact_sig 0) ;;
  Halt (Ok (b <? 0x80)).

(** src/btc/key.c:546-552 *)
Fixpoint grind_t (fuel : nat) (E : secp) (hash32 key32 : list Z) (sig : option (Z * Z)) (extra_entropy : list Z) (counter : Z)
  : prog (outcome (option (Z * Z))) :=
  match sig with
  | None => Halt (Ok (Returned None))
  | Some s =>
      low <~ SigHasLowR_t s ;;
      if low : bool then Halt (Ok (Returned (Some s)))
      else
        match fuel with
        | O => Halt (Ok Running)
        | S fuel' =>
            let counter := u32 (counter + 1) in
            extra_entropy <~ Halt (write_little_32 extra_entropy counter) ;;
            sig <~ lib PSign (fun c => secp_ecdsa_sign E c hash32 key32 (Some extra_entropy)) ;;
            grind_t fuel' E hash32 key32 sig extra_entropy counter
        end
  end.

(** src/btc/key.c:534-554 *)
Definition key_sign_t (fuel : nat) (E : secp) (key32 hash32 : list Z) : prog (outcome (Z * Z)) :=
  sig <~ lib PSign (fun c => secp_ecdsa_sign E c hash32 key32 None) ;;
  r <~ grind_t fuel E hash32 key32 sig (repeat 0 32) 0 ;;
  match r with
  | Returned (Some s) => Halt (Ok (Returned s))
  | Returned None => Halt Abort
  | Fatal => Halt (Ok Fatal)
  | Running => Halt (Ok Running)
  end.

(** src/btc/key.c:556-566 *)
Definition signature_encode_t (sig : Z * Z) : prog (nat * list Z) :=
  r <~ lib PSign (fun c => secp_serialize_der c sig BTC_SIGNATURE_SIZE) ;;
  match r with Some bs => Halt (Ok (length bs, bs)) | None => Halt (Ok (O, [])) end.

(** src/btc/key.c:576-583; one read of the variable, the library calls of [ecdsa_signature_parse_der_lax] are one step. *)
Definition signature_decode_t (encoded_sig : list Z) (encoded_sig_len : nat) : prog (Z * (Z * Z)) :=
  lib PVerify (fun c => parse_der_lax c encoded_sig (Z.of_nat encoded_sig_len)).

(** src/btc/key.c:585-601 *)
Definition key_verify_t (E : secp) (P : pt E) (hash32 : list Z) (sig : Z * Z) : prog bool :=
  sig_normalized <~ lib PVerify (fun c => secp_normalize c sig) ;;
  lib PVerify (fun c => secp_ecdsa_verify E c sig_normalized hash32 P).

(** src/btc/key.c:609-617 *)
Definition pubkey_keyid_t (E : secp) (P : pt E) (compress : bool) : prog (list Z) :=
  let encoded_len := if compress then BTC_COMPRESSED_PUBLIC_KEY_SIZE else BTC_PUBLIC_KEY_SIZE in
  '(r, encoded_pubkey) <~ pubkey_encode_t E P (uninit BTC_PUBLIC_KEY_SIZE) encoded_len ;;
  _ <~ Halt (c_assert r) ;;
  window <~ Halt (slice encoded_pubkey 0 encoded_len) ;;
  Halt (btc_hash160 window encoded_len).

(** src/btc/key.c:603-607 *)
Definition key_keyid_t (E : secp) (key32 : list Z) (compress : bool) : prog (list Z) :=
  P <~ key_get_pub_t E key32 ;; pubkey_keyid_t E P compress.

(** src/btc/key.c:619-623 *)
Definition key_fingerprint_t (E : secp) (key32 : list Z) (compress : bool) : prog Z :=
  keyid <~ key_keyid_t E key32 compress ;; Halt (read_little_32 keyid).

(** src/btc/exkey.c:24-34 *)
Definition exkey_derive_t (E : secp) (key derived : ex_key) (child fingerprint : Z) : prog (bool * ex_key) :=
  '(r, k, c) <~ key_derive_t E (xk_key key) (x_chain_code (xk_ext key)) (xk_key derived) (x_chain_code (xk_ext derived)) child ;;
  if r : bool then
    Halt (Ok (r, mkExKey (mkExt (u8 (x_depth (xk_ext key) + 1)) fingerprint child c) k))
  else
    let e := xk_ext derived in Halt (Ok (r, mkExKey (mkExt (x_depth e) (x_fingerprint e) (x_child e) c) k)).

(** src/btc/exkey.c:36-47 *)
Definition expubkey_derive_t (E : secp) (pubkey derived : ex_pubkey) (child fingerprint : Z) : prog (bool * ex_pubkey) :=
  '(r, p, c) <~ pubkey_derive_t E (xp_c_pubkey pubkey) (x_chain_code (xp_ext pubkey)) (xp_c_pubkey derived) (x_chain_code (xp_ext derived)) child ;;
  if negb r then
    let e := xp_ext derived in Halt (Ok (false, mkExPub (mkExt (x_depth e) (x_fingerprint e) (x_child e) c) p))
  else Halt (Ok (true, mkExPub (mkExt (u8 (x_depth (xp_ext pubkey) + 1)) fingerprint child c) p)).

(** src/btc/exkey.c:49-57 *)
Definition exkey_get_pub_t (E : secp) (key : ex_key) (pubkey : ex_pubkey) : prog ex_pubkey :=
  pub <~ key_get_pub_t E (xk_key key) ;;
  '(r, c) <~ pubkey_encode_t E pub (xp_c_pubkey pubkey) (length (xp_c_pubkey pubkey)) ;;
  _ <~ Halt (c_assert r) ;;
  Halt (Ok (mkExPub (xk_ext key) c)).

(* ---------------------------------------------------------------- *)
(** ** The machine *)

(** src/btc/key.c:329-330 (the values of the two variables) *)
Definition get_ptr (g : globals) (p : ptr) : option context := match p with PSign => g_sign g | PVerify => g_verify g end.
(** src/btc/key.c:335,337,348,351 (assignments to the two variables) *)
Definition set_ptr (g : globals) (p : ptr) (v : option context) : globals :=
  match p with PSign => mkGlobals v (g_verify g) | PVerify => mkGlobals (g_sign g) v end.

(** A pointer that may be passed to the library. *)
(** libsecp256k1 (a context is alive from create to destroy) *)
Definition usable (h : ctx_heap) (c : option context) : bool :=
  match c with Some x => existsb (Nat.eqb (ctx_id x)) (live h) | None => false end.

(** One step of one thread; [Halt] does not move. *)
(** src/btc/key.c:329-628 *)
Definition step {A} (st : globals * ctx_heap) (p : prog A) : (globals * ctx_heap) * prog A :=
  let '(g, h) := st in
  match p with
  | Halt r => (st, Halt r)
  | Load p k => (st, k (get_ptr g p))
  | Store p v k => ((set_ptr g p v, h), k)
  | Lib c k => (st, if usable h c then k else Halt UB)
  | Randomize c k => (st, if usable h c then k else Halt UB)
  | Create s v k => let '(c, h) := context_create h s v in ((g, h), k c)
  | Destroy c k => match context_destroy h c with Ok h => ((g, h), k) | _ => (st, Halt UB) end
  end.

(** Threads are numbered; [sched] is who moves when. *)
(** src/btc/key.c:329-628 (any interleaving) *)
Fixpoint exec {A} (sched : list nat) (st : globals * ctx_heap) (pool : nat -> prog A) : (globals * ctx_heap) * (nat -> prog A) :=
  match sched with
  | [] => (st, pool)
  | i :: sched =>
      let '(st, p) := step st (pool i) in
      exec sched st (fun j => if (j =? i)%nat then p else pool j)
  end.

(** What the next step of a thread accesses, and whether it writes it (C11 5.1.2.4: two accesses to one location, at least one of
    them a write, by two threads that could both go next, are a data race). *)
(** src/btc/key.c:329-628 *)
Inductive location := LPtr (p : ptr) | LCtx (id : nat).
(** src/btc/key.c:329-628 *)
Definition access {A} (p : prog A) : option (location * bool) :=
  match p with
  | Load p _ => Some (LPtr p, false)
  | Store p _ _ => Some (LPtr p, true)
  | Lib (Some c) _ => Some (LCtx (ctx_id c), false)
  | Randomize (Some c) _ => Some (LCtx (ctx_id c), true)
  | Destroy c _ => Some (LCtx (ctx_id c), true)
  | _ => None
  end.
