(** C128: the secret numbers ("nonces") in signatures. *)
From Verif Require Import Base S_Words S_Sha2 M_Secp S_Collide S_Secp256k1.

(** RFC 6979, 3.2: the generator seeded with [data].  [gen j data]: its state (K, V) after [j] rejected outputs;
    [output j data]: the 32 bytes it gives next. *)
Definition seeded (data : list Z) : list Z * list Z :=
  let V0 := repeat 1 32 in
  let K1 := hmac256 (repeat 0 32) (V0 ++ [0] ++ data) in
  let V1 := hmac256 K1 V0 in
  let K2 := hmac256 K1 (V1 ++ [1] ++ data) in
  (K2, hmac256 K2 V1).
Fixpoint gen (j : nat) (data : list Z) : list Z * list Z :=
  match j with
  | O => seeded data
  | S j => let '(K, V) := gen j data in let V1 := hmac256 K V in let K1 := hmac256 K (V1 ++ [0]) in (K1, hmac256 K1 V1)
  end.
Definition output (j : nat) (data : list Z) : list Z := let '(K, V) := gen j data in hmac256 K V.

(** The MACs (key, text) computed on the way to output [j], and the messages SHA-256 is given for them. *)
Definition seed_macs (data : list Z) : list (list Z * list Z) :=
  let V0 := repeat 1 32 in
  let K1 := hmac256 (repeat 0 32) (V0 ++ [0] ++ data) in
  let V1 := hmac256 K1 V0 in
  let K2 := hmac256 K1 (V1 ++ [1] ++ data) in
  [(repeat 0 32, V0 ++ [0] ++ data); (K1, V0); (K1, V1 ++ [1] ++ data); (K2, V1)].
Fixpoint gen_macs (j : nat) (data : list Z) : list (list Z * list Z) :=
  match j with
  | O => seed_macs data
  | S j => let '(K, V) := gen j data in let V1 := hmac256 K V in let K1 := hmac256 K (V1 ++ [0]) in
      gen_macs j data ++ [(K, V); (K, V1 ++ [0]); (K1, V1)]
  end.
Definition hashed (j : nat) (data : list Z) : list (list Z) :=
  flat_map (fun c => [inner_message SHA256 64 (fst c) (snd c); outer_message SHA256 64 (fst c) (snd c)]) (gen_macs j data ++ [gen j data]).
(** Two different messages with the same SHA-256, one hashed on the way to each of two outputs. *)
Definition collide (j1 : nat) (d1 : list Z) (j2 : nat) (d2 : list Z) : Prop :=
  exists x y, In x (hashed j1 d1) /\ In y (hashed j2 d2) /\ collision SHA256 x y.

(** What the generator is seeded with in the [c]-th attempt at a signature: key, hash, and from the second attempt on the number of the attempt. *)
Definition seed (key hash : list Z) (c : nat) : list Z := key ++ hash ++ (if (c =? 0)%nat then [] else le_bytes 4 (Z.of_nat c) ++ repeat 0 28).

(** (r, s) is the signature of [z] with the secret [d] and the nonce [k], or its mirror image (r, -s). *)
Definition made_with (d z k r s : Z) : Prop :=
  0 < k < secp_n /\ 0 < r < secp_n /\ 0 < s <= secp_n / 2 /\ exists x y, cmul k (Some (Gx, Gy)) = Some (x, y) /\ r = x mod secp_n /\
  ((s * k) mod secp_n = (z + r * d) mod secp_n \/ (s * k) mod secp_n = (- (z + r * d)) mod secp_n).

(** A thousand outputs in a row that are no use as a nonce. *)
Definition spent (d z : Z) (data : list Z) : Prop := forall j r s, (j < 1000)%nat -> ~ made_with d z (be_val (output j data)) r s.

(** The two numbers anyone can compute from two signatures (r, s1), (r, s2) of z1 and z2: the secret, if the nonces agree up to the sign. *)
Definition revealed (e z1 z2 r s1 s2 : Z) : Z := ((e * s2 * z1 - s1 * z2) * minv secp_n ((r * (s1 - e * s2)) mod secp_n)) mod secp_n.
