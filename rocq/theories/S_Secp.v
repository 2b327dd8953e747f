(** What the theorems assume about the curve part of libsecp256k1. *)
From Verif Require Import Base S_Words M_Secp.

Definition scalar (k : Z) : Prop := 0 < k < secp_n.

Record secp_laws (E : secp) : Prop := {
  (** (k*G) + t*G = (k+t)*G, infinity exactly when the sum is 0 modulo the order *)
  law_add : forall k t, scalar k -> 0 <= t < secp_n ->
    add_gen E (pub_of E k) t = if (k + t) mod secp_n =? 0 then None else Some (pub_of E ((k + t) mod secp_n));
  (** SEC1 formats *)
  law_ser33 : forall P, length (ser E true P) = 33%nat /\ bytes (ser E true P) /\
    (hd 0 (ser E true P) = 2 \/ hd 0 (ser E true P) = 3);
  law_ser65 : forall P, length (ser E false P) = 65%nat /\ bytes (ser E false P) /\ hd 0 (ser E false P) = 4;
  law_parse : forall c P, parse E (ser E c P) = Some P;
  (** a parsed 33-byte string is the compressed format of the point *)
  law_parse33 : forall b P, bytes b -> length b = 33%nat -> parse E b = Some P -> ser E true P = b;
  (** signatures are in range, have a low s and verify *)
  law_sign : forall key hash extra r s, bytes key -> length key = 32%nat -> bytes hash -> length hash = 32%nat ->
    ecdsa E key hash extra = Some (r, s) ->
    scalar (be_val key) /\ scalar r /\ 0 < s <= secp_n / 2 /\ ecdsa_ok E (r, s) hash (pub_of E (be_val key)) = true;
  (** signing with a valid key does not fail *)
  law_signs : forall key hash extra, bytes key -> length key = 32%nat -> bytes hash -> length hash = 32%nat ->
    scalar (be_val key) -> ecdsa E key hash extra <> None }.
