(** secp256k1 itself, from the published documents: the curve (SEC 2, 2.4.1), the formats of public keys (SEC 1, 2.3.3
    and 2.3.4, with the hybrid form libsecp256k1 also reads), ECDSA (SEC 1, 4.1.3 and 4.1.4) with the nonces of RFC 6979
    as libsecp256k1 draws them. *)
From Coq Require Import Zpow_facts.
From Verif Require Import Base S_Words S_Sha2 M_Secp.

(** The field has p elements, the curve is y^2 = x^3 + 7, G generates a group of secp_n elements. *)
Definition secp_p : Z := 0xFFFFFFFFFFFFFFFFFFFFFFFFFFFFFFFFFFFFFFFFFFFFFFFFFFFFFFFEFFFFFC2F.
Definition Gx : Z := 0x79BE667EF9DCBBAC55A06295CE870B07029BFCDB2DCE28D959F2815B16F81798.
Definition Gy : Z := 0x483ADA7726A3C4655DA4FBFC0E1108A8FD17B448A68554199C47D08FFB10D4B8.

Definition on_curve (P : Z * Z) : bool :=
  let '(x, y) := P in
  (0 <=? x) && (x <? secp_p) && (0 <=? y) && (y <? secp_p) && ((y * y) mod secp_p =? (x * x * x + 7) mod secp_p).

(** 1/a modulo a prime m *)
Definition minv (m a : Z) : Z := Zpow_mod a (m - 2) m.

(** Addition of points; [None] is the point at infinity.  [third l x1 y1 x2]: where the line of slope [l] through
    (x1, y1) and a point with abscissa x2 meets the curve again, reflected. *)
Definition cthird (l x1 y1 x2 : Z) : Z * Z :=
  let x3 := (l * l - x1 - x2) mod secp_p in (x3, (l * (x1 - x3) - y1) mod secp_p).
Definition cadd (P Q : option (Z * Z)) : option (Z * Z) :=
  match P, Q with
  | None, _ => Q
  | _, None => P
  | Some (x1, y1), Some (x2, y2) =>
      if x1 =? x2 then
        if (y1 + y2) mod secp_p =? 0 then None
        else Some (cthird ((3 * (x1 * x1) * minv secp_p (2 * y1)) mod secp_p) x1 y1 x1)
      else Some (cthird (((y2 - y1) * minv secp_p (x2 - x1)) mod secp_p) x1 y1 x2)
  end.
(** k * P *)
Fixpoint cmulp (k : positive) (P : option (Z * Z)) : option (Z * Z) :=
  match k with
  | xH => P
  | xO k => let Q := cmulp k P in cadd Q Q
  | xI k => let Q := cmulp k P in cadd P (cadd Q Q)
  end.
Definition cmul (k : Z) (P : option (Z * Z)) : option (Z * Z) := match k with Zpos k => cmulp k P | _ => None end.

(** Public keys: points of the curve other than infinity. *)
Definition curve_pt : Type := { P : Z * Z | on_curve P = true }.
Definition as_pt (P : option (Z * Z)) : option curve_pt :=
  match P with
  | None => None
  | Some P => match bool_dec (on_curve P) true with left H => Some (exist _ P H) | right _ => None end
  end.
Lemma G_on : on_curve (Gx, Gy) = true. Proof. vm_compute. reflexivity. Qed.
Definition G : curve_pt := exist _ (Gx, Gy) G_on.
Definition k_pub (k : Z) : curve_pt := match as_pt (cmul k (Some (Gx, Gy))) with Some P => P | None => G end.
Definition k_add (P : curve_pt) (t : Z) : option curve_pt := as_pt (cadd (Some (proj1_sig P)) (cmul t (Some (Gx, Gy)))).

(** Octet strings *)
Definition k_ser (compressed : bool) (P : curve_pt) : list Z :=
  let '(x, y) := proj1_sig P in
  if compressed then (2 + y mod 2) :: be_bytes 32 x else 4 :: be_bytes 32 x ++ be_bytes 32 y.
Definition msqrt (c : Z) : Z := Zpow_mod c ((secp_p + 1) / 4) secp_p.
Definition k_parse (b : list Z) : option curve_pt :=
  match b with
  | [] => None
  | tag :: r =>
      let x := be_val (firstn 32 r) in
      if ((tag =? 2) || (tag =? 3)) && (length r =? 32)%nat then
        let y := msqrt (x * x * x + 7) in
        as_pt (Some (x, if y mod 2 =? tag - 2 then y else secp_p - y))
      else if ((tag =? 4) || (tag =? 6) || (tag =? 7)) && (length r =? 64)%nat then
        let y := be_val (skipn 32 r) in
        if (tag =? 4) || (y mod 2 =? tag - 6) then as_pt (Some (x, y)) else None
      else None
  end.

(** ECDSA *)
Definition in_order (k : Z) : bool := (0 <? k) && (k <? secp_n).
Definition k_verify (sig : Z * Z) (hash : list Z) (P : curve_pt) : bool :=
  let '(r, s) := sig in
  in_order r && in_order s &&
  let w := minv secp_n s in
  match cadd (cmul ((be_val hash * w) mod secp_n) (Some (Gx, Gy))) (cmul ((r * w) mod secp_n) (Some (proj1_sig P))) with
  | None => false
  | Some (x, _) => x mod secp_n =? r
  end.
(** One attempt with the nonce [k]; of s and -s the smaller one. *)
Definition sign_with (d z k : Z) : option (Z * Z) :=
  if negb (in_order k) then None else
  match cmul k (Some (Gx, Gy)) with
  | None => None
  | Some (x, _) =>
      let r := x mod secp_n in
      let s := (minv secp_n k * (z + r * d)) mod secp_n in
      if (r =? 0) || (s =? 0) then None else Some (r, if secp_n / 2 <? s then secp_n - s else s)
  end.

(** RFC 6979, 3.2 d to h, on the octets [data]. *)
Definition hmac256 (key text : list Z) : list Z := hmac SHA256 64 key text.
Definition drbg_init (data : list Z) : list Z * list Z :=
  let V := repeat 1 32 in
  let K := hmac256 (repeat 0 32) (V ++ [0] ++ data) in
  let V := hmac256 K V in
  let K := hmac256 K (V ++ [1] ++ data) in
  (K, hmac256 K V).
Fixpoint attempts (fuel : nat) (d z : Z) (K V : list Z) : option (Z * Z) :=
  match fuel with
  | O => None
  | S fuel =>
      let V := hmac256 K V in
      match sign_with d z (be_val V) with
      | Some sig => Some sig
      | None => let K := hmac256 K (V ++ [0]) in attempts fuel d z K (hmac256 K V)
      end
  end.
(** Signing.  libsecp256k1 makes as many attempts as it takes; here, after 1000 of them (each fails with a probability below
    2^-126), the nonce is 1 or 2, so that the function is total. *)
Definition k_sign (key hash : list Z) (extra : option (list Z)) : option (Z * Z) :=
  let d := be_val key in let z := be_val hash in
  if negb (in_order d) then None else
  let '(K, V) := drbg_init (key ++ hash ++ match extra with None => [] | Some e => e end) in
  match attempts 1000 d z K V with
  | Some sig => Some sig
  | None => match sign_with d z 1 with Some sig => Some sig | None => sign_with d z 2 end
  end.

Definition secp256k1 : secp := mkSecp curve_pt k_pub k_add k_ser k_parse k_verify k_sign.
