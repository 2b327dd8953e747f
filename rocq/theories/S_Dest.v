(** Vocabulary for C117 and C118: everything the library writes as a text for people to copy: five kinds of addresses, private keys
    and the two kinds of extended keys. *)
From Verif Require Import Base M_Address M_Key M_Exkey S_Exkey.

Inductive thing :=
| KeyHash (hash : list Z) | ScriptHash (hash : list Z)
| WitnessKeyHash (hash : list Z) | WitnessScriptHash (hash : list Z) | WitnessProgram (version : Z) (program : list Z)
| SecretKey (key : list Z) (compressed : bool) | ExtendedKey (key : ex_key) | ExtendedPub (key : ex_pubkey).

(** The sizes Bitcoin gives them. *)
Definition proper (x : thing) : Prop :=
  match x with
  | KeyHash h | ScriptHash h | WitnessKeyHash h => bytes h /\ length h = 20%nat
  | WitnessScriptHash h => bytes h /\ length h = 32%nat
  | WitnessProgram v prog => 1 <= v <= 16 /\ bytes prog /\ (2 <= length prog <= 40)%nat
  | SecretKey k _ => bytes k /\ length k = 32%nat
  | ExtendedKey k => wf_key k
  | ExtendedPub k => wf_pub k
  end.

(** The API call that writes it, given room for 128 characters. *)
Definition write_text (x : thing) (net : chain_parameters) : res (nat * list Z) :=
  match x with
  | KeyHash h => to_address_pubkey h 128 net
  | ScriptHash h => to_address_script h 128 net
  | WitnessKeyHash h => to_address_witnessv0_keyhash h 128 net
  | WitnessScriptHash h => to_address_witnessv0_scripthash h 128 net
  | WitnessProgram v prog => to_address_witness_unknown (v :: prog) 128 net
  | SecretKey k c => key_to_string k c net
  | ExtendedKey k => exkey_to_string k net
  | ExtendedPub k => expubkey_to_string k net
  end.

Definition is_segwit (x : thing) : bool :=
  match x with WitnessKeyHash _ | WitnessScriptHash _ | WitnessProgram _ _ => true | _ => false end.
Definition is_address (x : thing) : bool :=
  match x with SecretKey _ _ | ExtendedKey _ | ExtendedPub _ => false | _ => true end.
