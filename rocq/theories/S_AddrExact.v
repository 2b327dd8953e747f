(** What reading an address gives, for every text and every content of the uninitialised scratch buffer. *)
From Verif Require Import Base S_Bits S_Rfc4648 S_Base58 S_Base58Check S_Bech32 S_Address S_Key S_Base32Exact.

(** The program taken from the five-bit values [vals] when they are followed in memory by [left]: the reader looks for the first '=' or NUL.
    After a NUL the values are what is read; up to a '=' (which can only lie in [left]) everything before it is; without either the
    search runs out of the buffer: [None], undefined. *)
Inductive program_read (vals left : list Z) : option (list Z) -> Prop :=
| read_nul a b : vals ++ left = a ++ 0 :: b -> ~ In 61 a -> ~ In 0 a -> program_read vals left (b32_meaning b32_raw_value vals)
| read_mark a b : vals ++ left = a ++ 61 :: b -> ~ In 61 a -> ~ In 0 a -> program_read vals left (b32_meaning b32_raw_value a)
| read_none : ~ In 61 (vals ++ left) -> ~ In 0 (vals ++ left) -> program_read vals left None.

(** What a failed attempt to read the text as Base58Check leaves in the output buffer: the decoded bytes if the text is Base58 at all. *)
Definition base58_trace (text d : list Z) : Prop :=
  b58_decodes text d /\ bytes d \/ d = [] /\ ~ exists d', bytes d' /\ b58_decodes text d'.

Inductive kind := Bad | PubkeyHash | ScriptHash | WitnessKeyHash | WitnessScriptHash | WitnessOther.
(** The classification, the size reported, the first bytes of the output buffer, and how many of its bytes have been written. *)
Record reading := mkReading { what : kind; size : nat; content : list Z; extent : nat }.

(** The size the library asks the caller to provide for a text of [n] characters. *)
Definition announced (n : nat) : nat := (n * 733 / 1000 + 2)%nat.

(** [pub], [script], [hrp] are the network's prefixes;
    [cap] is the capacity given and [stack] the 128 bytes of scratch buffer before the call. *)
Inductive address_read (pub script hrp text : list Z) (cap : nat) (stack : list Z) : option reading -> Prop :=
| too_small : (cap < announced (length text))%nat ->
    address_read pub script hrp text cap stack (Some (mkReading Bad cap [] 0))
| key_hash payload : (announced (length text) <= cap)%nat -> bytes payload -> base58_address pub payload text ->
    address_read pub script hrp text cap stack (Some (mkReading PubkeyHash (length payload) payload (length pub + length payload + 4)))
| script_hash payload : (announced (length text) <= cap)%nat -> bytes payload -> base58_address script payload text ->
    address_read pub script hrp text cap stack (Some (mkReading ScriptHash (length payload) payload (length script + length payload + 4)))
| neither d : (announced (length text) <= cap)%nat -> ~ also_base58 pub script text -> (forall ver vals, ~ bech32_valid text hrp (ver :: vals)) ->
    base58_trace text d ->
    address_read pub script hrp text cap stack (Some (mkReading Bad cap d (length d)))
| astray ver vals : (announced (length text) <= cap)%nat -> ~ also_base58 pub script text -> bech32_valid text hrp (ver :: vals) ->
    program_read vals (skipn (1 + length vals) stack) None ->
    address_read pub script hrp text cap stack None
| version_0 vals prog d : (announced (length text) <= cap)%nat -> ~ also_base58 pub script text -> bech32_valid text hrp (0 :: vals) ->
    program_read vals (skipn (1 + length vals) stack) (Some prog) -> base58_trace text d ->
    address_read pub script hrp text cap stack
      (Some (mkReading (if (length prog =? 20)%nat then WitnessKeyHash else if (length prog =? 32)%nat then WitnessScriptHash else Bad)
                       (length prog) prog (Nat.max (length prog) (length d))))
| version_n ver vals prog d : (announced (length text) <= cap)%nat -> ~ also_base58 pub script text -> ver <> 0 -> bech32_valid text hrp (ver :: vals) ->
    program_read vals (skipn (1 + length vals) stack) (Some prog) -> base58_trace text d ->
    address_read pub script hrp text cap stack
      (Some (mkReading (if (ver <=? 16) && (2 <=? length prog)%nat && (length prog <=? 40)%nat then WitnessOther else Bad)
                       (1 + length prog) (ver :: prog) (Nat.max (1 + length prog) (length d)))).
