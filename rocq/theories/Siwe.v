(** Model of packages/ic_siwe/src/siwe.rs. *)
From Coq Require Import Strings.String.
From Verif Require Import Base Deps Hex Eth Hash Time3339 Settings.
Local Open Scope N_scope.

(** siwe.rs 14-24 *)
Inductive siwe_error := MessageNotFound.
Definition show_siwe_error (e : siwe_error) : bytes := bs "Message not found".

(** siwe.rs 55-66 *)
Record SiweMessage := mkMsg {
  m_scheme : bytes;
  m_domain : bytes;
  m_address : bytes;
  m_statement : bytes;
  m_uri : bytes;
  m_version : N;
  m_chain_id : N;
  m_nonce : bytes;
  m_issued_at : N;
  m_expiration_time : N
}.

(** siwe.rs 76-92.  The two reads of the clock agree within one message execution. *)
Definition siwe_message_new (settings : option Settings) (now : N) (address : EthAddress)
  (nonce : bytes) : outcome SiweMessage :=
  with_settings settings (fun s =>
    Done (mkMsg (s_scheme s) (s_domain s) (addr_str address) (s_statement s) (s_uri s) 1
            (s_chain_id s) nonce now (sat_add now (s_sign_in_expires_in s)))).

(** siwe.rs 99-102 *)
Definition siwe_is_expired (now : N) (m : SiweMessage) : bool :=
  (m_issued_at m <? now) || (m_expiration_time m <? now).

Definition nl : bytes := [x0a].

(** siwe.rs 118-145 *)
Definition siwe_to_string (m : SiweMessage) : outcome bytes :=
  olet issued := format_rfc3339 (m_issued_at m) in
  olet expires := format_rfc3339 (m_expiration_time m) in
  Done (m_domain m ++ bs " wants you to sign in with your Ethereum account:" ++ nl
        ++ m_address m ++ nl ++ nl
        ++ m_statement m ++ nl ++ nl
        ++ bs "URI: " ++ m_uri m ++ nl
        ++ bs "Version: " ++ dec (m_version m) ++ nl
        ++ bs "Chain ID: " ++ dec (m_chain_id m) ++ nl
        ++ bs "Nonce: " ++ m_nonce m ++ nl
        ++ bs "Issued At: " ++ issued ++ nl
        ++ bs "Expiration Time: " ++ expires).

(** siwe.rs 150-162: the hashed bytes, then the hash. *)
Definition message_key_preimage (address_bytes nonce : bytes) : bytes :=
  len8 address_bytes :: address_bytes ++ len8 nonce :: nonce.

Definition siwe_message_map_hash (D : Deps) (address : EthAddress) (nonce : bytes) : outcome bytes :=
  olet ab := addr_as_bytes address in
  Done (hash_bytes D (message_key_preimage ab nonce)).

(** siwe.rs 167-169: [HashMap<[u8; 32], SiweMessage>] *)
Notation SiweMessageMap := (gmap bytes SiweMessage).

(** siwe.rs 179-183 *)
Definition msgs_prune (now : N) (m : SiweMessageMap) : SiweMessageMap :=
  filter (fun kv : bytes * SiweMessage => now < m_expiration_time (snd kv)) m.

(** siwe.rs 186-189 *)
Definition msgs_insert (D : Deps) (msg : SiweMessage) (address : EthAddress) (nonce : bytes)
  (m : SiweMessageMap) : outcome SiweMessageMap :=
  olet h := siwe_message_map_hash D address nonce in Done (<[h := msg]> m).

(** siwe.rs 193-199 *)
Definition msgs_get (D : Deps) (address : EthAddress) (nonce : bytes) (m : SiweMessageMap)
  : outcome (result SiweMessage siwe_error) :=
  olet h := siwe_message_map_hash D address nonce in
  Done (match m !! h with Some x => Ok x | None => Err MessageNotFound end).

(** siwe.rs 202-205 *)
Definition msgs_remove (D : Deps) (address : EthAddress) (nonce : bytes) (m : SiweMessageMap)
  : outcome SiweMessageMap :=
  olet h := siwe_message_map_hash D address nonce in Done (delete h m).
