(** packages/ic_siwe/src/siwe.rs 105-110: [impl Display for SiweMessage], by serde_json with the
    derived [Serialize] of 54: the fields in the order of their declaration. *)
From Coq Require Import Strings.String.
From Verif Require Import Base Json Deps Hex Eth Hash Time3339 Settings Siwe.
Local Open Scope N_scope.

Definition message_json (m : SiweMessage) : json :=
  JObj [(bs "scheme", JStr (m_scheme m)); (bs "domain", JStr (m_domain m)); (bs "address", JStr (m_address m));
        (bs "statement", JStr (m_statement m)); (bs "uri", JStr (m_uri m)); (bs "version", JNum (dec (m_version m)));
        (bs "chain_id", JNum (dec (m_chain_id m))); (bs "nonce", JStr (m_nonce m));
        (bs "issued_at", JNum (dec (m_issued_at m))); (bs "expiration_time", JNum (dec (m_expiration_time m)))].
Definition siwe_display (m : SiweMessage) : bytes := json_text (message_json m).
