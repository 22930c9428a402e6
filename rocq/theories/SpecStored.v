(** What a text in localStorage must be to be taken as a saved sign-in. *)
From Coq Require Import Strings.String.
From Verif Require Import Base Json SpecJson Delegation Client.
Local Open Scope N_scope.

Definition member (v : json) (k : string) (x : json) : Prop := exists l, v = JObj l /\ In (bs k, x) l.

(** Two digits a byte, high one first; the last byte may have one digit only. *)
Inductive hex_text : bytes -> bytes -> Prop :=
| hex_text_end : hex_text [] []
| hex_text_single a va : hex_digit_value a va -> hex_text [a] [u8 va]
| hex_text_pair a b va vb t l : hex_digit_value a va -> hex_digit_value b vb -> hex_text t l ->
    hex_text (a :: b :: t) (u8 (16 * va + vb) :: l).
Inductive hex_number : bytes -> N -> Prop :=
| hex_number_one a va : hex_digit_value a va -> hex_number [a] va
| hex_number_more t n a va : hex_number t n -> hex_digit_value a va -> hex_number (t ++ [a]) (16 * n + va).

Definition blob_member (v : json) (k : string) (b : bytes) : Prop :=
  exists t, member v k (JStr t) /\ 64 <= blen t /\ hex_text t b.

Definition stored_targets (v : json) (ts : option (list bytes)) : Prop :=
  match ts with
  | None => forall x, ~ member v "targets" x
  | Some ts => exists l, member v "targets" (JArr l) /\ Forall2 (fun j t => exists s, j = JStr s /\ hex_text s t) l ts
  end.
Definition stored_delegation (v : json) (d : SignedDelegation) : Prop :=
  exists dv t, member v "delegation" dv /\ blob_member dv "pubkey" (dl_pubkey (sd_delegation d)) /\
    member dv "expiration" (JStr t) /\ hex_number t (dl_expiration (sd_delegation d)) /\
    stored_targets dv (dl_targets (sd_delegation d)) /\
    blob_member v "signature" (sd_signature d).
Definition stored_chain (v : json) (c : chain) : Prop :=
  exists l, member v "delegations" (JArr l) /\ Forall2 stored_delegation l (ch_delegations c) /\
    blob_member v "publicKey" (ch_pubkey c).
(** RFC 8410: the DER form of an Ed25519 public key is 12 fixed bytes and the key. *)
Definition stored_key (v : json) (k : keypair) : Prop :=
  exists p s more, v = JArr (JStr p :: JStr s :: more) /\ length (kp_raw k) = 32%nat /\ s <> [] /\
    hex_text p (map u8 [48; 42; 48; 5; 6; 3; 43; 101; 112; 3; 33; 0] ++ kp_raw k) /\ hex_text s (kp_secret k).

(** A number is zero when no digit before its exponent is. *)
Definition zero (t : bytes) : Prop :=
  exists m e, t = m ++ e /\ Forall (fun c => ~ (49 <= nb c <= 57)) m /\ (e = [] \/ exists r, e = x65 :: r \/ e = x45 :: r).
(** What JavaScript takes for false. *)
Definition falsy (j : json) : Prop :=
  j = JNull \/ j = JBool false \/ j = JStr [] \/ exists t, j = JNum t /\ zero t.

Definition stored_sign_in (t : bytes) (a : json) (i : ident) : Prop :=
  exists v kv cv, json_doc t v /\ ~ falsy a /\
    member v "address" a /\ member v "sessionIdentity" kv /\ stored_key kv (id_key i) /\
    member v "delegationChain" cv /\ stored_chain cv (id_chain i).
