(** Statements that reach from the bytes of calls to the private keys of wallets. *)
From Coq Require Import Strings.String.
From Verif Require Import Base Deps Delegation Login Provider Candid Interface SpecEth SpecEcdsa SpecHash SpecWire SpecTrace.
Local Open Scope N_scope.

(** The call is a successful one to siwe_prepare_login, siwe_login or to install or upgrade. *)
Definition asked_text (q : nat) (e : call_event) (x text n : bytes) : Prop :=
  call_op q (ce_call e) = Some (PrepareLogin x) /\ ce_reply e = RPrepare (Ok (text, n)).
Definition asked_login (q : nat) (e : call_event) (sg x sk n : bytes) (exp : N) (pk : bytes) : Prop :=
  call_op q (ce_call e) = Some (SiweLogin sg x sk n) /\ ce_reply e = RLogin (Ok (mkDetails exp pk)).
Definition configured (q : nat) (e : call_event) (i : SettingsInput) : Prop :=
  (call_op q (ce_call e) = Some (Install i) \/ call_op q (ce_call e) = Some (Upgrade i)) /\ ce_reply e = RDone.

(** [x] is the address of the private key [key]. *)
Definition address_of_key (D : Deps) (key : Z) (x : bytes) : Prop :=
  exists Q addr, key_pair key Q /\ key_address (d_keccak D) Q addr /\ x = eip55 (d_keccak D) addr.

(** The calls by which the client signs in, and their replies. *)
Definition sign_in_calls (t1 t2 t3 : N) (caller certificate x text n sg sk : bytes) (exp : N) (pk : bytes)
  (d : SignedDelegation) : list call_event :=
  [mkCallEvent t1 (Call MPrepareLogin caller None (js_prepare_login x)) (RPrepare (Ok (text, n)));
   mkCallEvent t2 (Call MLogin caller None (js_login sg x sk n)) (RLogin (Ok (mkDetails exp pk)));
   mkCallEvent t3 (Call MGetDelegation caller (Some certificate) (js_get_delegation x sk exp)) (RDelegation (Ok d))].
