(** Vocabulary for a login in the middle of everything else: what the tab, the wallet and
    the others do from the call of login on. *)
From Coq Require Import Strings.String.
From Verif Require Import Base Deps Delegation Login Provider SpecHash SpecTree SpecTrace Client.
Local Open Scope N_scope.

(** Actions of the [j]-th call. *)
Definition concerns (j : nat) (a : action) : bool :=
  match a with AContinue k _ | AServe k _ _ => Nat.eqb k j | _ => false end.
Definition own_steps (j : nat) (l : list action) : nat := length (List.filter (concerns j) l).

(** Nothing else is begun in this tab.  Anybody may call the canister and write
    localStorage. *)
Definition meanwhile (a : action) : Prop :=
  match a with AContinue _ _ | AServe _ _ _ | ACanister _ _ | AStorage _ => True | _ => False end.

(** The wallet shows the account [x] and signs the message that was [made] for it, and the
    session key is one that canisters take. *)
Definition answers_well (D : Deps) (x : bytes) (own : list event) (s : settle) : Prop :=
  match s with
  | SThrow _ => False
  | SAccounts ac => first_account ac = Some x
  | SSigned sg k => d_der_err D (kp_der k) = None /\
      forall e text n, In e own -> prepared e x text n -> recovers D text sg x
  | _ => True
  end.

(** Nothing goes wrong with the [j]-th call, a login of [x], which began before the actions
    [l].  Since then the canister executed [new], and [own] of it for this tab; before, but
    after it was installed or upgraded last, it executed [since]. *)
Record no_fault (D : Deps) (i : SettingsInput) (j : nat) (x : bytes) (l : list action)
    (since new own : list event) : Prop := {
  nf_tab : forall a, In a l -> meanwhile a;
  nf_wallet : forall s, In (AContinue j s) l -> answers_well D x own s;
  nf_boot : forall e, In e new -> ~ boots e;
  (* nobody else submits the nonce this tab was given *)
  nf_nonce : forall now sg sk n e text, In (ACanister now (SiweLogin sg x sk n)) l -> In e own -> ~ prepared e x text n;
  (* nobody else uses the session key *)
  nf_key : forall sg k now sg' y n, In (AContinue j (SSigned sg k)) l -> ~ In (ACanister now (SiweLogin sg' y (kp_der k) n)) l;
  nf_fresh : forall sg k e sg' y n exp pk, In (AContinue j (SSigned sg k)) l -> In e since -> ~ logged_in e sg' y (kp_der k) n exp pk;
  (* requests arrive in time *)
  nf_sign_in : forall p e text n sg sk, In p own -> In e own -> prepared p x text n -> ev_op e = SiweLogin sg x sk n ->
    ev_time e < ev_time p + sign_in_window i /\ ev_time e < u64_max;
  nf_fetch : forall e g sg n sk exp pk cert, In e own -> In g own -> logged_in e sg x sk n exp pk ->
    ev_op g = GetDelegation (Some cert) x sk exp -> ev_time g < ev_time e + one_minute /\ ev_time g < u64_max
}.

(** The canister gave the same nonce to the same address twice, or inputs of SHA-256 that
    are at hand collide. *)
Definition unlucky (D : Deps) (i : SettingsInput) (j : nat) (x : bytes) (l : list action) (since new : list event) : Prop :=
  (exists a p b q c text text' n, new = a ++ p :: b ++ q :: c /\ prepared p x text n /\ prepared q x text' n) \/
  (exists p text n q x' n' b b', In p new /\ prepared p x text n /\ In q new /\ touches_pair D q x' n' /\
     address_text D x b /\ address_text D x' b' /\
     collision (d_sha256 D) (message_key_input b' n') (message_key_input b n)) \/
  (exists e sg y sk n exp pk sg' k exp' t, In e (since ++ new) /\ logged_in e sg y sk n exp pk /\
     In (AContinue j (SSigned sg' k)) l /\ sk <> kp_der k /\ targets_of i t /\
     delegation_collision D t sk exp (kp_der k) exp').

(** What the call waits for after [n] steps. *)
Definition awaits (j : nat) (x : bytes) (n : nat) (a : action) : Prop :=
  match n, a with
  | (0 | 1)%nat, AContinue k (SAccounts ac) => k = j /\ first_account ac = Some x
  | (2 | 7)%nat, AContinue k SActor => k = j
  | (3 | 8 | 10)%nat, AServe k _ _ => k = j
  | (4 | 5 | 9 | 11)%nat, AContinue k SReply => k = j
  | 6%nat, AContinue k (SSigned sg p) => k = j /\ sg <> [] /\ length (kp_raw p) = 32%nat /\ length (kp_secret p) = 32%nat
  | _, _ => False
  end.
(** A request is executed at a time that is not before the canister's last. *)
Definition timely (h : list event) (a : action) : Prop :=
  match a with AServe _ now _ => Forall (fun e => ev_time e <= now) h /\ now <= u64_max | _ => True end.
