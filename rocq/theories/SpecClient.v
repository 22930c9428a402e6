(** Vocabulary for statements about the browser client: what the tab shows and stores,
    and what the canister's history says. *)
From Coq Require Import Strings.String.
From Verif Require Import Base Deps Delegation Login Provider SpecTrace Json Client.
Local Open Scope N_scope.

(** The tab is signed in as [x] with identity [i], or not at all. *)
Definition signed_in (w : world) (x : bytes) (i : ident) : Prop :=
  x_identity (w_ctx w) = Some i /\ x_address (w_ctx w) = Some (JStr x) /\ x_chain (w_ctx w) = Some (id_chain i).
(** Signed in, but localStorage may have held anything for an address. *)
Definition signed_in_as (w : world) (a : json) (i : ident) : Prop :=
  x_identity (w_ctx w) = Some i /\ x_address (w_ctx w) = Some a /\ x_chain (w_ctx w) = Some (id_chain i).
Definition signed_out (w : world) : Prop :=
  x_identity (w_ctx w) = None /\ x_address (w_ctx w) = None /\ x_chain (w_ctx w) = None.

(** The identity [i] is made of one login for address [x] with the identity's own session
    key, and of a delegation fetched after it for the same address, key and expiration. *)
Definition issued (tr : list event) (x : bytes) (i : ident) : Prop :=
  exists pre l mid g post sg n exp pk cert r, tr = pre ++ l :: mid ++ g :: post /\
    logged_in l sg x (kp_der (id_key i)) n exp pk /\
    delegated g cert x (kp_der (id_key i)) exp r /\
    id_chain i = mkChain [r] pk.

(** Nobody else writes the tab's localStorage entry. *)
Definition undisturbed (acts : list action) : Prop := forall j, ~ In (AStorage j) acts.

(** Calls that have settled, calls of login that have not, and those among them that
    have got beyond asking for the accounts. *)
Definition settled (t : task) : Prop :=
  match t with TPrepare (PReturned _) | TReturned _ | TThrown _ => True | _ => False end.
Definition login_running (t : task) : Prop :=
  match t with TPrepare _ | TReturned _ | TThrown _ => False | _ => True end.
Definition login_working (t : task) : Prop := login_running t /\ t <> TAddresses.

(** prepareLogin and login are only called after the earlier calls have settled. *)
Inductive sequential (D : Deps) (cid : bytes) : list action -> world -> Prop :=
| seq_nil : sequential D cid [] initial_world
| seq_snoc acts w a w' :
    sequential D cid acts w -> act_ok a w ->
    (a = APrepare \/ a = ALogin -> Forall settled (w_tasks w)) ->
    act_step D cid a w = Some w' -> sequential D cid (acts ++ [a]) w'.

(** A siwe_login with this nonce. *)
Definition submits (e : event) (n : bytes) : Prop :=
  exists sg x sk, ev_op e = SiweLogin sg x sk n.

(** The same actions with other secret keys. *)
Definition resecret (f : bytes -> bytes) (a : action) : action :=
  match a with
  | AContinue k (SSigned sg p) => AContinue k (SSigned sg (mkPair (kp_raw p) (f (kp_secret p))))
  | _ => a
  end.

(** Calls that are preparing a message, and calls waiting for a signature. *)
Definition prep_asking (p : prep) : Prop := match p with PActor _ | PReply _ _ => True | _ => False end.
Definition asking (t : task) : Prop :=
  match t with TPrepare p | TPreparing _ p => prep_asking p | _ => False end.
Definition signing (t : task) : Prop := match t with TSign _ _ _ => True | _ => False end.

(** Nobody calls login or writes localStorage. *)
Definition quiet (a : action) : Prop := a <> ALogin /\ forall j, a <> AStorage j.

(** The message was made for this account. *)
Definition prepared_for (tr : list event) (x text n : bytes) : Prop :=
  exists e, In e tr /\ prepared e x text n.

(** The wallet shows [x] as its first account, or none. *)
Definition only_account (x : bytes) (l : list bytes) : Prop :=
  match l with [] => True | y :: _ => y = x end.
Definition settles_for (x : bytes) (s : settle) : Prop :=
  match s with SAccounts l => only_account x l | _ => True end.

(** An undisturbed login, as the calls and answers come: the wallet shows [x], signs
    [text] with [sg], and the browser makes the session key [k]. *)
Definition login_actions (j : nat) (x sg : bytes) (k : keypair) (cert : bytes) (t1 t2 t3 : N) : list action :=
  [ALogin; AContinue j (SAccounts [x]); AContinue j (SAccounts [x]); AContinue j SActor;
   AServe j t1 cert; AContinue j SReply; AContinue j SReply; AContinue j (SSigned sg k); AContinue j SActor;
   AServe j t2 cert; AContinue j SReply; AServe j t3 cert; AContinue j SReply].
