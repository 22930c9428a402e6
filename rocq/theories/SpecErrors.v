(** Vocabulary for the errors the browser client shows: what can be the reason of an
    error, and which errors the tab shows. *)
From Coq Require Import Strings.String.
From Verif Require Import Base Deps Delegation Login Provider SpecTrace Client.
Local Open Scope N_scope.

(** The canister refuses a request with the text [e]. *)
Definition refusal (r : reply) (e : bytes) : Prop :=
  r = RPrepare (Err e) \/ r = RLogin (Err e) \/ r = RDelegation (Err e).

(** The wallet has no account to offer. *)
Definition no_accounts (l : list bytes) : Prop := l = [] \/ exists r, l = [] :: r.

(** Why a call can fail: the canister refused one of the tab's own requests, or trapped
    on it; the wallet or the agent threw; the wallet had no account or signed nothing;
    login was called at a wrong time. *)
Inductive reason (acts : list action) (own : list event) : bytes -> Prop :=
| canister_refused v e : In v own -> refusal (ev_reply v) e -> reason acts own e
| canister_trapped v why : In v own -> ev_reply v = RTrap why -> reason acts own (bs "Call failed: " ++ bs why)
| something_threw k e : In (AContinue k (SThrow e)) acts -> reason acts own e
| no_account_there k l : In (AContinue k (SAccounts l)) acts -> no_accounts l ->
    reason acts own (bs "No Ethereum address available. Call login after the user has connected their wallet.")
| nothing_signed k p : In (AContinue k (SSigned [] p)) acts -> reason acts own (bs "signMessage returned no data.")
| called_while_preparing : In ALogin acts ->
    reason acts own (bs "Don't call login while prepareLogin is in progress")
| called_while_logging_in : In ALogin acts ->
    reason acts own (bs "Don't call login while login is in progress").

(** The errors that callers and components see. *)
Definition rejected_with (w : world) (e : bytes) : Prop :=
  In (TThrown e) (w_tasks w) \/ In (TPrepare (PReturned (Err e))) (w_tasks w).
Definition shows_error (w : world) (e : bytes) : Prop :=
  x_login_error (w_ctx w) = Some e \/ x_prepare_error (w_ctx w) = Some e \/ x_sign_error (w_ctx w) = Some e.
