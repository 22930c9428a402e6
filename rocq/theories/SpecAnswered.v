(** Vocabulary for what a call waits for, and what it makes of the canister's answers. *)
From Coq Require Import Strings.String.
From Verif Require Import Base Deps Delegation Login Provider SpecTrace Client SpecErrors.
Local Open Scope N_scope.

Definition throws (s : settle) : Prop := exists e, s = SThrow e.
Definition accounts (s : settle) : Prop := exists l, s = SAccounts l.

(** What lets a call go on. *)
Definition prep_waits (p : prep) (s : settle) : Prop :=
  match p with
  | PAddresses => throws s \/ accounts s
  | PActor _ => throws s \/ s = SActor
  | PReply _ ans => throws s \/ (s = SReply /\ ans <> None)
  | PReturned _ => False
  end.
Definition waits (t : task) (s : settle) : Prop :=
  match t with
  | TPrepare p => prep_waits p s
  | TAddresses => throws s \/ accounts s
  | TPreparing _ (PReturned _) => s = SReply
  | TPreparing _ p => prep_waits p s
  | TSign _ _ _ => throws s \/ exists sg p, s = SSigned sg p
  | TActor _ _ _ _ => throws s \/ s = SActor
  | TLogin _ _ _ _ ans | TDelegation _ _ _ ans => throws s \/ (s = SReply /\ ans <> None)
  | TReturned _ | TThrown _ => False
  end.
(** A request of the call is on its way to the canister. *)
Definition requests (t : task) : Prop :=
  match t with
  | TPrepare (PReply _ None) | TPreparing _ (PReply _ None) | TLogin _ _ _ _ None | TDelegation _ _ _ None => True
  | _ => False
  end.
(** The answer [r] is on its way to the call. *)
Definition answered (t : task) (r : reply) : Prop :=
  match t with
  | TPrepare (PReply _ ans) | TPreparing _ (PReply _ ans) | TLogin _ _ _ _ ans | TDelegation _ _ _ ans => ans = Some r
  | _ => False
  end.

Definition failed (t : task) (e : bytes) : task :=
  match t with
  | TPrepare _ => TPrepare (PReturned (Err e))
  | TPreparing a _ => TPreparing a (PReturned (Err e))
  | _ => TThrown e
  end.
(** What the call makes of the answer. *)
Inductive takes : task -> reply -> task -> Prop :=
| takes_trap t why : takes t (RTrap why) (failed t (bs "Call failed: " ++ bs why))
| takes_refusal t r e : refusal r e -> takes t r (failed t e)
| takes_message p m : takes (TPrepare p) (RPrepare (Ok m)) (TPrepare (PReturned (Ok m)))
| takes_message_in_login a p m : takes (TPreparing a p) (RPrepare (Ok m)) (TPreparing a (PReturned (Ok m)))
| takes_details a n sg k ans d : takes (TLogin a n sg k ans) (RLogin (Ok d)) (TDelegation a k d None)
| takes_delegation a k d ans sd :
    takes (TDelegation a k d ans) (RDelegation (Ok sd)) (TReturned (mkIdent k (mkChain [sd] (ld_pubkey d)))).

(** Where a call goes when something else than the canister's answer comes; [m] is the
    prepared message in the store. *)
Definition no_address : bytes := bs "No Ethereum address available. Call login after the user has connected their wallet.".
Inductive goes (m : option (bytes * bytes)) : task -> settle -> task -> Prop :=
| goes_threw t e : goes m t (SThrow e) (failed t e)
| goes_unconnected l : no_accounts l -> goes m TAddresses (SAccounts l) (TThrown no_address)
| goes_unconnected_prepare l : no_accounts l -> goes m (TPrepare PAddresses) (SAccounts l) (TPrepare (PReturned (Err no_address)))
| goes_unconnected_preparing a l : no_accounts l ->
    goes m (TPreparing a PAddresses) (SAccounts l) (TPreparing a (PReturned (Err no_address)))
| goes_prepared a l text n : a <> [] -> m = Some (text, n) -> goes m TAddresses (SAccounts (a :: l)) (TSign a text n)
| goes_unprepared a l : a <> [] -> m = None -> goes m TAddresses (SAccounts (a :: l)) (TPreparing a PAddresses)
| goes_asks a l : a <> [] -> goes m (TPrepare PAddresses) (SAccounts (a :: l)) (TPrepare (PActor a))
| goes_asks_in_login b a l : a <> [] -> goes m (TPreparing b PAddresses) (SAccounts (a :: l)) (TPreparing b (PActor a))
| goes_requests a : goes m (TPrepare (PActor a)) SActor (TPrepare (PReply a None))
| goes_requests_in_login b a : goes m (TPreparing b (PActor a)) SActor (TPreparing b (PReply a None))
| goes_signs a text n : goes m (TPreparing a (PReturned (Ok (text, n)))) SReply (TSign a text n)
| goes_fails a e : goes m (TPreparing a (PReturned (Err e))) SReply (TThrown e)
| goes_unsigned a text n p : goes m (TSign a text n) (SSigned [] p) (TThrown (bs "signMessage returned no data."))
| goes_signed a text n sg p : sg <> [] -> goes m (TSign a text n) (SSigned sg p) (TActor a n sg p)
| goes_login a n sg p : goes m (TActor a n sg p) SActor (TLogin a n sg p None)
| goes_answered t r t' : answered t r -> takes t r t' -> goes m t SReply t'.
