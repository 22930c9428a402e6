(** Vocabulary for the three stages whose progress the tab shows: preparing, signing and
    logging in.  Each has a status and an error. *)
From Coq Require Import Strings.String.
From Verif Require Import Base Deps Delegation Login Provider Client.
Local Open Scope N_scope.

Inductive stage := Preparing | Signing | LoggingIn.
Definition shown (w : world) (g : stage) : status * option bytes :=
  match g with
  | Preparing => (x_prepare (w_ctx w), x_prepare_error (w_ctx w))
  | Signing => (x_sign (w_ctx w), x_sign_error (w_ctx w))
  | LoggingIn => (x_login (w_ctx w), x_login_error (w_ctx w))
  end.

(** What can become of a stage. *)
Inductive change :=
| Same
| Begins          (* busy, and an old error is gone *)
| Busies          (* busy, an old error stays *)
| Succeeds        (* an old error stays *)
| Fails (e : bytes)
| Forgets         (* only the error is gone *)
| Resets.
Definition becomes (c : change) (s : status * option bytes) : status * option bytes :=
  match c with
  | Same => s
  | Begins => (Busy, None)
  | Busies => (Busy, snd s)
  | Succeeds => (Success, snd s)
  | Fails e => (Failed, Some e)
  | Forgets => (fst s, None)
  | Resets => (Idle, None)
  end.

(** What becomes of the stages when a call goes from one [await] to another. *)
Definition preparing_moves (p p' : prep) : change :=
  match p, p' with
  | PAddresses, PActor _ => Begins                  (* the account is known *)
  | _, PReturned (Ok _) => Succeeds
  | _, PReturned (Err e) => Fails e
  | _, _ => Same
  end.
Definition moves (t t' : task) (g : stage) : change :=
  match g, t, t' with
  | Preparing, TPrepare p, TPrepare p' | Preparing, TPreparing _ p, TPreparing _ p' => preparing_moves p p'
  | LoggingIn, TAddresses, TPreparing _ _ | LoggingIn, TAddresses, TSign _ _ _ => Begins
  | LoggingIn, _, TReturned _ => Succeeds
  | LoggingIn, _, TThrown e => Fails e
  | Signing, TAddresses, TPreparing _ _ => Forgets
  | Signing, TAddresses, TSign _ _ _ => Begins
  | Signing, TPreparing _ _, TSign _ _ _ => Busies
  | Signing, TSign _ _ _, TActor _ _ _ _ => Succeeds
  | Signing, TSign _ _ _, TThrown e => Fails e
  | _, _, _ => Same
  end.

(** What becomes of the stages by an action that leads from [w] to [w']. *)
Definition stage_change (a : action) (w w' : world) (g : stage) (c : change) : Prop :=
  match a with
  | ALoad => c = Resets
  | AClear => c = match g with Signing => Forgets | _ => Resets end
  | ALogin => exists t, w_tasks w' = w_tasks w ++ [t] /\
      ((t = TAddresses /\ c = Same) \/ (exists e, t = TThrown e /\ c = match g with LoggingIn => Fails e | _ => Same end))
  | AContinue k _ => exists t t', nth_error (w_tasks w) k = Some t /\ nth_error (w_tasks w') k = Some t' /\ c = moves t t' g
  | _ => c = Same
  end.

(** What becomes of the prepared message: a call of prepareLogin that ends well puts its
    own there, a failing login throws it away. *)
Definition message_moves (t t' : task) (m : option (bytes * bytes)) : option (bytes * bytes) :=
  match t, t' with
  | TPrepare _, TPrepare (PReturned (Ok m)) | TPreparing _ _, TPreparing _ (PReturned (Ok m)) => Some m
  | _, TThrown _ => None
  | _, _ => m
  end.
Definition message_change (a : action) (w w' : world) : Prop :=
  let m := x_message (w_ctx w) in let m' := x_message (w_ctx w') in
  match a with
  | ALoad | AClear => m' = None
  | ALogin => exists t, w_tasks w' = w_tasks w ++ [t] /\ ((t = TAddresses /\ m' = m) \/ (exists e, t = TThrown e /\ m' = None))
  | AContinue k _ => exists t t', nth_error (w_tasks w) k = Some t /\ nth_error (w_tasks w') k = Some t' /\ m' = message_moves t t' m
  | _ => m' = m
  end.
