(** The delegations that the canister keeps, as a waiting line. *)
From Coq Require Import Strings.String.
From Verif Require Import Base Deps Provider SpecTree SpecTrace SpecFetch.
Local Open Scope N_scope.

(** At most [k] of the logins at the head of the line leave it, those made a minute ago or earlier. *)
Fixpoint let_go (now : N) (k : nat) (line : list N) : list N :=
  match k, line with
  | S k, t :: rest => if t + one_minute <=? now then let_go now k rest else line
  | _, _ => line
  end.

(** The line after a history: the times of the logins whose delegations are kept, oldest first.
    A login joins it at the end.  Before that, ten may leave; ten may also leave when a login has
    its session key refused. *)
Inductive waiting (D : Deps) : list event -> list N -> Prop :=
| waiting_nobody : waiting D [] []
| waiting_login since line e :
    waiting D since line -> login_succeeds e ->
    waiting D (since ++ [e]) (let_go (ev_time e) 10 line ++ [ev_time e])
| waiting_refused since line e :
    waiting D since line -> rejected_key D e ->
    waiting D (since ++ [e]) (let_go (ev_time e) 10 line)
| waiting_other since line e :
    waiting D since line -> ~ cleans D e ->
    waiting D (since ++ [e]) line.

(** How many logins were made at the time [t], and how many of them wait. *)
Definition logins_at (t : N) (l : list event) : nat :=
  length (List.filter (fun e => match ev_op e, ev_reply e with
    | SiweLogin _ _ _ _, RLogin (Ok _) => ev_time e =? t | _, _ => false end) l).
Definition waiting_at (t : N) (line : list N) : nat := length (List.filter (N.eqb t) line).
