(** Model of packages/ic_siwe_js/src/react/index.tsx and vue/index.ts: what components of a
    page are given to show, and which wallet the manager talks to. *)
From Coq Require Import Strings.String.
From Verif Require Import Base Deps Provider Json Client.
Local Open Scope N_scope.

(** ** What components see: context.type.ts 7-76, without the three methods *)

(** isPreparingLogin / isLoggingIn, is...Error, is...Success, is...Idle *)
Record flags := mkFlags { f_busy : bool; f_error : bool; f_success : bool; f_idle : bool }.

Record view := mkView {
  v_initializing : bool;
  v_prepare : status;
  v_prepare_flags : flags;
  v_prepare_error : option bytes;
  v_login : status;
  v_login_flags : flags;
  v_login_error : option bytes;
  v_sign : status;
  v_sign_error : option bytes;
  v_chain : option chain;
  v_identity : option ident;
  v_address : option json
}.

Definition status_eqb (a b : status) : bool :=
  match a, b with Idle, Idle | Busy, Busy | Success, Success | Failed, Failed => true | _, _ => false end.

(** react/index.tsx 43-46, 48-51; vue/index.ts 54-57, 60-63 *)
Definition compare_flags (s : status) : flags :=
  mkFlags (status_eqb s Busy) (status_eqb s Failed) (status_eqb s Success) (status_eqb s Idle).

(** react/index.tsx 31, 38-53: the value is made from the store's context at every
    rendering, and [useSelector] renders again whenever the context changes. *)
Definition react_view (x : ctx) : view :=
  mkView (x_initializing x) (x_prepare x) (compare_flags (x_prepare x)) (x_prepare_error x)
    (x_login x) (compare_flags (x_login x)) (x_login_error x) (x_sign x) (x_sign_error x)
    (x_chain x) (x_identity x) (x_address x).

(** vue/index.ts 22-35: the object made in setup *)
Definition vue_created (x : ctx) : view :=
  mkView (x_initializing x) (x_prepare x) (mkFlags false false false true) (x_prepare_error x)
    (x_login x) (mkFlags false false false true) (x_login_error x) (x_sign x) (x_sign_error x)
    (x_chain x) (x_identity x) (x_address x).

(** vue/index.ts 38-69: what the subscriber assigns; every field is overwritten *)
Definition vue_assigned (x : ctx) (v : view) : view :=
  mkView (x_initializing x) (x_prepare x) (compare_flags (x_prepare x)) (x_prepare_error x)
    (x_login x) (compare_flags (x_login x)) (x_login_error x) (x_sign x) (x_sign_error x)
    (x_chain x) (x_identity x) (x_address x).

(** ** When the store tells its subscribers *)

(** Does this step call updateState?  The store (@xstate/store 2.6.2) tells subscribers about
    every update, and tells a new subscriber nothing. *)
Definition prep_sends (p : prep) (s : settle) : bool :=
  match p, s with PActor _, SActor => false | _, _ => true end.
Definition task_sends (t : task) (s : settle) : bool :=
  match t, s with
  | TPrepare p, _ => prep_sends p s
  | TPreparing _ p, _ => prep_sends p s
  | TActor _ _ _ _, SActor => false
  | TLogin _ _ _ _ (Some r), SReply =>
      match login_answer r with Some (Ok _) => false | _ => true end
  | _, _ => true
  end.
Definition act_sends (a : action) (w : world) : bool :=
  match a with
  | AManager | AClear => true
  | ALogin => match x_prepare (w_ctx w), x_login (w_ctx w) with Busy, _ | _, Busy => true | _, _ => false end
  | AContinue k s => match nth_error (w_tasks w) k with Some t => task_sends t s | None => false end
  | _ => false
  end.

(** ** The life of a Vue provider component *)

Inductive component :=
| VAbsent
| VSetup (v : view)        (* createSiweIdentityProvider has run, vue/index.ts 7-36 *)
| VMounted (v : view).     (* the subscription is there, 37-74 *)

Inductive vact :=
| VAct (a : action)        (* anything else that happens *)
| VCreate                  (* setup *)
| VMount
| VUnmount.

Definition told (c : component) (x : ctx) : component :=
  match c with VMounted v => VMounted (vue_assigned x v) | _ => c end.

Definition vue_step (D : Deps) (cid : bytes) (a : vact) (w : world) (c : component) : option (world * component) :=
  match a, c with
  | VAct ALoad, _ =>
      match act_step D cid ALoad w with Some w' => Some (w', VAbsent) | None => None end
  | VAct a, _ =>
      match act_step D cid a w with
      | Some w' => Some (w', if act_sends a w then told c (w_ctx w') else c)
      | None => None
      end
  | VCreate, VAbsent =>
      (* 16-20 the manager, then 22-23 the snapshot *)
      match act_step D cid AManager w with Some w' => Some (w', VSetup (vue_created (w_ctx w'))) | None => None end
  | VMount, VSetup v => Some (w, VMounted v)
  | VUnmount, (VSetup _ | VMounted _) => Some (w, VAbsent)
  | _, _ => None
  end.

Definition vact_ok (a : vact) (w : world) : Prop := match a with VAct a => act_ok a w | _ => True end.

Inductive vruns (D : Deps) (cid : bytes) : list vact -> world -> component -> Prop :=
| vruns_nil : vruns D cid [] initial_world VAbsent
| vruns_snoc acts w c a w' c' :
    vruns D cid acts w c -> vact_ok a w -> vue_step D cid a w c = Some (w', c') -> vruns D cid (acts ++ [a]) w' c'.

(** ** Which wallet a React page talks to *)

(** Wallet clients are told apart by a number.  [b_account], [b_client]: what wagmi reported
    at the last rendering (react/index.tsx 22-24); [b_manager]: the manager's [walletClient]. *)
Record binding := mkBinding {
  b_account : option bytes;
  b_client : option N;
  b_manager : option N
}.

(** The first rendering, before its effects: react/index.tsx 26-29. *)
Definition initial_binding (account : option bytes) (client : option N) : binding := mkBinding account client None.

(** react/index.tsx 33-36; an empty address counts as none. *)
Definition effect (b : binding) : binding :=
  match b_account b, b_client b with
  | Some (_ :: _), Some c => mkBinding (b_account b) (b_client b) (Some c)
  | _, _ => b
  end.

Inductive ract :=
| RWagmi (account : option bytes) (client : option N)   (* a rendering with what wagmi reports now *)
| ROptions                                              (* a rendering with another canister id or other options *)
| RCall.                                                (* prepareLogin or login reaches setupWalletClient *)

(** index.ts 95-108: [injected] is the wallet at window.ethereum. *)
Definition setup_wallet (injected : option N) (b : binding) : binding :=
  match b_manager b with
  | Some _ => b
  | None => mkBinding (b_account b) (b_client b) injected
  end.

Definition opt_eqb {A} (f : A -> A -> bool) (x y : option A) : bool :=
  match x, y with Some a, Some b => f a b | None, None => true | _, _ => false end.

(** An effect runs when one of its dependencies has changed, react/index.tsx 36. *)
Definition react_step (injected : option N) (a : ract) (b : binding) : binding :=
  match a with
  | RWagmi acc cl =>
      let b' := mkBinding acc cl (b_manager b) in
      if opt_eqb bytes_eqb acc (b_account b) && opt_eqb N.eqb cl (b_client b) then b' else effect b'
  | ROptions => effect (mkBinding (b_account b) (b_client b) None)
  | RCall => setup_wallet injected b
  end.

Definition react_run (injected : option N) (account : option bytes) (client : option N) (acts : list ract) : binding :=
  fold_left (fun b a => react_step injected a b) acts (effect (initial_binding account client)).

(** The wallet a call of prepareLogin or login asks now; [None]: it throws "No Ethereum
    provider found". *)
Definition asked_wallet (injected : option N) (b : binding) : option N := b_manager (setup_wallet injected b).
