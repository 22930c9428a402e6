(** What components of a page should be shown, context.type.ts. *)
From Coq Require Import Strings.String.
From Verif Require Import Base Deps Provider Json Client View.
Local Open Scope N_scope.

(** The four flags say what the status is. *)
Definition says (f : flags) (s : status) : Prop :=
  (f_busy f = true <-> s = Busy) /\ (f_error f = true <-> s = Failed) /\
  (f_success f = true <-> s = Success) /\ (f_idle f = true <-> s = Idle).

(** A view shows what the store holds. *)
Definition shows (v : view) (x : ctx) : Prop :=
  v_initializing v = x_initializing x /\
  v_prepare v = x_prepare x /\ says (v_prepare_flags v) (x_prepare x) /\ v_prepare_error v = x_prepare_error x /\
  v_login v = x_login x /\ says (v_login_flags v) (x_login x) /\ v_login_error v = x_login_error x /\
  v_sign v = x_sign x /\ v_sign_error v = x_sign_error x /\
  v_chain v = x_chain x /\ v_identity v = x_identity x /\ v_address v = x_address x.

(** [acts] leads from one situation to another and no step of it changes the store.
    The store changes when updateState is called, whether or not with other values. *)
Inductive silent (D : Deps) (cid : bytes) : list vact -> world -> component -> world -> component -> Prop :=
| silent_nil w c : silent D cid [] w c w c
| silent_snoc acts w c w1 c1 a w2 c2 :
    silent D cid acts w c w1 c1 -> vact_ok (VAct a) w1 -> act_sends a w1 = false -> a <> ALoad ->
    vue_step D cid (VAct a) w1 c1 = Some (w2, c2) -> silent D cid (acts ++ [VAct a]) w c w2 c2.
