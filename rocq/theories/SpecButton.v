(** Vocabulary: the login button of the documentation. *)
From Verif Require Import Base Deps Provider Client SpecClient.

(** The button of the documentation (packages/ic_siwe_js/README.md, "Initiate the login
    process"; isConnected is the wallet's business) is enabled. *)
Definition enabled (w : world) : Prop := x_login (w_ctx w) <> Busy /\ x_prepare (w_ctx w) = Success.

(** login is only called by pressing it. *)
Definition by_button (D : Deps) (cid : bytes) (acts : list action) : Prop :=
  forall before after w, acts = before ++ ALogin :: after -> runs D cid before w -> enabled w.

(** Moreover it is not pressed while an earlier login asks for the accounts, and clear() is
    not called during a login. *)
Definition patient (D : Deps) (cid : bytes) (acts : list action) : Prop :=
  (forall before after w, acts = before ++ ALogin :: after -> runs D cid before w -> ~ In TAddresses (w_tasks w)) /\
  (forall before after w, acts = before ++ AClear :: after -> runs D cid before w ->
     forall t, In t (w_tasks w) -> ~ login_running t).
