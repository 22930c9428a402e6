(** Vocabulary for statements about several tabs. *)
From Coq Require Import Strings.String.
From Verif Require Import Base Json Deps Delegation Login Provider SpecTrace Client SpecClient Tabs.
Local Open Scope N_scope.

(** What a tab shows: signed in as [x] with [i], or nobody. *)
Definition shows (t : tab) (v : option (bytes * ident)) : Prop :=
  match v with
  | Some (x, i) => x_identity (t_ctx t) = Some i /\ x_address (t_ctx t) = Some (JStr x) /\ x_chain (t_ctx t) = Some (id_chain i)
  | None => x_identity (t_ctx t) = None /\ x_address (t_ctx t) = None /\ x_chain (t_ctx t) = None
  end.

(** Between [b] and [b'] a call of login() made in some tab returns [i], with the tab at
    address [x]. *)
Definition signs_in (b b' : browser) (x : bytes) (i : ident) : Prop :=
  exists j k t t', nth_error (b_tabs b) j = Some t /\ nth_error (b_tabs b') j = Some t' /\
    (exists u, nth_error (t_tasks t) k = Some u /\ ~ settled u) /\ nth_error (t_tasks t') k = Some (TReturned i) /\
    x_address (t_ctx t') = Some (JStr x).

(** Somebody clicks "sign out" in some tab. *)
Definition signs_out (a : baction) : Prop := exists j, a = BTab j AClear.

(** Runs of the browser with what has last been done about signing in or out, whichever
    tab it was done in. *)
Inductive latest (D : Deps) (cid : bytes) : list baction -> browser -> option (bytes * ident) -> Prop :=
| latest_nil : latest D cid [] initial_browser None
| latest_in acts b v a b' x i : latest D cid acts b v -> bact_ok a b -> bstep D cid a b = Some b' ->
    signs_in b b' x i -> latest D cid (acts ++ [a]) b' (Some (x, i))
| latest_out acts b v a b' : latest D cid acts b v -> bact_ok a b -> bstep D cid a b = Some b' ->
    signs_out a -> latest D cid (acts ++ [a]) b' None
| latest_else acts b v a b' : latest D cid acts b v -> bact_ok a b -> bstep D cid a b = Some b' ->
    (forall x i, ~ signs_in b b' x i) -> ~ signs_out a -> latest D cid (acts ++ [a]) b' v.

(** The actions of one tab; and what, in the view of a tab, others do. *)
Definition tab_acts (j : nat) (acts : list baction) : list action :=
  flat_map (fun a => match a with BTab i a => if Nat.eqb i j then [a] else [] | _ => [] end) acts.

(** Since the [j]-th tab's page was opened or reloaded and made its manager, nobody has
    signed in or out in another tab. *)
Inductive alone (D : Deps) (cid : bytes) (j : nat) : list baction -> browser -> Prop :=
| alone_manager acts b t b' : bruns D cid acts b -> nth_error (b_tabs b) j = Some t -> x_initializing (t_ctx t) = true ->
    bstep D cid (BTab j AManager) b = Some b' -> alone D cid j (acts ++ [BTab j AManager]) b'
| alone_snoc acts b a b' : alone D cid j acts b -> bact_ok a b -> bstep D cid a b = Some b' -> a <> BTab j ALoad ->
    (forall k c, a = BTab k c -> k <> j -> c <> AClear /\ forall x i, ~ signs_in b b' x i) ->
    alone D cid j (acts ++ [a]) b'.

(** Somebody else's call of the canister after which [b] is reached by [more]: by another
    tab, now or before, or from outside of the browser. *)
Definition foreign (j : nat) (more : list baction) (b : browser) (now : N) (o : op) : Prop :=
  In (BCanister now o) more \/
  exists k t e, k <> j /\ nth_error (b_tabs b) k = Some t /\ In e (t_own t) /\ ev_op e = o /\ ev_time e = now.
