(** Several tabs of one browser when queries may be answered by a replica that lies.
    siwe_prepare_login and siwe_login are update calls, their replies are certified by the
    subnet; siwe_get_delegation is a query (packages/ic_siwe_provider/ic_siwe_provider.did 82),
    which a single replica answers.  callGetDelegation (packages/ic_siwe_js/src/siwe-provider.ts
    88-109) hands on what it is given, createDelegationChain (delegation.ts 30-48) does not look
    at it, and index.ts 262-291 stores it. *)
From Coq Require Import Strings.String.
From Verif Require Import Base Deps Delegation Login Provider Client Tabs.
Local Open Scope N_scope.

Inductive laction :=
| Told (a : baction)                                         (* as in [Tabs.v] *)
| Lie (j k : nat) (r : result SignedDelegation bytes).       (* the query of the [k]-th call of the [j]-th tab is answered by [r] *)

Definition lied_to (r : result SignedDelegation bytes) (t : task) : option task :=
  match t with TDelegation x p d None => Some (TDelegation x p d (Some (RDelegation r))) | _ => None end.

Definition lstep (D : Deps) (cid : bytes) (a : laction) (b : browser) : option browser :=
  match a with
  | Told a => bstep D cid a b
  | Lie j k r =>
      match nth_error (b_tabs b) j with
      | Some t =>
          match nth_error (t_tasks t) k with
          | Some u =>
              match lied_to r u with
              | Some u' => Some (mkBrowser (<[j := mkTab (t_ctx t) (<[k := u']> (t_tasks t)) (t_own t)]> (b_tabs b))
                                   (b_storage b) (b_canister b) (b_history b))
              | None => None
              end
          | None => None
          end
      | None => None
      end
  end.
Definition lact_ok (a : laction) (b : browser) : Prop :=
  match a with Told a => bact_ok a b | Lie _ _ _ => True end.

(** Everything that can happen with lies. *)
Inductive lruns (D : Deps) (cid : bytes) : list laction -> browser -> Prop :=
| lruns_nil : lruns D cid [] initial_browser
| lruns_snoc acts b a b' :
    lruns D cid acts b -> lact_ok a b -> lstep D cid a b = Some b' -> lruns D cid (acts ++ [a]) b'.
