(** Several tabs of one browser: each has its own store and its own calls, all of them share
    the localStorage entry and the canister.  ic_siwe_js keeps the store in a module of the
    page (packages/ic_siwe_js/src/index.ts 47-61) and the entry "siweIdentity" in the
    localStorage of the origin (local-storage.ts 9-58); it does not listen to "storage"
    events, so a tab reads the entry only when a manager is constructed (index.ts 72-90).

    What happens in a tab is [Client.act_step] on the world as this tab sees it. *)
From Coq Require Import Strings.String.
From Verif Require Import Base Deps Delegation Login Provider Client.
Local Open Scope N_scope.

Record tab := mkTab {
  t_ctx : ctx;
  t_tasks : list task;
  t_own : list event
}.
Record browser := mkBrowser {
  b_tabs : list tab;
  b_storage : option bytes;
  b_canister : state;
  b_history : list event
}.

Definition new_tab : tab := mkTab initial_ctx [] [].
Definition initial_browser : browser := mkBrowser [] None None [].

(** The world of one tab. *)
Definition tab_world (b : browser) (t : tab) : world :=
  mkWorld (t_ctx t) (b_storage b) (t_tasks t) (b_canister b) (b_history b) (t_own t).
Definition put_world (j : nat) (w : world) (b : browser) : browser :=
  mkBrowser (<[j := mkTab (w_ctx w) (w_tasks w) (w_own w)]> (b_tabs b)) (w_storage w) (w_canister w) (w_history w).

(** What a tab can do by itself. *)
Definition tab_action (a : action) : bool :=
  match a with ACanister _ _ | AStorage _ => false | _ => true end.

Inductive baction :=
| BOpen                              (* the page is opened in a further tab *)
| BTab (j : nat) (a : action)        (* something happens in the j-th tab *)
| BCanister (now : N) (o : op).      (* the canister executes anything else *)

Definition bstep (D : Deps) (cid : bytes) (a : baction) (b : browser) : option browser :=
  match a with
  | BOpen => Some (mkBrowser (b_tabs b ++ [new_tab]) (b_storage b) (b_canister b) (b_history b))
  | BTab j a =>
      match nth_error (b_tabs b) j with
      | Some t =>
          if tab_action a then
            match act_step D cid a (tab_world b t) with Some w => Some (put_world j w b) | None => None end
          else None
      | None => None
      end
  | BCanister now o =>
      let '(s', r) := step D cid now o (b_canister b) in
      Some (mkBrowser (b_tabs b) (b_storage b) s' (b_history b ++ [mkEvent now o r]))
  end.

Definition bact_ok (a : baction) (b : browser) : Prop :=
  match a with
  | BOpen => True
  | BTab j a => forall t, nth_error (b_tabs b) j = Some t -> act_ok a (tab_world b t)
  | BCanister now o => Forall (fun e => ev_time e <= now) (b_history b) /\ now <= u64_max /\ op_wf o
  end.

(** Everything that can happen, starting from a browser without tabs and no canister. *)
Inductive bruns (D : Deps) (cid : bytes) : list baction -> browser -> Prop :=
| bruns_nil : bruns D cid [] initial_browser
| bruns_snoc acts b a b' :
    bruns D cid acts b -> bact_ok a b -> bstep D cid a b = Some b' -> bruns D cid (acts ++ [a]) b'.
