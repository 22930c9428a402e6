(** Model of packages/test_canister/src/lib.rs: an application canister that asks the
    provider who its caller is. *)
From Coq Require Import Strings.String.
From Verif Require Import Base Eth PrincipalText.
Local Open Scope N_scope.

(** Lines 8-10: the thread-local reference to the provider; [None] on a fresh heap. *)
Definition dapp := option bytes.

(** Lines 48-56: init.  Principal::from_text(..).expect(..). *)
Definition dapp_init (text : bytes) : outcome dapp :=
  match principal_from_text text with
  | Some p => Done (Some p)
  | None => Trap "Invalid principal"
  end.

(** An upgrade replaces the heap; the code has no post_upgrade hook. *)
Definition dapp_upgrade (d : dapp) : dapp := None.

(** Lines 16-46: whoami.  [call canister arg] is the outcome of ic_cdk::call to the method
    get_address of [canister] with [arg]: [None] if the call is rejected or its reply does
    not decode, else the decoded reply. *)
Definition whoami (call : bytes -> bytes -> option (result bytes bytes)) (caller : bytes) (d : dapp)
  : outcome (result (bytes * bytes) bytes) :=
  match d with
  | None => Trap "Siwe provider canister not initialized"
  | Some provider =>
      Done match call provider caller with
           | Some (Ok address) => Ok (principal_to_text caller, address)
           | Some (Err e) => Err e
           | None => Err (bs "Failed to get the caller address")
           end
  end.
