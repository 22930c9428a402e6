(** The text a sign in leaves in localStorage, written out. *)
From Coq Require Import Strings.String.
From Verif Require Import Base SpecEth.
Local Open Scope N_scope.

Definition upper_hex (l : bytes) : bytes := map upper_digit (nibbles l).

(** A number in hexadecimal without leading zeros. *)
Definition hex_number (h : bytes) (n : N) : Prop :=
  exists ds, h = map lower_digit ds /\ Forall (fun d => d < 16) ds /\ fold_left (fun a d => 16 * a + d) ds 0 = n /\
    match ds with [] => False | [_] => True | d :: _ => d <> 0 end.

Definition listed (l : list bytes) : bytes :=
  match l with [] => [] | t :: r => t ++ concat (map (fun u => bs "," ++ u) r) end.

(** [x]: the address; [key], [secret]: the session key (DER) and its secret; [h]: the
    expiration; [targets], [sg]: of the delegation; [pk]: the canister's public key for the
    user. *)
Definition stored_text (x key secret h : bytes) (targets : option (list bytes)) (sg pk : bytes) : bytes :=
  bs "{""address"":""" ++ x ++ bs """,""sessionIdentity"":[""" ++ lower_hex key ++ bs """,""" ++ lower_hex secret
  ++ bs """],""delegationChain"":{""delegations"":[{""delegation"":{""expiration"":""" ++ h
  ++ bs """,""pubkey"":""" ++ lower_hex key ++ bs """"
  ++ match targets with
     | Some l => bs ",""targets"":[" ++ listed (map (fun t => bs """" ++ upper_hex t ++ bs """") l) ++ bs "]"
     | None => []
     end
  ++ bs "},""signature"":""" ++ lower_hex sg ++ bs """}],""publicKey"":""" ++ lower_hex pk ++ bs """}}".
