(** The interface of the canister: arguments and replies as Candid messages.  The attributes
    #[init], #[post_upgrade], #[update] and #[query] of
    packages/ic_siwe_provider/src/service make ic_cdk decode the bytes of a call at the types of
    the parameters (a message that does not decode traps), run the function and encode its
    result. *)
From Coq Require Import Strings.String.
From Verif Require Import Base Deps Hex Eth Settings Delegation Login Provider Candid.
Local Open Scope N_scope.

Inductive method :=
| MInit | MPostUpgrade                            (* init_upgrade.rs 135-150 *)
| MPrepareLogin                                   (* siwe_prepare_login.rs 20 *)
| MLogin                                          (* siwe_login.rs 25-31 *)
| MGetDelegation                                  (* siwe_get_delegation.rs 25-30 *)
| MGetAddress | MGetCallerAddress | MGetPrincipal. (* get_address.rs 17, get_caller_address.rs 16, get_principal.rs 16 *)

Definition fld {A} (name : string) (t : A) : N * A := (idl_hash (bs name), t).

(** init_upgrade.rs 8-18 *)
Definition feature_type : xty :=
  XVariant [fld "IncludeUriInSeed" XNull; fld "DisableEthToPrincipalMapping" XNull;
            fld "DisablePrincipalToEthMapping" XNull].
(** init_upgrade.rs 22-56; deriving CandidType orders the fields by identifier. *)
Definition settings_type : xty :=
  XRecord
    [fld "uri" XText; fld "runtime_features" (XOpt (XVec feature_type)); fld "domain" XText;
     fld "statement" (XOpt XText); fld "scheme" (XOpt XText); fld "salt" XText;
     fld "session_expires_in" (XOpt XNat64); fld "targets" (XOpt (XVec XText));
     fld "chain_id" (XOpt XNat32); fld "sign_in_expires_in" (XOpt XNat64)].

Definition arg_types (m : method) : list xty :=
  match m with
  | MInit | MPostUpgrade => [settings_type]
  | MPrepareLogin | MGetPrincipal => [XText]
  | MLogin => [XText; XText; XBlob; XText]
  | MGetDelegation => [XText; XBlob; XNat64]
  | MGetAddress => [XBlob]
  | MGetCallerAddress => []
  end.

(** From decoded values to the Rust values. *)
Definition text_of (v : xval) : option bytes := match v with VText b => Some b | _ => None end.
Definition nat_of (v : xval) : option N := match v with VNat n => Some n | _ => None end.
Definition opt_of {A} (f : xval -> option A) (v : xval) : option (option A) :=
  match v with
  | VOpt None => Some None
  | VOpt (Some x) => match f x with Some a => Some (Some a) | None => None end
  | _ => None
  end.
Fixpoint all_of {A} (f : xval -> option A) (l : list xval) : option (list A) :=
  match l with
  | [] => Some []
  | v :: r => match f v, all_of f r with Some a, Some l' => Some (a :: l') | _, _ => None end
  end.
Definition vec_of {A} (f : xval -> option A) (v : xval) : option (list A) :=
  match v with VVec l => all_of f l | _ => None end.
Definition feature_of (v : xval) : option provider_feature :=
  match v with
  | VVariant id _ =>
      if id =? idl_hash (bs "IncludeUriInSeed") then Some PF_IncludeUriInSeed
      else if id =? idl_hash (bs "DisableEthToPrincipalMapping") then Some PF_DisableEthToPrincipalMapping
      else if id =? idl_hash (bs "DisablePrincipalToEthMapping") then Some PF_DisablePrincipalToEthMapping
      else None
  | _ => None
  end.
Definition input_of (v : xval) : option SettingsInput :=
  match v with
  | VRecord [uri; features; domain; statement; scheme; salt; session; targets; chain; sign_in] =>
      match text_of domain, text_of uri, text_of salt, opt_of nat_of chain, opt_of text_of scheme,
            opt_of text_of statement, opt_of nat_of sign_in, opt_of nat_of session,
            opt_of (vec_of text_of) targets, opt_of (vec_of feature_of) features with
      | Some d, Some u, Some s, Some c, Some sc, Some st, Some si, Some se, Some t, Some f =>
          Some (mkInput d u s c sc st si se t f)
      | _, _, _, _, _, _, _, _, _, _ => None
      end
  | _ => None
  end.

(** The call that a message makes; [None]: it does not decode.  [caller] is ic_cdk::caller()
    and [certificate] data_certificate(). *)
Definition op_of (q : nat) (m : method) (caller : bytes) (certificate : option bytes) (msg : bytes) : option op :=
  match m, decode_args q (arg_types m) msg with
  | MInit, Some [v] => option_map Install (input_of v)
  | MPostUpgrade, Some [v] => option_map Upgrade (input_of v)
  | MPrepareLogin, Some [VText a] => Some (PrepareLogin a)
  | MLogin, Some [VText sg; VText a; VBlob sk; VText n] => Some (SiweLogin sg a sk n)
  | MGetDelegation, Some [VText a; VBlob sk; VNat e] => Some (GetDelegation certificate a sk e)
  | MGetAddress, Some [VBlob p] => Some (GetAddress p)
  | MGetCallerAddress, Some [] => Some (GetCallerAddress caller)
  | MGetPrincipal, Some [VText a] => Some (GetPrincipal a)
  | _, _ => None
  end.

(** A call as the IC sees it, or the reply to raw_rand (packages/ic_siwe/src/init.rs 40-48). *)
Inductive call :=
| Call (m : method) (caller : bytes) (certificate : option bytes) (msg : bytes)
| RandReply (seed : option bytes).

Definition call_op (q : nat) (c : call) : option op :=
  match c with
  | Call m caller certificate msg => op_of q m caller certificate msg
  | RandReply seed => Some (RawRand seed)
  end.
Definition call_step (D : Deps) (cid : bytes) (q : nat) (now : N) (c : call) (s : state) : state * reply :=
  match call_op q c with
  | Some o => step D cid now o s
  | None => (s, RTrap "failed to decode call arguments")
  end.

Record call_event := mkCallEvent { ce_time : N; ce_call : call; ce_reply : reply }.

(** Histories of messages. *)
Inductive calls (D : Deps) (cid : bytes) (q : nat) : list call_event -> state -> Prop :=
| calls_nil : calls D cid q [] None
| calls_snoc tr s now c s' r :
    calls D cid q tr s ->
    Forall (fun e => ce_time e <= now) tr -> now <= u64_max ->
    match c with RandReply (Some seed) => length seed = 32%nat | _ => True end ->
    call_step D cid q now c s = (s', r) ->
    calls D cid q (tr ++ [mkCallEvent now c r]) s'.

(** ** Replies *)

(** Type tables of the results, in the order in which candid's TypeSerialize visits them. *)
Definition result_header (ok : tref) (more : list entry) : header :=
  mkHeader (EVariant [fld "Ok" ok; fld "Err" (Prim PText)] :: more) [Var 0].
(** siwe_prepare_login.rs 5-9 *)
Definition prepare_header : header :=
  result_header (Var 1) [ERecord [fld "nonce" (Prim PText); fld "siwe_message" (Prim PText)]].
(** packages/ic_siwe/src/login.rs 59-67 *)
Definition login_header : header :=
  result_header (Var 1)
    [ERecord [fld "user_canister_pubkey" (Var 2); fld "expiration" (Prim PNat64)]; EVec (Prim PNat8)].
(** packages/ic_siwe/src/delegation.rs 53-64 *)
Definition delegation_header : header :=
  result_header (Var 1)
    [ERecord [fld "signature" (Var 2); fld "delegation" (Var 3)]; EVec (Prim PNat8);
     ERecord [fld "pubkey" (Var 2); fld "targets" (Var 4); fld "expiration" (Prim PNat64)];
     EOpt (Var 5); EVec (Prim PPrincipal)].
Definition address_header : header := result_header (Prim PText) [].
Definition principal_header : header := result_header (Var 1) [EVec (Prim PNat8)].

Definition put_principal (p : bytes) : bytes := x01 :: put_bytes p.
Definition put_targets (o : option (list bytes)) : bytes :=
  match o with None => [x00] | Some l => x01 :: put_list put_principal l end.
Definition put_result {A} (ok : A -> bytes) (r : result A bytes) : bytes :=
  match r with Ok a => leb 0 ++ ok a | Err e => leb 1 ++ put_bytes e end.

(** The bytes of a reply; the functions of init_upgrade.rs have none. *)
Definition put_reply (r : reply) : option bytes :=
  match r with
  | RTrap _ | RDone => None
  | RPrepare r => Some (put_header prepare_header ++ put_result (fun x => put_bytes (snd x) ++ put_bytes (fst x)) r)
  | RLogin r => Some (put_header login_header ++ put_result (fun d => put_bytes (ld_pubkey d) ++ put_le 8 (ld_expiration d)) r)
  | RDelegation r =>
      Some (put_header delegation_header ++
            put_result (fun s => put_bytes (sd_signature s) ++
                                 put_bytes (dl_pubkey (sd_delegation s)) ++ put_targets (dl_targets (sd_delegation s)) ++
                                 put_le 8 (dl_expiration (sd_delegation s))) r)
  | RText r => Some (put_header address_header ++ put_result put_bytes r)
  | RBlob r => Some (put_header principal_header ++ put_result put_bytes r)
  end.

(** ** The client's side: packages/ic_siwe_js/src/ic_siwe_provider.did.js *)

(** What @dfinity/candid's IDL.encode produces for the argument types of did.js 60-80. *)
Definition js_prepare_login (a : bytes) : bytes := put_header (mkHeader [] [Prim PText]) ++ put_bytes a.
Definition js_login (sg a sk n : bytes) : bytes :=
  put_header (mkHeader [EVec (Prim PNat8)] [Prim PText; Prim PText; Var 0; Prim PText]) ++
  put_bytes sg ++ put_bytes a ++ put_bytes sk ++ put_bytes n.
Definition js_get_delegation (a sk : bytes) (e : N) : bytes :=
  put_header (mkHeader [EVec (Prim PNat8)] [Prim PText; Var 0; Prim PNat64]) ++
  put_bytes a ++ put_bytes sk ++ put_le 8 e.

(** did.js 20-58: the types at which the client reads replies.  IDL.decode of @dfinity/candid is
    taken to follow the same rules as the decoder above. *)
Definition js_result (ok : xty) : xty := XVariant [fld "Ok" ok; fld "Err" XText].
Definition js_prepare_type : xty := js_result (XRecord [fld "nonce" XText; fld "siwe_message" XText]).
Definition js_login_type : xty := js_result (XRecord [fld "user_canister_pubkey" XBlob; fld "expiration" XNat64]).
Definition js_delegation_type : xty :=
  js_result (XRecord [fld "signature" XBlob;
                      fld "delegation" (XRecord [fld "pubkey" XBlob; fld "targets" (XOpt (XVec XPrincipal));
                                                 fld "expiration" XNat64])]).
Definition js_address_type : xty := js_result XText.
Definition js_principal_type : xty := js_result XBlob.

Definition result_of {A} (ok : xval -> option A) (v : xval) : option (result A bytes) :=
  match v with
  | VVariant id x =>
      if id =? idl_hash (bs "Ok") then option_map Ok (ok x)
      else if id =? idl_hash (bs "Err") then option_map Err (text_of x)
      else None
  | _ => None
  end.
Definition blob_of (v : xval) : option bytes := match v with VBlob b => Some b | _ => None end.
Definition principal_of_val (v : xval) : option bytes := match v with VPrincipal b => Some b | _ => None end.
Definition prepare_of (v : xval) : option (bytes * bytes) :=
  match v with VRecord [VText n; VText m] => Some (m, n) | _ => None end.
Definition details_of (v : xval) : option LoginDetails :=
  match v with VRecord [VBlob k; VNat e] => Some (mkDetails e k) | _ => None end.
Definition signed_of (v : xval) : option SignedDelegation :=
  match v with
  | VRecord [VBlob s; VRecord [VBlob k; t; VNat e]] =>
      match opt_of (vec_of principal_of_val) t with
      | Some t => Some (mkSigned (mkDelegation k e t) s)
      | None => None
      end
  | _ => None
  end.
Definition js_read (q : nat) (m : method) (msg : bytes) : option reply :=
  match m with
  | MInit | MPostUpgrade => None
  | MPrepareLogin => match decode_args q [js_prepare_type] msg with
                     | Some [v] => option_map RPrepare (result_of prepare_of v) | _ => None end
  | MLogin => match decode_args q [js_login_type] msg with
              | Some [v] => option_map RLogin (result_of details_of v) | _ => None end
  | MGetDelegation => match decode_args q [js_delegation_type] msg with
                      | Some [v] => option_map RDelegation (result_of signed_of v) | _ => None end
  | MGetAddress | MGetCallerAddress => match decode_args q [js_address_type] msg with
                      | Some [v] => option_map RText (result_of text_of v) | _ => None end
  | MGetPrincipal => match decode_args q [js_principal_type] msg with
                     | Some [v] => option_map RBlob (result_of blob_of v) | _ => None end
  end.
