(** The published interface packages/ic_siwe_provider/ic_siwe_provider.did, and what a
    configuration message says. *)
From Coq Require Import Strings.String.
From Verif Require Import Base Delegation Login Provider Candid SpecCandid Interface.
Local Open Scope N_scope.

(** Candid's identifier of a field name: the sum of b_i * 223^(k-i) modulo 2^32. *)
Fixpoint name_sum (l : bytes) : N :=
  match l with [] => 0 | c :: r => nb c * 223 ^ N.of_nat (length r) + name_sum r end.
Definition name_id (s : string) : N := name_sum (bs s) mod two32.
Definition nf {A} (s : string) (t : A) : N * A := (name_id s, t).

Definition did_text := CPrim PText.
Definition did_blob := CVec (CPrim PNat8).
Definition did_feature : ctype :=
  CVariant [nf "IncludeUriInSeed" (CPrim PNull); nf "DisableEthToPrincipalMapping" (CPrim PNull);
            nf "DisablePrincipalToEthMapping" (CPrim PNull)].
(** .did 17-28, with the type of the chain id left open: it is [nat] there. *)
Definition settings_of (chain : prim) : ctype :=
  CRecord
    [nf "uri" did_text; nf "runtime_features" (COpt (CVec did_feature)); nf "domain" did_text;
     nf "statement" (COpt did_text); nf "scheme" (COpt did_text); nf "salt" did_text;
     nf "session_expires_in" (COpt (CPrim PNat64)); nf "targets" (COpt (CVec did_text));
     nf "chain_id" (COpt (CPrim chain)); nf "sign_in_expires_in" (COpt (CPrim PNat64))].
Definition did_settings : ctype := settings_of PNat.

Definition did_args (m : method) : list ctype :=
  match m with
  | MInit | MPostUpgrade => [did_settings]
  | MPrepareLogin | MGetPrincipal => [did_text]
  | MLogin => [did_text; did_text; did_blob; did_text]
  | MGetDelegation => [did_text; did_blob; CPrim PNat64]
  | MGetAddress => [did_blob]
  | MGetCallerAddress => []
  end.

Definition did_response (ok : ctype) : ctype := CVariant [nf "Ok" ok; nf "Err" did_text].
Definition did_results (m : method) : list ctype :=
  match m with
  | MInit | MPostUpgrade => []
  | MPrepareLogin => [did_response (CRecord [nf "nonce" did_text; nf "siwe_message" did_text])]
  | MLogin => [did_response (CRecord [nf "user_canister_pubkey" did_blob; nf "expiration" (CPrim PNat64)])]
  | MGetDelegation =>
      [did_response (CRecord [nf "signature" did_blob;
                              nf "delegation" (CRecord [nf "pubkey" did_blob; nf "targets" (COpt (CVec (CPrim PPrincipal)));
                                                        nf "expiration" (CPrim PNat64)])])]
  | MGetAddress | MGetCallerAddress => [did_response did_text]
  | MGetPrincipal => [did_response did_blob]
  end.

(** Values. *)
Definition ublob (b : bytes) : cval := UVec (map (fun c => UNat (nb c)) b).
Definition uopt {A} (f : A -> cval) (o : option A) : cval := UOpt (option_map f o).
Definition ufeature (f : provider_feature) : cval :=
  UVariant match f with PF_IncludeUriInSeed => 0 | PF_DisableEthToPrincipalMapping => 1 | PF_DisablePrincipalToEthMapping => 2 end UNull.
Definition usettings (i : SettingsInput) : cval :=
  URecord [UText (in_uri i); uopt (fun l => UVec (map ufeature l)) (in_features i); UText (in_domain i);
           uopt UText (in_statement i); uopt UText (in_scheme i); UText (in_salt i);
           uopt UNat (in_session_expires_in i); uopt (fun l => UVec (map UText l)) (in_targets i);
           uopt UNat (in_chain_id i); uopt UNat (in_sign_in_expires_in i)].

(** The arguments of a call. *)
Definition op_args (o : op) : list cval :=
  match o with
  | Install i | Upgrade i => [usettings i]
  | RawRand _ | GetCallerAddress _ => []
  | PrepareLogin a | GetPrincipal a => [UText a]
  | SiweLogin sg a sk n => [UText sg; UText a; ublob sk; UText n]
  | GetDelegation _ a sk e => [UText a; ublob sk; UNat e]
  | GetAddress p => [ublob p]
  end.
(** The call is one of the method by the caller, with the certificate. *)
Definition is_call (o : op) (m : method) (caller : bytes) (certificate : option bytes) : Prop :=
  match o, m with
  | Install _, MInit | Upgrade _, MPostUpgrade | PrepareLogin _, MPrepareLogin | SiweLogin _ _ _ _, MLogin
  | GetAddress _, MGetAddress | GetPrincipal _, MGetPrincipal => True
  | GetDelegation c _ _ _, MGetDelegation => c = certificate
  | GetCallerAddress p, MGetCallerAddress => p = caller
  | _, _ => False
  end.
Definition op_texts (o : op) : list bytes :=
  match o with
  | Install i | Upgrade i =>
      [in_domain i; in_uri i; in_salt i] ++ option_list (in_scheme i) ++ option_list (in_statement i) ++ default [] (in_targets i)
  | PrepareLogin a | GetPrincipal a | GetDelegation _ a _ _ => [a]
  | SiweLogin sg a _ n => [sg; a; n]
  | _ => []
  end.

Definition uresult {A} (ok : A -> cval) (r : result A bytes) : cval :=
  match r with Ok a => UVariant 0 (ok a) | Err e => UVariant 1 (UText e) end.
Definition reply_vals (r : reply) : list cval :=
  match r with
  | RTrap _ | RDone => []
  | RPrepare r => [uresult (fun x => URecord [UText (snd x); UText (fst x)]) r]
  | RLogin r => [uresult (fun d => URecord [ublob (ld_pubkey d); UNat (ld_expiration d)]) r]
  | RDelegation r =>
      [uresult (fun s => URecord [ublob (sd_signature s);
                                  URecord [ublob (dl_pubkey (sd_delegation s));
                                           uopt (fun l => UVec (map UPrincipal l)) (dl_targets (sd_delegation s));
                                           UNat (dl_expiration (sd_delegation s))]]) r]
  | RText r => [uresult UText r]
  | RBlob r => [uresult ublob r]
  end.
Definition reply_for (m : method) (r : reply) : Prop :=
  match m, r with
  | MPrepareLogin, RPrepare _ | MLogin, RLogin _ | MGetDelegation, RDelegation _
  | MGetAddress, RText _ | MGetCallerAddress, RText _ | MGetPrincipal, RBlob _ => True
  | _, _ => False
  end.
(** Texts are UTF-8, as every Rust String is; lengths and times have 64 bits; principals have at
    most 29 bytes. *)
Definition text_fine (b : bytes) : Prop := utf8_text b /\ blen b < two64.
Definition result_fine {A} (ok : A -> Prop) (r : result A bytes) : Prop :=
  match r with Ok a => ok a | Err e => text_fine e end.
Definition reply_fine (r : reply) : Prop :=
  match r with
  | RTrap _ | RDone => True
  | RPrepare r => result_fine (fun x => text_fine (fst x) /\ text_fine (snd x)) r
  | RLogin r => result_fine (fun d => blen (ld_pubkey d) < two64 /\ ld_expiration d < two64) r
  | RDelegation r =>
      result_fine (fun s => blen (sd_signature s) < two64 /\ blen (dl_pubkey (sd_delegation s)) < two64 /\
                            dl_expiration (sd_delegation s) < two64 /\
                            match dl_targets (sd_delegation s) with
                            | None => True
                            | Some l => N.of_nat (length l) < two64 /\ Forall (fun p => blen p <= 29) l
                            end) r
  | RText r => result_fine text_fine r
  | RBlob r => result_fine (fun b => blen b < two64) r
  end.

(** ** What a configuration message says *)

(** A part of a value with its type. *)
Notation part := (option (ctype * cval)).
Definition as_text (p : part) : option bytes := match p with Some (CPrim PText, UText b) => Some b | _ => None end.
Definition as_nat32 (p : part) : option N := match p with Some (CPrim PNat32, UNat n) => Some n | _ => None end.
Definition as_nat64 (p : part) : option N := match p with Some (CPrim PNat64, UNat n) => Some n | _ => None end.
Definition as_feature (p : part) : option provider_feature :=
  match p with
  | Some (CVariant ws, UVariant k _) =>
      match nth_error ws k with
      | Some (id, CPrim PNull) =>
          if id =? name_id "IncludeUriInSeed" then Some PF_IncludeUriInSeed
          else if id =? name_id "DisableEthToPrincipalMapping" then Some PF_DisableEthToPrincipalMapping
          else if id =? name_id "DisablePrincipalToEthMapping" then Some PF_DisablePrincipalToEthMapping
          else None
      | _ => None
      end
  | _ => None
  end.
Definition as_vec {A} (f : part -> option A) (p : part) : option (list A) :=
  match p with Some (CVec c, UVec l) => mapM (fun v => f (Some (c, v))) l | _ => None end.
(** An optional field: given, either as an option or plainly, and of the right type. *)
Definition given {A} (f : part -> option A) (p : part) : option A :=
  match p with
  | Some (COpt c, UOpt (Some v)) => f (Some (c, v))
  | Some (COpt _, _) => None
  | p => f p
  end.

Definition configuration (c : ctype) (v : cval) : option SettingsInput :=
  match c, v with
  | CRecord fs, URecord vs =>
      let get s := field (name_id s) fs vs in
      match as_text (get "domain"%string), as_text (get "uri"%string), as_text (get "salt"%string) with
      | Some domain, Some uri, Some salt =>
          Some (mkInput domain uri salt (given as_nat32 (get "chain_id"%string))
                  (given as_text (get "scheme"%string)) (given as_text (get "statement"%string))
                  (given as_nat64 (get "sign_in_expires_in"%string)) (given as_nat64 (get "session_expires_in"%string))
                  (given (as_vec as_text) (get "targets"%string))
                  (given (as_vec as_feature) (get "runtime_features"%string)))
      | _, _, _ => None
      end
  | _, _ => None
  end.

(** ** What a call asks *)

Definition as_blob (p : part) : option bytes :=
  match p with Some (CVec (CPrim PNat8), UVec l) => Some (map byte_val l) | _ => None end.
Definition as_config (p : part) : option SettingsInput := match p with Some (c, v) => configuration c v | None => None end.
(** The [k]-th argument. *)
Definition arg (cs : list ctype) (vs : list cval) (k : nat) : part :=
  match nth_error cs k, nth_error vs k with Some c, Some v => Some (c, v) | _, _ => None end.
Definition asked (m : method) (caller : bytes) (certificate : option bytes) (cs : list ctype) (vs : list cval) : option op :=
  let arg := arg cs vs in
  match m with
  | MInit => option_map Install (as_config (arg 0%nat))
  | MPostUpgrade => option_map Upgrade (as_config (arg 0%nat))
  | MPrepareLogin => option_map PrepareLogin (as_text (arg 0%nat))
  | MGetPrincipal => option_map GetPrincipal (as_text (arg 0%nat))
  | MGetAddress => option_map GetAddress (as_blob (arg 0%nat))
  | MGetCallerAddress => Some (GetCallerAddress caller)
  | MLogin =>
      match as_text (arg 0%nat), as_text (arg 1%nat), as_blob (arg 2%nat), as_text (arg 3%nat) with
      | Some sg, Some a, Some sk, Some n => Some (SiweLogin sg a sk n)
      | _, _, _, _ => None
      end
  | MGetDelegation =>
      match as_text (arg 0%nat), as_blob (arg 1%nat), as_nat64 (arg 2%nat) with
      | Some a, Some sk, Some e => Some (GetDelegation certificate a sk e)
      | _, _, _ => None
      end
  end.
