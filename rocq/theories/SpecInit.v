(** What initialisation of the canister should install, stated over its argument. *)
From Coq Require Import Strings.String.
From Verif Require Import Base Deps Settings Provider SpecSiwe SpecPrincipal.
Local Open Scope N_scope.

(** The runtime features requested by an argument. *)
Definition requested (i : SettingsInput) (f : provider_feature) : Prop :=
  exists l, in_features i = Some l /\ In f l.

(** What initialisation should install. *)
Record init_spec (D : Deps) (cid : bytes) (i : SettingsInput) (s : Settings) (fl : provider_settings) : Prop := {
  init_domain : s_domain s = in_domain i;
  init_uri : s_uri s = in_uri i;
  init_salt : s_salt s = in_salt i;
  init_chain_id : s_chain_id s = default 1 (in_chain_id i);
  init_scheme : s_scheme s = default (bs "https") (in_scheme i);
  init_statement : s_statement s = default (bs "SIWE Fields:") (in_statement i);
  init_sign_in : s_sign_in_expires_in s = default 300000000000 (in_sign_in_expires_in i);
  init_session : s_session_expires_in s = default 1800000000000 (in_session_expires_in i);
  init_targets : match in_targets i with
                 | None => s_targets s = None
                 | Some l => exists ps, s_targets s = Some ps /\ In cid ps /\
                     Forall2 denotes l ps
                 end;
  init_features : (s_features s = Some [IncludeUriInSeed] /\ requested i PF_IncludeUriInSeed) \/
                  (s_features s = None /\ ~ requested i PF_IncludeUriInSeed);
  init_eth_flag : disable_eth_to_principal fl = true <-> requested i PF_DisableEthToPrincipalMapping;
  init_principal_flag : disable_principal_to_eth fl = true <-> requested i PF_DisablePrincipalToEthMapping;
  init_acceptable : acceptable D s
}.
