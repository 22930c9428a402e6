(** Certificates and canister signatures as the IC interface specification checks them
    ("Certificate", "Delegation", "Canister signatures").  The BLS signature scheme is a
    parameter: [bls key message signature] says that the signature is one of the (DER-encoded)
    key on the message. *)
From Coq Require Import Strings.String.
From Verif Require Import Base Deps HashTree Delegation Login Provider Interface Secp SpecHash SpecTree SpecWire SpecTrace SpecAuth.
Local Open Scope N_scope.

(** The value under a text key of a CBOR map. *)
Fixpoint cmap_get (k : bytes) (l : list cval) : option cval :=
  match l with
  | CText k' :: v :: r => if bool_decide (k = k') then Some v else cmap_get k r
  | _ => None
  end.

(** { tree, signature, and maybe a delegation { subnet_id, certificate } } *)
Record cert := mkCert { ct_tree : hash_tree; ct_signature : bytes; ct_delegation : option (bytes * bytes) }.

Definition certificate_decode (l : bytes) : option cert :=
  match cbor_decode l with
  | Some (CTag 55799 [CMap m]) =>
      match cmap_get (bs "tree") m, cmap_get (bs "signature") m with
      | Some tree, Some (CBytes sg) =>
          match cval_tree tree, cmap_get (bs "delegation") m with
          | Some t, None => Some (mkCert t sg None)
          | Some t, Some (CMap d) =>
              match cmap_get (bs "subnet_id") d, cmap_get (bs "certificate") d with
              | Some (CBytes s), Some (CBytes c) => Some (mkCert t sg (Some (s, c)))
              | _, _ => None
              end
          | _, _ => None
          end
      | _, _ => None
      end
  | _ => None
  end.

(** domain_sep("ic-state-root") and the root hash *)
Definition state_root (H : bytes -> bytes) (t : hash_tree) : bytes := x0d :: bs "ic-state-root" ++ tree_hash H t.

(** A list of pairs of canister ids, the ends of ranges. *)
Definition in_range (cid : bytes) (v : cval) : Prop :=
  exists low high, v = CArray [CBytes low; CBytes high] /\ lex_le low cid /\ lex_le cid high.
Definition in_ranges (cid ranges : bytes) : Prop :=
  exists l v, cbor_decode ranges = Some (CTag 55799 [CArray l]) /\ In v l /\ in_range cid v.

(** The certificate is signed by the root key, or by a subnet that has the canister and
    whose key is in a certificate signed by the root key. *)
Definition signed_certificate (bls : bytes -> bytes -> bytes -> Prop) (root : bytes) (H : bytes -> bytes) (cid certificate : bytes)
  (tree : hash_tree) : Prop :=
  exists ct, certificate_decode certificate = Some ct /\ ct_tree ct = tree /\
    match ct_delegation ct with
    | None => bls root (state_root H tree) (ct_signature ct)
    | Some (subnet, upper) =>
        exists ct' key ranges, certificate_decode upper = Some ct' /\ ct_delegation ct' = None /\
          well_formed (ct_tree ct') /\ digests32 (ct_tree ct') /\
          bls root (state_root H (ct_tree ct')) (ct_signature ct') /\
          lookup_found [bs "subnet"; subnet; bs "public_key"] (ct_tree ct') key /\
          lookup_found [bs "subnet"; subnet; bs "canister_ranges"] (ct_tree ct') ranges /\ in_ranges cid ranges /\
          bls key (state_root H tree) (ct_signature ct)
    end.

(** It certifies [data] as the certified data of the canister. *)
Definition certifies (bls : bytes -> bytes -> bytes -> Prop) (root : bytes) (H : bytes -> bytes) (cid certificate data : bytes) : Prop :=
  exists tree, signed_certificate bls root H cid certificate tree /\ well_formed tree /\ digests32 tree /\
    lookup_found [bs "canister"; cid; bs "certified_data"] tree data.

(** A replica at time [now] that knows only the root key takes a call to [target] signed
    with the session key of [d] for one by the owner of [pk]. *)
Definition verifies (bls : bytes -> bytes -> bytes -> Prop) (root : bytes) (D : Deps) (cid : bytes) (now : N) (target pk : bytes)
  (d : SignedDelegation) : Prop :=
  exists certificate data, certifies bls root (d_sha256 D) cid certificate data /\
    replica_accepts D cid data certificate now target pk d.

(** The states that the root subnet and the subnets with other keys sign. *)
Record network := mkNetwork { net_root : hash_tree -> Prop; net_subnet : bytes -> hash_tree -> Prop }.
Definition net_state (net : network) (t : hash_tree) : Prop := net_root net t \/ exists key, net_subnet net key t.

(** What the network owes the canister [cid].  The root key signs states of the root subnet
    only.  A key that such a state gives for a subnet with the canister signs states of
    that subnet only.  In all these states the certified data of the canister is what the
    canister set at some time in the history [tr]. *)
Record honest (bls : bytes -> bytes -> bytes -> Prop) (root : bytes) (D : Deps) (cid : bytes) (q : nat) (net : network)
  (tr : list call_event) : Prop := mkHonest {
  ho_complete : forall t, net_state net t -> complete t;
  ho_root : forall m sg, bls root m sg -> exists t, net_root net t /\ m = state_root (d_sha256 D) t;
  ho_subnet : forall t subnet key ranges m sg, net_root net t ->
    lookup_found [bs "subnet"; subnet; bs "public_key"] t key ->
    lookup_found [bs "subnet"; subnet; bs "canister_ranges"] t ranges -> in_ranges cid ranges ->
    bls key m sg -> exists t', net_subnet net key t' /\ m = state_root (d_sha256 D) t';
  ho_data : forall t data, net_state net t -> lookup_found [bs "canister"; cid; bs "certified_data"] t data ->
    exists before after c, tr = before ++ after /\ calls (with_k256 D) cid q before (Some c) /\ c_certified c = data
}.

(** A tree in the certificate and a state of the network with different inputs of the same digest. *)
Definition in_certificate (certificate : bytes) (t : hash_tree) : Prop :=
  exists ct, certificate_decode certificate = Some ct /\
    (t = ct_tree ct \/
     exists subnet upper ct', ct_delegation ct = Some (subnet, upper) /\ certificate_decode upper = Some ct' /\ t = ct_tree ct').
Definition certificate_collision (H : bytes -> bytes) (net : network) (certificate : bytes) : Prop :=
  exists t T, in_certificate certificate t /\ net_state net T /\ cross_collision H (tree_inputs H t) (tree_inputs H T).
