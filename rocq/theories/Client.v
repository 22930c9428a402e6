(** Model of packages/ic_siwe_js/src: index.ts (the store and SiweManager),
    siwe-provider.ts, delegation.ts and local-storage.ts.  One browser tab, any number
    of overlapping calls of prepareLogin and login, the canister of Provider.v at the
    other end and other users calling it at any time.

    JavaScript runs one piece of an async function at a time, from one [await] to the
    next; a call in progress is represented by the [await] it is waiting at.  Requests
    reach the canister some time after they are sent, and replies are looked at some time
    after the canister made them, so that everything else can happen in between. *)
From Coq Require Import Strings.String.
From Verif Require Import Base Deps Hex Json Delegation Login Provider.
Local Open Scope N_scope.

(** Reading a property; [None] is JavaScript's [undefined] (or the TypeError of reading
    from null, which has the same effect where it is used: loadIdentity throws). *)
Fixpoint assoc (k : bytes) (l : list (bytes * json)) : option json :=
  match l with
  | [] => None
  | (k', v) :: r => if bytes_eqb k k' then Some v else assoc k r
  end.
Definition json_field (k : bytes) (j : json) : option json :=
  match j with JObj l => assoc k l | _ => None end.
(** ToBoolean of ECMA-262.  Zero is the number without a digit from 1 to 9 before its
    exponent; one that is so small that it becomes 0 as a double is taken as truthy here. *)
Fixpoint zero_number (t : bytes) : bool :=
  match t with
  | [] => true
  | c :: r => if (nb c =? 101) || (nb c =? 69) then true
              else if (49 <=? nb c) && (nb c <=? 57) then false else zero_number r
  end.
Definition truthy (j : json) : bool :=
  match j with JNull | JBool false | JStr [] => false | JNum t => negb (zero_number t) | _ => true end.

(** ** @dfinity/identity 2.2.0 and @dfinity/principal 2.2.0 (not part of /repo, written
    from the published sources; only what is used here) *)

(** agent's fromHex: every two digits make a byte, a last single one too.  Also
    Principal.fromHex, which however replaces what is not a digit instead of failing. *)
Fixpoint js_hex_bytes (l : bytes) : option bytes :=
  match l with
  | [] => Some []
  | [a] => match hex_val a with Some h => Some [u8 h] | None => None end
  | a :: b :: r =>
      match hex_val a, hex_val b, js_hex_bytes r with
      | Some h, Some lo, Some t => Some (u8 (16 * h + lo) :: t)
      | _, _, _ => None
      end
  end.
Definition js_from_hex (l : bytes) : option bytes :=
  match l with [] => None | _ => js_hex_bytes l end.

(** String.prototype.toUpperCase on hexadecimal digits. *)
Definition upper (c : byte) : byte := if (97 <=? nb c) && (nb c <=? 122) then u8 (nb c - 32) else c.

(** BigInt.prototype.toString(16) *)
Fixpoint hex_aux (fuel : nat) (n : N) (acc : bytes) : bytes :=
  match fuel with
  | O => acc
  | S f =>
      let acc' := hex_digit (n mod 16) :: acc in
      if n / 16 =? 0 then acc' else hex_aux f (n / 16) acc'
  end.
Definition hex_of_N (n : N) : bytes := hex_aux (S (N.to_nat (N.log2 n))) n [].

(** BigInt('0x' + s) *)
Fixpoint N_of_hex_aux (acc : N) (l : bytes) : option N :=
  match l with
  | [] => Some acc
  | c :: r => match hex_val c with Some h => N_of_hex_aux (16 * acc + h) r | None => None end
  end.
Definition N_of_hex (l : bytes) : option N :=
  match l with [] => None | _ => N_of_hex_aux 0 l end.

(** Ed25519KeyIdentity: the raw public key and the secret key. *)
Record keypair := mkPair { kp_raw : bytes; kp_secret : bytes }.

(** Ed25519PublicKey: wrapDER and unwrapDER with the Ed25519 object identifier. *)
Definition ED25519_PREFIX : bytes := [x30; x2a; x30; x05; x06; x03; x2b; x65; x70; x03; x21; x00].
Definition kp_der (k : keypair) : bytes := ED25519_PREFIX ++ kp_raw k.
Definition ed25519_unwrap (d : bytes) : option bytes :=
  match strip_prefix ED25519_PREFIX d with
  | Some r => if Nat.eqb (length r) 32 then Some r else None
  | None => None
  end.

Definition keypair_to_json (k : keypair) : json :=
  JArr [JStr (hex_encode (kp_der k)); JStr (hex_encode (kp_secret k))].
Definition keypair_from_json (j : json) : option keypair :=
  match j with
  | JArr (JStr p :: JStr s :: _) =>
      match js_from_hex p, js_from_hex s with
      | Some d, Some secret =>
          match ed25519_unwrap d with Some raw => Some (mkPair raw secret) | None => None end
      | _, _ => None
      end
  | _ => None
  end.

(** DelegationChain: the signed delegations and the public key they start from. *)
Record chain := mkChain {
  ch_delegations : list SignedDelegation;
  ch_pubkey : bytes
}.

(** DelegationIdentity *)
Record ident := mkIdent { id_key : keypair; id_chain : chain }.

(** DelegationChain.toJSON *)
Definition delegation_to_json (d : Delegation) : json :=
  JObj ([(bs "expiration", JStr (hex_of_N (dl_expiration d)));
         (bs "pubkey", JStr (hex_encode (dl_pubkey d)))]
        ++ match dl_targets d with
           | Some l => [(bs "targets", JArr (map (fun t => JStr (map upper (hex_encode t))) l))]
           | None => []
           end).
Definition signed_to_json (d : SignedDelegation) : json :=
  JObj [(bs "delegation", delegation_to_json (sd_delegation d));
        (bs "signature", JStr (hex_encode (sd_signature d)))].
Definition chain_to_json (c : chain) : json :=
  JObj [(bs "delegations", JArr (map signed_to_json (ch_delegations c)));
        (bs "publicKey", JStr (hex_encode (ch_pubkey c)))].

(** _parseBlob: at least 64 characters. *)
Definition parse_blob (o : option json) : option bytes :=
  match o with
  | Some (JStr s) => if blen s <? 64 then None else js_from_hex s
  | _ => None
  end.

Fixpoint all_some {A B} (f : A -> option B) (l : list A) : option (list B) :=
  match l with
  | [] => Some []
  | x :: r => match f x, all_some f r with Some y, Some ys => Some (y :: ys) | _, _ => None end
  end.

(** DelegationChain.fromJSON *)
Definition target_from_json (j : json) : option bytes :=
  match j with JStr s => js_hex_bytes s | _ => None end.
Definition targets_from_json (o : option json) : option (option (list bytes)) :=
  match o with
  | None => Some None
  | Some (JArr l) => match all_some target_from_json l with Some ts => Some (Some ts) | None => None end
  | Some _ => None
  end.
Definition expiration_from_json (o : option json) : option N :=
  match o with Some (JStr s) => N_of_hex s | _ => None end.
Definition signed_from_json (j : json) : option SignedDelegation :=
  match json_field (bs "delegation") j with
  | Some d =>
      match parse_blob (json_field (bs "pubkey") d), expiration_from_json (json_field (bs "expiration") d),
            targets_from_json (json_field (bs "targets") d), parse_blob (json_field (bs "signature") j) with
      | Some pk, Some e, Some t, Some sg => Some (mkSigned (mkDelegation pk e t) sg)
      | _, _, _, _ => None
      end
  | None => None
  end.
Definition chain_from_json (j : json) : option chain :=
  match json_field (bs "delegations") j with
  | Some (JArr l) =>
      match all_some signed_from_json l, parse_blob (json_field (bs "publicKey") j) with
      | Some ds, Some pk => Some (mkChain ds pk)
      | _, _ => None
      end
  | _ => None
  end.

(** ** local-storage.ts *)

(** local-storage.ts 38-51: saveIdentity; the text it writes. *)
Definition identity_json (address : bytes) (k : keypair) (c : chain) : json :=
  JObj [(bs "address", JStr address); (bs "sessionIdentity", keypair_to_json k);
        (bs "delegationChain", chain_to_json c)].
Definition save_identity (address : bytes) (k : keypair) (c : chain) : bytes :=
  json_text (identity_json address k c).

(** DelegationChain.fromJSON and Ed25519KeyIdentity.fromJSON of a text *)
Definition chain_from_text (t : bytes) : option chain :=
  match parse_json t with Some j => chain_from_json j | None => None end.
Definition keypair_from_text (t : bytes) : option keypair :=
  match parse_json t with Some j => keypair_from_json j | None => None end.

(** local-storage.ts 14-33: loadIdentity; [None]: it throws.  The address may be any truthy
    value. *)
Definition load_identity (storage : option bytes) : option (json * ident * chain) :=
  match storage with
  | None | Some [] => None
  | Some t =>
      match parse_json t with
      | None => None
      | Some s =>
          match json_field (bs "address") s, json_field (bs "sessionIdentity") s,
                json_field (bs "delegationChain") s with
          | Some a, Some k, Some d =>
              if truthy a && truthy k && truthy d then
                match chain_from_text (json_text d), keypair_from_text (json_text k) with
                | Some c, Some k => Some (a, mkIdent k c, c)
                | _, _ => None
                end
              else None
          | _, _, _ => None
          end
      end
  end.

(** ** The store: index.ts 31-61 *)

(** context.type.ts: "idle"; "preparing", "logging-in" or "pending"; "success"; "error". *)
Inductive status := Idle | Busy | Success | Failed.

Record ctx := mkCtx {
  x_initializing : bool;
  x_prepare : status;
  x_prepare_error : option bytes;
  x_message : option (bytes * bytes);       (* prepareLoginOkResponse: siwe_message, nonce *)
  x_login : status;
  x_login_error : option bytes;
  x_sign : status;
  x_sign_error : option bytes;
  x_identity : option ident;
  x_address : option json;                  (* a string, unless localStorage held something else *)
  x_chain : option chain
}.

(** index.ts 47-52 *)
Definition initial_ctx : ctx :=
  mkCtx true Idle None None Idle None Idle None None None None.

(** The calls of updateState, in the order of index.ts. *)

(** 77-89, the constructor *)
Definition construct (storage : option bytes) (x : ctx) : ctx :=
  match load_identity storage with
  | Some (a, i, c) =>
      mkCtx false (x_prepare x) (x_prepare_error x) (x_message x) (x_login x) (x_login_error x)
        (x_sign x) (x_sign_error x) (Some i) (Some a) (Some c)
  | None =>
      mkCtx false (x_prepare x) (x_prepare_error x) (x_message x) (x_login x) (x_login_error x)
        (x_sign x) (x_sign_error x) (x_identity x) (x_address x) (x_chain x)
  end.
(** 142-145 *)
Definition set_preparing (x : ctx) : ctx :=
  mkCtx (x_initializing x) Busy None (x_message x) (x_login x) (x_login_error x)
    (x_sign x) (x_sign_error x) (x_identity x) (x_address x) (x_chain x).
(** 155-158 *)
Definition set_prepared (m : bytes * bytes) (x : ctx) : ctx :=
  mkCtx (x_initializing x) Success (x_prepare_error x) (Some m) (x_login x) (x_login_error x)
    (x_sign x) (x_sign_error x) (x_identity x) (x_address x) (x_chain x).
(** 164-167 *)
Definition set_prepare_failed (e : bytes) (x : ctx) : ctx :=
  mkCtx (x_initializing x) Failed (Some e) (x_message x) (x_login x) (x_login_error x)
    (x_sign x) (x_sign_error x) (x_identity x) (x_address x) (x_chain x).
(** 197-201 *)
Definition set_logging_in (x : ctx) : ctx :=
  mkCtx (x_initializing x) (x_prepare x) (x_prepare_error x) (x_message x) Busy None
    (x_sign x) None (x_identity x) (x_address x) (x_chain x).
(** 215-217 *)
Definition set_signing (x : ctx) : ctx :=
  mkCtx (x_initializing x) (x_prepare x) (x_prepare_error x) (x_message x) (x_login x) (x_login_error x)
    Busy (x_sign_error x) (x_identity x) (x_address x) (x_chain x).
(** 231-234 *)
Definition set_sign_failed (e : bytes) (x : ctx) : ctx :=
  mkCtx (x_initializing x) (x_prepare x) (x_prepare_error x) (x_message x) (x_login x) (x_login_error x)
    Failed (Some e) (x_identity x) (x_address x) (x_chain x).
(** 238-240 *)
Definition set_signed (x : ctx) : ctx :=
  mkCtx (x_initializing x) (x_prepare x) (x_prepare_error x) (x_message x) (x_login x) (x_login_error x)
    Success (x_sign_error x) (x_identity x) (x_address x) (x_chain x).
(** 285-290 *)
Definition set_logged_in (a : bytes) (i : ident) (c : chain) (x : ctx) : ctx :=
  mkCtx (x_initializing x) (x_prepare x) (x_prepare_error x) (x_message x) Success (x_login_error x)
    (x_sign x) (x_sign_error x) (Some i) (Some (JStr a)) (Some c).
(** 296-300 *)
Definition set_login_failed (e : bytes) (x : ctx) : ctx :=
  mkCtx (x_initializing x) (x_prepare x) (x_prepare_error x) None Failed (Some e)
    (x_sign x) (x_sign_error x) (x_identity x) (x_address x) (x_chain x).
(** 309-319 *)
Definition set_cleared (x : ctx) : ctx :=
  mkCtx (x_initializing x) Idle None None Idle None (x_sign x) None None None None.

(** ** Calls in progress *)

(** prepareLogin, index.ts 131-170, waiting for: *)
Inductive prep :=
| PAddresses                                           (* 133-135 the wallet's accounts *)
| PActor (account : bytes)                             (* 147-152 the actor *)
| PReply (account : bytes) (answer : option reply)     (* 154 the canister; Some: its answer is on the way *)
| PReturned (r : result (bytes * bytes) bytes).        (* settled: 160 or 168 *)

(** A call of prepareLogin or login, index.ts 176-303. *)
Inductive task :=
| TPrepare (p : prep)
| TAddresses                                           (* 188-190 *)
| TPreparing (account : bytes) (p : prep)              (* 207 *)
| TSign (account message nonce : bytes)                (* 221-224 the wallet's signature *)
| TActor (account nonce signature : bytes) (k : keypair)                              (* 246-251 *)
| TLogin (account nonce signature : bytes) (k : keypair) (answer : option reply)      (* 253-259 *)
| TDelegation (account : bytes) (k : keypair) (d : LoginDetails) (answer : option reply)  (* 262-267 *)
| TReturned (i : ident)                                (* 292 *)
| TThrown (e : bytes).                                 (* 301 *)

(** How the thing waited for turns out.  A wallet and the agent answer as they like; the
    canister's replies are those of Provider.v.  [SSigned] also brings the session key
    pair that is generated right after (index.ts 243). *)
Inductive settle :=
| SThrow (e : bytes)
| SAccounts (l : list bytes)
| SActor
| SSigned (signature : bytes) (k : keypair)
| SReply.

(** [const [account] = ...; if (!account) throw]: index.ts 135-140, 190-195 *)
Definition first_account (l : list bytes) : option bytes :=
  match l with [] | [] :: _ => None | a :: _ => Some a end.
Definition no_account : bytes :=
  bs "No Ethereum address available. Call login after the user has connected their wallet.".

(** siwe-provider.ts 39-53, 59-83, 88-109: [Err] variants become exceptions; a trap
    reaches the caller as a rejected call. *)
Definition rejected (why : string) : bytes := bs "Call failed: " ++ bs why.
Definition prepare_answer (r : reply) : option (result (bytes * bytes) bytes) :=
  match r with RPrepare x => Some x | RTrap w => Some (Err (rejected w)) | _ => None end.
Definition login_answer (r : reply) : option (result LoginDetails bytes) :=
  match r with RLogin x => Some x | RTrap w => Some (Err (rejected w)) | _ => None end.
Definition delegation_answer (r : reply) : option (result SignedDelegation bytes) :=
  match r with RDelegation x => Some x | RTrap w => Some (Err (rejected w)) | _ => None end.

(** delegation.ts 30-48.  [Uint8Array.buffer] is the array itself: the Candid decoder
    makes a new buffer for each blob. *)
Definition create_chain (d : SignedDelegation) (pubkey : bytes) : chain := mkChain [d] pubkey.

(** prepareLogin goes on from where it waited. *)
Definition prep_fails (e : bytes) (x : ctx) : ctx * prep := (set_prepare_failed e x, PReturned (Err e)).
Definition prep_goes (p : prep) (s : settle) (x : ctx) : option (ctx * prep) :=
  match p, s with
  | PReturned _, _ => None
  | _, SThrow e => Some (prep_fails e x)
  | PAddresses, SAccounts l =>
      match first_account l with
      | None => Some (prep_fails no_account x)
      | Some a => Some (set_preparing x, PActor a)
      end
  | PActor a, SActor => Some (x, PReply a None)
  | PReply a (Some r), SReply =>
      match prepare_answer r with
      | Some (Ok m) => Some (set_prepared m x, PReturned (Ok m))
      | Some (Err e) => Some (prep_fails e x)
      | None => None
      end
  | _, _ => None
  end.

(** The catch block, index.ts 293-302. *)
Definition login_fails (e : bytes) (x : ctx) : ctx * task := (set_login_failed e x, TThrown e).

(** A call of login up to its first await, index.ts 176-188. *)
Definition login_starts (x : ctx) : ctx * task :=
  match x_prepare x, x_login x with
  | Busy, _ => login_fails (bs "Don't call login while prepareLogin is in progress") x
  | _, Busy => login_fails (bs "Don't call login while login is in progress") x
  | _, _ => (x, TAddresses)
  end.

(** [storage] is the text under the key "siweIdentity" of localStorage. *)
Definition sign_fails (e : bytes) (x : ctx) : ctx * task := login_fails e (set_sign_failed e x).
Definition login_goes (t : task) (s : settle) (x : ctx) (storage : option bytes)
  : option (ctx * task * option bytes) :=
  match t, s with
  | TPrepare p, _ =>
      match prep_goes p s x with Some (x, p) => Some (x, TPrepare p, storage) | None => None end
  | TAddresses, SThrow e => Some (login_fails e x, storage)
  | TAddresses, SAccounts l =>
      match first_account l with
      | None => Some (login_fails no_account x, storage)
      | Some a =>
          match x_message x with
          | Some (m, n) => Some (set_signing (set_logging_in x), TSign a m n, storage)
          | None => Some (set_logging_in x, TPreparing a PAddresses, storage)
          end
      end
  | TPreparing a (PReturned (Ok (m, n))), SReply => Some (set_signing x, TSign a m n, storage)
  | TPreparing a (PReturned (Err e)), SReply => Some (login_fails e x, storage)
  | TPreparing a p, _ =>
      match prep_goes p s x with Some (x, p) => Some (x, TPreparing a p, storage) | None => None end
  | TSign a m n, SThrow e => Some (sign_fails e x, storage)
  | TSign a m n, SSigned [] k => Some (sign_fails (bs "signMessage returned no data.") x, storage)
  | TSign a m n, SSigned sg k => Some (set_signed x, TActor a n sg k, storage)
  | TActor a n sg k, SThrow e => Some (login_fails e x, storage)
  | TActor a n sg k, SActor => Some (x, TLogin a n sg k None, storage)
  | TLogin a n sg k _, SThrow e => Some (login_fails e x, storage)
  | TLogin a n sg k (Some r), SReply =>
      match login_answer r with
      | Some (Ok d) => Some (x, TDelegation a k d None, storage)
      | Some (Err e) => Some (login_fails e x, storage)
      | None => None
      end
  | TDelegation a k d _, SThrow e => Some (login_fails e x, storage)
  | TDelegation a k d (Some r), SReply =>
      match delegation_answer r with
      | Some (Ok sd) =>
          let c := create_chain sd (ld_pubkey d) in
          let i := mkIdent k c in
          Some (set_logged_in a i c x, TReturned i, Some (save_identity a k c))
      | Some (Err e) => Some (login_fails e x, storage)
      | None => None
      end
  | _, _ => None
  end.

(** The request a call is waiting for the canister to execute.  [certificate] is what the
    system supplies to the query. *)
Definition prep_request (p : prep) : option op :=
  match p with PReply a None => Some (PrepareLogin a) | _ => None end.
Definition task_request (certificate : bytes) (t : task) : option op :=
  match t with
  | TPrepare p | TPreparing _ p => prep_request p
  | TLogin a n sg k None => Some (SiweLogin sg a (kp_der k) n)
  | TDelegation a k d None => Some (GetDelegation (Some certificate) a (kp_der k) (ld_expiration d))
  | _ => None
  end.

(** The canister has answered. *)
Definition prep_answered (r : reply) (p : prep) : prep :=
  match p with PReply a None => PReply a (Some r) | _ => p end.
Definition task_answered (r : reply) (t : task) : task :=
  match t with
  | TPrepare p => TPrepare (prep_answered r p)
  | TPreparing a p => TPreparing a (prep_answered r p)
  | TLogin a n sg k None => TLogin a n sg k (Some r)
  | TDelegation a k d None => TDelegation a k d (Some r)
  | _ => t
  end.

(** ** The tab, the canister and everybody else *)

Record world := mkWorld {
  w_ctx : ctx;
  w_storage : option bytes;
  w_tasks : list task;          (* calls made since the page was loaded, in order *)
  w_canister : state;
  w_history : list event;       (* everything the canister has done *)
  w_own : list event            (* that part of it which calls made from this tab *)
}.

Definition initial_world : world := mkWorld initial_ctx None [] None [] [].

Inductive action :=
| ALoad                                         (* the page is (re)loaded: the store starts afresh *)
| AManager                                      (* new SiweManager(...) *)
| APrepare                                      (* manager.prepareLogin() *)
| ALogin                                        (* manager.login() *)
| AClear                                        (* manager.clear() *)
| AContinue (k : nat) (s : settle)              (* the k-th call goes on *)
| AServe (k : nat) (now : N) (certificate : bytes)   (* the canister executes the k-th call's request *)
| ACanister (now : N) (o : op)                  (* the canister executes anything else *)
| AStorage (t : option bytes).                   (* somebody else writes localStorage *)

(** [None]: the action is not possible.  Methods need a manager, whose construction ends
    with isInitializing = false (index.ts 89). *)
Definition act_step (D : Deps) (cid : bytes) (a : action) (w : world) : option world :=
  let ready := negb (x_initializing (w_ctx w)) in
  let tab x st ts := Some (mkWorld x st ts (w_canister w) (w_history w) (w_own w)) in
  match a with
  | ALoad => tab initial_ctx (w_storage w) []
  | AManager => tab (construct (w_storage w) (w_ctx w)) (w_storage w) (w_tasks w)
  | APrepare =>
      if ready then tab (w_ctx w) (w_storage w) (w_tasks w ++ [TPrepare PAddresses]) else None
  | ALogin =>
      let '(x, t) := login_starts (w_ctx w) in
      if ready then tab x (w_storage w) (w_tasks w ++ [t]) else None
  | AClear => if ready then tab (set_cleared (w_ctx w)) None (w_tasks w) else None
  | AContinue k s =>
      match nth_error (w_tasks w) k with
      | Some t =>
          match login_goes t s (w_ctx w) (w_storage w) with
          | Some (x, t', st) => tab x st (<[k := t']> (w_tasks w))
          | None => None
          end
      | None => None
      end
  | AServe k now certificate =>
      match nth_error (w_tasks w) k with
      | Some t =>
          match task_request certificate t with
          | Some o =>
              let '(s', r) := step D cid now o (w_canister w) in
              Some (mkWorld (w_ctx w) (w_storage w) (<[k := task_answered r t]> (w_tasks w))
                      s' (w_history w ++ [mkEvent now o r]) (w_own w ++ [mkEvent now o r]))
          | None => None
          end
      | None => None
      end
  | ACanister now o =>
      let '(s', r) := step D cid now o (w_canister w) in
      Some (mkWorld (w_ctx w) (w_storage w) (w_tasks w) s' (w_history w ++ [mkEvent now o r]) (w_own w))
  | AStorage t => tab (w_ctx w) t (w_tasks w)
  end.

(** What is required of an action: canister time does not go back, arguments are in the
    range of their types, Ed25519 keys have 32 bytes. *)
Definition executes (now : N) (o : op) (w : world) : Prop :=
  Forall (fun e => ev_time e <= now) (w_history w) /\ now <= u64_max /\ op_wf o.
Definition act_ok (a : action) (w : world) : Prop :=
  match a with
  | AContinue k (SSigned _ p) => length (kp_raw p) = 32%nat /\ length (kp_secret p) = 32%nat
  | AServe k now certificate =>
      forall t o, nth_error (w_tasks w) k = Some t -> task_request certificate t = Some o -> executes now o w
  | ACanister now o => executes now o w
  | _ => True
  end.

(** Everything that can happen, starting from an empty browser and no canister. *)
Inductive runs (D : Deps) (cid : bytes) : list action -> world -> Prop :=
| runs_nil : runs D cid [] initial_world
| runs_snoc acts w a w' :
    runs D cid acts w -> act_ok a w -> act_step D cid a w = Some w' -> runs D cid (acts ++ [a]) w'.
