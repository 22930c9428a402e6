(** C109: which calls are taken, for every message. *)
From Coq Require Import Strings.String Sorting.Sorted.
From Verif Require Import Base BaseLemmas Deps SpecHash HashProofs Hex Eth Settings Login Provider Candid SpecCandid CandidBase CandidHeader
  CandidProofs CandidMessages CandidSound CandidUnique Interface SpecInterface InterfaceProofs InterfaceReplies Concrete Demo.
Local Open Scope N_scope.

(** ** C109  A message has one reading, and it decides *)

(** Without a well-formed header a call is refused, and the canister stays as it was. *)
Theorem C109_header : forall D cid q now m caller cert msg s,
  (forall h a r, w_header h a -> msg <> a ++ r) ->
  exists w, call_step D cid q now (Call m caller cert msg) s = (s, RTrap w).
Proof.
  intros D cid q now m caller cert msg s H. unfold call_step, call_op, op_of.
  destruct (decode_args q (arg_types m) msg) as [xs|] eqn:E; [|destruct m; rewrite E; eexists; reflexivity].
  apply message_header in E as (h & a & r & Ha & ->). now destruct (H h a r Ha).
Qed.

Lemma arg_S c cs v vs k : arg (c :: cs) (v :: vs) (S k) = arg cs vs k.
Proof. reflexivity. Qed.
Lemma coerce_text c v : coerce XText c v = option_map VText (as_text (Some (c, v))).
Proof. destruct c as [[]| | | |], v; reflexivity. Qed.
Lemma coerce_blob c v : coerce XBlob c v = option_map VBlob (as_blob (Some (c, v))).
Proof. destruct c as [| |[[]| | | |]| |], v; reflexivity. Qed.
Lemma coerce_nat64 c v : coerce XNat64 c v = option_map VNat (as_nat64 (Some (c, v))).
Proof. destruct c as [[]| | | |], v; reflexivity. Qed.
Lemma coerce_cons t ts c cs v vs : coerce_args (t :: ts) (c :: cs) (v :: vs) =
  match coerce t c v, coerce_args ts cs vs with Some x, Some xs => Some (x :: xs) | _, _ => None end.
Proof. reflexivity. Qed.

Lemma types_ordered m : Forall ordered (arg_types m).
Proof. destruct m; cbn [arg_types]; repeat constructor; apply settings_ordered. Qed.

(** Decoded values as a call. *)
Definition call_of (m : method) (caller : bytes) (certificate : option bytes) (xs : list xval) : option op :=
  match m, xs with
  | MInit, [v] => option_map Install (input_of v)
  | MPostUpgrade, [v] => option_map Upgrade (input_of v)
  | MPrepareLogin, [VText a] => Some (PrepareLogin a)
  | MLogin, [VText sg; VText a; VBlob sk; VText n] => Some (SiweLogin sg a sk n)
  | MGetDelegation, [VText a; VBlob sk; VNat e] => Some (GetDelegation certificate a sk e)
  | MGetAddress, [VBlob p] => Some (GetAddress p)
  | MGetCallerAddress, [] => Some (GetCallerAddress caller)
  | MGetPrincipal, [VText a] => Some (GetPrincipal a)
  | _, _ => None
  end.
Lemma op_of_call q m caller cert msg : op_of q m caller cert msg = decode_args q (arg_types m) msg ≫= call_of m caller cert.
Proof. unfold op_of. destruct m, (decode_args q _ msg) as [xs|]; reflexivity. Qed.

Lemma asked_is m caller cert cs vs : length cs = length vs ->
  coerce_args (arg_types m) cs vs ≫= call_of m caller cert = asked m caller cert cs vs.
Proof.
  intros Hl. destruct m; cbn [arg_types asked]; unfold mbind, option_bind.
  - destruct cs as [|c cs], vs as [|v vs]; try discriminate; [reflexivity|]. rewrite coerce_cons. cbn [coerce_args].
    change (arg (c :: cs) (v :: vs) 0) with (Some (c, v)). cbn [as_config]. rewrite <- settings_delivered.
    destruct (coerce settings_type c v); reflexivity.
  - destruct cs as [|c cs], vs as [|v vs]; try discriminate; [reflexivity|]. rewrite coerce_cons. cbn [coerce_args].
    change (arg (c :: cs) (v :: vs) 0) with (Some (c, v)). cbn [as_config]. rewrite <- settings_delivered.
    destruct (coerce settings_type c v); reflexivity.
  - destruct cs as [|c cs], vs as [|v vs]; try discriminate; [reflexivity|]. rewrite coerce_cons, coerce_text. cbn [coerce_args].
    change (arg (c :: cs) (v :: vs) 0) with (Some (c, v)). destruct (as_text (Some (c, v))); reflexivity.
  - destruct cs as [|c cs], vs as [|v vs]; try discriminate; [reflexivity|]. rewrite coerce_cons, coerce_text.
    change (arg (c :: cs) (v :: vs) 0) with (Some (c, v)). rewrite !arg_S. destruct (as_text (Some (c, v))) as [sg|]; [|reflexivity].
    cbn [length] in Hl. injection Hl as Hl. clear c v. destruct cs as [|c cs], vs as [|v vs]; try discriminate; [reflexivity|]. rewrite coerce_cons, coerce_text.
    change (arg (c :: cs) (v :: vs) 0) with (Some (c, v)). rewrite !arg_S. destruct (as_text (Some (c, v))) as [a|]; [|reflexivity].
    cbn [length] in Hl. injection Hl as Hl. clear c v. destruct cs as [|c cs], vs as [|v vs]; try discriminate; [reflexivity|]. rewrite coerce_cons, coerce_blob.
    change (arg (c :: cs) (v :: vs) 0) with (Some (c, v)). rewrite !arg_S. destruct (as_blob (Some (c, v))) as [sk|]; [|reflexivity].
    cbn [length] in Hl. injection Hl as Hl. clear c v. destruct cs as [|c cs], vs as [|v vs]; try discriminate; [reflexivity|]. rewrite coerce_cons, coerce_text. cbn [coerce_args].
    change (arg (c :: cs) (v :: vs) 0) with (Some (c, v)). destruct (as_text (Some (c, v))); reflexivity.
  - destruct cs as [|c cs], vs as [|v vs]; try discriminate; [reflexivity|]. rewrite coerce_cons, coerce_text.
    change (arg (c :: cs) (v :: vs) 0) with (Some (c, v)). rewrite !arg_S. destruct (as_text (Some (c, v))) as [sg|]; [|reflexivity].
    cbn [length] in Hl. injection Hl as Hl. clear c v. destruct cs as [|c cs], vs as [|v vs]; try discriminate; [reflexivity|]. rewrite coerce_cons, coerce_blob.
    change (arg (c :: cs) (v :: vs) 0) with (Some (c, v)). rewrite !arg_S. destruct (as_blob (Some (c, v))) as [sk|]; [|reflexivity].
    cbn [length] in Hl. injection Hl as Hl. clear c v. destruct cs as [|c cs], vs as [|v vs]; try discriminate; [reflexivity|]. rewrite coerce_cons, coerce_nat64. cbn [coerce_args].
    change (arg (c :: cs) (v :: vs) 0) with (Some (c, v)). destruct (as_nat64 (Some (c, v))); reflexivity.
  - destruct cs as [|c cs], vs as [|v vs]; try discriminate; [reflexivity|]. rewrite coerce_cons, coerce_blob. cbn [coerce_args].
    change (arg (c :: cs) (v :: vs) 0) with (Some (c, v)). destruct (as_blob (Some (c, v))); reflexivity.
  - reflexivity.
  - destruct cs as [|c cs], vs as [|v vs]; try discriminate; [reflexivity|]. rewrite coerce_cons, coerce_text. cbn [coerce_args].
    change (arg (c :: cs) (v :: vs) 0) with (Some (c, v)). destruct (as_text (Some (c, v))); reflexivity.
Qed.
Lemma enc_args_length cs vs b : enc_args cs vs b -> length cs = length vs.
Proof. induction 1; cbn; congruence. Qed.

(** With a header that lists data types: if the rest of the message is values of these types
    and they make a call, this call runs; in all other cases the message is refused and the
    canister stays as it was. *)
Theorem C109_exact : forall D cid q now m caller cert h a l cs s,
  w_header h a -> Forall2 (stands (h_table h)) (h_args h) cs -> Forall (fun c => (depth c <= q)%nat) cs ->
  (exists vs o, enc_args cs vs l /\ asked m caller cert cs vs = Some o /\
     call_step D cid q now (Call m caller cert (a ++ l)) s = step D cid now o s) \/
  ((forall vs, enc_args cs vs l -> asked m caller cert cs vs = None) /\
   exists w, call_step D cid q now (Call m caller cert (a ++ l)) s = (s, RTrap w)).
Proof.
  intros D cid q now m caller cert h a l cs s Hh Hs Hq.
  pose proof (fun xs => message_exact q (arg_types m) h a l cs xs Hh Hs Hq (types_ordered m)) as K.
  unfold call_step, call_op. rewrite op_of_call. destruct (decode_args q (arg_types m) (a ++ l)) as [xs|] eqn:E.
  - destruct (proj1 (K xs) eq_refl) as (vs & He & Hc). cbn [mbind option_bind].
    pose proof (asked_is m caller cert cs vs (enc_args_length _ _ _ He)) as Ha. rewrite Hc in Ha. cbn [mbind option_bind] in Ha.
    rewrite Ha. destruct (asked m caller cert cs vs) as [o|] eqn:Eo.
    + left. eauto.
    + right. split; [|eauto]. intros vs' He'. now rewrite <- (enc_args_unique _ _ _ He vs' He').
  - right. split; [|eauto]. intros vs He. rewrite <- (asked_is m caller cert cs vs (enc_args_length _ _ _ He)).
    destruct (coerce_args (arg_types m) cs vs) as [xs|] eqn:Ec; [|reflexivity].
    assert (None = Some xs) as C; [|discriminate]. apply K. eauto.
Qed.

(** Types and values are determined by the bytes. *)
Theorem C109_one_reading : forall q q' msg cs vs cs' vs',
  carries q msg cs vs -> carries q' msg cs' vs' -> cs = cs' /\ vs = vs'.
Proof. exact carries_unique. Qed.

(** So a call can be meant in one way only. *)
Theorem C109_one_meaning : forall q msg cs vs D cid now m caller cert s,
  carries q msg cs vs ->
  call_step D cid q now (Call m caller cert msg) s =
    match asked m caller cert cs vs with
    | Some o => step D cid now o s
    | None => (s, RTrap "failed to decode call arguments")
    end.
Proof.
  intros q msg cs vs D cid now m caller cert s H. unfold call_step, call_op. rewrite op_of_call.
  rewrite (message_delivers q _ msg cs vs H (types_ordered m)). rewrite asked_is; [reflexivity|].
  destruct H as (h & a & b & _ & _ & He & _). now apply enc_args_length in He.
Qed.

(** Concrete: a caller whose tool lists types that the call does not use (a service of two
    query methods) and writes numbers longer than need be is understood; with the two
    methods in the other order, or with one byte more behind the value, the message is
    refused. *)
Definition odd_header (first second : byte) : bytes :=
  bs "DIDL" ++ [x02; x6a; x00; x00; x01; x01; x69; x82; x00; x01; first; x00; x01; second; x00; x81; x00; x71].
Definition odd_address : bytes := bs "0x5aAeb6053F3E94C9b9A09f33669435E7Ef1BeAed".
Definition odd_value : bytes := [xaa; x00] ++ odd_address.
Definition odd_table : list entry := [EFunc [] []; EService [([x61], Var 0); ([x62], Var 0)]].

Lemma byte_count b : nb b < 128 -> count [b] (nb b).
Proof. intros H. split; [now constructor|]. split; [cbn; lia|]. unfold two64. lia. Qed.
Lemma long_count b : 128 <= nb b -> count [b; x00] (nb b - 128).
Proof.
  intros H. split; [|split; [cbn; lia|pose proof (nb_lt b); unfold two64; lia]].
  replace (nb b - 128) with (nb b - 128 + 128 * 0) by lia. constructor; [exact H|]. now apply (uint_last x00).
Qed.
Lemma zero_ref : w_ref (Var 0) [x00].
Proof. split; [now apply (sint_last x00)|]. cbn. lia. Qed.

Lemma odd_header_fine : w_header (mkHeader odd_table [Prim PText]) (odd_header x61 x62).
Proof.
  exists ([x02] ++ [x6a; x00; x00; x01; x01] ++ [x69; x82; x00; x01; x61; x00; x01; x62; x00]), [x81; x00; x71].
  cbn [h_table h_args]. split; [|split; [|split; [reflexivity|split]]].
  - exists [x02]. eexists. split; [now apply (byte_count x02)|]. split; [|reflexivity].
    change ([x6a; x00; x00; x01; x01] ++ [x69; x82; x00; x01; x61; x00; x01; x62; x00]) with
      ([x6a; x00; x00; x01; x01] ++ [x69; x82; x00; x01; x61; x00; x01; x62; x00] ++ []).
    constructor; [|constructor; [|constructor]].
    + apply (w_func [] [] [x00] [x00] [x01; x01]); [| |unfold w_mode; cbn; tauto]; exists [x00], []; (split; [now apply (byte_count x00)|]);
        (split; [constructor|reflexivity]).
    + apply w_service. exists [x82; x00], ([x01; x61; x00] ++ [x01; x62; x00] ++ []). split; [now apply (long_count x82)|].
      split; [|reflexivity]. constructor; [|constructor; [|constructor]].
      * exists [x01; x61], [x00]. split; [exists [x01]; split; [now apply (byte_count x01)|reflexivity]|]. split; [|split; [exact zero_ref|reflexivity]].
        apply utf8_iff. reflexivity.
      * exists [x01; x62], [x00]. split; [exists [x01]; split; [now apply (byte_count x01)|reflexivity]|]. split; [|split; [exact zero_ref|reflexivity]].
        apply utf8_iff. reflexivity.
  - exists [x81; x00], ([x71] ++ []). split; [now apply (long_count x81)|]. split; [|reflexivity].
    constructor; [|constructor]. split; [now apply (sint_minus x71)|]. cbn. lia.
  - constructor; [cbn; split; constructor|]. constructor; [|constructor]. cbn [entry_fine odd_table]. split.
    + apply names_iff. reflexivity.
    + constructor; [exists 0, [], []; split; reflexivity|]. constructor; [exists 0, [], []; split; reflexivity|constructor].
  - constructor; [exact I|constructor].
Qed.
Example C109_case :
  carries 6 (odd_header x61 x62 ++ odd_value) [CPrim PText] [UText odd_address] /\
  call_op 6 (Call MPrepareLogin [] None (odd_header x61 x62 ++ odd_value)) = Some (PrepareLogin odd_address) /\
  call_op 6 (Call MPrepareLogin [] None (odd_header x62 x61 ++ odd_value)) = None /\
  call_op 6 (Call MPrepareLogin [] None (odd_header x61 x62 ++ odd_value ++ [x00])) = None.
Proof.
  split; [|repeat split; vm_compute; reflexivity].
  exists (mkHeader odd_table [Prim PText]), (odd_header x61 x62), odd_value. split; [exact odd_header_fine|].
  split; [repeat constructor|]. split; [|split; [repeat constructor|reflexivity]]. apply enc_args_1.
  apply enc_text; [apply utf8_iff; vm_compute; reflexivity|]. change (blen odd_address) with (nb xaa - 128). now apply long_count.
Qed.

Print Assumptions C109_header.
Print Assumptions C109_exact.
Print Assumptions C109_one_reading.
Print Assumptions C109_one_meaning.
