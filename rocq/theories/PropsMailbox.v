(** * The mailbox: dispatching and delivering messages (C16-C21, C23). *)
From Coq Require Import List NArith Bool Lia.
From Verif Require Import Base OMap Coins CoinsFacts Crypto Message Bech32 Chain Ownable Contracts Spec
  Mailbox Va Isms Hooks Igp Warp Cw20 MailboxFacts PropsAccess.
Import ListNotations.

(** ** C16 *)
Theorem C16_dispatch_exact A Q e i d st st' r n dom :
  reported_nonce st = Some n -> reported_domain st = Some dom ->
  c_execute A Q e i (MDispatch d) st = Ok (st', r) ->
  exists sender required hook fees rest,
    let raw := msg_encode (mkMessage 3 n dom sender (d_dest d) (d_recipient d) (d_body d)) in
    let md := request_metadata d in
    bech32_to_h256 (i_sender i) = Ok sender /\ length sender = 32%nat /\
    length (d_recipient d) = 32%nat /\ d_dest d < u32_max /\ n + 1 < u32_max /\
    reported_required_hook st = Some required /\ chosen_hook A st d hook /\
    q_smart (Q st) required (QHookQuote md raw) = Ok (RFees fees) /\
    (forall x, amount_of x (i_funds i) = amount_of x fees + amount_of x rest) /\
    no_repeats (i_funds i) /\ no_repeats rest /\ Forall (fun c => c_amount c <> 0) rest /\
    r = mkResp [mkSub (CExec required (MPostDispatch md raw) fees) RpNever;
                mkSub (CExec hook (MPostDispatch md raw) rest) RpNever]
               (Some (keccak256_hash raw)) /\
    reported_latest st' = Some (keccak256_hash raw) /\
    reported_nonce st' = Some (n + 1) /\
    (forall B q qm, qm <> QNonce -> qm <> QLatestDispatchId ->
       (forall sd d, qm <> QMailboxQuote sd d) -> c_query B q qm st' = c_query B q qm st).
Proof. exact (dispatch_effect A Q e i d st st' r n dom). Qed.
Print Assumptions C16_dispatch_exact.

(** a mailbox with its hooks set, hooks that ask 3 uosmo (required) and 4 uosmo
    and 1 uatom, and a user *)
Definition ex_user : str := s "osmo1466nf3zuxpya8q9emxukd7vftaf6h4psr0a07srl5zw74zh84yjqkk0zfx".
Definition ex_hooks : querier :=
  mkQuerier (fun a m =>
    match m with
    | QHookQuote _ _ =>
        if bytes_eqb a (s "required") then Ok (RFees [mkCoin (s "uosmo") 3])
        else Ok (RFees [mkCoin (s "uosmo") 4; mkCoin (s "uatom") 1])
    | QIsmSpecifier => Ok (RIsm (if bytes_eqb a (s "plain") then None else Some (s "own-ism")))
    | QVerify md _ => Ok (RVerified (bytes_eqb md (s "proof")))
    | _ => Err EStd
    end) (fun _ _ => 0) (fun _ => []).
Definition ex_setup : list event :=
  [call "owner" (MSetDefaultHook (s "hook")); call "owner" (MSetRequiredHook (s "required"));
   call "owner" (MSetDefaultIsm (s "ism"))].
Definition ex_mailbox : cstate :=
  c_run ex_api (born (IMailbox (s "osmo") (s "owner") 7)) ex_setup.
Definition ex_request : dispatch_msg :=
  mkDispatch 9 (repeat x01 32) (s "hello") None None.
Definition ex_dispatch (funds : list coin) : event :=
  EvExec ex_env (mkInfo ex_user funds) (MDispatch ex_request) (fun _ => ex_hooks).
Definition ex_funds : list coin := [mkCoin (s "uatom") 1; mkCoin (s "uosmo") 7].

Example C16_example :
  reported_nonce ex_mailbox = Some 0 /\ reported_domain ex_mailbox = Some 7 /\
  accepted ex_api ex_mailbox (ex_dispatch ex_funds) = true /\
  reported_nonce (c_step ex_api ex_mailbox (ex_dispatch ex_funds)) = Some 1.
Proof. repeat split; vm_compute; reflexivity. Qed.

(** ** C17 *)
Theorem C17_nonces_gapless A q e i hrp owner dom st0 r h :
  c_instantiate A q e i (IMailbox hrp owner dom) = Ok (st0, r) ->
  let ds := dispatches A st0 h in
  reported_nonce (c_run A st0 h) = Some (N.of_nat (length ds)) /\
  N.of_nat (length ds) < u32_max /\
  length ds = length (filter is_dispatch (accepted_calls A st0 h)) /\
  reported_latest (c_run A st0 h) = option_map keccak256_hash (nth_error (rev ds) 0) /\
  (forall k raw, nth_error ds k = Some raw ->
     exists m, msg_decode raw = Ok m /\ m_version m = 3 /\
               m_nonce m = N.of_nat k /\ m_origin m = dom) /\
  (forall j k a b, j <> k -> nth_error ds j = Some a -> nth_error ds k = Some b -> a <> b).
Proof. exact (nonces_gapless A q e i hrp owner dom st0 r h). Qed.
Print Assumptions C17_nonces_gapless.

(** two dispatches with one id are a Keccak collision between these two messages *)
Theorem C17_ids_distinct A q e i hrp owner dom st0 r h j k a b :
  c_instantiate A q e i (IMailbox hrp owner dom) = Ok (st0, r) ->
  j <> k -> nth_error (dispatches A st0 h) j = Some a -> nth_error (dispatches A st0 h) k = Some b ->
  keccak256_hash a <> keccak256_hash b \/ (a <> b /\ keccak256_hash a = keccak256_hash b).
Proof. exact (ids_distinct A q e i hrp owner dom st0 r h j k a b). Qed.
Print Assumptions C17_ids_distinct.

Theorem C17_refuses_at_the_end A st n e i d Q :
  reported_nonce st = Some n -> u32_max <= n + 1 ->
  accepted A st (EvExec e i (MDispatch d) Q) = false.
Proof. exact (nonce_exhausted A st n e i d Q). Qed.
Print Assumptions C17_refuses_at_the_end.

Example C17_example :
  map (fun raw => match msg_decode raw with Ok m => Some (m_nonce m) | _ => None end)
    (dispatches ex_api (born (IMailbox (s "osmo") (s "owner") 7))
       (ex_setup ++ [ex_dispatch ex_funds; ex_dispatch []; ex_dispatch ex_funds]))
  = [Some 0; Some 1].
Proof. vm_compute. reflexivity. Qed.

(** a mailbox whose nonce is used up *)
Definition ex_full : cstate :=
  SMailbox (mkMb (own_init (s "owner")) (s "osmo") 7 (Some (s "ism")) (Some (s "hook"))
              (Some (s "required")) 4294967295 None []).
Definition ex_almost_full : cstate :=
  SMailbox (mkMb (own_init (s "owner")) (s "osmo") 7 (Some (s "ism")) (Some (s "hook"))
              (Some (s "required")) 4294967294 None []).
Example C17_refuses_example :
  reported_nonce ex_full = Some 4294967295 /\
  accepted ex_api ex_full (ex_dispatch ex_funds) = false /\
  accepted ex_api ex_almost_full (ex_dispatch ex_funds) = true.
Proof. repeat split; vm_compute; reflexivity. Qed.

(** ** C18 *)
Theorem C18_payment_split A Q e i d st st' r n dom :
  reported_nonce st = Some n -> reported_domain st = Some dom ->
  c_execute A Q e i (MDispatch d) st = Ok (st', r) ->
  exists required hook md raw fees rest,
    r_msgs r = [mkSub (CExec required (MPostDispatch md raw) fees) RpNever;
                mkSub (CExec hook (MPostDispatch md raw) rest) RpNever] /\
    reported_required_hook st = Some required /\ chosen_hook A st d hook /\
    q_smart (Q st) required (QHookQuote md raw) = Ok (RFees fees) /\
    (forall x, amount_of x (i_funds i) = amount_of x fees + amount_of x rest) /\
    no_repeats rest /\ Forall (fun c => c_amount c <> 0) rest.
Proof. exact (dispatch_split A Q e i d st st' r n dom). Qed.
Print Assumptions C18_payment_split.

Theorem C18_underpaid_refused A Q e i d st n dom sender required fees x :
  reported_nonce st = Some n -> reported_domain st = Some dom ->
  bech32_to_h256 (i_sender i) = Ok sender ->
  reported_required_hook st = Some required ->
  q_smart (Q st) required (QHookQuote (request_metadata d)
    (msg_encode (mkMessage 3 n dom sender (d_dest d) (d_recipient d) (d_body d)))) = Ok (RFees fees) ->
  amount_of x (i_funds i) < amount_of x fees ->
  accepted A st (EvExec e i (MDispatch d) Q) = false.
Proof. exact (dispatch_underpaid A Q e i d st n dom sender required fees x). Qed.
Print Assumptions C18_underpaid_refused.

Theorem C18_covered_accepted A Q e i d st n dom sender required hook fees :
  reported_nonce st = Some n -> reported_domain st = Some dom ->
  let raw := msg_encode (mkMessage 3 n dom sender (d_dest d) (d_recipient d) (d_body d)) in
  bech32_to_h256 (i_sender i) = Ok sender ->
  length (d_recipient d) = 32%nat -> d_dest d < u32_max -> n + 1 < u32_max ->
  reported_required_hook st = Some required -> chosen_hook A st d hook ->
  q_smart (Q st) required (QHookQuote (request_metadata d) raw) = Ok (RFees fees) ->
  Forall (fun c => c_amount c < u128_max) fees ->
  no_repeats (i_funds i) ->
  (forall x, amount_of x fees <= amount_of x (i_funds i)) ->
  exists st' r, c_execute A Q e i (MDispatch d) st = Ok (st', r).
Proof. exact (dispatch_accepts A Q e i d st n dom sender required hook fees). Qed.
Print Assumptions C18_covered_accepted.

Example C18_example :
  match c_apply ex_api (ex_dispatch [mkCoin (s "uatom") 1; mkCoin (s "uosmo") 9]) ex_mailbox with
  | Ok (_, r) => map (fun m => match sm_msg m with CExec a _ f => Some (a, f) | _ => None end) (r_msgs r)
  | _ => []
  end = [Some (s "required", [mkCoin (s "uosmo") 3]);
         Some (s "hook", [mkCoin (s "uatom") 1; mkCoin (s "uosmo") 6])].
Proof. vm_compute. reflexivity. Qed.
Example C18_underpaid_example :
  accepted ex_api ex_mailbox (ex_dispatch [mkCoin (s "uosmo") 2]) = false /\
  accepted ex_api ex_mailbox (ex_dispatch [mkCoin (s "uosmo") 3]) = true.
Proof. split; vm_compute; reflexivity. Qed.

(** ** C19 *)
Theorem C19_quote_is_enough A Q e i d st n total :
  reported_nonce st = Some n -> n + 1 < u32_max ->
  length (d_recipient d) = 32%nat ->
  c_query A (Q st) (QMailboxQuote (i_sender i) d) st = Ok (RFees total) ->
  i_funds i = total ->
  exists st' raw required hook fr fh rest,
    c_execute A Q e i (MDispatch d) st =
      Ok (st', mkResp [mkSub (CExec required (MPostDispatch (request_metadata d) raw) fr) RpNever;
                       mkSub (CExec hook (MPostDispatch (request_metadata d) raw) rest) RpNever]
                      (Some (keccak256_hash raw))) /\
    reported_required_hook st = Some required /\ chosen_hook A st d hook /\
    q_smart (Q st) required (QHookQuote (request_metadata d) raw) = Ok (RFees fr) /\
    q_smart (Q st) hook (QHookQuote (request_metadata d) raw) = Ok (RFees fh) /\
    (forall x, amount_of x rest = amount_of x fh) /\
    no_repeats rest /\ Forall (fun c => c_amount c <> 0) rest.
Proof. exact (quote_enough A Q e i d st n total). Qed.
Print Assumptions C19_quote_is_enough.

Example C19_example :
  c_query ex_api ex_hooks (QMailboxQuote ex_user ex_request) ex_mailbox = Ok (RFees ex_funds).
Proof. vm_compute. reflexivity. Qed.

(** ** C20 *)
Theorem C20_delivered_only_if_verified A Q e i md raw st st' r hrp dom :
  reported_hrp st = Some hrp -> reported_domain st = Some dom ->
  c_execute A Q e i (MProcess md raw) st = Ok (st', r) ->
  exists m recipient o dflt,
    msg_decode raw = Ok m /\ m_version m = 3 /\ m_dest m = dom /\
    bech32_encode hrp (m_recipient m) = Ok recipient /\
    q_smart (Q st) recipient QIsmSpecifier = Ok (RIsm o) /\
    reported_default_ism st = Some dflt /\
    q_smart (Q st') (match o with Some a => a | None => dflt end) (QVerify md raw)
      = Ok (RVerified true) /\
    reported_delivered st (keccak256_hash raw) = Some false /\
    reported_delivered st' (keccak256_hash raw) = Some true /\
    r = mkResp [mkSub (CExec recipient (MHandle (m_origin m) (m_sender m) (m_body m)) []) RpNever] None /\
    (forall B q qm, qm <> QDelivered (keccak256_hash raw) -> c_query B q qm st' = c_query B q qm st).
Proof. exact (process_effect A Q e i md raw st st' r hrp dom). Qed.
Print Assumptions C20_delivered_only_if_verified.

Theorem C20_verified_is_delivered A Q e i md raw st hrp dom m recipient o dflt :
  reported_hrp st = Some hrp -> reported_domain st = Some dom ->
  msg_decode raw = Ok m -> m_version m = 3 -> m_dest m = dom ->
  bech32_encode hrp (m_recipient m) = Ok recipient ->
  q_smart (Q st) recipient QIsmSpecifier = Ok (RIsm o) ->
  reported_default_ism st = Some dflt ->
  reported_delivered st (keccak256_hash raw) = Some false ->
  (forall st1, reported_delivered st1 (keccak256_hash raw) = Some true ->
     q_smart (Q st1) (match o with Some a => a | None => dflt end) (QVerify md raw)
       = Ok (RVerified true)) ->
  exists st' r, c_execute A Q e i (MProcess md raw) st = Ok (st', r).
Proof. exact (process_accepts A Q e i md raw st hrp dom m recipient o dflt). Qed.
Print Assumptions C20_verified_is_delivered.

Definition ex_incoming : bytes :=
  msg_encode (mkMessage 3 5 9 (repeat x02 32) 7 (repeat x01 32) (s "hi")).
Definition ex_process (md : string) (raw : bytes) : event :=
  EvExec ex_env (mkInfo (s "relayer") []) (MProcess (s md) raw) (fun _ => ex_hooks).
Example C20_example :
  accepted ex_api ex_mailbox (ex_process "proof" ex_incoming) = true /\
  accepted ex_api ex_mailbox (ex_process "forged" ex_incoming) = false /\
  accepted ex_api ex_mailbox (ex_process "proof"
    (msg_encode (mkMessage 3 5 9 (repeat x02 32) 8 (repeat x01 32) (s "hi")))) = false /\
  accepted ex_api ex_mailbox (ex_process "proof"
    (msg_encode (mkMessage 2 5 9 (repeat x02 32) 7 (repeat x01 32) (s "hi")))) = false.
Proof. repeat split; vm_compute; reflexivity. Qed.

(** ** C21 *)
Theorem C21_at_most_once A q e i hrp owner dom st0 r h :
  c_instantiate A q e i (IMailbox hrp owner dom) = Ok (st0, r) ->
  NoDup (map (fun p => keccak256_hash (fst p)) (processed A st0 h)) /\
  (forall id rec, delivery_record (c_run A st0 h) id = Some rec <->
     exists raw, In (raw, rec) (processed A st0 h) /\ keccak256_hash raw = id).
Proof. exact (at_most_once A q e i hrp owner dom st0 r h). Qed.
Print Assumptions C21_at_most_once.

Theorem C21_record_permanent A st h id rec :
  delivery_record st id = Some rec -> delivery_record (c_run A st h) id = Some rec.
Proof. exact (delivery_permanent A st h id rec). Qed.
Print Assumptions C21_record_permanent.

Theorem C21_answer_is_record st id :
  reported_delivered st id = Some true <-> exists rec, delivery_record st id = Some rec.
Proof. exact (delivered_recorded st id). Qed.
Print Assumptions C21_answer_is_record.

Theorem C21_second_delivery_refused A st e i md raw Q :
  reported_delivered st (keccak256_hash raw) = Some true ->
  accepted A st (EvExec e i (MProcess md raw) Q) = false.
Proof. exact (processed_again A st e i md raw Q). Qed.
Print Assumptions C21_second_delivery_refused.

Example C21_example :
  map snd (processed ex_api ex_mailbox
    [ex_process "forged" ex_incoming; ex_process "proof" ex_incoming;
     EvExec ex_env (mkInfo (s "other") []) (MProcess (s "proof") ex_incoming) (fun _ => ex_hooks)])
  = [(s "relayer", 7)] /\
  delivery_record (c_run ex_api ex_mailbox [ex_process "proof" ex_incoming]) (keccak256_hash ex_incoming)
  = Some (s "relayer", 7).
Proof. split; vm_compute; reflexivity. Qed.

(** ** C23: false.  The defaults are read before it is known whether they are
    needed, so without them every call fails, and setting one to an unused
    address makes the same call succeed. *)
Theorem C23_dispatch_needs_default A st e i d Q :
  reported_default_hook st = None -> accepted A st (EvExec e i (MDispatch d) Q) = false.
Proof. exact (dispatch_needs_default A st e i d Q). Qed.
Print Assumptions C23_dispatch_needs_default.

Theorem C23_process_needs_default A st e i md raw Q :
  reported_default_ism st = None -> accepted A st (EvExec e i (MProcess md raw) Q) = false.
Proof. exact (process_needs_default A st e i md raw Q). Qed.
Print Assumptions C23_process_needs_default.

Definition ex_named_hook : event :=
  EvExec ex_env (mkInfo ex_user ex_funds)
    (MDispatch (mkDispatch 9 (repeat x01 32) (s "hello") (Some (s "my-hook")) None)) (fun _ => ex_hooks).
Definition ex_bare : cstate :=
  c_run ex_api (born (IMailbox (s "osmo") (s "owner") 7)) [call "owner" (MSetRequiredHook (s "required"))].

Theorem C23_explicit_hook_refuted :
  exists st ev d dflt,
    (exists h, st = c_run ex_api (born (IMailbox (s "osmo") (s "owner") 7)) h) /\
    ev_msg ev = Some (MDispatch d) /\ d_hook d = Some (s "my-hook") /\
    reported_default_hook st = None /\
    accepted ex_api st ev = false /\
    accepted ex_api (c_step ex_api st dflt) ev = true /\
    ev_msg dflt = Some (MSetDefaultHook (s "unused")).
Proof.
  exists ex_bare, ex_named_hook,
    (mkDispatch 9 (repeat x01 32) (s "hello") (Some (s "my-hook")) None),
    (call "owner" (MSetDefaultHook (s "unused"))).
  split; [eexists; reflexivity|]. repeat split; vm_compute; reflexivity.
Qed.
Print Assumptions C23_explicit_hook_refuted.

Theorem C23_own_module_refuted :
  exists st ev md raw dflt,
    (exists h, st = c_run ex_api (born (IMailbox (s "osmo") (s "owner") 7)) h) /\
    ev = EvExec ex_env (mkInfo (s "relayer") []) (MProcess md raw) (fun _ => ex_hooks) /\
    (forall m recipient, msg_decode raw = Ok m -> bech32_encode (s "osmo") (m_recipient m) = Ok recipient ->
       q_smart ex_hooks recipient QIsmSpecifier = Ok (RIsm (Some (s "own-ism"))) /\
       q_smart ex_hooks (s "own-ism") (QVerify md raw) = Ok (RVerified true)) /\
    reported_default_ism st = None /\
    accepted ex_api st ev = false /\
    accepted ex_api (c_step ex_api st dflt) ev = true /\
    ev_msg dflt = Some (MSetDefaultIsm (s "unused")).
Proof.
  exists ex_bare, (ex_process "proof" ex_incoming), (s "proof"), ex_incoming,
    (call "owner" (MSetDefaultIsm (s "unused"))).
  split; [eexists; reflexivity|]. split; [reflexivity|]. split.
  { intros m recipient H1 H2. vm_compute in H1. injection H1 as <-.
    vm_compute in H2. injection H2 as <-. split; vm_compute; reflexivity. }
  repeat split; vm_compute; reflexivity.
Qed.
Print Assumptions C23_own_module_refuted.
