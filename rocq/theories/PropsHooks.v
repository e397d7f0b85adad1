(** * Post-dispatch hooks (C34-C37, C51). *)
From Coq Require Import List NArith Bool Lia.
From Verif Require Import Base BaseFacts OMap Hex Coins CoinsFacts Crypto Message Metadata Chain Ownable Contracts
  Spec SpecModules Mailbox Va Isms Hooks Igp Warp Cw20 HookFacts AccessFacts PropsAccess.
Import ListNotations.

(** ** C34 *)
Theorem C34_quotes_the_sum A q md raw st hooks total :
  reported_hooks st = Some hooks ->
  c_query A q (QHookQuote md raw) st = Ok (RFees total) ->
  exists fees, quotes q md raw hooks fees /\
    (forall d, amount_of d total = amount_of d (concat fees)) /\
    no_repeats total /\ Forall (fun c => c_amount c <> 0) total.
Proof. exact (aggregate_quote A q md raw st hooks total). Qed.
Print Assumptions C34_quotes_the_sum.

Theorem C34_quote_succeeds A q md raw st hooks fees :
  reported_hooks st = Some hooks -> quotes q md raw hooks fees ->
  (forall d, amount_of d (concat fees) < 2 ^ 128) ->
  exists total, c_query A q (QHookQuote md raw) st = Ok (RFees total).
Proof. exact (aggregate_quote_total A q md raw st hooks fees). Qed.
Print Assumptions C34_quote_succeeds.

Theorem C34_pays_each_part A Q e i md raw st hooks st' r :
  reported_hooks st = Some hooks ->
  (c_execute A Q e i (MPostDispatch md raw) st = Ok (st', r) <->
   exists fees m, msg_decode raw = Ok m /\ quotes (Q st) md raw hooks fees /\ st' = st /\
     r = mkResp (map (fun p => hook_call md raw (fst p) (snd p)) (combine hooks fees)) None).
Proof. exact (aggregate_calls A Q e i md raw st hooks st' r). Qed.
Print Assumptions C34_pays_each_part.

(** the quotes behind the total and behind the payments are the same ones *)
Theorem C34_same_quotes q md raw hooks f1 f2 :
  quotes q md raw hooks f1 -> quotes q md raw hooks f2 -> f1 = f2.
Proof. exact (quotes_unique q md raw hooks f1 f2). Qed.
Print Assumptions C34_same_quotes.

Theorem C34_hooks_last_set A st h :
  is_aggregate_hook st ->
  reported_hooks (c_run A st h) = replay hooks_update A st h (reported_hooks st).
Proof. exact (hooks_last_set A st h). Qed.
Print Assumptions C34_hooks_last_set.

Theorem C34_owner_only A st ev m :
  accepted A st ev = true -> ev_msg ev = Some m -> hook_setting m = true ->
  ev_sender ev = reported_owner st.
Proof. exact (hook_settings_owner A st ev m). Qed.
Print Assumptions C34_owner_only.

Definition ex_fees : querier :=
  mkQuerier (fun a m =>
    match m, a with
    | QHookQuote _ _, x61 :: _ => Ok (RFees [mkCoin (s "uosmo") 3; mkCoin (s "uatom") 1])
    | QHookQuote _ _, x62 :: _ => Ok (RFees [mkCoin (s "uosmo") 4])
    | QHookQuote _ _, x66 :: _ => Ok (RFees [])
    | _, _ => Err EStd
    end) (fun _ _ => 0) (fun _ => [mkCoin (s "uosmo") 12]).
Definition ex_hook_raw (d : N) (rcp : byte) : bytes :=
  msg_encode (mkMessage 3 8 5 (repeat x0a 32) d (repeat rcp 32) (s "hi")).
Definition post (who : string) (funds : list coin) (d : N) (rcp : byte) : event :=
  EvExec ex_env (mkInfo (s who) funds) (MPostDispatch [] (ex_hook_raw d rcp)) (fun _ => ex_fees).
Definition response_of (st : cstate) (ev : event) : option (list (addr * list coin)) :=
  match c_apply ex_api ev st with
  | Ok (_, r) => Some (map (fun sm => match sm with
                                   | mkSub (CExec a _ f) _ => (a, f)
                                   | mkSub (CBankSend a f) _ => (a, f)
                                   | _ => ([], []) end) (r_msgs r))
  | _ => None
  end.
Definition ex_agg_hook : cstate :=
  c_run ex_api (born (IAggHook (s "owner") [s "x"]))
    [call "owner" (MSetHooks [s "alpha"; s "beta"; s "free"]); call "mallory" (MSetHooks [])].
Example C34_example :
  reported_hooks ex_agg_hook = Some [s "alpha"; s "beta"; s "free"] /\
  c_query ex_api ex_fees (QHookQuote [] (ex_hook_raw 7 x01)) ex_agg_hook
    = Ok (RFees [mkCoin (s "uatom") 1; mkCoin (s "uosmo") 7]) /\
  response_of ex_agg_hook (post "mailbox" [] 7 x01)
    = Some [(s "alpha", [mkCoin (s "uosmo") 3; mkCoin (s "uatom") 1]);
            (s "beta", [mkCoin (s "uosmo") 4]); (s "free", [])].
Proof. repeat split; vm_compute; reflexivity. Qed.

(** ** C35 *)
Theorem C35_calls_the_selected A Q e i md raw st st' r :
  is_router_hook st -> (is_fallback_hook st -> fallback_of st <> None) ->
  (c_execute A Q e i (MPostDispatch md raw) st = Ok (st', r) <->
   exists m h, msg_decode raw = Ok m /\ selected_hook st m = Some h /\
     st' = st /\ r = mkResp [hook_call md raw h []] None).
Proof. exact (routing_calls A Q e i md raw st st' r). Qed.
Print Assumptions C35_calls_the_selected.

Theorem C35_quotes_the_selected A q md raw st f :
  is_router_hook st -> (is_fallback_hook st -> fallback_of st <> None) ->
  (c_query A q (QHookQuote md raw) st = Ok (RFees f) <->
   exists m h, msg_decode raw = Ok m /\ selected_hook st m = Some h /\
     q_smart q h (QHookQuote md raw) = Ok (RFees f) /\ Forall (fun c => c_amount c < 2 ^ 128) f).
Proof. exact (routing_quotes A q md raw st f). Qed.
Print Assumptions C35_quotes_the_selected.

(** what is registered for (destination, recipient), and the fallback, are what
    was last set; routes by destination: C14 *)
Theorem C35_custom_last_set A st h d r :
  is_custom_hook st -> d < 2 ^ 32 ->
  reported_custom (c_run A st h) d r = replay (custom_update d r) A st h (reported_custom st d r).
Proof. exact (custom_last_set A st h d r). Qed.
Print Assumptions C35_custom_last_set.

Theorem C35_custom_first A q e i o st0 r0 d r :
  c_instantiate A q e i (ICustomHook o) = Ok (st0, r0) -> d < 2 ^ 32 -> reported_custom st0 d r = None.
Proof. exact (custom_initial A q e i o st0 r0 d r). Qed.
Print Assumptions C35_custom_first.

Theorem C35_fallback_last_set A st h :
  is_fallback_hook st ->
  fallback_of (c_run A st h) = replay fallback_update A st h (fallback_of st).
Proof. exact (fallback_last_set A st h). Qed.
Print Assumptions C35_fallback_last_set.

Definition ex_routes : list event :=
  [call "owner" (MRouter (SetRoutes [mkRouteSet 7 (Some (s "alpha")); mkRouteSet 8 (Some (s "old"))]));
   call "owner" (MRouter (SetRoute (mkRouteSet 8 None)))].
Definition ex_routing : cstate := c_run ex_api (born (IRoutingHook (s "owner"))) ex_routes.
Definition ex_custom : cstate :=
  c_run ex_api (born (ICustomHook (s "owner")))
    (ex_routes ++
     [call "owner" (MRegisterCustomHooks
        [mkCustomHook 7 (hex_encode (repeat xab 32)) (s "beta");
         mkCustomHook 8 (hex_encode (repeat xab 32)) (s "free");
         mkCustomHook 7 (hex_encode (repeat xcd 32)) (s "free")]);
      call "owner" (MClearCustomHook 7 (hex_encode (repeat xcd 32)))]).
Definition ex_fallback : cstate :=
  c_run ex_api (born (IFallbackHook (s "owner"))) (ex_routes ++ [call "owner" (MSetFallbackHook (s "beta"))]).
Definition to_of (st : cstate) (d : N) (rcp : byte) := option_map (map fst) (response_of st (post "mb" [] d rcp)).
Example C35_example :
  map (fun p => to_of ex_routing (fst p) (snd p)) [(7, x01); (8, x01)] = [Some [s "alpha"]; None] /\
  map (fun p => to_of ex_custom (fst p) (snd p)) [(7, x01); (7, xab); (7, xcd); (8, xab); (8, x01)]
    = [Some [s "alpha"]; Some [s "beta"]; Some [s "alpha"]; Some [s "free"]; None] /\
  map (fun p => to_of ex_fallback (fst p) (snd p)) [(7, x01); (8, x01); (9, x01)]
    = [Some [s "alpha"]; Some [s "beta"]; Some [s "beta"]] /\
  c_query ex_api ex_fees (QHookQuote [] (ex_hook_raw 8 x01)) ex_fallback = Ok (RFees [mkCoin (s "uosmo") 4]).
Proof. repeat split; vm_compute; reflexivity. Qed.

(** Without a fallback the fallback routing hook fails even where a route is
    set, so "configured for the destination if any" is false there. *)
Theorem C35_fallback_unset_refuted :
  exists A Q e i md raw st m h,
    is_fallback_hook st /\ msg_decode raw = Ok m /\ reported_route st (m_dest m) = Some (Some h) /\
    selected_hook st m = Some h /\
    is_ok (c_execute A Q e i (MPostDispatch md raw) st) = false.
Proof.
  exists ex_api, (fun _ => ex_fees), ex_env, (mkInfo (s "mb") []), [], (ex_hook_raw 7 x01),
    (c_run ex_api (born (IFallbackHook (s "owner"))) ex_routes),
    (mkMessage 3 8 5 (repeat x0a 32) 7 (repeat x01 32) (s "hi")), (s "alpha").
  repeat split; vm_compute; reflexivity.
Qed.
Print Assumptions C35_fallback_unset_refuted.

Theorem C35_fallback_unset A Q e i md raw st :
  is_fallback_hook st -> fallback_of st = None ->
  is_ok (c_execute A Q e i (MPostDispatch md raw) st) = false.
Proof. exact (fallback_unset st A Q e i md raw). Qed.
Print Assumptions C35_fallback_unset.

Example C35_fallback_unset_example :
  fallback_of (born (IFallbackHook (s "owner"))) = None /\ is_fallback_hook (born (IFallbackHook (s "owner"))).
Proof. repeat split. Qed.

(** ** C36 *)
(** The claim is false: whatever a routing hook is paid, the hook it calls gets
    nothing ... *)
Theorem C36_never_forwards A Q e i md raw st st' r :
  is_router_hook st -> c_execute A Q e i (MPostDispatch md raw) st = Ok (st', r) ->
  exists h, r_msgs r = [hook_call md raw h []].
Proof. exact (never_forwards A Q e i md raw st st' r). Qed.
Print Assumptions C36_never_forwards.

(** ... so a quoted and paid fee is kept, and the selected hook, here a real fee
    hook, rejects the call. *)
Definition ex_fee_hook : cstate := born (IFeeHook (s "owner") (mkCoin (s "uosmo") 4)).
Definition ex_fee_chain : querier :=
  mkQuerier (fun a m => if bytes_eqb a (s "alpha") then c_query ex_api no_querier m ex_fee_hook else Err EStd)
    (fun _ _ => 0) (fun _ => []).
Theorem C36_payment_refuted :
  exists A Q e i md raw st fee h target,
    is_router_hook st /\ fee <> [] /\
    c_query A (Q st) (QHookQuote md raw) st = Ok (RFees fee) /\ i_funds i = fee /\
    (forall m, q_smart (Q st) h m = c_query A no_querier m target) /\
    c_execute A Q e i (MPostDispatch md raw) st = Ok (st, mkResp [hook_call md raw h []] None) /\
    (forall Q' e' sender, is_ok (c_execute A Q' e' (mkInfo sender []) (MPostDispatch md raw) target) = false) /\
    (forall Q' e' sender, is_ok (c_execute A Q' e' (mkInfo sender fee) (MPostDispatch md raw) target) = true).
Proof.
  exists ex_api, (fun _ => ex_fee_chain), ex_env, (mkInfo (s "mb") [mkCoin (s "uosmo") 4]), [], (ex_hook_raw 7 x01),
    ex_routing, [mkCoin (s "uosmo") 4], (s "alpha"), ex_fee_hook.
  split; [exact I|]. split; [discriminate|]. split; [vm_compute; reflexivity|]. split; [reflexivity|].
  split; [reflexivity|]. split; [vm_compute; reflexivity|]. split; intros; reflexivity.
Qed.
Print Assumptions C36_payment_refuted.

Example C36_example :
  response_of ex_routing (post "mailbox" [mkCoin (s "uosmo") 4] 7 x01) = Some [(s "alpha", [])].
Proof. vm_compute. reflexivity. Qed.

(** ** C37 *)
Theorem C37_accepts_exactly A Q e i md raw st fee st' r :
  reported_fee st = Some fee ->
  (c_execute A Q e i (MPostDispatch md raw) st = Ok (st', r) <->
   st' = st /\ r = mkResp [] None /\
   exists a, i_funds i = [mkCoin (c_denom fee) a] /\ a <> 0 /\ c_amount fee <= a).
Proof. exact (fee_accepts A Q e i md raw st fee st' r). Qed.
Print Assumptions C37_accepts_exactly.

Theorem C37_quotes_the_fee A q md raw st fee :
  reported_fee st = Some fee -> c_query A q (QHookQuote md raw) st = Ok (RFees [fee]).
Proof. exact (fee_quote A q md raw st fee). Qed.
Print Assumptions C37_quotes_the_fee.

(** Full statement: paying the quote is always accepted.  Proved for a fee that
    is not zero; false for a zero fee (C51_zero_fee_refuted). *)
Theorem C37_quote_accepted_partial A Q e i md raw st fee :
  reported_fee st = Some fee -> c_amount fee <> 0 ->
  c_query A (Q st) (QHookQuote md raw) st = Ok (RFees (i_funds i)) ->
  c_execute A Q e i (MPostDispatch md raw) st = Ok (st, mkResp [] None).
Proof.
  intros Hf Hn Hq. rewrite (fee_quote A (Q st) md raw st fee Hf) in Hq. apply Ok_inj in Hq.
  injection Hq as Hq. apply (fee_accepts A Q e i md raw st fee st _ Hf). split; [reflexivity|].
  split; [reflexivity|]. exists (c_amount fee). rewrite <- Hq.
  split; [now destruct fee|]. split; [exact Hn|lia].
Qed.
Print Assumptions C37_quote_accepted_partial.

Theorem C37_fee_last_set A st h :
  is_fee_hook st -> reported_fee (c_run A st h) = replay fee_update A st h (reported_fee st).
Proof. exact (fee_last_set A st h). Qed.
Print Assumptions C37_fee_last_set.

Theorem C37_withdraws_all A Q e i rcp st fee st' r :
  reported_fee st = Some fee ->
  (c_execute A Q e i (MFeeClaim rcp) st = Ok (st', r) <->
   Some (i_sender i) = reported_owner st /\ st' = st /\
   r = mkResp [mkSub (CBankSend (match rcp with Some a => a | None => i_sender i end)
                        (q_all_balances (Q st) (e_contract e))) RpNever] None).
Proof. exact (fee_claim A Q e i rcp st fee st' r). Qed.
Print Assumptions C37_withdraws_all.

Example C37_example :
  reported_fee ex_fee_hook = Some (mkCoin (s "uosmo") 4) /\
  map (fun f => accepted ex_api ex_fee_hook (post "mb" f 7 x01))
    [[mkCoin (s "uosmo") 4]; [mkCoin (s "uosmo") 5]; [mkCoin (s "uosmo") 3]; [];
     [mkCoin (s "uatom") 4]; [mkCoin (s "uosmo") 4; mkCoin (s "uatom") 1]]
  = [true; true; false; false; false; false] /\
  response_of ex_fee_hook (EvExec ex_env (mkInfo (s "owner") []) (MFeeClaim (Some (s "treasury"))) (fun _ => ex_fees))
    = Some [(s "treasury", [mkCoin (s "uosmo") 12])] /\
  accepted ex_api ex_fee_hook (call "mallory" (MFeeClaim None)) = false /\
  reported_fee (c_run ex_api ex_fee_hook
     [call "mallory" (MSetFee (mkCoin (s "uosmo") 0)); call "owner" (MSetFee (mkCoin (s "uatom") 9))])
    = Some (mkCoin (s "uatom") 9).
Proof. repeat split; vm_compute; reflexivity. Qed.

(** ** C51 *)
(** False for the fee hook: with a zero fee it quotes zero and rejects both no
    funds and the zero coin it quotes. *)
Theorem C51_zero_fee_refuted :
  exists A q e i owner fee st0 r md raw,
    c_instantiate A q e i (IFeeHook owner fee) = Ok (st0, r) /\
    c_query A q (QHookQuote md raw) st0 = Ok (RFees [fee]) /\ c_amount fee = 0 /\
    (forall Q e' sender, is_ok (c_execute A Q e' (mkInfo sender []) (MPostDispatch md raw) st0) = false) /\
    (forall Q e' sender, is_ok (c_execute A Q e' (mkInfo sender [fee]) (MPostDispatch md raw) st0) = false).
Proof.
  exists ex_api, no_querier, ex_env, (mkInfo (s "creator") []), (s "owner"), (mkCoin (s "uosmo") 0),
    (born (IFeeHook (s "owner") (mkCoin (s "uosmo") 0))), resp0, [], (ex_hook_raw 7 x01).
  split; [reflexivity|]. split; [reflexivity|]. split; [reflexivity|]. split; intros; reflexivity.
Qed.
Print Assumptions C51_zero_fee_refuted.

(** It holds for the aggregate, routing and (not paused) pausable hooks: when
    they quote nothing they accept any call carrying a message. *)
Theorem C51_other_hooks_partial A Q e i md raw st :
  is_aggregate_hook st \/ is_router_hook st \/ is_pausable_hook st /\ reported_paused st = Some false ->
  c_query A (Q st) (QHookQuote md raw) st = Ok (RFees []) ->
  (exists m, msg_decode raw = Ok m) ->
  exists st' r, c_execute A Q e i (MPostDispatch md raw) st = Ok (st', r).
Proof. exact (free_hooks A Q e i md raw st). Qed.
Print Assumptions C51_other_hooks_partial.

Example C51_example :
  let free_route := c_run ex_api (born (IRoutingHook (s "owner")))
    [call "owner" (MRouter (SetRoute (mkRouteSet 7 (Some (s "free")))))] in
  c_query ex_api ex_fees (QHookQuote [] (ex_hook_raw 7 x01)) free_route = Ok (RFees []) /\
  response_of free_route (post "mb" [] 7 x01) = Some [(s "free", [])].
Proof. split; vm_compute; reflexivity. Qed.
