(** * Gas paymaster and oracle (C38-C42, C51). *)
From Coq Require Import List NArith Bool Lia.
From Verif Require Import Base BaseFacts OMap Hex Coins CoinsFacts Crypto Message Bech32 Metadata Chain Ownable Contracts
  Spec SpecModules Mailbox Va Isms Hooks Igp Warp Cw20 IgpFacts AccessFacts PropsAccess PropsHooks.
Import ListNotations.

(** ** C38 *)
Theorem C38_quote A q st d gas n :
  is_igp st ->
  (c_query A q (QQuoteGasPayment d gas) st = Ok (RGasNeeded n) <->
   d < 2 ^ 32 /\ gas < 2 ^ 256 /\
   exists price rate, gas_terms q st d price rate /\ fits gas price rate /\ n = gas_cost gas price rate).
Proof. exact (gas_quote A q st d gas n). Qed.
Print Assumptions C38_quote.

Theorem C38_payment A Q e i id d gas refund st st' r :
  is_igp st ->
  (c_execute A Q e i (MPayForGas id d gas refund) st = Ok (st', r) <->
   d < 2 ^ 32 /\ gas < 2 ^ 256 /\ st' = st /\ gas_paid (Q st) st i d gas refund r).
Proof. exact (gas_payment A Q e i id d gas refund st st' r). Qed.
Print Assumptions C38_payment.

Theorem C38_post_dispatch A Q e i md raw st st' r :
  is_igp st ->
  (c_execute A Q e i (MPostDispatch md raw) st = Ok (st', r) <->
   exists m gas refund, msg_decode raw = Ok m /\ requested_gas st md m gas /\ requested_refund st md m refund /\
     st' = st /\ gas_paid (Q st) st i (m_dest m) gas refund r).
Proof. exact (gas_dispatch A Q e i md raw st st' r). Qed.
Print Assumptions C38_post_dispatch.

(** of what was attached the paymaster keeps the quote and sends on the rest *)
Theorem C38_keeps_the_quote q st i d gas refund r :
  gas_paid q st i d gas refund r ->
  exists price rate, gas_terms q st d price rate /\
    (forall x, amount_of x (i_funds i) =
       (if bytes_eqb x (gas_token st) then gas_cost gas price rate else 0) + amount_of x (sends r)).
Proof. exact (gas_kept q st i d gas refund r). Qed.
Print Assumptions C38_keeps_the_quote.

Theorem C38_hook_quote A q md raw st f :
  is_igp st ->
  (c_query A q (QHookQuote md raw) st = Ok (RFees f) <->
   exists m gas price rate, msg_decode raw = Ok m /\ requested_gas st md m gas /\
     gas_terms q st (m_dest m) price rate /\ fits gas price rate /\
     let n := gas_cost gas price rate in
     n < 2 ^ 128 /\ f = if n =? 0 then [] else [mkCoin (gas_token st) n]).
Proof. exact (gas_hook_quote A q md raw st f). Qed.
Print Assumptions C38_hook_quote.

(** Full statement: sending exactly the quote is always accepted.  Proved for a
    quote that is not zero and can be held by a coin; false for a zero quote
    (C51_zero_quote_refuted). *)
Theorem C38_exact_quote_accepted_partial A Q e i id d gas refund st n :
  is_igp st ->
  c_query A (Q st) (QQuoteGasPayment d gas) st = Ok (RGasNeeded n) -> n <> 0 -> n < 2 ^ 128 ->
  i_funds i = [mkCoin (gas_token st) n] ->
  c_execute A Q e i (MPayForGas id d gas refund) st = Ok (st, mkResp [] None).
Proof. exact (exact_quote_accepted A Q e i id d gas refund st n). Qed.
Print Assumptions C38_exact_quote_accepted_partial.

(** Full statement: sending the fees quoted for a dispatch is always accepted.
    Proved when they are not empty and the refund address can be computed. *)
Theorem C38_quoted_dispatch_accepted_partial A Q e i md raw st f m refund :
  is_igp st ->
  c_query A (Q st) (QHookQuote md raw) st = Ok (RFees f) -> f <> [] -> i_funds i = f ->
  msg_decode raw = Ok m -> requested_refund st md m refund ->
  c_execute A Q e i (MPostDispatch md raw) st = Ok (st, mkResp [] None).
Proof. exact (quoted_dispatch_accepted A Q e i md raw st f m refund). Qed.
Print Assumptions C38_quoted_dispatch_accepted_partial.

Definition ex_oracle_chain : querier :=
  mkQuerier (fun a m => match m with
                        | QOracle d => if bytes_eqb a (s "oracle") then Ok (ROracle (d * 3) 15000000000) else Err EStd
                        | _ => Err EStd end) (fun _ _ => 42) (fun _ => []).
Definition ex_igp : cstate :=
  c_run ex_api (born (IIgp (s "osmo") (s "owner") (s "uosmo") (s "ben") 100))
    [call "owner" (MRouter (SetRoute (mkRouteSet 7 (Some (s "oracle")))));
     call "owner" (MRouter (SetRoute (mkRouteSet 0 (Some (s "oracle")))));
     call "owner" (MSetGasForDomain [(7, 50); (8, 60); (7, 11)])].
Definition pay (amount : N) (denom : string) (d gas : N) : event :=
  EvExec ex_env (mkInfo (s "payer") [mkCoin (s denom) amount]) (MPayForGas [] d gas (s "refund")) (fun _ => ex_oracle_chain).
Definition post_gas (amount d : N) (md : bytes) : event :=
  EvExec ex_env (mkInfo (s "mailbox") [mkCoin (s "uosmo") amount])
    (MPostDispatch md (ex_hook_raw d x01)) (fun _ => ex_oracle_chain).
Definition encoded (b : bytes) : addr := match bech32_encode (s "osmo") b with Ok a => a | _ => [] end.
Example C38_example :
  (* floor(11 * 21 * 1.5) = 346 *)
  c_query ex_api ex_oracle_chain (QQuoteGasPayment 7 11) ex_igp = Ok (RGasNeeded 346) /\
  response_of ex_igp (pay 346 "uosmo" 7 11) = Some [] /\
  response_of ex_igp (pay 400 "uosmo" 7 11) = Some [(s "refund", [mkCoin (s "uosmo") 54])] /\
  response_of ex_igp (pay 345 "uosmo" 7 11) = None /\
  response_of ex_igp (pay 400 "uatom" 7 11) = None /\
  response_of ex_igp (pay 400 "uosmo" 8 11) = None /\
  c_query ex_api ex_oracle_chain (QHookQuote [] (ex_hook_raw 7 x01)) ex_igp = Ok (RFees [mkCoin (s "uosmo") 346]) /\
  response_of ex_igp (post_gas 400 7 []) = Some [(encoded (repeat x0a 32), [mkCoin (s "uosmo") 54])] /\
  response_of ex_igp (post_gas 400 7 (be 32 2 ++ repeat x0b 20)) =
    Some [(encoded (repeat x0b 20), [mkCoin (s "uosmo") 337])].
Proof. repeat split; vm_compute; reflexivity. Qed.

(** ** C39 *)
Theorem C39_monotone A q1 q2 st1 st2 d1 d2 g1 g2 p1 p2 r1 r2 n1 n2 :
  is_igp st1 -> is_igp st2 ->
  gas_terms q1 st1 d1 p1 r1 -> gas_terms q2 st2 d2 p2 r2 ->
  c_query A q1 (QQuoteGasPayment d1 g1) st1 = Ok (RGasNeeded n1) ->
  c_query A q2 (QQuoteGasPayment d2 g2) st2 = Ok (RGasNeeded n2) ->
  g1 <= g2 -> p1 <= p2 -> r1 <= r2 -> n1 <= n2.
Proof. exact (quotes_monotone A q1 q2 st1 st2 d1 d2 g1 g2 p1 p2 r1 r2 n1 n2). Qed.
Print Assumptions C39_monotone.

(** splitting is never dearer, and cheaper by at most one unit *)
Theorem C39_split A q st d g1 g2 n1 n2 n :
  is_igp st ->
  c_query A q (QQuoteGasPayment d g1) st = Ok (RGasNeeded n1) ->
  c_query A q (QQuoteGasPayment d g2) st = Ok (RGasNeeded n2) ->
  c_query A q (QQuoteGasPayment d (g1 + g2)) st = Ok (RGasNeeded n) ->
  n1 + n2 <= n /\ n <= n1 + n2 + 1.
Proof. exact (quotes_split A q st d g1 g2 n1 n2 n). Qed.
Print Assumptions C39_split.

Example C39_example :
  map (fun g => c_query ex_api ex_oracle_chain (QQuoteGasPayment 7 g) ex_igp) [11; 12; 13; 24]
  = [Ok (RGasNeeded 346); Ok (RGasNeeded 378); Ok (RGasNeeded 409); Ok (RGasNeeded 756)] /\
  346 + 409 <= 756 /\ 756 <= 346 + 409 + 1.
Proof. split; [vm_compute; reflexivity|lia]. Qed.

(** ** C40 *)
Theorem C40_claim A Q e i st st' r :
  is_igp st ->
  (c_execute A Q e i MClaim st = Ok (st', r) <->
   Some (i_sender i) = reported_beneficiary st /\ st' = st /\
   r = mkResp [mkSub (CBankSend (i_sender i)
                 [mkCoin (gas_token st) (q_balance (Q st) (e_contract e) (gas_token st))]) RpNever] None).
Proof. exact (claim_iff A Q e i st st' r). Qed.
Print Assumptions C40_claim.

Theorem C40_beneficiary_last_set A st h :
  is_igp st ->
  reported_beneficiary (c_run A st h) = replay beneficiary_update A st h (reported_beneficiary st).
Proof. exact (beneficiary_last_set A st h). Qed.
Print Assumptions C40_beneficiary_last_set.

Theorem C40_first_settings A q e i hrp o tk b g st0 r d :
  c_instantiate A q e i (IIgp hrp o tk b g) = Ok (st0, r) -> d < 2 ^ 32 ->
  is_igp st0 /\ reported_gas st0 d = None /\ reported_default_gas st0 = Some g /\
  reported_beneficiary st0 = Some b /\ gas_token st0 = tk.
Proof. exact (igp_initial A q e i hrp o tk b g st0 r d). Qed.
Print Assumptions C40_first_settings.

Theorem C40_owner_only A st ev m :
  accepted A st ev = true -> ev_msg ev = Some m -> gas_setting m = true ->
  ev_sender ev = reported_owner st.
Proof. exact (gas_settings_owner A st ev m). Qed.
Print Assumptions C40_owner_only.

Definition claim (who : string) : event := EvExec ex_env (mkInfo (s who) []) MClaim (fun _ => ex_oracle_chain).
Example C40_example :
  let st := c_run ex_api ex_igp [call "mallory" (MSetBeneficiary (s "mallory")); call "owner" (MSetBeneficiary (s "ben2"))] in
  reported_beneficiary st = Some (s "ben2") /\
  response_of st (claim "ben2") = Some [(s "ben2", [mkCoin (s "uosmo") 42])] /\
  response_of st (claim "ben") = None /\ response_of st (claim "owner") = None.
Proof. repeat split; vm_compute; reflexivity. Qed.

(** ** C41 *)
Theorem C41_gas_used A st h d :
  is_igp st -> d < 2 ^ 32 ->
  used_gas (c_run A st h) d =
  match replay (gas_update d) A st h (reported_gas st d) with
  | Some g => Some g
  | None => replay default_gas_update A st h (reported_default_gas st)
  end.
Proof.
  intros Hk Hd. unfold used_gas.
  rewrite (gas_last_set A st h d Hk Hd), (default_gas_last_set A st h Hk). reflexivity.
Qed.
Print Assumptions C41_gas_used.

(** ... and it is the gas charged when the metadata gives none *)
Theorem C41_gas_charged A q md raw st m g n :
  is_igp st -> (length md < 32)%nat -> msg_decode raw = Ok m -> used_gas st (m_dest m) = Some g ->
  n <> 0 -> c_query A q (QHookQuote md raw) st = Ok (RFees [mkCoin (gas_token st) n]) ->
  exists price rate, gas_terms q st (m_dest m) price rate /\ n = gas_cost g price rate.
Proof. exact (gas_charged A q md raw st m g n). Qed.
Print Assumptions C41_gas_charged.

Example C41_example :
  let st := c_run ex_api ex_igp
    [call "owner" (MSetDefaultGas 9); call "owner" (MUnsetGasForDomain [8; 5]); call "mallory" (MUnsetGasForDomain [7])] in
  map (used_gas ex_igp) [7; 8; 9] = [Some 11; Some 60; Some 100] /\
  map (used_gas st) [7; 8; 9] = [Some 11; Some 9; Some 9].
Proof. split; vm_compute; reflexivity. Qed.

(** ** C42 *)
Theorem C42_last_set A st h d :
  is_oracle st -> d < 2 ^ 32 ->
  reported_gas_data (c_run A st h) d = replay (gas_data_update d) A st h (reported_gas_data st d).
Proof. exact (gas_data_last_set A st h d). Qed.
Print Assumptions C42_last_set.

Theorem C42_owner_only A st ev m :
  accepted A st ev = true -> ev_msg ev = Some m -> gas_setting m = true ->
  ev_sender ev = reported_owner st.
Proof. exact (gas_settings_owner A st ev m). Qed.
Print Assumptions C42_owner_only.

Theorem C42_batch_rates_nonzero A st ev l :
  accepted A st ev = true -> ev_msg ev = Some (MSetRemoteGasDataConfigs l) ->
  Forall (fun c => gc_rate c <> 0) l.
Proof. exact (batch_nonzero A st ev l). Qed.
Print Assumptions C42_batch_rates_nonzero.

(** Full statement: no stored exchange rate is zero.  False
    (C42_zero_rate_refuted); what holds is that the owner's single update is
    the only source of a zero rate. *)
Theorem C42_zero_rate_origin_partial A q e i o st0 r h d price :
  c_instantiate A q e i (IOracle o) = Ok (st0, r) -> d < 2 ^ 32 ->
  reported_gas_data (c_run A st0 h) d = Some (price, 0) ->
  exists st ev c, In (st, ev) (accepted_calls A st0 h) /\ ev_msg ev = Some (MSetRemoteGasData c) /\
    gc_domain c = d /\ gc_rate c = 0 /\ gc_price c = price.
Proof. exact (zero_rate_origin A q e i o st0 r h d price). Qed.
Print Assumptions C42_zero_rate_origin_partial.

Theorem C42_zero_rate_refuted :
  exists A q e i o st0 r h d price,
    c_instantiate A q e i (IOracle o) = Ok (st0, r) /\
    reported_gas_data (c_run A st0 h) d = Some (price, 0).
Proof.
  exists ex_api, no_querier, ex_env, (mkInfo (s "creator") []), (s "owner"), (born (IOracle (s "owner"))), resp0,
    [call "owner" (MSetRemoteGasData (mkGasConfig 7 0 5))], 7, 5.
  split; vm_compute; reflexivity.
Qed.
Print Assumptions C42_zero_rate_refuted.

Example C42_example :
  let st := c_run ex_api (born (IOracle (s "owner")))
    [call "owner" (MSetRemoteGasDataConfigs [mkGasConfig 7 1 5; mkGasConfig 8 2 6; mkGasConfig 7 3 9]);
     call "owner" (MSetRemoteGasDataConfigs [mkGasConfig 8 4 4; mkGasConfig 9 0 1]);
     call "mallory" (MSetRemoteGasData (mkGasConfig 8 7 7))] in
  map (reported_gas_data st) [7; 8; 9] = [Some (9, 3); Some (6, 2); None].
Proof. vm_compute. reflexivity. Qed.

(** ** C51 *)
(** False for the paymaster: where the quote is zero (here a zero price) a call
    without funds is rejected. *)
Theorem C51_zero_quote_refuted :
  exists A Q e st md raw,
    is_igp st /\
    c_query A (Q st) (QHookQuote md raw) st = Ok (RFees []) /\
    (forall sender, is_ok (c_execute A Q e (mkInfo sender []) (MPostDispatch md raw) st) = false) /\
    c_query A (Q st) (QQuoteGasPayment 0 100) st = Ok (RGasNeeded 0) /\
    (forall sender id refund, is_ok (c_execute A Q e (mkInfo sender []) (MPayForGas id 0 100 refund) st) = false) /\
    (forall sender id refund token,
       is_ok (c_execute A Q e (mkInfo sender [mkCoin token 0]) (MPayForGas id 0 100 refund) st) = false).
Proof.
  exists ex_api, (fun _ => ex_oracle_chain), ex_env, ex_igp, [], (ex_hook_raw 0 x01).
  split; [exact I|]. split; [vm_compute; reflexivity|]. split; [intros; vm_compute; reflexivity|].
  split; [vm_compute; reflexivity|]. split; intros; vm_compute; reflexivity.
Qed.
Print Assumptions C51_zero_quote_refuted.
