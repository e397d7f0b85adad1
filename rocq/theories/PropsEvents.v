(** * What the events tell (C54-C61). *)
From Coq Require Import List NArith Bool Lia.
From Verif Require Import Base BaseFacts OMap Hex Coins Crypto Message Bech32 Metadata Merkle MerkleFacts Chain Ownable Router Contracts
  Spec SpecModules SpecVersion SpecWorld Mailbox Va Isms Hooks Igp Warp Cw20 Events SpecEvents EventFacts EventLedger
  PropsAccess PropsMailbox PropsIsm PropsHooks PropsIgp PropsVa PropsWarp.
Import ListNotations.

(** ** C54 *)
Theorem C54_dispatches A q e i hrp owner dom st0 r h :
  c_instantiate A q e i (IMailbox hrp owner dom) = Ok (st0, r) ->
  let tells := told (s "mailbox_dispatch") in
  let log := emitted A st0 h in
  exists ms, Forall2 (fun raw m => msg_decode raw = Ok m) (dispatches A st0 h) ms /\
    tells (s "message") log = map hex_of (dispatches A st0 h) /\
    told (s "mailbox_dispatch_id") (s "message_id") log = map (fun raw => hex_of (keccak256_hash raw)) (dispatches A st0 h) /\
    tells (s "sender") log = map (fun m => hex_of (m_sender m)) ms /\
    tells (s "recipient") log = map (fun m => hex_of (m_recipient m)) ms /\
    map decimal (tells (s "destination") log) = map m_dest ms.
Proof. exact (dispatches_told A q e i hrp owner dom st0 r h). Qed.
Print Assumptions C54_dispatches.

Definition ex_mailbox0 : cstate := born (IMailbox (s "osmo") (s "owner") 7).
Definition ex_calls : list event :=
  ex_setup ++ [ex_dispatch ex_funds; ex_dispatch []; ex_dispatch ex_funds; ex_process "proof" ex_incoming;
               ex_process "proof" ex_incoming; ex_process "forged" ex_incoming].
Example C54_example :
  length (dispatches ex_api ex_mailbox0 ex_calls) = 2%nat /\
  told (s "mailbox_dispatch") (s "message") (emitted ex_api ex_mailbox0 ex_calls)
    = map hex_of (dispatches ex_api ex_mailbox0 ex_calls) /\
  told (s "mailbox_dispatch") (s "destination") (emitted ex_api ex_mailbox0 ex_calls) = [s "9"; s "9"].
Proof. vm_compute. auto. Qed.

(** ** C55 *)
Theorem C55_deliveries A q e i hrp owner dom st0 r h :
  c_instantiate A q e i (IMailbox hrp owner dom) = Ok (st0, r) ->
  let ids := told (s "mailbox_process_id") (s "message_id") in
  let tells := told (s "mailbox_process") in
  let log := emitted A st0 h in
  exists ms, Forall2 (fun p m => msg_decode (fst p) = Ok m) (processed A st0 h) ms /\
    ids log = map (fun p => hex_of (keccak256_hash (fst p))) (processed A st0 h) /\
    map decimal (tells (s "origin") log) = map m_origin ms /\
    tells (s "sender") log = map (fun m => hex_of (m_sender m)) ms /\
    tells (s "recipient") log = map (fun m => hex_of (m_recipient m)) ms /\
    NoDup (ids log) /\
    (forall id, reported_delivered (c_run A st0 h) id = Some true <-> In (hex_of id) (ids log)).
Proof. exact (deliveries_told A q e i hrp owner dom st0 r h). Qed.
Print Assumptions C55_deliveries.

Example C55_example :
  told (s "mailbox_process_id") (s "message_id") (emitted ex_api ex_mailbox0 ex_calls)
    = [hex_of (keccak256_hash ex_incoming)] /\
  told (s "mailbox_process") (s "origin") (emitted ex_api ex_mailbox0 ex_calls) = [s "9"] /\
  reported_delivered (c_run ex_api ex_mailbox0 ex_calls) (keccak256_hash ex_incoming) = Some true.
Proof. vm_compute. auto. Qed.

(** ** C56 *)
Theorem C56_leaves A q e i mailbox st0 r h :
  c_instantiate A q e i (IMerkle mailbox) = Ok (st0, r) ->
  let log := emitted A st0 h in
  let leaves := map keccak256_hash (posted A st0 h) in
  told (s "hpl_hook_merkle::post_dispatch") (s "message_id") log = map hex_of leaves /\
  map decimal (told (s "hpl_hook_merkle::post_dispatch") (s "index") log) = map N.of_nat (seq 0 (length leaves)) /\
  map decimal (told (s "hpl_hook_merkle::inserted_into_tree") (s "index") log) = map N.of_nat (seq 0 (length leaves)) /\
  reported_count (c_run A st0 h) = Some (N.of_nat (length leaves)) /\
  reported_root (c_run A st0 h) = Some (padded_root leaves).
Proof. exact (merkle_told A q e i mailbox st0 r h). Qed.
Print Assumptions C56_leaves.

Definition insert (b : byte) : event :=
  let raw := ex_hook_raw 7 b in
  EvExec ex_env (mkInfo (s "mb") []) (MPostDispatch [] raw)
    (fun _ => mkQuerier (fun _ _ => Ok (RMessageId (keccak256_hash raw))) (fun _ _ => 0) (fun _ => [])).
Example C56_example :
  let st := born (IMerkle (s "mb")) in
  let h := [insert x01; post "mb" [] 7 x02; insert x03] in
  told (s "hpl_hook_merkle::post_dispatch") (s "message_id") (emitted ex_api st h)
    = map (fun b => hex_of (keccak256_hash (ex_hook_raw 7 b))) [x01; x03] /\
  told (s "hpl_hook_merkle::post_dispatch") (s "index") (emitted ex_api st h) = [s "0"; s "1"] /\
  reported_count (c_run ex_api st h) = Some 2.
Proof. vm_compute. auto. Qed.

(** ** C57 *)
Theorem C57_payment A q e0 i0 hrp o tk b g st0 r0 h Q e i m st' r :
  c_instantiate A q e0 i0 (IIgp hrp o tk b g) = Ok (st0, r0) ->
  c_execute A Q e i m (c_run A st0 h) = Ok (st', r) ->
  match m with
  | MPayForGas id d gas _ =>
      exists w, call_events (EvExec e i m Q) (c_run A st0 h) = [w] /\
        payment_told (Q (c_run A st0 h)) (c_run A st0 h) i id d gas r w
  | MPostDispatch md raw =>
      exists w w' msg gas, call_events (EvExec e i m Q) (c_run A st0 h) = [w; w'] /\
        msg_decode raw = Ok msg /\ requested_gas (c_run A st0 h) md msg gas /\
        payment_told (Q (c_run A st0 h)) (c_run A st0 h) i (keccak256_hash raw) (m_dest msg) gas r w /\
        of_type (s "igp-core-post-dispatch") w' = true /\ attr (s "message") w' = Some (hex_of raw) /\
        attr (s "metadata") w' = Some (match md with [] => s "0x" | _ => hex_of md end)
  | _ => told (s "igp-core-pay-for-gas") (s "payment") (call_events (EvExec e i m Q) (c_run A st0 h)) = []
  end.
Proof. exact (payment_of_history A q e0 i0 hrp o tk b g st0 r0 h Q e i m st' r). Qed.
Print Assumptions C57_payment.

(** over any history: paid = required + refunded, and paid is what was attached *)
Theorem C57_totals A q e i hrp o tk b g st0 r h :
  c_instantiate A q e i (IIgp hrp o tk b g) = Ok (st0, r) ->
  let total := total_told (s "igp-core-pay-for-gas") in
  let log := emitted A st0 h in
  total (s "payment") log = total (s "gas_required") log + total (s "gas_refunded") log /\
  total (s "payment") log
  = fold_right N.add 0 (map (fun j => amount_of tk (i_funds j)) (gas_payments A st0 h)).
Proof. exact (payments_of_history A q e i hrp o tk b g st0 r h). Qed.
Print Assumptions C57_totals.

Theorem C57_claim A Q e i st st' r :
  is_igp st -> c_execute A Q e i MClaim st = Ok (st', r) ->
  exists w, call_events (EvExec e i MClaim Q) st = [w] /\ of_type (s "igp-core-claim") w = true /\
    attr (s "beneficiary") w = reported_beneficiary st /\ attr (s "beneficiary") w = Some (i_sender i) /\
    attr (s "collected") w = Some (dec (amount_of (gas_token st) (sends r)) ++ gas_token st).
Proof. exact (claim_told A Q e i st st' r). Qed.
Print Assumptions C57_claim.

Example C57_example :
  let h := [pay 346 "uosmo" 7 11; pay 345 "uosmo" 7 11; post_gas 400 7 []] in
  let log := emitted ex_api ex_igp h in
  let total := total_told (s "igp-core-pay-for-gas") in
  (total (s "payment") log, total (s "gas_required") log, total (s "gas_refunded") log) = (746, 692, 54) /\
  told (s "igp-core-pay-for-gas") (s "dest_domain") log = [s "7"; s "7"] /\
  told (s "igp-core-post-dispatch") (s "metadata") log = [s "0x"] /\
  told (s "igp-core-claim") (s "collected")
    (emitted ex_api ex_igp [EvExec ex_env (mkInfo (s "ben") []) MClaim (fun _ => ex_oracle_chain)]) = [s "42uosmo"].
Proof. repeat split; vm_compute; reflexivity. Qed.

(** ** C58: settings kept by replaying the events *)
Theorem C58_owner A st h o p :
  reported_owner st = Some o -> reported_pending st = p ->
  let seen := fold_left watch_owner (emitted A st h) (o, p) in
  reported_owner (c_run A st h) = Some (fst seen) /\ reported_pending (c_run A st h) = snd seen.
Proof. exact (owner_told A st h o p). Qed.
Print Assumptions C58_owner.

Theorem C58_paused A st h b :
  reported_paused st = Some b ->
  reported_paused (c_run A st h) = Some (fold_left watch_pause (emitted A st h) b).
Proof. exact (paused_told A st h b). Qed.
Print Assumptions C58_paused.

Theorem C58_mailbox_defaults A x h :
  let st := SMailbox x in
  let seen ty k x0 := fold_left (watch_text ty k) (emitted A st h) x0 in
  reported_default_ism (c_run A st h) = seen (s "mailbox_default_ism_set") (s "new_default_ism") (reported_default_ism st) /\
  reported_default_hook (c_run A st h) = seen (s "mailbox_default_hook_set") (s "new_default_hook") (reported_default_hook st) /\
  reported_required_hook (c_run A st h) = seen (s "mailbox_required_hook_set") (s "new_required_hook") (reported_required_hook st).
Proof. exact (mailbox_told A (SMailbox x) h eq_refl). Qed.
Print Assumptions C58_mailbox_defaults.

Theorem C58_module A st h raw m :
  is_routing_ism st -> msg_decode raw = Ok m ->
  reported_module_for (c_run A st h) raw
  = fold_left (watch_module (m_origin m)) (emitted A st h) (reported_module_for st raw).
Proof. exact (module_told A st h raw m). Qed.
Print Assumptions C58_module.

(** the connection events name the new setting *)
Theorem C58_connection A st h m0 i0 k0 :
  reported_conn st QConnMailbox = Some m0 -> reported_conn st QConnIsm = Some i0 -> reported_conn st QConnHook = Some k0 ->
  let seen ty k x0 := fold_left (watch_text ty k) (emitted A st h) x0 in
  reported_conn (c_run A st h) QConnMailbox = Some (seen (s "hpl_connection::set_mailbox") (s "mailbox") m0) /\
  reported_conn (c_run A st h) QConnIsm = Some (seen (s "hpl_connection::set_ism") (s "ism") i0) /\
  reported_conn (c_run A st h) QConnHook = Some (seen (s "hpl_connection::set_hook") (s "hook") k0).
Proof. exact (connection_told A st h m0 i0 k0). Qed.
Print Assumptions C58_connection.

(** a list of hooks is readable when addresses contain no comma *)
Theorem C58_hooks A st h :
  is_aggregate_hook st -> plain_addresses A ->
  reported_hooks (c_run A st h)
  = fold_left (watch_list (s "hpl_hook_aggregate::set_hooks") (s "hooks")) (emitted A st h) (reported_hooks st).
Proof. exact (hooks_told A st h). Qed.
Print Assumptions C58_hooks.

Theorem C58_fee A st h :
  is_fee_hook st ->
  reported_fee (c_run A st h)
  = fold_left (watch_coin (s "hpl_hook_fee::set_fee") (s "fee_denom") (s "fee_amount")) (emitted A st h) (reported_fee st).
Proof. exact (fee_told A st h). Qed.
Print Assumptions C58_fee.

Theorem C58_fallback A st h :
  is_fallback_hook st ->
  fallback_of (c_run A st h)
  = fold_left (watch_text (s "hpl_hook_routing::set_fallback_hook") (s "fallback-hook")) (emitted A st h) (fallback_of st).
Proof. exact (fallback_told A st h). Qed.
Print Assumptions C58_fallback.

Theorem C58_default_gas A st h :
  is_igp st ->
  reported_default_gas (c_run A st h)
  = fold_left (watch_number (s "igp-core-set-default-gas") (s "default-gas")) (emitted A st h) (reported_default_gas st).
Proof. exact (default_gas_told A st h). Qed.
Print Assumptions C58_default_gas.

Theorem C58_beneficiary A st h :
  is_igp st ->
  reported_beneficiary (c_run A st h)
  = fold_left (watch_text (s "igp-core-set-beneficiary") (s "beneficiary")) (emitted A st h) (reported_beneficiary st).
Proof. exact (beneficiary_told A st h). Qed.
Print Assumptions C58_beneficiary.

(** the JSON of the route events can be read, in one way only, ... *)
Theorem C58_routes_readable A st h :
  exists us, Forall2 (route_event (hex_routes st)) (filter about_routes (emitted A st h)) us /\
    Forall (Forall (fun r => rs_domain r < 2 ^ 32)) us /\ concat us = updates A st h.
Proof. exact (routes_told A st h). Qed.
Print Assumptions C58_routes_readable.

Theorem C58_routes_unambiguous hex w u u' :
  Forall (fun r => rs_domain r < 2 ^ 32) u -> Forall (fun r => rs_domain r < 2 ^ 32) u' ->
  route_event hex w u -> route_event hex w u' -> u = u'.
Proof. exact (route_event_inj hex w u u'). Qed.
Print Assumptions C58_routes_unambiguous.

(** ... and what is read gives every route *)
Theorem C58_routes A st h us d r0 :
  d < 2 ^ 32 -> reported_route st d = Some r0 ->
  Forall2 (route_event (hex_routes st)) (filter about_routes (emitted A st h)) us ->
  Forall (Forall (fun r => rs_domain r < 2 ^ 32)) us ->
  reported_route (c_run A st h) d = Some (last_update d (concat us) r0).
Proof. exact (routes_replayed A st h us d r0). Qed.
Print Assumptions C58_routes.

Definition ex_plain : api :=
  mkApi (fun a => match a with [] => false | _ => forallb (fun c => negb (bN c =? 44)) a end) (fun _ _ _ => None).
Example C58_example :
  (* the owner, through an offer taken up *)
  fold_left watch_owner (emitted ex_api (born (IFeeHook (s "alice") (mkCoin (s "uosmo") 1)))
    (ex_transfer ++ [call "bob" (MOwnable ClaimOwnership)])) (s "alice", None) = (s "bob", None) /\
  (* the fee set meanwhile *)
  fold_left (watch_coin (s "hpl_hook_fee::set_fee") (s "fee_denom") (s "fee_amount"))
    (emitted ex_api (born (IFeeHook (s "alice") (mkCoin (s "uosmo") 1))) ex_transfer) None
    = Some (mkCoin (s "uosmo") 5) /\
  (* pauses *)
  fold_left watch_pause (emitted ex_api (born (IPausableHook (s "alice") false))
    [call "alice" (MPausable Pause); call "bob" (MPausable Release)]) false = true /\
  (* the mailbox's modules *)
  fold_left (watch_text (s "mailbox_default_ism_set") (s "new_default_ism"))
    (emitted ex_api ex_mailbox0 ex_calls) None = Some (s "ism") /\
  (* the modules by origin *)
  fold_left (watch_module 7) (emitted ex_api (born (IRoutingIsm (s "owner") []))
    [call "owner" (MRoutingSet 7 (s "yes7")); call "owner" (MRoutingSet 17 (s "yes17")); call "owner" (MRoutingUnset [17; 8])]) None
    = Some (s "yes7") /\
  (* the hooks *)
  fold_left (watch_list (s "hpl_hook_aggregate::set_hooks") (s "hooks"))
    (emitted ex_plain (born (IAggHook (s "owner") [s "x"]))
      [call "owner" (MSetHooks [s "alpha"; s "beta"]); call "owner" (MSetHooks [s "a,b"])]) None
    = Some [s "alpha"; s "beta"] /\
  (* routes *)
  map we_attrs (emitted ex_api (born (IRoutingHook (s "owner"))) ex_routes)
    = [[(s "sender", s "owner");
        (s "set", s "[{""domain"":7,""route"":""alpha""},{""domain"":8,""route"":""old""}]")];
       [(s "sender", s "owner"); (s "set", s "{""domain"":8,""route"":null}")]].
Proof. repeat split; vm_compute; reflexivity. Qed.
Example C58_plain_example : plain_addresses ex_plain /\ api_valid ex_plain (s "osmo1") = true.
Proof.
  split; [|reflexivity]. intros [|c a] H; [discriminate H|]. split; [discriminate|].
  unfold ex_plain in H. cbn [api_valid] in H. rewrite forallb_forall in H. apply Forall_forall. intros x Hx E.
  specialize (H x Hx). rewrite E in H. discriminate H.
Qed.

(** ** C59: settings that cannot be kept by replaying the events *)
(** Full statement: from equal states, histories that emit the same events lead
    to the same settings.  False for the validators of a multisig module ... *)
Theorem C59_validators_refuted :
  exists A st h1 h2 d, emitted A st h1 = emitted A st h2 /\
    reported_enrolled (c_run A st h1) d <> reported_enrolled (c_run A st h2) d.
Proof.
  exists ex_api, (born (IMultisig (s "owner"))),
    [call "owner" (MSetValidators 5 1 [ex_val x01])], [call "owner" (MSetValidators 5 1 [ex_val x02])], 5.
  split; [vm_compute; reflexivity|]. vm_compute. discriminate.
Qed.
Print Assumptions C59_validators_refuted.

(** ... the threshold of an aggregate module ... *)
Theorem C59_threshold_refuted :
  exists A st h1 h2, emitted A st h1 = emitted A st h2 /\
    reported_modules (c_run A st h1) <> reported_modules (c_run A st h2).
Proof.
  exists ex_api, (born (IAggIsm (s "owner") [s "x"] 1)),
    [call "owner" (MSetIsms [s "a"; s "b"] 1)], [call "owner" (MSetIsms [s "a"; s "b"] 2)].
  split; [vm_compute; reflexivity|]. vm_compute. discriminate.
Qed.
Print Assumptions C59_threshold_refuted.

(** ... the gas charged for a destination ... *)
Theorem C59_gas_refuted :
  exists A st h1 h2 d, emitted A st h1 = emitted A st h2 /\
    reported_gas (c_run A st h1) d <> reported_gas (c_run A st h2) d.
Proof.
  exists ex_api, ex_igp, [call "owner" (MSetGasForDomain [(7, 1)])], [call "owner" (MSetGasForDomain [(7, 2)])], 7.
  split; [vm_compute; reflexivity|]. vm_compute. discriminate.
Qed.
Print Assumptions C59_gas_refuted.

(** ... the price and rate of a destination ... *)
Theorem C59_gas_data_refuted :
  exists A st h1 h2 d, emitted A st h1 = emitted A st h2 /\
    reported_gas_data (c_run A st h1) d <> reported_gas_data (c_run A st h2) d.
Proof.
  exists ex_api, (born (IOracle (s "owner"))),
    [call "owner" (MSetRemoteGasDataConfigs [mkGasConfig 7 1 1])],
    [call "owner" (MSetRemoteGasDataConfigs [mkGasConfig 7 1 2])], 7.
  split; [vm_compute; reflexivity|]. vm_compute. discriminate.
Qed.
Print Assumptions C59_gas_data_refuted.

(** ... and the hook of a recipient. *)
Theorem C59_custom_hook_refuted :
  exists A st h1 h2 d recipient, emitted A st h1 = emitted A st h2 /\
    reported_custom (c_run A st h1) d recipient <> reported_custom (c_run A st h2) d recipient.
Proof.
  exists ex_api, (born (ICustomHook (s "owner"))),
    [call "owner" (MRegisterCustomHook (mkCustomHook 7 (hex_encode (repeat xab 32)) (s "beta")))],
    [call "owner" (MRegisterCustomHook (mkCustomHook 7 (hex_encode (repeat xab 32)) (s "gamma")))], 7, (repeat xab 32).
  split; [vm_compute; reflexivity|]. vm_compute. discriminate.
Qed.
Print Assumptions C59_custom_hook_refuted.

(** A claim from the fee hook does not say who got the fees. *)
Theorem C59_fee_claim_refuted :
  exists A st ev1 ev2, call_events ev1 st = call_events ev2 st /\
    accepted A st ev1 = true /\ accepted A st ev2 = true /\
    c_apply A ev1 st <> c_apply A ev2 st.
Proof.
  exists ex_api, ex_fee_hook,
    (EvExec ex_env (mkInfo (s "owner") []) (MFeeClaim (Some (s "bob"))) (fun _ => ex_fee_chain)),
    (EvExec ex_env (mkInfo (s "owner") []) (MFeeClaim (Some (s "carol"))) (fun _ => ex_fee_chain)).
  split; [reflexivity|]. split; [vm_compute; reflexivity|]. split; [vm_compute; reflexivity|]. vm_compute. discriminate.
Qed.
Print Assumptions C59_fee_claim_refuted.

(** ** C60 *)
Theorem C60_transfers A st h :
  is_warp st ->
  let tells k := told (transfer_type st) k (emitted A st h) in
  tells (s "sender") = map fst (transfers A st h) /\
  tells (s "recipient") = map (fun t => hex_of (fst (snd (snd t)))) (transfers A st h) /\
  map decimal (tells (s "amount")) = map (fun t => snd (snd (snd t))) (transfers A st h) /\
  (is_warp_cw20 st -> map decimal (tells (s "dest_domain")) = map (fun t => fst (snd t)) (transfers A st h)).
Proof. exact (transfers_told A st h). Qed.
Print Assumptions C60_transfers.

Theorem C60_deliveries A Q e i origin sender body st st' r :
  is_warp st -> c_execute A Q e i (MHandle origin sender body) st = Ok (st', r) ->
  exists w recipient amount, call_events (EvExec e i (MHandle origin sender body) Q) st = [w] /\
    of_type (match st with SWarpNative _ => s "hpl_warp_native::handle" | _ => s "hpl_warp_cw20::handle" end) w = true /\
    warp_delivery st i origin sender body recipient amount /\
    attr (s "recipient") w = Some recipient /\ number_told (s "amount") w = Some amount /\
    attr (s "token") w = reported_token st.
Proof. exact (delivery_told A Q e i origin sender body st st' r). Qed.
Print Assumptions C60_deliveries.

Definition remote (who : string) (d : N) (n : N) : event :=
  EvExec ex_env (mkInfo (s who) [mkCoin (s "uosmo") n]) (MTransferRemote d (repeat x0c 32) n None None) (fun _ => no_querier).
Example C60_example :
  let h := [remote "bob" 7 5; remote "carol" 8 6; remote "carol" 7 9] in
  told (transfer_type ex_native) (s "sender") (emitted ex_api ex_native h) = [s "bob"; s "carol"] /\
  told (transfer_type ex_native) (s "amount") (emitted ex_api ex_native h) = [s "5"; s "9"] /\
  told (transfer_type (ex_cw20 true)) (s "dest_domain") (emitted ex_api (ex_cw20 true) h) = [s "7"; s "7"] /\
  told (s "hpl_warp_native::handle") (s "recipient") (emitted ex_api ex_native [deliver "mailbox" ex_router (repeat x0c 32) 5])
    = [encoded (repeat x0c 32)].
Proof. repeat split; vm_compute; reflexivity. Qed.

(** Full statement of the destination: also told by native routes.  False: *)
Theorem C60_native_destination_refuted :
  exists A st h1 h2, is_warp_native st /\ emitted A st h1 = emitted A st h2 /\
    map (fun t => fst (snd t)) (transfers A st h1) <> map (fun t => fst (snd t)) (transfers A st h2).
Proof.
  exists ex_api, (c_step ex_api ex_native (call "owner" (MRouter (SetRoute (mkRouteSet 8 (Some ex_router)))))),
    [remote "bob" 7 5], [remote "bob" 8 5].
  split; [exact I|]. split; [vm_compute; reflexivity|]. vm_compute. discriminate.
Qed.
Print Assumptions C60_native_destination_refuted.

(** ** C61 *)
Theorem C61_announcements A st h :
  is_va st ->
  let tells := told (s "validator-announcement") in
  tells (s "validator") (emitted A st h) = map (fun p => hex_of (fst p)) (announcements A st h) /\
  tells (s "storage-location") (emitted A st h) = map snd (announcements A st h).
Proof. exact (va_told A st h). Qed.
Print Assumptions C61_announcements.

Example C61_example :
  told (s "validator-announcement") (s "storage-location") (emitted ex_sign_api ex_va ex_va_history)
    = [s "s3://one"; s "s3://two"; s "s3://three"].
Proof. vm_compute. reflexivity. Qed.
