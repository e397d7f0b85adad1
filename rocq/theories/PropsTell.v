(** * What the events give away of settings they leave out (C75), what they say
      of posts to hooks and of who acts (C76), and what a relayer may ask a
      module (C77). *)
From Coq Require Import List NArith Bool Lia.
From Verif Require Import Base BaseFacts Hex Coins Crypto Message Bech32 Metadata Chain Ownable Router Contracts
  Spec SpecModules SpecVersion SpecCodec Mailbox Isms Hooks Igp Events SpecEvents SpecTell TellFacts InfoFacts
  PropsAccess PropsMailbox PropsIsm PropsHooks PropsIgp PropsEvents.
Import ListNotations.

(** ** C75 *)
(** An observer who knows the validators and threshold of a domain and then sees
    no event that says they were written still knows them; one that says they
    were removed tells that there are none. *)
Theorem C75_validators A st h d : is_multisig st -> d < 2 ^ 32 -> forall v,
  fold_left (watch_keyed (set_written d) (set_removed d)) (emitted A st h) (Some (reported_enrolled st d)) = Some v ->
  reported_enrolled (c_run A st h) d = v.
Proof. exact (validators_known A st h d). Qed.
Print Assumptions C75_validators.

(** what the events do tell of them: how many there are and the threshold *)
Theorem C75_set_size A st h d : is_multisig st -> d < 2 ^ 32 ->
  set_size (reported_enrolled (c_run A st h) d)
  = fold_left (watch_set_size d) (emitted A st h) (set_size (reported_enrolled st d)).
Proof. exact (set_size_told A st h d). Qed.
Print Assumptions C75_set_size.

(** the modules of an aggregate module are told; its threshold does not change
    without an event *)
Theorem C75_modules A st h : is_aggregate_ism st -> plain_addresses A ->
  option_map fst (reported_modules (c_run A st h))
  = fold_left (watch_list (s "hpl_ism_aggregate::set_isms") (s "isms")) (emitted A st h) (option_map fst (reported_modules st)) /\
  (forallb (fun w => negb (isms_written w)) (emitted A st h) = true -> reported_modules (c_run A st h) = reported_modules st).
Proof. exact (isms_told A st h). Qed.
Print Assumptions C75_modules.

Theorem C75_gas A st h d : is_igp st -> d < 2 ^ 32 -> forall v,
  fold_left (watch_keyed (gas_written d) (gas_removed d)) (emitted A st h) (Some (reported_gas st d)) = Some v ->
  reported_gas (c_run A st h) d = v.
Proof. exact (gas_known A st h d). Qed.
Print Assumptions C75_gas.

Theorem C75_gas_data A st h d : is_oracle st -> d < 2 ^ 32 -> forall v,
  fold_left (watch_keyed (data_written d) (fun _ => false)) (emitted A st h) (Some (reported_gas_data st d)) = Some v ->
  reported_gas_data (c_run A st h) d = v.
Proof. exact (data_known A st h d). Qed.
Print Assumptions C75_gas_data.

Theorem C75_custom_hook A st h d r : is_custom_hook st -> d < 2 ^ 32 -> forall v,
  fold_left (watch_keyed (custom_written d r) (custom_removed d r)) (emitted A st h) (Some (reported_custom st d r)) = Some v ->
  reported_custom (c_run A st h) d r = v.
Proof. exact (custom_known A st h d r). Qed.
Print Assumptions C75_custom_hook.

(** The watching is not idle: other domains' writes leave the knowledge, a
    removal restores it, a write loses it. *)
Example C75_example :
  let set d := call "owner" (MSetValidators d 2 [ex_val x01; ex_val x02; ex_val x04]) in
  let know h := fold_left (watch_keyed (set_written 5) (set_removed 5)) (emitted ex_api ex_multisig h)
                  (Some (reported_enrolled ex_multisig 5)) in
  is_multisig ex_multisig /\
  know [set 6; set 15; call "mallory" (MSetValidators 5 1 [ex_val x09]); call "owner" (MUnsetDomain 7)]
    = Some (Some ([ex_val x01; ex_val x02; ex_val x03], 2)) /\
  know [set 6; set 5] = None /\
  know [set 5; call "owner" (MUnsetDomain 5); set 6] = Some None /\
  fold_left (watch_set_size 5) (emitted ex_api ex_multisig [set 5]) (set_size (reported_enrolled ex_multisig 5))
    = Some (s "3", 2).
Proof. vm_compute. repeat split. Qed.

Definition ex_hook_of (d : N) (r : byte) : custom_hook := mkCustomHook d (hex_encode (repeat r 32)) (s "beta").
Example C75_keys_example :
  let st := born (ICustomHook (s "owner")) in
  let know h := fold_left (watch_keyed (custom_written 7 (repeat xab 32)) (custom_removed 7 (repeat xab 32)))
                  (emitted ex_api st h) (Some (reported_custom st 7 (repeat xab 32))) in
  know [call "owner" (MRegisterCustomHooks [ex_hook_of 7 xac; ex_hook_of 8 xab])] = Some None /\
  know [call "owner" (MRegisterCustomHooks [ex_hook_of 7 xac; ex_hook_of 7 xab])] = None /\
  reported_custom (c_run ex_api st [call "owner" (MRegisterCustomHooks [ex_hook_of 7 xac; ex_hook_of 7 xab])]) 7 (repeat xab 32)
    = Some (s "beta").
Proof. vm_compute. repeat split. Qed.

Example C75_gas_example :
  let know h := fold_left (watch_keyed (gas_written 7) (gas_removed 7)) (emitted ex_api ex_igp h) (Some (reported_gas ex_igp 7)) in
  know [call "owner" (MSetGasForDomain [(8, 1); (17, 2)]); call "owner" (MUnsetGasForDomain [9; 70])]
    = Some (reported_gas ex_igp 7) /\
  know [call "owner" (MSetGasForDomain [(8, 1); (7, 2)])] = None /\
  know [call "owner" (MSetGasForDomain [(8, 1); (7, 2)]); call "owner" (MUnsetGasForDomain [8; 7])] = Some None /\
  let data := fun h => fold_left (watch_keyed (data_written 7) (fun _ => false)) (emitted ex_api (born (IOracle (s "owner"))) h) (Some None) in
  data [call "owner" (MSetRemoteGasData (mkGasConfig 77 1 1)); call "owner" (MSetRemoteGasDataConfigs [mkGasConfig 8 1 1])]
    = Some (@None (N * N)) /\
  data [call "owner" (MSetRemoteGasDataConfigs [mkGasConfig 8 1 1; mkGasConfig 7 1 1])] = None /\
  data [call "owner" (MSetRemoteGasData (mkGasConfig 7 1 1))] = None.
Proof. vm_compute. repeat split. Qed.

(** ** C76 *)
(** One event per accepted post, in their order, each naming the message. *)
Theorem C76_aggregate A st h : is_aggregate_hook st ->
  Forall2 (fun p w => attr (s "message_id") w = Some (hex_of (keccak256_hash (snd (snd p)))))
    (posts A st h) (filter (of_type (s "hpl_hook_aggregate::post_dispatch")) (emitted A st h)).
Proof. exact (aggregate_posts_told A st h). Qed.
Print Assumptions C76_aggregate.

(** A routing hook's events name the message, its destination and the hook it
    was passed to. *)
Theorem C76_routed A st h : is_router_hook st ->
  Forall2 routed_told (posts A st h) (filter (of_type (routed_type st)) (emitted A st h)).
Proof. exact (routed_posts_told A st h). Qed.
Print Assumptions C76_routed.

(** The fee hook's events name the coin the caller attached. *)
Theorem C76_fee A st h : is_fee_hook st ->
  Forall2 fee_told (posts A st h) (filter (of_type (s "hpl_hook_fee::post_dispatch")) (emitted A st h)).
Proof. exact (fee_posts_told A st h). Qed.
Print Assumptions C76_fee.

(** Whenever an event names who acted, it names the caller. *)
Theorem C76_callers A st e i m Q w k a :
  accepted A st (EvExec e i m Q) = true -> In w (call_events (EvExec e i m Q) st) -> about_messages w = false ->
  In k caller_keys -> attr k w = Some a -> a = i_sender i.
Proof. exact (callers_told A st e i m Q w k a). Qed.
Print Assumptions C76_callers.

(** A hook that routes destination 7 sees one post it refuses (no route) and two
    it passes on; the fee hook sees one without its coin. *)
Example C76_example :
  let h := [post "mb" [] 7 x01; post "mb" [] 9 x01; post "mb" [] 7 xab] in
  let tells st k := map (attr k) (filter (of_type (routed_type st)) (emitted ex_api st h)) in
  length (posts ex_api ex_custom h) = 2%nat /\
  tells ex_custom (s "route") = [Some (s "alpha"); Some (s "beta")] /\
  tells ex_routing (s "route") = [Some (s "alpha"); Some (s "alpha")] /\
  tells ex_fallback (s "route") = [Some (s "alpha"); Some (s "beta"); Some (s "alpha")] /\
  let h' := [post "mb" [mkCoin (s "uosmo") 5] 7 x01; post "mb" [] 7 x01; post "mb" [mkCoin (s "uosmo") 4] 7 x01] in
  let fees := filter (of_type (s "hpl_hook_fee::post_dispatch")) (emitted ex_api ex_fee_hook h') in
  map (attr (s "paid_amount")) fees = [Some (s "5"); Some (s "4")] /\
  length (posts ex_api ex_agg_hook h) = 3%nat.
Proof. vm_compute. repeat split. Qed.

Example C76_callers_example :
  let ev := call "owner" (MSetValidators 5 2 [ex_val x01; ex_val x02; ex_val x04]) in
  accepted ex_api ex_multisig ev = true /\
  map (attr (s "sender")) (call_events ev ex_multisig) = [Some (s "owner")] /\
  map about_messages (call_events ev ex_multisig) = [false].
Proof. vm_compute. repeat split. Qed.

(** ** C77 *)
(** The multisig module answers with the validators and the threshold of the
    message's origin, and with nothing else. *)
Theorem C77_multisig A q raw st t vs : is_multisig st ->
  (c_query A q (QVerifyInfo raw) st = Ok (RVerifyInfo t vs) <->
   exists m, msg_decode raw = Ok m /\ reported_enrolled st (m_origin m) = Some (vs, t)).
Proof. exact (multisig_info A q raw st t vs). Qed.
Print Assumptions C77_multisig.

(** Whoever collects signatures by that answer is approved. *)
Theorem C77_followed A q metadata raw st m tree root index pre suf vs t signers :
  is_multisig st ->
  c_query A q (QVerifyInfo raw) st = Ok (RVerifyInfo t vs) -> 0 < t ->
  msg_decode raw = Ok m -> multisig_metadata metadata tree root index (pre ++ suf) ->
  let digest := checkpoint_digest (m_origin m) tree root index (keccak256_hash raw) in
  Forall (fun sg => exists a, signed_by A digest sg a) pre ->
  NoDup signers -> t <= N.of_nat (length signers) ->
  Forall (fun a => In a vs /\ exists sg, In sg pre /\ signed_by A digest sg a) signers ->
  c_query A q (QVerify metadata raw) st = Ok (RVerified true).
Proof. exact (multisig_followed A q metadata raw st m tree root index pre suf vs t signers). Qed.
Print Assumptions C77_followed.

(** The aggregate module answers with the accounts of its modules and its
    threshold, whatever the message. *)
Theorem C77_aggregate A q raw st t vs : is_aggregate_ism st ->
  (c_query A q (QVerifyInfo raw) st = Ok (RVerifyInfo t vs) <->
   exists l, reported_modules st = Some (l, t) /\ Forall2 (fun a v => bech32_decode a = Ok v) l vs).
Proof. exact (aggregate_info A q raw st t vs). Qed.
Print Assumptions C77_aggregate.

(** The pausable module stops at the question (and the routing module never
    answers it: C30). *)
Theorem C77_pausable A q raw st : is_pausable_ism st -> c_query A q (QVerifyInfo raw) st = Panic.
Proof. exact (pausable_no_info A q raw st). Qed.
Print Assumptions C77_pausable.

Example C77_example :
  let other := msg_encode (mkMessage 3 8 6 (repeat x0a 32) 7 (repeat x0b 32) (s "hi")) in
  let module := s "osmo1d6a3j0kkpc8eac0j8h6ypyevfz8hd3qnuqjrc5" in
  c_query ex_recover no_querier (QVerifyInfo ex_raw) ex_multisig
    = Ok (RVerifyInfo 2 [ex_val x01; ex_val x02; ex_val x03]) /\
  c_query ex_recover no_querier (QVerifyInfo other) ex_multisig = Err EStd /\
  c_query ex_recover no_querier (QVerify (ex_md [ex_sig x01; ex_sig x03]) ex_raw) ex_multisig = Ok (RVerified true) /\
  c_query ex_api no_querier (QVerifyInfo ex_raw) (born (IAggIsm (s "owner") [module; module] 2))
    = Ok (RVerifyInfo 2 [hx "6ebb193ed60e0f9ee1f23df440932c488f76c413"; hx "6ebb193ed60e0f9ee1f23df440932c488f76c413"]) /\
  c_query ex_api no_querier (QVerifyInfo ex_raw) (born (IPausableIsm (s "owner") false)) = Panic.
Proof. vm_compute. repeat split. Qed.
