(** * Interchain security modules (C24-C31). *)
From Coq Require Import List NArith Bool Lia.
From Verif Require Import Base BaseFacts OMap Coins Crypto Message Metadata Chain Ownable Contracts Spec SpecModules
  Mailbox Va Isms Hooks Igp Warp Cw20 IsmFacts AccessFacts PropsAccess.
Import ListNotations.

(** ** C24 *)
Theorem C24_multisig_sound A q metadata raw st :
  is_multisig st ->
  c_query A q (QVerify metadata raw) st = Ok (RVerified true) ->
  exists m tree root index sigs vs t signers,
    msg_decode raw = Ok m /\ multisig_metadata metadata tree root index sigs /\
    reported_enrolled st (m_origin m) = Some (vs, t) /\
    NoDup signers /\ N.of_nat (length signers) = t /\
    Forall (fun a => In a vs /\ exists sg, In sg sigs /\
      signed_by A (checkpoint_digest (m_origin m) tree root index (keccak256_hash raw)) sg a) signers.
Proof. exact (multisig_sound A q metadata raw st). Qed.
Print Assumptions C24_multisig_sound.

(** recovery that reads the public key off the signature, except that a
    signature starting with 00 recovers to nothing; three validators *)
Definition ex_recover : api :=
  mkApi (fun _ => true) (fun _ rs _ => match rs with x00 :: _ => None | _ => Some (x04 :: rs) end).
Definition ex_sig (b : byte) : bytes := repeat b 64 ++ [x1b].
Definition ex_val (b : byte) : bytes := skipn 12 (keccak256_hash (repeat b 64)).
Definition ex_multisig : cstate :=
  c_run ex_recover (born (IMultisig (s "owner")))
    [call "owner" (MSetValidators 5 2 [ex_val x01; ex_val x02; ex_val x03]);
     call "mallory" (MSetValidators 5 1 [ex_val x09])].
Definition ex_raw : bytes := msg_encode (mkMessage 3 8 5 (repeat x0a 32) 7 (repeat x0b 32) (s "hi")).
Definition ex_md (sigs : list bytes) : bytes :=
  repeat x11 32 ++ repeat x22 32 ++ be 4 77 ++ concat sigs.

Example C24_example :
  c_query ex_recover no_querier (QVerify (ex_md [ex_sig x01; ex_sig x03]) ex_raw) ex_multisig
    = Ok (RVerified true) /\
  c_query ex_recover no_querier (QVerify (ex_md [ex_sig x01; ex_sig x01]) ex_raw) ex_multisig
    = Ok (RVerified false) /\
  c_query ex_recover no_querier (QVerify (ex_md [ex_sig x01; ex_sig x09]) ex_raw) ex_multisig
    = Ok (RVerified false).
Proof. repeat split; vm_compute; reflexivity. Qed.

(** ** C25 *)
(** Signatures beyond the one that completes the threshold are not even looked
    at, so only those up to it ([pre]) need to recover. *)
Theorem C25_enough_signatures A q metadata raw st m tree root index pre suf vs t signers :
  is_multisig st ->
  msg_decode raw = Ok m -> multisig_metadata metadata tree root index (pre ++ suf) ->
  reported_enrolled st (m_origin m) = Some (vs, t) -> 0 < t ->
  let digest := checkpoint_digest (m_origin m) tree root index (keccak256_hash raw) in
  Forall (fun sg => exists a, signed_by A digest sg a) pre ->
  NoDup signers -> t <= N.of_nat (length signers) ->
  Forall (fun a => In a vs /\ exists sg, In sg pre /\ signed_by A digest sg a) signers ->
  c_query A q (QVerify metadata raw) st = Ok (RVerified true).
Proof. exact (multisig_complete A q metadata raw st m tree root index pre suf vs t signers). Qed.
Print Assumptions C25_enough_signatures.

(** order, repeats and strangers do not matter; an unrecoverable signature
    before the threshold is reached fails the query, after it it does not *)
Example C25_example :
  c_query ex_recover no_querier
    (QVerify (ex_md [ex_sig x09; ex_sig x03; ex_sig x03; ex_sig x08; ex_sig x02; ex_sig x00]) ex_raw) ex_multisig
    = Ok (RVerified true) /\
  c_query ex_recover no_querier
    (QVerify (ex_md [ex_sig x03; ex_sig x00; ex_sig x02]) ex_raw) ex_multisig = Err ERecover.
Proof. split; vm_compute; reflexivity. Qed.

(** ** C26 *)
Theorem C26_digest_binds o1 t1 r1 i1 id1 o2 t2 r2 i2 id2 :
  o1 < 2 ^ 32 -> o2 < 2 ^ 32 -> i1 < 2 ^ 32 -> i2 < 2 ^ 32 ->
  length t1 = 32%nat -> length t2 = 32%nat -> length r1 = 32%nat -> length r2 = 32%nat ->
  length id1 = 32%nat -> length id2 = 32%nat ->
  checkpoint_digest o1 t1 r1 i1 id1 = checkpoint_digest o2 t2 r2 i2 id2 ->
  (o1 = o2 /\ t1 = t2 /\ r1 = r2 /\ i1 = i2 /\ id1 = id2) \/
  (signed_preimage o1 t1 r1 i1 id1 <> signed_preimage o2 t2 r2 i2 id2 /\
   keccak256_hash (signed_preimage o1 t1 r1 i1 id1) = keccak256_hash (signed_preimage o2 t2 r2 i2 id2)) \/
  (checkpoint_preimage o1 t1 r1 i1 id1 <> checkpoint_preimage o2 t2 r2 i2 id2 /\
   keccak256_hash (checkpoint_preimage o1 t1 r1 i1 id1) = keccak256_hash (checkpoint_preimage o2 t2 r2 i2 id2)) \/
  (domain_preimage o1 t1 <> domain_preimage o2 t2 /\
   keccak256_hash (domain_preimage o1 t1) = keccak256_hash (domain_preimage o2 t2)).
Proof. exact (digest_binds o1 t1 r1 i1 id1 o2 t2 r2 i2 id2). Qed.
Print Assumptions C26_digest_binds.

(** what the module hashes is that digest *)
Theorem C26_modules_check_this_digest origin tree root index id :
  eth_hash (ms_multisig_hash (ms_domain_hash origin tree) root index id)
  = checkpoint_digest origin tree root index id.
Proof. exact (module_digest origin tree root index id). Qed.
Print Assumptions C26_modules_check_this_digest.

(** changing any one component changes the digest of this checkpoint *)
Example C26_example :
  let t := repeat x11 32 in let r := repeat x22 32 in let id := repeat x33 32 in
  let u := repeat x44 32 in
  let dg := checkpoint_digest 5 t r 77 id in
  map (bytes_eqb dg)
    [dg; checkpoint_digest 6 t r 77 id; checkpoint_digest 5 u r 77 id;
     checkpoint_digest 5 t u 77 id; checkpoint_digest 5 t r 78 id; checkpoint_digest 5 t r 77 u]
  = [true; false; false; false; false; false].
Proof. vm_compute. reflexivity. Qed.

(** ** C27 *)
Theorem C27_sets_well_formed A q e i owner st0 r h d vs t :
  c_instantiate A q e i (IMultisig owner) = Ok (st0, r) -> d < 2 ^ 32 ->
  reported_enrolled (c_run A st0 h) d = Some (vs, t) ->
  Forall (fun v => length v = 20%nat) vs /\ 0 < t /\ t <= N.of_nat (length vs).
Proof. exact (validator_sets_ok A q e i owner st0 r h d vs t). Qed.
Print Assumptions C27_sets_well_formed.

Theorem C27_last_set A st h d :
  is_multisig st -> d < 2 ^ 32 ->
  reported_enrolled (c_run A st h) d = replay (enroll_update d) A st h (reported_enrolled st d).
Proof. exact (enrolled_last_set A st h d). Qed.
Print Assumptions C27_last_set.

Theorem C27_owner_only A st ev d t vs :
  accepted A st ev = true ->
  ev_msg ev = Some (MSetValidators d t vs) \/ ev_msg ev = Some (MUnsetDomain d) ->
  ev_sender ev = reported_owner st.
Proof. exact (enroll_owner_only A st ev d t vs). Qed.
Print Assumptions C27_owner_only.

Example C27_example :
  reported_enrolled ex_multisig 5 = Some ([ex_val x01; ex_val x02; ex_val x03], 2) /\
  reported_enrolled (c_step ex_recover ex_multisig (call "owner" (MUnsetDomain 5))) 5 = None /\
  accepted ex_recover ex_multisig (call "owner" (MSetValidators 5 4 [ex_val x01; ex_val x02; ex_val x03])) = false /\
  accepted ex_recover ex_multisig (call "owner" (MSetValidators 5 0 [ex_val x01])) = false /\
  accepted ex_recover ex_multisig (call "owner" (MSetValidators 5 1 [s "short"])) = false.
Proof. repeat split; vm_compute; reflexivity. Qed.

(** The last clause is false: the threshold is checked against the length of the
    list, duplicates included.  The stored set below has one distinct validator
    and threshold two ... *)
Theorem C27_duplicates_refuted :
  exists A st ev d vs t,
    is_multisig st /\ accepted A st ev = true /\
    reported_enrolled (c_step A st ev) d = Some (vs, t) /\
    N.of_nat (length (nodup bytes_eq_dec vs)) < t.
Proof.
  exists ex_api, (born (IMultisig (s "owner"))),
    (call "owner" (MSetValidators 5 2 [repeat x01 20; repeat x01 20])), 5, [repeat x01 20; repeat x01 20], 2.
  repeat split; vm_compute; reflexivity.
Qed.
Print Assumptions C27_duplicates_refuted.

(** ... and then no message from that domain can ever be verified. *)
Theorem C27_duplicates_block A q st d vs t metadata raw m :
  is_multisig st -> reported_enrolled st d = Some (vs, t) ->
  N.of_nat (length (nodup bytes_eq_dec vs)) < t ->
  msg_decode raw = Ok m -> m_origin m = d ->
  c_query A q (QVerify metadata raw) st <> Ok (RVerified true).
Proof. exact (too_few_distinct A q st d vs t metadata raw m). Qed.
Print Assumptions C27_duplicates_block.

Definition ex_stuck : cstate :=
  c_step ex_recover (born (IMultisig (s "owner"))) (call "owner" (MSetValidators 5 2 [ex_val x01; ex_val x01])).
Example C27_block_example :
  reported_enrolled ex_stuck 5 = Some ([ex_val x01; ex_val x01], 2) /\
  N.of_nat (length (nodup bytes_eq_dec [ex_val x01; ex_val x01])) = 1 /\
  c_query ex_recover no_querier (QVerify (ex_md [ex_sig x01; ex_sig x01]) ex_raw) ex_stuck = Ok (RVerified false).
Proof. repeat split; vm_compute; reflexivity. Qed.

(** ** C28 *)
Theorem C28_aggregate_sound A q metadata message st isms t :
  reported_modules st = Some (isms, t) -> 0 < t ->
  c_query A q (QVerify metadata message) st = Ok (RVerified true) ->
  exists ok, NoDup ok /\ N.of_nat (length ok) = t /\
    Forall (fun a => module_answer q isms metadata message a true) ok.
Proof. exact (aggregate_sound A q metadata message st isms t). Qed.
Print Assumptions C28_aggregate_sound.

(** the module list and threshold are those last set, and whoever sets them is
    the owner and leaves a positive threshold *)
Theorem C28_last_set A st h :
  is_aggregate_ism st ->
  reported_modules (c_run A st h) = replay modules_update A st h (reported_modules st).
Proof. exact (modules_last_set A st h). Qed.
Print Assumptions C28_last_set.

Theorem C28_set_guarded A st ev l t :
  accepted A st ev = true -> ev_msg ev = Some (MSetIsms l t) ->
  ev_sender ev = reported_owner st /\ 0 < t /\ t <= N.of_nat (length l).
Proof. exact (set_isms_guarded A st ev l t). Qed.
Print Assumptions C28_set_guarded.

(** modules: those named "yes..." approve when given the metadata "ok", those
    named "no..." disapprove, others fail *)
Definition ex_modules : querier :=
  mkQuerier (fun a m =>
    match m, a with
    | QVerify md _, x79 :: _ => Ok (RVerified (bytes_eqb md (s "ok")))
    | QVerify md _, x6e :: _ => Ok (RVerified false)
    | _, _ => Err EStd
    end) (fun _ _ => 0) (fun _ => []).
(** metadata for three modules: slices [24,26) [26,28) [24,26) *)
Definition ex_agg_md : bytes :=
  be 4 24 ++ be 4 26 ++ be 4 26 ++ be 4 28 ++ be 4 24 ++ be 4 26 ++ s "ok" ++ s "ko".
Definition ex_aggregate (isms : list string) (t : N) : cstate :=
  c_step ex_api (born (IAggIsm (s "owner") [] 1)) (call "owner" (MSetIsms (map s isms) t)).
Definition agg_verdict (st : cstate) : res qres :=
  c_query ex_api ex_modules (QVerify ex_agg_md ex_raw) st.

Example C28_example :
  reported_modules (ex_aggregate ["yes1"; "no"; "yes2"]%string 2) = Some ([s "yes1"; s "no"; s "yes2"], 2) /\
  agg_verdict (ex_aggregate ["yes1"; "no"; "yes2"]%string 2) = Ok (RVerified true) /\
  agg_verdict (ex_aggregate ["yes1"; "yes2"; "no"]%string 2) = Ok (RVerified false) /\
  agg_verdict (ex_aggregate ["yes1"; "no"; "yes1"]%string 2) = Ok (RVerified false) /\
  accepted ex_api (ex_aggregate ["yes1"]%string 1) (call "owner" (MSetIsms [s "yes1"] 0)) = false.
Proof. repeat split; vm_compute; reflexivity. Qed.

(** Without "its threshold is positive" the claim is false: instantiation does
    not check the threshold, and with threshold zero a message no module
    approves is verified. *)
Theorem C28_zero_threshold_refuted :
  exists A q e i owner isms st0 r metadata message,
    c_instantiate A q e i (IAggIsm owner isms 0) = Ok (st0, r) /\ isms <> [] /\
    (forall a, ~ module_answer q isms metadata message a true) /\
    c_query A q (QVerify metadata message) st0 = Ok (RVerified true).
Proof.
  exists ex_api, ex_modules, ex_env, (mkInfo (s "creator") []), (s "owner"), [s "no"],
    (born (IAggIsm (s "owner") [s "no"] 0)), resp0, ex_agg_md, ex_raw.
  split; [reflexivity|]. split; [discriminate|]. split; [|vm_compute; reflexivity].
  intros a (k & md & Hk & _ & Hq). destruct k as [|[|k]]; try discriminate Hk.
  injection Hk as <-. vm_compute in Hq. discriminate Hq.
Qed.
Print Assumptions C28_zero_threshold_refuted.

(** ** C29 *)
(** As stated ("whatever the other modules do") the claim is false: a module
    that fails, ordered before the approving ones, fails the whole query. *)
Theorem C29_failing_module_refuted :
  exists A q metadata message st isms t ok,
    reported_modules st = Some (isms, t) /\ 0 < t /\ NoDup isms /\
    NoDup ok /\ t <= N.of_nat (length ok) /\
    Forall (fun a => module_answer q isms metadata message a true) ok /\
    c_query A q (QVerify metadata message) st = Err EStd.
Proof.
  exists ex_api, ex_modules, ex_agg_md, ex_raw, (ex_aggregate ["yes1"; "broken"]%string 1),
    [s "yes1"; s "broken"], 1, [s "yes1"].
  split; [vm_compute; reflexivity|]. split; [reflexivity|].
  split; [repeat constructor; cbn; intuition discriminate|].
  split; [repeat constructor; intros []|]. split; [vm_compute; discriminate|].
  split; [|vm_compute; reflexivity].
  constructor; [|constructor]. exists 0%nat, (s "ok"). split; [reflexivity|].
  split; [|vm_compute; reflexivity].
  exists 24, 26. repeat split; vm_compute; try reflexivity; try discriminate; repeat constructor.
Qed.
Print Assumptions C29_failing_module_refuted.

(** Full statement:
      reported_modules st = Some (isms, t) -> 0 < t ->
      NoDup ok -> t <= length ok -> (all of ok approve) -> verified.
    What the code gives: it holds when the configured modules are distinct and
    each of them gives some answer (approving or not). *)
Theorem C29_tolerates_rejections_partial A q metadata message st isms t ok :
  reported_modules st = Some (isms, t) -> 0 < t -> NoDup isms ->
  (forall a, In a isms -> exists b, module_answer q isms metadata message a b) ->
  NoDup ok -> t <= N.of_nat (length ok) ->
  Forall (fun a => module_answer q isms metadata message a true) ok ->
  c_query A q (QVerify metadata message) st = Ok (RVerified true).
Proof. exact (aggregate_complete A q metadata message st isms t ok). Qed.
Print Assumptions C29_tolerates_rejections_partial.

Example C29_example :
  agg_verdict (ex_aggregate ["yes1"; "no"; "yes2"]%string 2) = Ok (RVerified true) /\
  agg_verdict (ex_aggregate ["yes1"; "zbroken"]%string 1) = Ok (RVerified true) /\
  agg_verdict (ex_aggregate ["yes1"; "broken"]%string 1) = Err EStd.
Proof. repeat split; vm_compute; reflexivity. Qed.

(** ** C30 *)
Theorem C30_defers A q metadata raw st b :
  is_routing_ism st ->
  (c_query A q (QVerify metadata raw) st = Ok (RVerified b) <->
   exists a, reported_module_for st raw = Some a /\ q_smart q a (QVerify metadata raw) = Ok (RVerified b)).
Proof. exact (routing_verdict A q metadata raw st b). Qed.
Print Assumptions C30_defers.

Theorem C30_unrouted_refused A q metadata raw st m :
  is_routing_ism st -> msg_decode raw = Ok m -> reported_module_for st raw = None ->
  c_query A q (QVerify metadata raw) st = Err ERouteNotFound.
Proof. exact (routing_unrouted A q metadata raw st m). Qed.
Print Assumptions C30_unrouted_refused.

Theorem C30_last_set A st h raw m :
  is_routing_ism st -> msg_decode raw = Ok m ->
  reported_module_for (c_run A st h) raw
  = replay (module_update (m_origin m)) A st h (reported_module_for st raw).
Proof. exact (module_last_set A st h raw m). Qed.
Print Assumptions C30_last_set.

Theorem C30_first_set A q e i owner isms st0 r raw m :
  c_instantiate A q e i (IRoutingIsm owner isms) = Ok (st0, r) -> msg_decode raw = Ok m ->
  is_routing_ism st0 /\ reported_module_for st0 raw = last_entry (m_origin m) isms.
Proof. exact (module_initial A q e i owner isms st0 r raw m). Qed.
Print Assumptions C30_first_set.

Definition ex_routing_ism : cstate :=
  c_run ex_api (born (IRoutingIsm (s "owner") [(5, s "no"); (6, s "yes6"); (5, s "yes5")]))
    [call "mallory" (MRoutingSet 5 (s "no")); call "owner" (MRoutingSet 7 (s "yes7"));
     call "owner" (MRoutingUnset [6; 8])].
Definition ex_from (d : N) : bytes := msg_encode (mkMessage 3 8 d (repeat x0a 32) 7 (repeat x0b 32) (s "hi")).
Example C30_example :
  map (fun d => reported_module_for ex_routing_ism (ex_from d)) [5; 6; 7; 8]
    = [Some (s "yes5"); None; Some (s "yes7"); None] /\
  map (fun d => c_query ex_api ex_modules (QVerify (s "ok") (ex_from d)) ex_routing_ism) [5; 6; 7]
    = [Ok (RVerified true); Err ERouteNotFound; Ok (RVerified true)].
Proof. split; vm_compute; reflexivity. Qed.

(** The verify-info part is false: the routing module never gives a verify-info
    answer, because it sends the query without its wrapper and reads the answer
    as a verdict.  Here the routed module is a real multisig module. *)
Theorem C30_verify_info_refuted :
  exists A q raw st a module t vs,
    is_routing_ism st /\ reported_module_for st raw = Some a /\
    (forall m, q_smart q a m = c_query A no_querier m module) /\
    c_query A no_querier (QVerifyInfo raw) module = Ok (RVerifyInfo t vs) /\
    c_query A q (QVerifyInfo raw) st = Err EStd.
Proof.
  exists ex_recover,
    (mkQuerier (fun _ m => c_query ex_recover no_querier m ex_multisig) (fun _ _ => 0) (fun _ => [])),
    ex_raw, ex_routing_ism, (s "yes5"), ex_multisig, 2, [ex_val x01; ex_val x02; ex_val x03].
  split; [exact I|]. split; [vm_compute; reflexivity|]. split; [reflexivity|].
  split; vm_compute; reflexivity.
Qed.
Print Assumptions C30_verify_info_refuted.

Theorem C30_no_verify_info A q raw st t vs :
  is_routing_ism st -> c_query A q (QVerifyInfo raw) st <> Ok (RVerifyInfo t vs).
Proof. exact (routing_no_info A q raw st t vs). Qed.
Print Assumptions C30_no_verify_info.

Example C30_no_verify_info_example :
  is_routing_ism ex_routing_ism /\
  c_query ex_recover no_querier (QVerifyInfo ex_raw) ex_multisig
    = Ok (RVerifyInfo 2 [ex_val x01; ex_val x02; ex_val x03]).
Proof. split; [exact I|vm_compute; reflexivity]. Qed.

(** ** C31 *)
(** [reported_paused] is the last accepted pause or unpause: C13. *)
Theorem C31_ism A q metadata raw st b :
  is_pausable_ism st -> reported_paused st = Some b ->
  c_query A q (QVerify metadata raw) st = if b then Err EPaused else Ok (RVerified true).
Proof. exact (pausable_ism A q metadata raw st b). Qed.
Print Assumptions C31_ism.

Theorem C31_hook A Q e i metadata raw st b :
  is_pausable_hook st -> reported_paused st = Some b ->
  c_execute A Q e i (MPostDispatch metadata raw) st
  = if b then Err EPaused else Ok (st, mkResp [] None).
Proof. exact (pausable_hook A Q e i metadata raw st b). Qed.
Print Assumptions C31_hook.

Definition ex_pauses : list event :=
  [call "mallory" (MPausable Pause); call "alice" (MPausable Pause)].
Example C31_example :
  let hook := born (IPausableHook (s "alice") false) in
  let ism := born (IPausableIsm (s "alice") false) in
  reported_paused (c_run ex_api hook ex_pauses) = Some true /\
  accepted ex_api hook (call "mb" (MPostDispatch [] ex_raw)) = true /\
  accepted ex_api (c_run ex_api hook ex_pauses) (call "mb" (MPostDispatch [] ex_raw)) = false /\
  c_query ex_api no_querier (QVerify [] ex_raw) ism = Ok (RVerified true) /\
  c_query ex_api no_querier (QVerify [] ex_raw) (c_run ex_api ism ex_pauses) = Err EPaused.
Proof. repeat split; vm_compute; reflexivity. Qed.
