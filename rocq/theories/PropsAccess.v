(** * Who may change what: ownership, pausing, routes, connections, listings,
      mailbox settings, migration (C12-C15, C22, C48, C49). *)
From Coq Require Import List NArith Bool Lia Sorted.
From Verif Require Import Base OMap Coins Message Hex Chain Contracts Spec Utils
  Ownable Router Mailbox Va Isms Hooks Igp Warp Cw20
  StepFacts AccessFacts PagingFacts MailboxConfFacts MigrateFacts
  SpecModules SpecVersion AcceptFacts VersionFacts.
Import ListNotations.

(** ** Example vocabulary *)
Definition ex_api : api := mkApi (fun _ => true) (fun _ _ _ => None).
Definition ex_env : env := mkEnv (s "contract") 7.
Definition call (who : string) (m : emsg) : event :=
  EvExec ex_env (mkInfo (s who) []) m (fun _ => no_querier).
Definition born (m : imsg) : cstate :=
  match c_instantiate ex_api no_querier ex_env (mkInfo (s "creator") []) m with
  | Ok (st, _) => st
  | _ => SPausableIsm (mkPi (own_init []) false)
  end.

(** ** C12 *)
Theorem C12_owner_changes_by_consent A q e i m st0 r h c :
  c_instantiate A q e i m = Ok (st0, r) ->
  reported_owner (c_run A st0 (h ++ [c])) <> reported_owner (c_run A st0 h) ->
  exists a b,
    reported_owner (c_run A st0 h) = Some a /\
    reported_owner (c_run A st0 (h ++ [c])) = Some b /\
    own_request c = Some ClaimOwnership /\ ev_sender c = Some b /\
    accepted A (c_run A st0 h) c = true /\
    exists h1 offer h2,
      h = h1 ++ offer :: h2 /\
      own_request offer = Some (InitOwnershipTransfer b) /\
      ev_sender offer = Some a /\
      reported_owner (c_run A st0 h1) = Some a /\
      reported_pending (c_run A st0 h1) = None /\
      accepted A (c_run A st0 h1) offer = true /\
      (forall h3 ev h4, h2 = h3 ++ ev :: h4 ->
         accepted A (c_run A st0 (h1 ++ offer :: h3)) ev = true -> own_request ev = None).
Proof. exact (ownership_two_step A q e i m st0 r h c). Qed.

Theorem C12_ownership_requests_guarded A st ev om :
  accepted A st ev = true -> own_request ev = Some om ->
  match om with
  | InitOwnershipTransfer _ =>
      ev_sender ev = reported_owner st /\ reported_pending st = None
  | RevokeOwnershipTransfer =>
      ev_sender ev = reported_owner st /\ reported_pending st <> None
  | ClaimOwnership => ev_sender ev = reported_pending st /\ reported_pending st <> None
  end.
Proof. exact (ownership_calls A st ev om). Qed.

(** and every request meeting that is accepted, at once having its effect *)
Theorem C12_accepted_exactly A e i om Q st o :
  reported_owner st = Some o ->
  (accepted A st (EvExec e i (own_msg st om) Q) = true <->
   match om with
   | InitOwnershipTransfer n => i_sender i = o /\ valid A n /\ reported_pending st = None
   | RevokeOwnershipTransfer => i_sender i = o /\ reported_pending st <> None
   | ClaimOwnership => reported_pending st = Some (i_sender i)
   end).
Proof. exact (own_accepted A e i om Q st o). Qed.

Theorem C12_effect A st ev om :
  accepted A st ev = true -> own_request ev = Some om ->
  match om with
  | InitOwnershipTransfer b =>
      reported_pending (c_step A st ev) = Some b /\ reported_owner (c_step A st ev) = reported_owner st
  | RevokeOwnershipTransfer =>
      reported_pending (c_step A st ev) = None /\ reported_owner (c_step A st ev) = reported_owner st
  | ClaimOwnership =>
      reported_pending (c_step A st ev) = None /\ reported_owner (c_step A st ev) = ev_sender ev
  end.
Proof. exact (own_effect A st ev om). Qed.

Theorem C12_rejected_calls_change_nothing A st ev :
  accepted A st ev = false -> c_step A st ev = st.
Proof. exact (c_step_rejected A st ev). Qed.

Definition ex_transfer : list event :=
  [call "mallory" (MOwnable (InitOwnershipTransfer (s "mallory")));
   call "alice" (MOwnable (InitOwnershipTransfer (s "bob")));
   call "carol" (MOwnable ClaimOwnership);
   call "alice" (MSetFee (mkCoin (s "uosmo") 5))].
Example C12_example :
  let st0 := born (IFeeHook (s "alice") (mkCoin (s "uosmo") 1)) in
  reported_owner (c_run ex_api st0 ex_transfer) = Some (s "alice") /\
  reported_pending (c_run ex_api st0 ex_transfer) = Some (s "bob") /\
  map (fun p => ev_sender (snd p)) (accepted_calls ex_api st0 ex_transfer)
    = [Some (s "alice"); Some (s "alice")] /\
  reported_owner (c_run ex_api st0 (ex_transfer ++ [call "bob" (MOwnable ClaimOwnership)]))
    = Some (s "bob").
Proof. vm_compute. auto. Qed.

(** ** C13 *)
Theorem C13_pauses_alternate A st h b :
  reported_paused st = Some b ->
  alternates b (pauses A st h) /\
  reported_paused (c_run A st h) = Some (paused_after b (pauses A st h)).
Proof. exact (pause_history A st h b). Qed.

Theorem C13_only_the_owner_pauses A st ev pm :
  accepted A st ev = true -> pause_request ev = Some pm ->
  ev_sender ev = reported_owner st /\
  match pm with
  | Pause => reported_paused st = Some false /\ reported_paused (c_step A st ev) = Some true
  | Release => reported_paused st = Some true /\ reported_paused (c_step A st ev) = Some false
  end.
Proof. exact (pause_step A st ev pm). Qed.

Theorem C13_accepted_exactly A e i pm Q st b :
  reported_paused st = Some b ->
  (accepted A st (EvExec e i (MPausable pm) Q) = true <->
   Some (i_sender i) = reported_owner st /\ b = match pm with Pause => false | Release => true end).
Proof. exact (pause_accepted A e i pm Q st b). Qed.

Example C13_example :
  let st := born (IPausableHook (s "alice") false) in
  let h := [call "alice" (MPausable Pause); call "bob" (MPausable Release);
            call "alice" (MPausable Pause); call "alice" (MPausable Release);
            call "alice" (MPausable Pause)] in
  reported_paused st = Some false /\
  pauses ex_api st h = [Pause; Release; Pause] /\
  reported_paused (c_run ex_api st h) = Some true.
Proof. vm_compute. auto. Qed.

(** ** C14 *)
Theorem C14_route_is_the_last_update A q e i m st0 r h d r0 :
  c_instantiate A q e i m = Ok (st0, r) -> d < u32_max ->
  reported_route st0 d = Some r0 ->
  r0 = None /\
  reported_route (c_run A st0 h) d = Some (last_update d (updates A st0 h) None).
Proof. exact (fun H Hd H0 => route_last_update A q e i m st0 r h d r0 H Hd H0). Qed.

Theorem C14_only_the_owner_routes A st ev rm :
  accepted A st ev = true -> ev_msg ev = Some (MRouter rm) ->
  ev_sender ev = reported_owner st.
Proof. exact (router_owner_only A st ev rm). Qed.

Theorem C14_accepted_exactly A e i rm Q st d r0 :
  reported_route st d = Some r0 ->
  (accepted A st (EvExec e i (MRouter rm) Q) = true <->
   Some (i_sender i) = reported_owner st /\
   domains_ok (map rs_domain (match rm with SetRoute r => [r] | SetRoutes l => l end))).
Proof. exact (route_accepted A e i rm Q st d r0). Qed.

(** the crate's own check of a router agrees with the reported route *)
Theorem C14_is_router r d x :
  (rs_route (get_route r d) = None -> exists e, is_router r d x = Err e) /\
  (forall v, rs_route (get_route r d) = Some v -> exists b, is_router r d x = Ok b /\ (b = true <-> x = v)).
Proof. exact (is_router_answer r d x). Qed.
Print Assumptions C14_is_router.
Example C14_is_router_example :
  let r := om_set 5 (Some (s "a")) [] in
  rs_route (get_route r 5) = Some (s "a") /\ rs_route (get_route r 6) = None /\
  is_router r 5 (s "a") = Ok true /\ is_router r 5 (s "b") = Ok false.
Proof. vm_compute. auto. Qed.

Example C14_example :
  let st := born (IRoutingHook (s "alice")) in
  let set d v := mkRouteSet d v in
  let h := [call "alice" (MRouter (SetRoutes [set 1 (Some (s "a")); set 2 (Some (s "b")); set 1 (Some (s "c"))]));
            call "bob" (MRouter (SetRoute (set 1 (Some (s "evil")))));
            call "alice" (MRouter (SetRoute (set 2 None)))] in
  reported_route st 1 = Some None /\
  reported_route (c_run ex_api st h) 1 = Some (Some (s "c")) /\
  reported_route (c_run ex_api st h) 2 = Some None.
Proof. vm_compute. auto. Qed.

(** ** C15 *)
Theorem C15_route_pages A q e i im st0 r0 h ds lim o :
  c_instantiate A q e i im = Ok (st0, r0) ->
  let st := c_run A st0 h in
  reported_domains st = Some ds -> page_limit lim ->
  ascending N.ltb ds /\
  forall fuel, (length ds < fuel)%nat ->
  fetch (ask_routes st lim o) rs_domain fuel None
  = Some (in_order o (map (fun d => mkRouteSet d
            (match reported_route st d with Some x => x | None => None end)) ds)).
Proof. exact (routes_pages A q e i im st0 r0 h ds lim o). Qed.

Theorem C15_gas_pages A q e i hrp ow tk bn gas st0 r0 h lim o :
  c_instantiate A q e i (IIgp hrp ow tk bn gas) = Ok (st0, r0) -> page_limit lim ->
  let st := c_run A st0 h in
  exists l,
    ascending N.ltb (map fst l) /\
    (forall d g, d < u32_max -> In (d, g) l <-> reported_gas st d = Some g) /\
    forall fuel, (length l < fuel)%nat ->
      fetch (ask_gas st lim o) fst fuel None = Some (in_order o l).
Proof. exact (gas_pages A q e i hrp ow tk bn gas st0 r0 h lim o). Qed.

Theorem C15_custom_hook_pages A q e i ow st0 r0 h d lim o :
  c_instantiate A q e i (ICustomHook ow) = Ok (st0, r0) -> d < u32_max -> page_limit lim ->
  let st := c_run A st0 h in
  exists l,
    ascending bytes_ltb (map ch_recipient l) /\
    (forall c, In c l <-> ch_dest c = d /\ reported_hook st d (ch_recipient c) = Some c) /\
    forall fuel, (length l < fuel)%nat ->
      fetch (ask_hooks st d lim o) ch_recipient fuel None = Some (in_order o l).
Proof. exact (hooks_pages A q e i ow st0 r0 h d lim o). Qed.

Definition ex_igp : cstate :=
  c_run ex_api (born (IIgp (s "osmo") (s "alice") (s "uosmo") (s "bob") 100))
    [call "alice" (MSetGasForDomain [(5, 50); (1, 10); (3, 30)]);
     call "alice" (MUnsetGasForDomain [3]);
     call "alice" (MSetGasForDomain [(9, 90)])].
Example C15_example :
  fetch (ask_gas ex_igp (Some 2) (Some Asc)) fst 4 None = Some [(1, 10); (5, 50); (9, 90)] /\
  fetch (ask_gas ex_igp (Some 1) (Some Desc)) fst 4 None = Some [(9, 90); (5, 50); (1, 10)].
Proof. vm_compute. auto. Qed.

(** ** C22 *)
Theorem C22_settings_are_the_owners_last A hrp ow dom q e i st0 r h :
  c_instantiate A q e i (IMailbox hrp ow dom) = Ok (st0, r) ->
  let st := c_run A st0 h in
  reported_default_ism st
    = last_accepted (fun m => match m with MSetDefaultIsm a => Some a | _ => None end) A st0 h None /\
  reported_default_hook st
    = last_accepted (fun m => match m with MSetDefaultHook a => Some a | _ => None end) A st0 h None /\
  reported_required_hook st
    = last_accepted (fun m => match m with MSetRequiredHook a => Some a | _ => None end) A st0 h None /\
  reported_hrp st = Some hrp /\ reported_domain st = Some dom.
Proof. exact (mailbox_settings A hrp ow dom q e i st0 r h). Qed.

Theorem C22_only_the_owner_and_one_field A hrp ow dom q0 e i st0 r h ev m :
  c_instantiate A q0 e i (IMailbox hrp ow dom) = Ok (st0, r) ->
  let st := c_run A st0 h in
  accepted A st ev = true -> ev_msg ev = Some m ->
  (exists a, m = MSetDefaultIsm a \/ m = MSetDefaultHook a \/ m = MSetRequiredHook a) ->
  ev_sender ev = reported_owner st /\
  forall B q qm,
    (forall a, m = MSetDefaultIsm a -> qm <> QDefaultIsm /\ (forall r, qm <> QRecipientIsm r)) ->
    (forall a, m = MSetDefaultHook a -> qm <> QDefaultHook /\ (forall sd d, qm <> QMailboxQuote sd d)) ->
    (forall a, m = MSetRequiredHook a -> qm <> QRequiredHook /\ (forall sd d, qm <> QMailboxQuote sd d)) ->
    c_query B q qm (c_step A st ev) = c_query B q qm st.
Proof. exact (mailbox_one_field A hrp ow dom q0 e i st0 r h ev m). Qed.

Theorem C22_accepted_exactly A e i m a Q st dom :
  reported_domain st = Some dom ->
  m = MSetDefaultIsm a \/ m = MSetDefaultHook a \/ m = MSetRequiredHook a ->
  (accepted A st (EvExec e i m Q) = true <-> Some (i_sender i) = reported_owner st /\ valid A a).
Proof. exact (mailbox_setting_accepted A e i m a Q st dom). Qed.

Example C22_example :
  let st0 := born (IMailbox (s "osmo") (s "alice") 26657) in
  let h := [call "alice" (MSetDefaultIsm (s "ism1")); call "bob" (MSetDefaultIsm (s "evil"));
            call "alice" (MSetRequiredHook (s "hook")); call "alice" (MSetDefaultIsm (s "ism2"))] in
  reported_default_ism (c_run ex_api st0 h) = Some (s "ism2") /\
  reported_default_hook (c_run ex_api st0 h) = None /\
  reported_required_hook (c_run ex_api st0 h) = Some (s "hook") /\
  reported_hrp st0 = Some (s "osmo").
Proof. vm_compute. auto. Qed.

(** ** C48 *)
Theorem C48_migration_accepted_iff_newer stored name ver out :
  migrate stored name ver = Ok out <->
  exists st old new, stored = Some st /\ cv_contract st = name /\
    spells old (cv_version st) /\ spells new ver /\ newer new old /\ out = mkCw2 name ver.
Proof. exact (migrate_exactly stored name ver out). Qed.

Theorem C48_versions_strictly_increase st l :
  StronglySorted (fun a b => supersedes b a) (st :: migrations (Some st) l) /\
  Forall (fun c => cv_contract c = cv_contract st) (migrations (Some st) l).
Proof. exact (migrations_supersede st l). Qed.

Theorem C48_order_is_strict a b c :
  (supersedes b a -> supersedes c b -> supersedes c a) /\ ~ supersedes a a.
Proof. exact (supersedes_strict a b c). Qed.

Theorem C48_texts_are_read_exactly l v : version_parse l = Some v <-> spells v l.
Proof. exact (parse_iff l v). Qed.

Example C48_example :
  let m v := (s "hpl-mailbox", s v) in
  map cv_version (migrations (Some (mkCw2 (s "hpl-mailbox") (s "0.0.6-rc8")))
    [m "0.0.6-rc8"; m "0.0.6-rc.9"; m "0.0.6"; m "0.0.5"; (s "hpl-igp", s "9.0.0"); m "0.10.0"; m "0.9.0"; m "x"]%string)
  = [s "0.0.6"; s "0.10.0"].
Proof. vm_compute. reflexivity. Qed.

(** the ordering example of semver.org *)
Example C48_order_example :
  let v := map (fun x => mkCw2 (s "hpl-igp") (s x))
    ["1.0.0-alpha"; "1.0.0-alpha.1"; "1.0.0-alpha.beta"; "1.0.0-beta"; "1.0.0-beta.2"; "1.0.0-beta.11";
     "1.0.0-rc.1"; "1.0.0"; "1.0.0+5"; "1.0.0+05"; "1.0.0+x"; "1.0.1-0"]%string in
  StronglySorted (fun a b => supersedes b a) v.
Proof.
  cbv zeta. apply Sorted_StronglySorted; [intros a b c H1 H2; exact (proj1 (supersedes_strict a b c) H1 H2)|].
  cbn [map]. repeat (constructor; [|constructor; apply supersedes_iff; eexists; eexists;
    (split; [vm_compute; reflexivity|]; split; vm_compute; reflexivity)]).
  constructor; constructor.
Qed.

(** ** C49 *)
Theorem C49_connections_are_the_last_set A st h m0 i0 k0 :
  reported_conn st QConnMailbox = Some m0 ->
  reported_conn st QConnIsm = Some i0 ->
  reported_conn st QConnHook = Some k0 ->
  reported_conn (c_run A st h) QConnMailbox = Some (last_some mailbox_of_request (conns A st h) m0) /\
  reported_conn (c_run A st h) QConnIsm = Some (last_some ism_of_request (conns A st h) i0) /\
  reported_conn (c_run A st h) QConnHook = Some (last_some hook_of_request (conns A st h) k0).
Proof. exact (conns_history A st h m0 i0 k0). Qed.

Theorem C49_only_the_owner_connects A st ev cm :
  accepted A st ev = true -> conn_request ev = Some cm ->
  ev_sender ev = reported_owner st.
Proof. exact (conn_owner_only A st ev cm). Qed.

Theorem C49_accepted_exactly A e i cm Q st a0 :
  reported_conn st QConnMailbox = Some a0 ->
  (accepted A st (EvExec e i (MConnection cm) Q) = true <->
   Some (i_sender i) = reported_owner st /\
   valid A (match cm with SetMailbox a | SetHook a | SetIsm a => a end)).
Proof. exact (conn_accepted A e i cm Q st a0). Qed.

(** the module named to a mailbox that asks is the one reported above; contracts
    without connections name none *)
Theorem C49_named_module A q st r :
  c_query A q QIsmSpecifier st = Ok r <-> exists o, reported_conn st QConnIsm = Some o /\ r = RIsm o.
Proof. exact (module_named A q st r). Qed.

Example C49_example :
  let st := born (IWarpNative (NtCollateral (s "uosmo")) (s "osmo") (s "alice") (s "mailbox")) in
  let h := [call "alice" (MConnection (SetIsm (s "ism"))); call "bob" (MConnection (SetIsm (s "evil")));
            call "alice" (MConnection (SetHook (s "hook")))] in
  reported_conn st QConnMailbox = Some None /\ reported_conn st QConnIsm = Some None /\
  reported_conn st QConnHook = Some None /\
  reported_conn (c_run ex_api st h) QConnIsm = Some (Some (s "ism")) /\
  reported_conn (c_run ex_api st h) QConnHook = Some (Some (s "hook")) /\
  reported_conn (c_run ex_api st h) QConnMailbox = Some None /\
  c_query ex_api no_querier QIsmSpecifier (c_run ex_api st h) = Ok (RIsm (Some (s "ism"))).
Proof. vm_compute. auto 10. Qed.

Print Assumptions C12_owner_changes_by_consent.
Print Assumptions C12_ownership_requests_guarded.
Print Assumptions C12_rejected_calls_change_nothing.
Print Assumptions C13_pauses_alternate.
Print Assumptions C13_only_the_owner_pauses.
Print Assumptions C14_route_is_the_last_update.
Print Assumptions C14_only_the_owner_routes.
Print Assumptions C15_route_pages.
Print Assumptions C15_gas_pages.
Print Assumptions C15_custom_hook_pages.
Print Assumptions C22_settings_are_the_owners_last.
Print Assumptions C22_only_the_owner_and_one_field.
Print Assumptions C48_migration_accepted_iff_newer.
Print Assumptions C48_versions_strictly_increase.
Print Assumptions C48_order_is_strict.
Print Assumptions C49_connections_are_the_last_set.
Print Assumptions C49_only_the_owner_connects.
Print Assumptions C12_accepted_exactly.
Print Assumptions C12_effect.
Print Assumptions C13_accepted_exactly.
Print Assumptions C14_accepted_exactly.
Print Assumptions C22_accepted_exactly.
Print Assumptions C49_accepted_exactly.
Print Assumptions C49_named_module.
Print Assumptions C48_texts_are_read_exactly.
