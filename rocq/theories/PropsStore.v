(** * The raw database: C79, C80 *)
From Coq Require Import List NArith Bool.
From Verif Require Import Base OMap Crypto Coins Hex Chain Router Utils Mailbox Va Isms Hooks Igp Warp Contracts Wire WireQuery SpecWire Store SpecStore
  StoreState StoreTexts StoreFrame StorePages PropsAccess PropsMailbox PropsHooks.
Import ListNotations.

(** ** C79: what is stored is read back, entry by entry *)
Theorem C79_read_back A v st : kept_by A st -> load_state (program_of st) (storage v st) = Ok st.
Proof. intros K. exact (read_back v st (kept_stored A st K) (proj2 K)). Qed.
Print Assumptions C79_read_back.

Theorem C79_version A v st : kept_by A st -> load version_c (s "contract_info") (storage v st) = Ok v.
Proof. intros K. exact (read_version v st (kept_stored A st K)). Qed.
Print Assumptions C79_version.

(** the database, key by key and byte by byte *)
Theorem C79_entries A v st k t : kept_by A st -> (om_get k (storage v st) = Some t <-> In (k, t) (dump v st)).
Proof. intros K. exact (storage_dump v st k t (kept_stored A st K) (proj2 K)). Qed.
Print Assumptions C79_entries.

Theorem C79_nothing_shared A A' v v' st st' : kept_by A st -> kept_by A' st' -> program_of st = program_of st' ->
  storage v st = storage v' st' -> st = st' /\ v = v'.
Proof. intros K K'. exact (same_database v v' st st' (kept_stored A st K) (kept_stored A' st' K') (proj2 K) (proj2 K')). Qed.
Print Assumptions C79_nothing_shared.

(** an accepted call leaves every other entry alone, byte for byte *)
Theorem C79_writes A v ev st st' r k : kept_by A st -> timely ev -> c_apply A ev st = Ok (st', r) -> ~ event_writes ev k ->
  om_get k (storage v st') = om_get k (storage v st).
Proof. intros K. exact (frame A v ev st st' r k (kept_stored A st K)). Qed.
Print Assumptions C79_writes.

(** The database of a mailbox after a dispatch, and what the dispatch left alone. *)
Definition ex_version : cw2 := mkCw2 (s "hpl-mailbox") (s "0.0.7").
Definition ex_dispatched : cstate := c_run ex_api ex_mailbox [ex_dispatch ex_funds].
Example C79_example :
  kept_by ex_api ex_dispatched /\
  let d := storage ex_version ex_dispatched in
  om_get (s "nonce") d = Some (s "1") /\
  om_get (s "nonce") (storage ex_version ex_mailbox) = Some (s "0") /\
  om_get (s "owner") d = Some [x22; x6f; x77; x6e; x65; x72; x22] /\
  om_get (s "latest_dispatched_id") (storage ex_version ex_mailbox) = None /\
  om_get (s "latest_dispatched_id") d <> None /\
  map fst d = [s "config"; s "contract_info"; s "latest_dispatched_id"; s "nonce"; s "owner"]%list /\
  In (s "config", s "{""hrp"":""osmo"",""local_domain"":7,""default_ism"":""ism"",""default_hook"":""hook"",""required_hook"":""required""}")
     (dump ex_version ex_dispatched) /\
  load_state PMailbox d = Ok ex_dispatched /\
  ~ event_writes (ex_dispatch ex_funds) (s "config").
Proof.
  split.
  - split; [|intros x H; vm_compute in H; discriminate].
    exists no_querier, ex_env, (mkInfo (s "creator") []), (IMailbox (s "osmo") (s "owner") 7). do 2 eexists. exists (ex_setup ++ [ex_dispatch ex_funds]).
    split; [vm_compute; reflexivity|]. split; [repeat constructor|vm_compute; reflexivity].
  - cbv zeta. repeat split; try (vm_compute; reflexivity); [vm_compute; discriminate|vm_compute; auto 10|].
    intros [H|H]; vm_compute in H; discriminate.
Qed.

(** ** C80: queries answer from exactly the entries they should *)
Theorem C80_route A q v st n : kept_by A st -> routed st = true -> n < 2 ^ 32 ->
  c_query A q (QGetRoute n) st = Ok (RRoute (mkRouteSet n (load_route (hex_router st) n (storage v st)))).
Proof. intros K R H. exact (read_route A q v st (kept_stored A st K) R n (proj2 (N.ltb_lt _ _) H)). Qed.
Print Assumptions C80_route.

Theorem C80_domains A q v st : kept_by A st -> routed st = true ->
  c_query A q QDomains st = (l <- load_routes (hex_router st) (storage v st) ;; Ok (RDomains (map fst l))).
Proof. intros K R. exact (read_domains A q v st (kept_stored A st K) R). Qed.
Print Assumptions C80_domains.

Theorem C80_routes A q v st off lim o : kept_by A st -> routed st = true -> qmsg_ok (QListRoutes off lim o) = true ->
  c_query A q (QListRoutes off lim o) st
  = (l <- load_page u32_key u32_back (option_c (route_c (hex_router st))) (section (s "routes")) off lim o (storage v st) ;;
     Ok (RRoutes (map (fun p => mkRouteSet (fst p) (snd p)) l))).
Proof. intros K R. exact (page_routes A q v st (kept_stored A st K) R off lim o). Qed.
Print Assumptions C80_routes.

Theorem C80_gas A q v x off lim o : kept_by A (SIgp x) -> qmsg_ok (QListGas off lim o) = true ->
  c_query A q (QListGas off lim o) (SIgp x)
  = (l <- load_page u32_key u32_back u128_c (section (s "gas_for_domain")) off lim o (storage v (SIgp x)) ;; Ok (RGasList l)).
Proof. intros K. exact (page_gas A q v x off lim o (kept_stored A _ K)). Qed.
Print Assumptions C80_gas.

Theorem C80_custom_hooks A q v x n off lim o : kept_by A (SCustomHook x) -> qmsg_ok (QCustomHooks n off lim o) = true ->
  c_query A q (QCustomHooks n off lim o) (SCustomHook x)
  = (start <- match off with Some t => r <- hex_decode t ;; Ok (Some r) | None => Ok None end ;;
     l <- load_page (fun k => k) octets_back string_c (custom_section n) start lim o (storage v (SCustomHook x)) ;;
     Ok (RCustomHooks (map (fun p => mkCustomHook n (hex_encode (fst p)) (snd p)) l))).
Proof. intros K. exact (page_custom A q v x n off lim o (kept_stored A _ K)). Qed.
Print Assumptions C80_custom_hooks.

Theorem C80_validators A q v x : kept_by A (SVa x) ->
  c_query A q QValidators (SVa x)
  = (l <- load_all octets_back nothing_c (s "validators") (storage v (SVa x)) ;; Ok (RValidators (map (fun p => hex_encode (fst p)) l))).
Proof. intros K. exact (read_validators A q v x (kept_stored A _ K)). Qed.
Print Assumptions C80_validators.

(** Domain 255 is the one whose section ends in a byte that has no successor: the end
    of its scan is the section of domain 256, and the hooks of the two are kept apart.
    A route that was removed is there, as [null], and counts as none. *)
Definition ex_edges : list event :=
  ex_routes ++ [call "owner" (MRegisterCustomHooks
    [mkCustomHook 255 (hex_encode (repeat xab 32)) (s "beta"); mkCustomHook 256 (hex_encode (repeat x00 32)) (s "free");
     mkCustomHook 255 (hex_encode (repeat xff 32)) (s "free"); mkCustomHook 254 (hex_encode (repeat xff 32)) (s "beta")])].
Definition ex_custom_edges : cstate := c_run ex_api (born (ICustomHook (s "owner"))) ex_edges.
Example C80_example :
  kept_by ex_api ex_custom_edges /\ routed ex_custom_edges = true /\
  let d := storage ex_version ex_custom_edges in
  let page n start o := load_page (fun k => k) octets_back string_c (custom_section n) start None o d in
  page 255 None None = Ok [(repeat xab 32, s "beta"); (repeat xff 32, s "free")] /\
  page 255 None (Some Desc) = Ok [(repeat xff 32, s "free"); (repeat xab 32, s "beta")] /\
  page 255 (Some (repeat xab 32)) None = Ok [(repeat xff 32, s "free")] /\
  page 256 None None = Ok [(repeat x00 32, s "free")] /\
  page 253 None None = Ok [] /\
  om_get (entry (s "routes") (domain 8)) d = Some (s "null") /\
  load_route false 8 d = None /\ load_route false 7 d = Some (s "alpha").
Proof.
  split.
  - split; [|intros x H; vm_compute in H; discriminate].
    exists no_querier, ex_env, (mkInfo (s "creator") []), (ICustomHook (s "owner")). do 2 eexists. exists ex_edges.
    split; [vm_compute; reflexivity|]. split; [repeat constructor|vm_compute; reflexivity].
  - cbv zeta. repeat split; vm_compute; reflexivity.
Qed.
