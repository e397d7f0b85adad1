(** * The entry points on the raw database.

    The other files model what each contract keeps as a record, and its entry
    points as functions on that record.  Here the same entry points are written
    once more as the sources have them: every [load], [may_load], [has], [save],
    [remove] and [range] goes to the database of the host, under the key it
    names, and meets the text it finds there, in the order of the source.  Nothing
    here assumes that an entry is present or can be read. *)
From Coq Require Import List NArith Bool.
From Verif Require Import Base OMap Crypto Message Metadata Bech32 Hex Coins Json Merkle Chain Ownable Router Utils
  Mailbox Va Isms Hooks Igp Warp Contracts Wire WireQuery Store.
Import ListNotations.

(** [Item::save], [Map::save], e.g. /repo/packages/ownable/src/lib.rs:26 *)
Definition save {A} (c : codec A) (k : bytes) (a : A) (d : db) : db := om_set k (value_text c a) d.
(** [Item::remove], [Map::remove], e.g. /repo/packages/ownable/src/lib.rs:96 *)
Definition erase (k : bytes) (d : db) : db := om_del k d.
(** [Item::exists], [Map::has], e.g. /repo/packages/ownable/src/lib.rs:74 *)
Definition has (k : bytes) (d : db) : bool := match om_get k d with Some _ => true | None => false end.
(** [Map::keys], ascending: only the keys are read; e.g. /repo/packages/router/src/lib.rs:143-150 *)
Definition load_keys {K} (back : bytes -> option K) (ns : str) (d : db) : res (list K) :=
  mapM (fun e => ok_or (back (fst e)) EStd) (ranged (prefix [ns]) None None Asc d).
(** nothing was written, e.g. /repo/contracts/hooks/pausable/src/lib.rs:71-79 *)
Definition unwritten (d : db) (r : res response) : res (db * response) := o <- r ;; Ok (d, o).
(** written, no messages, e.g. /repo/packages/ownable/src/lib.rs:31-60 *)
Definition written (r : res db) : res (db * response) := d <- r ;; Ok (d, resp0).

(** ** /repo/packages *)
(** ownable/src/lib.rs:137-139 *)
Definition raw_owner (d : db) : res addr := load string_c (s "owner") d.
(** ownable/src/lib.rs:25-29 *)
Definition raw_own_init (o : addr) (d : db) : db := save string_c (s "owner") o d.
(** the guard of /repo/contracts/core/mailbox/src/execute.rs:31-35 and its likes *)
Definition raw_guard (i : info) (d : db) : res unit :=
  o <- raw_owner d ;; ensure (bytes_eqb o (i_sender i)) EUnauthorized.
(** ownable/src/lib.rs:31-118 *)
Definition raw_own_handle (A : api) (i : info) (m : ownable_msg) (d : db) : res db :=
  match m with
  | InitOwnershipTransfer n =>
      n' <- addr_validate A n ;;
      o <- raw_owner d ;;
      _ <- ensure (bytes_eqb (i_sender i) o) EUnauthorized ;;
      _ <- ensure (negb (has (s "pending_owner") d)) EOwnershipTransferring ;;
      Ok (save string_c (s "pending_owner") n' d)
  | RevokeOwnershipTransfer =>
      o <- raw_owner d ;;
      _ <- ensure (bytes_eqb (i_sender i) o) EUnauthorized ;;
      _ <- ensure (has (s "pending_owner") d) EOwnershipNotTransferring ;;
      Ok (erase (s "pending_owner") d)
  | ClaimOwnership =>
      _ <- ensure (has (s "pending_owner") d) EOwnershipNotTransferring ;;
      p <- load string_c (s "pending_owner") d ;;
      _ <- ensure (bytes_eqb (i_sender i) p) EUnauthorized ;;
      Ok (erase (s "pending_owner") (save string_c (s "owner") (i_sender i) d))
  end.
(** ownable/src/lib.rs:120-145 *)
Definition raw_own_query (m : qmsg) (d : db) : res qres :=
  match m with
  | QOwner => o <- raw_owner d ;; Ok (ROwner o)
  | QPendingOwner => p <- may_load string_c (s "pending_owner") d ;; Ok (RPendingOwner p)
  | _ => Err EParse
  end.

(** pausable/src/lib.rs:78-80 *)
Definition raw_paused (d : db) : res bool := load bool_c (s "pause") d.
(** pausable/src/lib.rs:28-64 *)
Definition raw_pause_handle (i : info) (m : pausable_msg) (d : db) : res db :=
  _ <- raw_guard i d ;;
  match m with
  | Pause => b <- raw_paused d ;; _ <- ensure (negb b) EAlreadyPaused ;; Ok (save bool_c (s "pause") true d)
  | Release => b <- raw_paused d ;; _ <- ensure b ENotPaused ;; Ok (save bool_c (s "pause") false d)
  end.

(** router/src/lib.rs:66-83 *)
Definition raw_set_route (h : bool) (d : db) (x : route_set) : db :=
  save (option_c (route_c h)) (path (s "routes") (u32_key (rs_domain x))) (rs_route x) d.
(** router/src/lib.rs:35-108 *)
Definition raw_router_handle (h : bool) (i : info) (m : router_msg) (d : db) : res db :=
  _ <- raw_guard i d ;;
  match m with
  | SetRoute x => Ok (raw_set_route h d x)
  | SetRoutes l => Ok (fold_left (raw_set_route h) l d)
  end.
(** router/src/lib.rs:110-134, 143-184 *)
Definition raw_router_query (h : bool) (m : qmsg) (d : db) : res qres :=
  match m with
  | QDomains => l <- load_keys u32_back (s "routes") d ;; Ok (RDomains l)
  | QGetRoute n => Ok (RRoute (mkRouteSet n (load_route h n d)))
  | QListRoutes off lim o =>
      l <- load_page u32_key u32_back (option_c (route_c h)) (prefix [s "routes"]) off lim o d ;;
      Ok (RRoutes (map (fun p => mkRouteSet (fst p) (snd p)) l))
  | _ => Err EParse
  end.

(** connection/src/lib.rs:27-70 *)
Definition raw_conn_handle (A : api) (i : info) (m : connection_msg) (d : db) : res db :=
  _ <- raw_guard i d ;;
  match m with
  | SetMailbox a => a' <- addr_validate A a ;; Ok (save string_c (s "conn::mailbox") a' d)
  | SetIsm a => a' <- addr_validate A a ;; Ok (save string_c (s "conn::ism") a' d)
  | SetHook a => a' <- addr_validate A a ;; Ok (save string_c (s "conn::hook") a' d)
  end.
(** connection/src/lib.rs:72-100 *)
Definition raw_conn_query (m : qmsg) (d : db) : res qres :=
  match m with
  | QConnMailbox => a <- may_load string_c (s "conn::mailbox") d ;; Ok (RConn a)
  | QConnHook => a <- may_load string_c (s "conn::hook") d ;; Ok (RConn a)
  | QConnIsm => a <- may_load string_c (s "conn::ism") d ;; Ok (RConn a)
  | _ => Err EParse
  end.

(** utils/src/lib.rs:20-45; the [migrate] entry point of every contract, e.g.
    /repo/contracts/core/mailbox/src/contract.rs:99-102 *)
Definition raw_migrate (name ver : str) (d : db) : res db :=
  x <- load version_c (s "contract_info") d ;;
  _ <- ensure (bytes_eqb (cv_contract x) name) EMigration ;;
  v <- ok_or (version_parse ver) EMigration ;;
  w <- ok_or (version_parse (cv_version x)) EMigration ;;
  if version_ltb w v then Ok (save version_c (s "contract_info") (mkCw2 name ver) d) else Err EMigration.

(** ** /repo/contracts/core/mailbox *)
(** [CONFIG.load], mailbox/src/state.rs:55-56 *)
Definition raw_config (d : db) := load config_c (s "config") d.
(** mailbox/src/contract.rs:18-48 *)
Definition raw_mb_instantiate (A : api) (hrp owner : str) (domain : N) (d : db) : res db :=
  _ <- ensure (hrp_lowercase hrp) EInvalidConfig ;;
  o <- addr_validate A owner ;;
  let d := save config_c (s "config") (hrp, (domain, (None, (None, (None, tt))))) d in
  let d := save u32_c (s "nonce") 0 d in
  Ok (raw_own_init o d).
(** mailbox/src/execute.rs:26-47 *)
Definition raw_set_default_ism (A : api) (i : info) (a : str) (d : db) : res db :=
  _ <- raw_guard i d ;;
  a' <- addr_validate A a ;;
  ' (h, (n, (ism, (hook, (req, u))))) <- raw_config d ;;
  Ok (save config_c (s "config") (h, (n, (Some a', (hook, (req, u))))) d).
(** mailbox/src/execute.rs:49-70 *)
Definition raw_set_default_hook (A : api) (i : info) (a : str) (d : db) : res db :=
  _ <- raw_guard i d ;;
  a' <- addr_validate A a ;;
  ' (h, (n, (ism, (hook, (req, u))))) <- raw_config d ;;
  Ok (save config_c (s "config") (h, (n, (ism, (Some a', (req, u))))) d).
(** mailbox/src/execute.rs:72-93 *)
Definition raw_set_required_hook (A : api) (i : info) (a : str) (d : db) : res db :=
  _ <- raw_guard i d ;;
  a' <- addr_validate A a ;;
  ' (h, (n, (ism, (hook, (req, u))))) <- raw_config d ;;
  Ok (save config_c (s "config") (h, (n, (ism, (hook, (Some a', u))))) d).
(** mailbox/src/execute.rs:95-154 *)
Definition raw_dispatch (A : api) (Q : db -> querier) (i : info) (m : dispatch_msg) (d : db) : res (db * response) :=
  ' (_, (domain, (_, (default_hook, (required_hook, _))))) <- raw_config d ;;
  nonce <- load u32_c (s "nonce") d ;;
  _ <- ensure (Nat.eqb (length (d_recipient m)) 32) (EInvalidAddressLength (N.of_nat (length (d_recipient m)))) ;;
  msg <- to_msg m MAILBOX_VERSION nonce domain (i_sender i) ;;
  default <- expect default_hook ;;
  hook <- get_hook_addr A m default ;;
  required <- expect required_hook ;;
  fees <- quote_dispatch (Q d) required (d_meta m) (msg_encode msg) ;;
  rest <- pay_required (i_funds i) fees ;;
  _ <- need (nonce + 1 <? u32_max) ;;
  let d := save u32_c (s "nonce") (nonce + 1) d in
  let d := save octets_c (s "latest_dispatched_id") (msg_id msg) d in
  Ok (d, mkResp [mkSub (post_dispatch required (d_meta m) (msg_encode msg) fees) RpNever;
                 mkSub (post_dispatch hook (d_meta m) (msg_encode msg) (coins_to_vec rest)) RpNever]
                (Some (msg_id msg))).
(** mailbox/src/execute.rs:156-226 *)
Definition raw_process (Q : db -> querier) (e : env) (i : info) (metadata message : bytes) (d : db) : res (db * response) :=
  ' (hrp, (domain, (default_ism, _))) <- raw_config d ;;
  m <- msg_decode message ;;
  recipient <- bech32_encode hrp (m_recipient m) ;;
  _ <- ensure (m_version m =? MAILBOX_VERSION) EInvalidMessageVersion ;;
  _ <- ensure (m_dest m =? domain) EInvalidDestinationDomain ;;
  own_ism <- recipient_ism (Q d) recipient ;;
  default <- expect default_ism ;;
  let ism := match own_ism with Some a => a | None => default end in
  let key := path (s "deliveries") (msg_id m) in
  _ <- ensure (negb (has key d)) EAlreadyDeliveredMessage ;;
  let d := save delivery_c key (mkDelivery (i_sender i) (e_height e)) d in
  verified <- ism_verify (Q d) ism metadata (msg_encode m) ;;
  _ <- ensure verified EVerifyFailed ;;
  Ok (d, resp [CExec recipient (MHandle (m_origin m) (m_sender m) (m_body m)) []]).
(** mailbox/src/contract.rs:51-70 *)
Definition raw_mb_execute (A : api) (Q : db -> querier) (e : env) (i : info) (m : emsg) (d : db) : res (db * response) :=
  match m with
  | MOwnable om => written (raw_own_handle A i om d)
  | MSetDefaultIsm a => written (raw_set_default_ism A i a d)
  | MSetDefaultHook a => written (raw_set_default_hook A i a d)
  | MSetRequiredHook a => written (raw_set_required_hook A i a d)
  | MDispatch x => raw_dispatch A Q i x d
  | MProcess md msg => raw_process Q e i md msg d
  | _ => Err EParse
  end.
(** mailbox/src/query.rs:88-132 *)
Definition raw_mb_quote (A : api) (q : querier) (sender : str) (m : dispatch_msg) (d : db) : res (list coin) :=
  snd <- addr_validate A sender ;;
  ' (_, (domain, (_, (default_hook, (required_hook, _))))) <- raw_config d ;;
  nonce <- load u32_c (s "nonce") d ;;
  msg <- to_msg m MAILBOX_VERSION nonce domain snd ;;
  default <- expect default_hook ;;
  required <- expect required_hook ;;
  hook <- get_hook_addr A m default ;;
  base <- quote_dispatch q hook (d_meta m) (msg_encode msg) ;;
  req <- quote_dispatch q required (d_meta m) (msg_encode msg) ;;
  acc <- coins_try_from base ;;
  total <- foldM coins_add req acc ;;
  Ok (coins_to_vec total).
(** mailbox/src/contract.rs:73-96 with mailbox/src/query.rs:17-86 *)
Definition raw_mb_query (A : api) (q : querier) (m : qmsg) (d : db) : res qres :=
  match m with
  | QOwner | QPendingOwner => raw_own_query m d
  | QMailboxQuote sender x => f <- raw_mb_quote A q sender x d ;; Ok (RFees f)
  | QHrp => ' (h, _) <- raw_config d ;; Ok (RHrp h)
  | QLocalDomain => ' (_, (n, _)) <- raw_config d ;; Ok (RLocalDomain n)
  | QDefaultIsm => ' (_, (_, (a, _))) <- raw_config d ;; a' <- expect a ;; Ok (RDefaultIsm a')
  | QDefaultHook => ' (_, (_, (_, (a, _)))) <- raw_config d ;; a' <- expect a ;; Ok (RDefaultHook a')
  | QRequiredHook => ' (_, (_, (_, (_, (a, _))))) <- raw_config d ;; a' <- expect a ;; Ok (RRequiredHook a')
  | QDelivered id => Ok (RDelivered (has (path (s "deliveries") id) d))
  | QRecipientIsm r =>
      ' (_, (_, (a, _))) <- raw_config d ;;
      default <- expect a ;;
      r' <- addr_validate A r ;;
      o <- recipient_ism q r' ;;
      Ok (RRecipientIsm (match o with Some x => x | None => default end))
  | QNonce => n <- load u32_c (s "nonce") d ;; Ok (RNonce n)
  | QLatestDispatchId => id <- load octets_c (s "latest_dispatched_id") d ;; Ok (RMessageId id)
  | _ => Err EParse
  end.

(** ** /repo/contracts/core/va *)
(** va/src/contract.rs:27-55 *)
Definition raw_va_instantiate (A : api) (q : querier) (mailbox : str) (d : db) : res db :=
  m <- addr_validate A mailbox ;;
  a <- bech32_decode m ;;
  r <- smart q m QLocalDomain ;;
  n <- match r with RLocalDomain n => Ok n | _ => Err EStd end ;;
  let d := save octets_c (s "mailbox") a d in
  Ok (save u32_c (s "local_domain") n d).
(** va/src/contract.rs:153-216 *)
Definition raw_announce (A : api) (validator signature : bytes) (location : str) (d : db) : res db :=
  _ <- ensure (Nat.eqb (length validator) 20) (EInvalidAddressLength (N.of_nat (length validator))) ;;
  let replay := path (s "replay_protections") (va_replay_hash validator location) in
  _ <- ensure (negb (has replay d)) EVerifyReplay ;;
  let d := save nothing_c replay tt d in
  domain <- load u32_c (s "local_domain") d ;;
  mailbox <- load octets_c (s "mailbox") d ;;
  dh <- va_domain_hash domain mailbox ;;
  let hash := eth_hash (va_announcement_hash dh location) in
  pk <- va_recover A hash signature ;;
  a <- eth_addr pk ;;
  _ <- ensure (bytes_eqb a validator) EVerifyFailed ;;
  let known := path (s "validators") validator in
  let d := if has known d then d else save nothing_c known tt d in
  let at_ := path (s "storage_locations") validator in
  l <- may_load (list_c string_c) at_ d ;;
  let l := match l with Some l => l | None => [] end in
  Ok (save (list_c string_c) at_ (l ++ [location]) d).
(** va/src/contract.rs:58-71 *)
Definition raw_va_execute (A : api) (m : emsg) (d : db) : res (db * response) :=
  match m with MAnnounce v sg l => written (raw_announce A v sg l d) | _ => Err EParse end.
(** va/src/contract.rs:74-121 *)
Definition raw_va_query (m : qmsg) (d : db) : res qres :=
  match m with
  | QLocations vs =>
      l <- mapM (fun v => o <- may_load (list_c string_c) (path (s "storage_locations") v) d ;;
                          Ok (hex_encode v, match o with Some l => l | None => [] end)) vs ;;
      Ok (RLocations l)
  | QValidators => l <- load_keys octets_back (s "validators") d ;; Ok (RValidators (map hex_encode l))
  | QVaMailbox => a <- load octets_c (s "mailbox") d ;; Ok (RMailbox (hex_encode a))
  | QVaLocalDomain => n <- load u32_c (s "local_domain") d ;; Ok (RLocalDomain n)
  | _ => Err EParse
  end.

(** ** /repo/contracts/isms/multisig *)
(** only the owner is kept: isms/multisig/src/contract.rs:25-38, hooks/routing/src/lib.rs:45-62,
    hooks/routing-custom/src/lib.rs:57-74, hooks/routing-fallback/src/lib.rs:47-64,
    igps/oracle/src/contract.rs:20-33 in /repo/contracts *)
Definition raw_owned (A : api) (owner : str) (d : db) : res db :=
  o <- addr_validate A owner ;; Ok (raw_own_init o d).
(** multisig/src/contract.rs:52-84 *)
Definition raw_set_validators (i : info) (n t : N) (vs : list bytes) (d : db) : res db :=
  _ <- raw_guard i d ;;
  _ <- ensure (forallb (fun v => Nat.eqb (length v) 20) vs) EWrongLength ;;
  _ <- ensure ((t <=? N.of_nat (length vs)) && (0 <? t))%bool EInvalidConfig ;;
  let d := save (list_c hex_c) (path (s "validators") (u32_key n)) vs d in
  Ok (save u8_c (path (s "threshold") (u32_key n)) t d).
(** multisig/src/contract.rs:85-100 *)
Definition raw_unset_domain (i : info) (n : N) (d : db) : res db :=
  _ <- raw_guard i d ;;
  let d := erase (path (s "validators") (u32_key n)) d in
  Ok (erase (path (s "threshold") (u32_key n)) d).
(** multisig/src/contract.rs:42-102 *)
Definition raw_ms_execute (A : api) (i : info) (m : emsg) (d : db) : res (db * response) :=
  match m with
  | MOwnable om => written (raw_own_handle A i om d)
  | MSetValidators n t vs => written (raw_set_validators i n t vs d)
  | MUnsetDomain n => written (raw_unset_domain i n d)
  | _ => Err EParse
  end.
(** multisig/src/contract.rs:106-134 with multisig/src/query.rs:21-83 *)
Definition raw_ms_query (A : api) (m : qmsg) (d : db) : res qres :=
  match m with
  | QOwner | QPendingOwner => raw_own_query m d
  | QModuleType => Ok (RModuleType TMessageIdMultisig)
  | QVerify metadata raw =>
      md <- mid_decode metadata ;;
      m <- msg_decode raw ;;
      hash <- ms_digest m md ;;
      vs <- load (list_c hex_c) (path (s "validators") (u32_key (m_origin m))) d ;;
      t <- load u8_c (path (s "threshold") (u32_key (m_origin m))) d ;;
      left <- ms_loop A hash vs (mid_signatures md) [] t ;;
      Ok (RVerified (left =? 0))
  | QVerifyInfo raw =>
      m <- msg_decode raw ;;
      t <- load u8_c (path (s "threshold") (u32_key (m_origin m))) d ;;
      vs <- load (list_c hex_c) (path (s "validators") (u32_key (m_origin m))) d ;;
      Ok (RVerifyInfo t vs)
  | QEnrolled n =>
      vs <- load (list_c hex_c) (path (s "validators") (u32_key n)) d ;;
      t <- load u8_c (path (s "threshold") (u32_key n)) d ;;
      Ok (REnrolled vs t)
  | _ => Err EParse
  end.

(** ** /repo/contracts/isms/aggregate/src/lib.rs *)
(** [ISMS.load], aggregate/src/lib.rs:26-27 *)
Definition raw_isms (d : db) : res (list addr) := load (list_c string_c) (s "isms") d.
(** [THRESHOLD.load], aggregate/src/lib.rs:29-30 *)
Definition raw_threshold (d : db) : res N := load u8_c (s "threshold") d.
(** aggregate/src/lib.rs:37-64 *)
Definition raw_ag_instantiate (A : api) (owner : str) (isms : list str) (t : N) (d : db) : res db :=
  o <- addr_validate A owner ;;
  l <- mapM (addr_validate A) isms ;;
  let d := raw_own_init o d in
  let d := save (list_c string_c) (s "isms") l d in
  Ok (save u8_c (s "threshold") t d).
(** aggregate/src/lib.rs:75-102 *)
Definition raw_set_isms (A : api) (i : info) (isms : list str) (t : N) (d : db) : res db :=
  _ <- raw_guard i d ;;
  _ <- ensure (0 <? t) EInvalidConfig ;;
  _ <- ensure (t <=? N.of_nat (length isms)) EInvalidConfig ;;
  l <- mapM (addr_validate A) isms ;;
  let d := save (list_c string_c) (s "isms") l d in
  Ok (save u8_c (s "threshold") t d).
(** aggregate/src/lib.rs:67-104 *)
Definition raw_ag_execute (A : api) (i : info) (m : emsg) (d : db) : res (db * response) :=
  match m with
  | MOwnable om => written (raw_own_handle A i om d)
  | MSetIsms isms t => written (raw_set_isms A i isms t d)
  | _ => Err EParse
  end.
(** aggregate/src/lib.rs:107-171 *)
Definition raw_ag_query (q : querier) (m : qmsg) (d : db) : res qres :=
  match m with
  | QOwner | QPendingOwner => raw_own_query m d
  | QModuleType => Ok (RModuleType TAggregation)
  | QVerify metadata message =>
      isms <- raw_isms d ;;
      t <- raw_threshold d ;;
      l <- agg_from_hex metadata isms ;;
      left <- ag_loop q message l t ;;
      Ok (RVerified (left =? 0))
  | QVerifyInfo _ =>
      t <- raw_threshold d ;;
      isms <- raw_isms d ;;
      vs <- mapM bech32_decode isms ;;
      Ok (RVerifyInfo t vs)
  | QIsms => isms <- raw_isms d ;; t <- raw_threshold d ;; Ok (RIsms isms t)
  | _ => Err EParse
  end.

(** ** /repo/contracts/isms/routing *)
(** [MODULES.save], routing/src/contract.rs:31-37, 59-63 *)
Definition raw_set_module (A : api) (d : db) (p : N * str) : res db :=
  a <- addr_validate A (snd p) ;; Ok (save string_c (path (s "modules") (u32_key (fst p))) a d).
(** routing/src/contract.rs:19-42 *)
Definition raw_ri_instantiate (A : api) (owner : str) (isms : list (N * str)) (d : db) : res db :=
  o <- addr_validate A owner ;;
  foldM (raw_set_module A) isms (raw_own_init o d).
(** routing/src/contract.rs:45-100 *)
Definition raw_ri_execute (A : api) (i : info) (m : emsg) (d : db) : res (db * response) :=
  match m with
  | MOwnable om => written (raw_own_handle A i om d)
  | MRoutingSet n a => written (_ <- raw_guard i d ;; raw_set_module A d (n, a))
  | MRoutingUnset l =>
      written (_ <- raw_guard i d ;; Ok (fold_left (fun d n => erase (path (s "modules") (u32_key n)) d) l d))
  | _ => Err EParse
  end.
(** routing/src/contract.rs:113-117, 126-130, 141-145 *)
Definition raw_module (message : bytes) (d : db) : res addr :=
  m <- msg_decode message ;;
  o <- may_load string_c (path (s "modules") (u32_key (m_origin m))) d ;;
  ok_or o ERouteNotFound.
(** routing/src/contract.rs:103-152 *)
Definition raw_ri_query (q : querier) (m : qmsg) (d : db) : res qres :=
  match m with
  | QOwner | QPendingOwner => raw_own_query m d
  | QModuleType => Ok (RModuleType TRouting)
  | QVerify md msg => a <- raw_module msg d ;; b <- ism_verify q a md msg ;; Ok (RVerified b)
  | QVerifyInfo msg =>
      a <- raw_module msg d ;;
      r <- smart q a (QBareVerifyInfo msg) ;;
      match r with RVerified b => Ok (RVerified b) | _ => Err EStd end
  | QRoute msg => a <- raw_module msg d ;; Ok (RRouteIsm a)
  | _ => Err EParse
  end.

(** ** /repo/contracts/isms/pausable/src/lib.rs and /repo/contracts/hooks/pausable/src/lib.rs *)
(** isms/pausable/src/lib.rs:39-57, hooks/pausable/src/lib.rs:41-59 *)
Definition raw_pausable (A : api) (owner : str) (b : bool) (d : db) : res db :=
  o <- addr_validate A owner ;;
  let d := raw_own_init o d in
  Ok (save bool_c (s "pause") b d).
(** isms/pausable/src/lib.rs:60-70 *)
Definition raw_pi_execute (A : api) (i : info) (m : emsg) (d : db) : res (db * response) :=
  match m with
  | MOwnable om => written (raw_own_handle A i om d)
  | MPausable pm => written (raw_pause_handle i pm d)
  | _ => Err EParse
  end.
(** isms/pausable/src/lib.rs:73-94 *)
Definition raw_pi_query (m : qmsg) (d : db) : res qres :=
  match m with
  | QOwner | QPendingOwner => raw_own_query m d
  | QPauseInfo => b <- raw_paused d ;; Ok (RPaused b)
  | QModuleType => Ok (RModuleType TNull)
  | QVerify _ _ => b <- raw_paused d ;; _ <- ensure (negb b) EPaused ;; Ok (RVerified true)
  | QVerifyInfo _ => Panic
  | _ => Err EParse
  end.
(** hooks/pausable/src/lib.rs:62-81 *)
Definition raw_ph_execute (A : api) (i : info) (m : emsg) (d : db) : res (db * response) :=
  match m with
  | MOwnable om => written (raw_own_handle A i om d)
  | MPausable pm => written (raw_pause_handle i pm d)
  | MPostDispatch _ _ => unwritten d (b <- raw_paused d ;; _ <- ensure (negb b) EPaused ;; Ok resp0)
  | _ => Err EParse
  end.
(** hooks/pausable/src/lib.rs:84-103 *)
Definition raw_ph_query (m : qmsg) (d : db) : res qres :=
  match m with
  | QOwner | QPendingOwner => raw_own_query m d
  | QPauseInfo => b <- raw_paused d ;; Ok (RPaused b)
  | QHookMailbox => Ok (RMailbox unrestricted)
  | QHookQuote _ _ => Ok (RFees [])
  | _ => Err EParse
  end.

(** ** /repo/contracts/hooks/merkle/src/lib.rs *)
(** [MESSAGE_TREE.load], merkle/src/lib.rs:49-50 *)
Definition raw_tree (d : db) : res merkle_tree := load tree_c (s "message_tree") d.
(** merkle/src/lib.rs:57-75 *)
Definition raw_mk_instantiate (A : api) (mailbox : str) (d : db) : res db :=
  m <- addr_validate A mailbox ;;
  let d := save string_c (s "mailbox") m d in
  Ok (save tree_c (s "message_tree") mt_default d).
(** merkle/src/lib.rs:78-121 *)
Definition raw_mk_execute (Q : db -> querier) (m : emsg) (d : db) : res (db * response) :=
  match m with
  | MPostDispatch _ message =>
      written (
        mailbox <- load string_c (s "mailbox") d ;;
        r <- smart (Q d) mailbox QLatestDispatchId ;;
        latest <- match r with RMessageId x => Ok x | _ => Err EStd end ;;
        m <- msg_decode message ;;
        _ <- ensure (bytes_eqb latest (msg_id m)) EUnauthorized ;;
        t <- raw_tree d ;;
        t' <- mt_insert t (msg_id m) ;;
        Ok (save tree_c (s "message_tree") t' d))
  | _ => Err EParse
  end.
(** merkle/src/lib.rs:124-194 *)
Definition raw_mk_query (m : qmsg) (d : db) : res qres :=
  match m with
  | QHookMailbox => a <- load string_c (s "mailbox") d ;; Ok (RMailbox a)
  | QHookQuote _ _ => Ok (RFees [])
  | QMerkleCount => t <- raw_tree d ;; Ok (RCount (mt_count t mod u32_max))
  | QMerkleRoot => t <- raw_tree d ;; Ok (RRoot (mt_root t))
  | QMerkleBranch => t <- raw_tree d ;; Ok (RBranch (mt_branch t))
  | QMerkleTree => t <- raw_tree d ;; Ok (RTree (mt_branch t) (mt_count t mod u32_max))
  | QMerkleCheckPoint =>
      t <- raw_tree d ;;
      n <- (if mt_count t =? 0 then Ok 0
            else (_ <- need (1 <=? mt_count t mod u32_max) ;; Ok (mt_count t mod u32_max - 1))) ;;
      Ok (RCheckPoint (mt_root t) n)
  | _ => Err EParse
  end.

(** ** /repo/contracts/hooks/aggregate/src/lib.rs *)
(** [HOOKS.load], aggregate/src/lib.rs:41-42 *)
Definition raw_hooks (d : db) : res (list addr) := load (list_c string_c) (s "hooks") d.
(** aggregate/src/lib.rs:49-74 *)
Definition raw_ah_instantiate (A : api) (owner : str) (hooks : list str) (d : db) : res db :=
  o <- addr_validate A owner ;;
  l <- mapM (addr_validate A) hooks ;;
  let d := raw_own_init o d in
  Ok (save (list_c string_c) (s "hooks") l d).
(** aggregate/src/lib.rs:77-134 *)
Definition raw_ah_execute (A : api) (Q : db -> querier) (i : info) (m : emsg) (d : db) : res (db * response) :=
  match m with
  | MOwnable om => written (raw_own_handle A i om d)
  | MPostDispatch metadata message =>
      unwritten d (
        hooks <- raw_hooks d ;;
        msgs <- mapM (fun h => f <- quote_dispatch (Q d) h metadata message ;; Ok (post_dispatch h metadata message f)) hooks ;;
        _ <- msg_decode message ;;
        Ok (resp msgs))
  | MSetHooks hooks =>
      written (
        _ <- raw_guard i d ;;
        l <- mapM (addr_validate A) hooks ;;
        Ok (save (list_c string_c) (s "hooks") l d))
  | _ => Err EParse
  end.
(** aggregate/src/lib.rs:137-195 *)
Definition raw_ah_query (q : querier) (m : qmsg) (d : db) : res qres :=
  match m with
  | QOwner | QPendingOwner => raw_own_query m d
  | QHookMailbox => Ok (RMailbox unrestricted)
  | QHookQuote metadata message =>
      hooks <- raw_hooks d ;;
      total <- foldM (fun acc h => f <- quote_dispatch q h metadata message ;; foldM coins_add f acc) hooks [] ;;
      Ok (RFees (coins_to_vec total))
  | QAggHooks => hooks <- raw_hooks d ;; Ok (RHooks hooks)
  | _ => Err EParse
  end.

(** ** /repo/contracts/hooks/routing, routing-custom, routing-fallback *)
(** routing/src/lib.rs:112-122 *)
Definition raw_rh_route (message : bytes) (d : db) : res addr :=
  m <- msg_decode message ;; ok_or (load_route false (m_dest m) d) ERouteNotFound.
(** routing-custom/src/lib.rs:267-283 *)
Definition raw_cu_route (message : bytes) (d : db) : res addr :=
  m <- msg_decode message ;;
  o <- may_load string_c (path (s "custom_hooks") (pair_key (m_dest m, m_recipient m))) d ;;
  match o with
  | Some h => Ok h
  | None => ok_or (load_route false (m_dest m) d) ERouteNotFound
  end.
(** routing-fallback/src/lib.rs:115-125 *)
Definition raw_fb_route (message : bytes) (d : db) : res addr :=
  m <- msg_decode message ;;
  f <- load string_c (s "fallback_hook") d ;;
  Ok (match load_route false (m_dest m) d with Some h => h | None => f end).
(** routing/src/lib.rs:124-139, routing-custom/src/lib.rs:285-300, routing-fallback/src/lib.rs:127-142 *)
Definition raw_forward (route : bytes -> db -> res addr) (md msg : bytes) (d : db) : res (db * response) :=
  unwritten d (h <- route msg d ;; Ok (resp [CExec h (MPostDispatch md msg) []])).
(** routing/src/lib.rs:96-110, routing-custom/src/lib.rs:302-316, routing-fallback/src/lib.rs:144-158 *)
Definition raw_forward_quote (route : bytes -> db -> res addr) (q : querier) (md msg : bytes) (d : db) : res qres :=
  h <- route msg d ;; f <- quote_dispatch q h md msg ;; Ok (RFees f).
(** routing/src/lib.rs:65-76 *)
Definition raw_rh_execute (A : api) (i : info) (m : emsg) (d : db) : res (db * response) :=
  match m with
  | MOwnable om => written (raw_own_handle A i om d)
  | MRouter rm => written (raw_router_handle false i rm d)
  | MPostDispatch md msg => raw_forward raw_rh_route md msg d
  | _ => Err EParse
  end.
(** routing/src/lib.rs:79-110 *)
Definition raw_rh_query (q : querier) (m : qmsg) (d : db) : res qres :=
  match m with
  | QOwner | QPendingOwner => raw_own_query m d
  | QDomains | QGetRoute _ | QListRoutes _ _ _ => raw_router_query false m d
  | QHookMailbox => Ok (RMailbox unrestricted)
  | QHookQuote md msg => raw_forward_quote raw_rh_route q md msg d
  | _ => Err EParse
  end.
(** routing-custom/src/lib.rs:186-204, one iteration *)
Definition raw_register1 (A : api) (d : db) (c : custom_hook) : res db :=
  r <- hex_decode (ch_recipient c) ;;
  _ <- ensure (Nat.eqb (length r) 32) EInvalidConfig ;;
  h <- addr_validate A (ch_hook c) ;;
  Ok (save string_c (path (s "custom_hooks") (pair_key (ch_dest c, r))) h d).
(** routing-custom/src/lib.rs:175-224 *)
Definition raw_register (A : api) (i : info) (l : list custom_hook) (d : db) : res db :=
  _ <- raw_guard i d ;; foldM (raw_register1 A) l d.
(** routing-custom/src/lib.rs:226-265 *)
Definition raw_clear (i : info) (l : list (N * str)) (d : db) : res db :=
  _ <- raw_guard i d ;;
  foldM (fun d p => r <- hex_decode (snd p) ;; Ok (erase (path (s "custom_hooks") (pair_key (fst p, r))) d)) l d.
(** routing-custom/src/lib.rs:77-94 *)
Definition raw_cu_execute (A : api) (i : info) (m : emsg) (d : db) : res (db * response) :=
  match m with
  | MOwnable om => written (raw_own_handle A i om d)
  | MRouter rm => written (raw_router_handle false i rm d)
  | MPostDispatch md msg => raw_forward raw_cu_route md msg d
  | MRegisterCustomHook h => written (raw_register A i [h] d)
  | MRegisterCustomHooks l => written (raw_register A i l d)
  | MClearCustomHook n r => written (raw_clear i [(n, r)] d)
  | MClearCustomHooks l => written (raw_clear i l d)
  | _ => Err EParse
  end.
(** routing-custom/src/lib.rs:97-173 *)
Definition raw_cu_query (q : querier) (m : qmsg) (d : db) : res qres :=
  match m with
  | QOwner | QPendingOwner => raw_own_query m d
  | QDomains | QGetRoute _ | QListRoutes _ _ _ => raw_router_query false m d
  | QHookMailbox => Ok (RMailbox unrestricted)
  | QHookQuote md msg => raw_forward_quote raw_cu_route q md msg d
  | QCustomHook n r =>
      v <- hex_decode r ;;
      h <- load string_c (path (s "custom_hooks") (pair_key (n, v))) d ;;
      Ok (RCustomHook (mkCustomHook n (hex_encode v) h))
  | QCustomHooks n off lim o =>
      start <- match off with Some t => v <- hex_decode t ;; Ok (Some v) | None => Ok None end ;;
      l <- load_page (fun k => k) octets_back string_c (prefix [s "custom_hooks"; u32_key n]) start lim o d ;;
      Ok (RCustomHooks (map (fun p => mkCustomHook n (hex_encode (fst p)) (snd p)) l))
  | _ => Err EParse
  end.
(** routing-fallback/src/lib.rs:67-95 *)
Definition raw_fb_execute (A : api) (i : info) (m : emsg) (d : db) : res (db * response) :=
  match m with
  | MOwnable om => written (raw_own_handle A i om d)
  | MRouter rm => written (raw_router_handle false i rm d)
  | MPostDispatch md msg => raw_forward raw_fb_route md msg d
  | MSetFallbackHook h =>
      written (_ <- raw_guard i d ;; a <- addr_validate A h ;; Ok (save string_c (s "fallback_hook") a d))
  | _ => Err EParse
  end.
(** routing-fallback/src/lib.rs:98-113 *)
Definition raw_fb_query (q : querier) (m : qmsg) (d : db) : res qres :=
  match m with
  | QOwner | QPendingOwner => raw_own_query m d
  | QDomains | QGetRoute _ | QListRoutes _ _ _ => raw_router_query false m d
  | QHookMailbox => Ok (RMailbox unrestricted)
  | QHookQuote md msg => raw_forward_quote raw_fb_route q md msg d
  | _ => Err EParse
  end.

(** ** /repo/contracts/hooks/fee/src/lib.rs *)
(** [COIN_FEE.load], fee/src/lib.rs:38-39 *)
Definition raw_fee (d : db) : res coin := load coin_c (s "coin_fee") d.
(** fee/src/lib.rs:46-66 *)
Definition raw_fe_instantiate (A : api) (owner : str) (fee : coin) (d : db) : res db :=
  o <- addr_validate A owner ;;
  let d := raw_own_init o d in
  Ok (save coin_c (s "coin_fee") fee d).
(** fee/src/lib.rs:75-131 *)
Definition raw_fe_execute (A : api) (Q : db -> querier) (e : env) (i : info) (m : emsg) (d : db) : res (db * response) :=
  match m with
  | MOwnable om => written (raw_own_handle A i om d)
  | MSetFee c => written (_ <- raw_guard i d ;; Ok (save coin_c (s "coin_fee") c d))
  | MFeeClaim rcp =>
      unwritten d (
        o <- raw_owner d ;;
        _ <- ensure (bytes_eqb o (i_sender i)) EUnauthorized ;;
        Ok (resp [CBankSend (match rcp with Some a => a | None => o end) (q_all_balances (Q d) (e_contract e))]))
  | MPostDispatch _ _ =>
      unwritten d (
        fee <- raw_fee d ;;
        supplied <- must_pay (i_funds i) (c_denom fee) ;;
        _ <- ensure (c_amount fee <=? supplied) EInsufficientFunds ;;
        Ok resp0)
  | _ => Err EParse
  end.
(** fee/src/lib.rs:68-72, 134-154 *)
Definition raw_fe_query (m : qmsg) (d : db) : res qres :=
  match m with
  | QOwner | QPendingOwner => raw_own_query m d
  | QHookMailbox => Ok (RMailbox unrestricted)
  | QHookQuote _ _ => fee <- raw_fee d ;; Ok (RFees [fee])
  | QFee => fee <- raw_fee d ;; Ok (RFee fee)
  | _ => Err EParse
  end.

(** ** /repo/contracts/igps/oracle *)
(** oracle/src/state.rs:15-24 *)
Definition raw_insert_gas_data (d : db) (c : gas_config) : db :=
  save gas_data_c (path (s "remote_gas_data") (u32_key (gc_domain c))) (mkGasData (gc_rate c) (gc_price c)) d.
(** oracle/src/contract.rs:36-83 *)
Definition raw_or_execute (A : api) (i : info) (m : emsg) (d : db) : res (db * response) :=
  match m with
  | MOracleOwnership om => written (raw_own_handle A i om d)
  | MSetRemoteGasDataConfigs l =>
      written (
        _ <- raw_guard i d ;;
        foldM (fun d c => _ <- ensure (negb (gc_rate c =? 0)) EInvalidConfig ;; Ok (raw_insert_gas_data d c)) l d)
  | MSetRemoteGasData c => written (_ <- raw_guard i d ;; Ok (raw_insert_gas_data d c))
  | _ => Err EParse
  end.
(** oracle/src/contract.rs:86-100 *)
Definition raw_or_query (m : qmsg) (d : db) : res qres :=
  match m with
  | QOwner | QPendingOwner => raw_own_query m d
  | QOracle n =>
      g <- load gas_data_c (path (s "remote_gas_data") (u32_key n)) d ;; Ok (ROracle (gd_price g) (gd_rate g))
  | _ => Err EParse
  end.

(** ** /repo/contracts/igps/core *)
(** core/src/contract.rs:21-58 *)
Definition raw_gp_instantiate (A : api) (hrp owner token beneficiary : str) (gas : N) (d : db) : res db :=
  _ <- ensure (hrp_lowercase hrp) EInvalidConfig ;;
  o <- addr_validate A owner ;;
  b <- addr_validate A beneficiary ;;
  let d := raw_own_init o d in
  let d := save string_c (s "beneficiary") b d in
  let d := save string_c (s "gas_token") token d in
  let d := save string_c (s "hrp") hrp d in
  Ok (save u128_c (s "default_gas_usage") gas d).
(** core/src/lib.rs:36-41 *)
Definition raw_default_gas (n : N) (d : db) : res N :=
  o <- may_load u128_c (path (s "gas_for_domain") (u32_key n)) d ;;
  g <- load u128_c (s "default_gas_usage") d ;;
  Ok (match o with Some x => x | None => g end).
(** core/src/query.rs:61-82 *)
Definition raw_quote_gas_price (q : querier) (n gas : N) (d : db) : res N :=
  oracle <- ok_or (load_route false n d) EGasOracleNotFound ;;
  ' (price, rate) <- query_oracle q oracle n ;;
  cost <- u256_mul gas price ;;
  x <- u256_mul cost rate ;;
  Ok (x / TOKEN_EXCHANGE_RATE_SCALE).
(** core/src/execute.rs:143-183 *)
Definition raw_pay_for_gas (q : querier) (i : info) (n gas : N) (refund : str) (d : db) : res response :=
  token <- load string_c (s "gas_token") d ;;
  received <- must_pay (i_funds i) token ;;
  needed <- raw_quote_gas_price q n gas d ;;
  _ <- ensure (needed <=? received) EInsufficientFunds ;;
  let gap := received - needed in
  _ <- ensure (gap <? u128_max) EStd ;;
  Ok (resp (if gap =? 0 then [] else [CBankSend refund [mkCoin token gap]])).
(** core/src/execute.rs:110-141 *)
Definition raw_gp_post_dispatch (q : querier) (i : info) (metadata message : bytes) (d : db) : res response :=
  m <- msg_decode message ;;
  hrp <- load string_c (s "hrp") d ;;
  ' (gas, refund) <-
    (if Nat.ltb (length metadata) 32 then
       g <- raw_default_gas (m_dest m) d ;;
       a <- bech32_encode hrp (m_sender m) ;;
       Ok (g, a)
     else
       md <- igp_decode metadata ;;
       a <- bech32_encode hrp (m_sender m) ;;
       r <- igp_refund_address md hrp a ;;
       Ok (ig_gas_limit md, r)) ;;
  raw_pay_for_gas q i (m_dest m) gas refund d.
(** core/src/contract.rs:61-99 with core/src/execute.rs:22-108 *)
Definition raw_gp_execute (A : api) (Q : db -> querier) (e : env) (i : info) (m : emsg) (d : db) : res (db * response) :=
  match m with
  | MOwnable om => written (raw_own_handle A i om d)
  | MRouter rm => written (raw_router_handle false i rm d)
  | MPostDispatch md msg => unwritten d (raw_gp_post_dispatch (Q d) i md msg d)
  | MSetDefaultGas g => written (_ <- raw_guard i d ;; Ok (save u128_c (s "default_gas_usage") g d))
  | MSetGasForDomain l =>
      written (_ <- raw_guard i d ;;
               Ok (fold_left (fun d p => save u128_c (path (s "gas_for_domain") (u32_key (fst p))) (snd p) d) l d))
  | MUnsetGasForDomain l =>
      written (_ <- raw_guard i d ;; Ok (fold_left (fun d n => erase (path (s "gas_for_domain") (u32_key n)) d) l d))
  | MSetBeneficiary b =>
      written (_ <- raw_guard i d ;; b' <- addr_validate A b ;; Ok (save string_c (s "beneficiary") b' d))
  | MClaim =>
      unwritten d (
        b <- load string_c (s "beneficiary") d ;;
        _ <- ensure (bytes_eqb (i_sender i) b) EUnauthorized ;;
        token <- load string_c (s "gas_token") d ;;
        Ok (resp [CBankSend b [mkCoin token (q_balance (Q d) (e_contract e) token)]]))
  | MPayForGas _ n gas refund => unwritten d (raw_pay_for_gas (Q d) i n gas refund d)
  | _ => Err EParse
  end.
(** core/src/contract.rs:102-135 with core/src/query.rs:13-137 *)
Definition raw_gp_query (q : querier) (m : qmsg) (d : db) : res qres :=
  match m with
  | QOwner | QPendingOwner => raw_own_query m d
  | QDomains | QGetRoute _ | QListRoutes _ _ _ => raw_router_query false m d
  | QHookQuote metadata message =>
      m <- msg_decode message ;;
      gas <- (if Nat.ltb (length metadata) 32 then raw_default_gas (m_dest m) d
              else md <- igp_decode metadata ;; Ok (ig_gas_limit md)) ;;
      fees <- raw_quote_gas_price q (m_dest m) gas d ;;
      if fees =? 0 then Ok (RFees [])
      else (_ <- ensure (fees <? u128_max) EStd ;;
            token <- load string_c (s "gas_token") d ;;
            Ok (RFees [mkCoin token fees]))
  | QHookMailbox => Ok (RMailbox unrestricted)
  | QOracle n =>
      oracle <- ok_or (load_route false n d) EGasOracleNotFound ;;
      ' (price, rate) <- query_oracle q oracle n ;; Ok (ROracle price rate)
  | QDefaultGas => g <- load u128_c (s "default_gas_usage") d ;; Ok (RGas g)
  | QGasForDomain ns =>
      l <- mapM (fun n => g <- load u128_c (path (s "gas_for_domain") (u32_key n)) d ;; Ok (n, g)) ns ;;
      Ok (RGasList l)
  | QListGas off lim o =>
      l <- load_page u32_key u32_back u128_c (prefix [s "gas_for_domain"]) off lim o d ;; Ok (RGasList l)
  | QBeneficiary => b <- load string_c (s "beneficiary") d ;; Ok (RBeneficiary b)
  | QQuoteGasPayment n g => x <- raw_quote_gas_price q n g d ;; Ok (RGasNeeded x)
  | _ => Err EParse
  end.

(** ** /repo/contracts/warp *)
(** [HRP], [MODE], [MAILBOX] and the owner: native/src/contract.rs:42-46, cw20/src/contract.rs:41-45 *)
Definition raw_warp_init (hrp : str) (mode : token_mode) (mailbox owner : addr) (d : db) : db :=
  let d := save string_c (s "hrp") hrp d in
  let d := save token_mode_c (s "mode") mode d in
  let d := save string_c (s "mailbox") mailbox d in
  raw_own_init owner d.
(** native/src/contract.rs:30-86; the source validates the mailbox between two writes, and a failure undoes both *)
Definition raw_wn_instantiate (A : api) (e : env) (t : native_token) (hrp owner mailbox : str) (d : db)
  : res (db * response) :=
  o <- addr_validate A owner ;;
  mb <- addr_validate A mailbox ;;
  match t with
  | NtBridged x md =>
      Ok (raw_warp_init hrp Bridged mb o d,
          mkResp (mkSub (CCreateDenom (e_contract e) x) (RpSuccess REPLY_ID_CREATE_DENOM)
                  :: match md with
                     | Some m => [mkSub (CSetDenomMetadata (e_contract e) m) RpNever]
                     | None => [] end) None)
  | NtCollateral x => Ok (save string_c (s "token") x (raw_warp_init hrp Collateral mb o d), resp0)
  end.
(** cw20/src/contract.rs:29-82 *)
Definition raw_wc_instantiate (A : api) (e : env) (t : cw20_token) (hrp owner mailbox : str) (d : db)
  : res (db * response) :=
  o <- addr_validate A owner ;;
  mb <- addr_validate A mailbox ;;
  match t with
  | CtBridged init =>
      Ok (raw_warp_init hrp Bridged mb o d,
          mkResp [mkSub (CInstantiateCw20 (e_contract e) init) (RpSuccess REPLY_ID_CREATE_DENOM)] None)
  | CtCollateral a =>
      a' <- addr_validate A a ;;
      Ok (save string_c (s "token") a' (raw_warp_init hrp Collateral mb o d), resp0)
  end.
(** native/src/contract.rs:122-144 *)
Definition raw_wn_reply (id : N) (r : res reply_result) (d : db) : res (db * response) :=
  match r with
  | Ok (RrDenom t) => if id =? REPLY_ID_CREATE_DENOM then Ok (save string_c (s "token") t d, resp0) else Err EInvalidReplyId
  | _ => Err EStd
  end.
(** cw20/src/contract.rs:118-140 *)
Definition raw_wc_reply (A : api) (id : N) (r : res reply_result) (d : db) : res (db * response) :=
  if id =? REPLY_ID_CREATE_DENOM then
    match r with
    | Ok (RrContract a) => a' <- addr_validate A a ;; Ok (save string_c (s "token") a' d, resp0)
    | _ => Err EStd
    end
  else Err EInvalidReplyId.
(** native/src/contract.rs:152-171, cw20/src/contract.rs:147-168: the checks, the message, the recipient,
    the token and its mode *)
Definition raw_received (i : info) (origin : N) (sender body : bytes) (d : db)
  : res (warp_message * str * str * token_mode) :=
  mb <- load string_c (s "mailbox") d ;;
  _ <- ensure (bytes_eqb (i_sender i) mb) EUnauthorized ;;
  r <- expect (load_route true origin d) ;;
  _ <- ensure (bytes_eqb sender r) EUnauthorized ;;
  w <- warp_decode body ;;
  hrp <- load string_c (s "hrp") d ;;
  recipient <- bech32_encode hrp (w_recipient w) ;;
  token <- load string_c (s "token") d ;;
  mode <- load token_mode_c (s "mode") d ;;
  Ok (w, recipient, token, mode).
(** native/src/contract.rs:146-195 *)
Definition raw_wn_handle (e : env) (i : info) (origin : N) (sender body : bytes) (d : db) : res response :=
  ' (w, recipient, token, mode) <- raw_received i origin sender body d ;;
  amount <- to_uint128 (w_amount w) ;;
  Ok (resp (match mode with Bridged => [CMint (e_contract e) (w_amount w) token] | Collateral => [] end
            ++ [CBankSend recipient [mkCoin token amount]])).
(** cw20/src/contract.rs:142-182 *)
Definition raw_wc_handle (i : info) (origin : N) (sender body : bytes) (d : db) : res response :=
  ' (w, recipient, token, mode) <- raw_received i origin sender body d ;;
  amount <- to_uint128 (w_amount w) ;;
  Ok (resp [CExec token (match mode with
                         | Bridged => MCw20Mint recipient amount
                         | Collateral => MCw20Transfer recipient amount end) []]).
(** native/src/contract.rs:198-268 *)
Definition raw_wn_transfer (A : api) (e : env) (i : info) (dest : N) (recipient : bytes) (amount : N)
    (hook : option str) (metadata : option bytes) (d : db) : res response :=
  token <- load string_c (s "token") d ;;
  mode <- load token_mode_c (s "mode") d ;;
  mb <- load string_c (s "mailbox") d ;;
  funds <- take_token token amount (i_funds i) ;;
  router <- expect (load_route true dest d) ;;
  _ <- check_hook A hook ;;
  kept <- may_load string_c (s "conn::hook") d ;;
  Ok (resp (match mode with Bridged => [CBurn (e_contract e) amount token] | Collateral => [] end
    ++ [mailbox_dispatch mb dest router (warp_encode (mkWarp recipient amount []))
          (match hook with Some h => Some h | None => kept end) metadata funds])).
(** cw20/src/contract.rs:185-255 *)
Definition raw_wc_transfer (A : api) (e : env) (i : info) (dest : N) (recipient : bytes) (amount : N)
    (hook : option str) (metadata : option bytes) (d : db) : res response :=
  token <- load string_c (s "token") d ;;
  mode <- load token_mode_c (s "mode") d ;;
  mb <- load string_c (s "mailbox") d ;;
  router <- expect (load_route true dest d) ;;
  _ <- check_hook A hook ;;
  kept <- may_load string_c (s "conn::hook") d ;;
  Ok (resp (CExec token (MCw20TransferFrom (i_sender i) (e_contract e) amount) []
    :: match mode with Bridged => [CExec token (MCw20Burn amount) []] | Collateral => [] end
    ++ [mailbox_dispatch mb dest router (warp_encode (mkWarp recipient amount []))
          (match hook with Some h => Some h | None => kept end) metadata (i_funds i)])).
(** native/src/contract.rs:98-100, cw20/src/contract.rs:94-96 *)
Definition raw_wp_common (A : api) (i : info) (m : emsg) (d : db) : res (db * response) :=
  match m with
  | MOwnable om => written (raw_own_handle A i om d)
  | MRouter rm => written (raw_router_handle true i rm d)
  | MConnection cm => written (raw_conn_handle A i cm d)
  | _ => Err EParse
  end.
(** native/src/contract.rs:89-119 *)
Definition raw_wn_execute (A : api) (e : env) (i : info) (m : emsg) (d : db) : res (db * response) :=
  match m with
  | MHandle o sn b => unwritten d (raw_wn_handle e i o sn b d)
  | MTransferRemote n r a h md => unwritten d (raw_wn_transfer A e i n r a h md d)
  | _ => raw_wp_common A i m d
  end.
(** cw20/src/contract.rs:85-115 *)
Definition raw_wc_execute (A : api) (e : env) (i : info) (m : emsg) (d : db) : res (db * response) :=
  match m with
  | MHandle o sn b => unwritten d (raw_wc_handle i o sn b d)
  | MTransferRemote n r a h md => unwritten d (raw_wc_transfer A e i n r a h md d)
  | _ => raw_wp_common A i m d
  end.
(** native/src/contract.rs:271-302, cw20/src/contract.rs:258-289 but the token type *)
Definition raw_wp_query (tt : str -> qres) (m : qmsg) (d : db) : res qres :=
  match m with
  | QOwner | QPendingOwner => raw_own_query m d
  | QDomains | QGetRoute _ | QListRoutes _ _ _ => raw_router_query true m d
  | QConnMailbox | QConnHook | QConnIsm => raw_conn_query m d
  | QTokenType => t <- load string_c (s "token") d ;; Ok (tt t)
  | QTokenMode => x <- load token_mode_c (s "mode") d ;; Ok (RTokenMode x)
  | QIsmSpecifier => a <- may_load string_c (s "conn::ism") d ;; Ok (RIsm a)
  | _ => Err EParse
  end.

(** ** All of them *)
(** [cw2::set_contract_version] with the program's name and version, then the rest of [instantiate]; the
    database of a new contract is empty.  E.g. /repo/contracts/core/mailbox/src/contract.rs:18-48 *)
Definition raw_instantiate (A : api) (q : querier) (e : env) (m : imsg) (v : cw2) : res (db * response) :=
  _ <- ensure (imsg_ok m) EParse ;;
  let d := save version_c (s "contract_info") v [] in
  match m with
  | IMailbox h o n => written (raw_mb_instantiate A h o n d)
  | IVa m => written (raw_va_instantiate A q m d)
  | IMultisig o | IRoutingHook o | ICustomHook o | IFallbackHook o | IOracle o => written (raw_owned A o d)
  | IAggIsm o l t => written (raw_ag_instantiate A o l t d)
  | IRoutingIsm o l => written (raw_ri_instantiate A o l d)
  | IPausableIsm o b | IPausableHook o b => written (raw_pausable A o b d)
  | IMerkle m => written (raw_mk_instantiate A m d)
  | IAggHook o l => written (raw_ah_instantiate A o l d)
  | IFeeHook o c => written (raw_fe_instantiate A o c d)
  | IIgp h o t b g => written (raw_gp_instantiate A h o t b g d)
  | IWarpNative t h o m => raw_wn_instantiate A e t h o m d
  | IWarpCw20 t h o m => raw_wc_instantiate A e t h o m d
  | ICw20 _ _ => Err EParse
  end.
(** the [execute] entry points; [Q d] is what queries made while the database is [d] see; of
    /repo/contracts/*/*/src/{contract,lib}.rs *)
Definition raw_execute (A : api) (Q : db -> querier) (e : env) (i : info) (m : emsg) (p : program) (d : db)
  : res (db * response) :=
  _ <- ensure (emsg_ok m) EParse ;;
  match p with
  | PMailbox => raw_mb_execute A Q e i m d
  | PVa => raw_va_execute A m d
  | PMultisig => raw_ms_execute A i m d
  | PAggIsm => raw_ag_execute A i m d
  | PRoutingIsm => raw_ri_execute A i m d
  | PPausableIsm => raw_pi_execute A i m d
  | PMerkle => raw_mk_execute Q m d
  | PAggHook => raw_ah_execute A Q i m d
  | PPausableHook => raw_ph_execute A i m d
  | PRoutingHook => raw_rh_execute A i m d
  | PCustomHook => raw_cu_execute A i m d
  | PFallbackHook => raw_fb_execute A i m d
  | PFeeHook => raw_fe_execute A Q e i m d
  | POracle => raw_or_execute A i m d
  | PIgp => raw_gp_execute A Q e i m d
  | PWarpNative => raw_wn_execute A e i m d
  | PWarpCw20 => raw_wc_execute A e i m d
  | PCw20 => Err EParse
  end.
(** the [query] entry points of /repo/contracts/*/*/src/{contract,lib}.rs *)
Definition raw_query (A : api) (q : querier) (m : qmsg) (p : program) (d : db) : res qres :=
  _ <- ensure (qmsg_ok m) EParse ;;
  match p with
  | PMailbox => raw_mb_query A q m d
  | PVa => raw_va_query m d
  | PMultisig => raw_ms_query A m d
  | PAggIsm => raw_ag_query q m d
  | PRoutingIsm => raw_ri_query q m d
  | PPausableIsm => raw_pi_query m d
  | PMerkle => raw_mk_query m d
  | PAggHook => raw_ah_query q m d
  | PPausableHook => raw_ph_query m d
  | PRoutingHook => raw_rh_query q m d
  | PCustomHook => raw_cu_query q m d
  | PFallbackHook => raw_fb_query q m d
  | PFeeHook => raw_fe_query m d
  | POracle => raw_or_query m d
  | PIgp => raw_gp_query q m d
  | PWarpNative => raw_wp_query RTokenDenom m d
  | PWarpCw20 => raw_wp_query RTokenCw20 m d
  | PCw20 => Err EParse
  end.
(** the [reply] entry points (/repo/contracts/warp/native/src/contract.rs:122-144,
    /repo/contracts/warp/cw20/src/contract.rs:118-140) *)
Definition raw_reply (A : api) (id : N) (r : res reply_result) (p : program) (d : db) : res (db * response) :=
  match p with
  | PWarpNative => raw_wn_reply id r d
  | PWarpCw20 => raw_wc_reply A id r d
  | _ => Err EParse
  end.

(** a call of an entry point of /repo/contracts/*/*/src/{contract,lib}.rs; what the rest of the chain answers
    depends on the database of the contract as it stands *)
Inductive raw_event :=
| RwExec (e : env) (i : info) (m : emsg) (Q : db -> querier)
| RwReply (id : N) (r : res reply_result)
| RwMigrate (name ver : str).
(** the entry point reached, in /repo/contracts/*/*/src/{contract,lib}.rs *)
Definition raw_apply (A : api) (p : program) (ev : raw_event) (d : db) : res (db * response) :=
  match ev with
  | RwExec e i m Q => raw_execute A Q e i m p d
  | RwReply id r => raw_reply A id r p d
  | RwMigrate name ver => written (raw_migrate name ver d)
  end.
(** what was written by a call that fails is undone by the host; calls of
    /repo/contracts/*/*/src/{contract,lib}.rs *)
Definition raw_step (A : api) (p : program) (d : db) (ev : raw_event) : db :=
  match raw_apply A p ev d with Ok (d', _) => d' | _ => d end.
(** a history of calls to one contract of /repo/contracts/*/*/src/{contract,lib}.rs *)
Definition raw_run (A : api) (p : program) (d : db) (h : list raw_event) : db := fold_left (raw_step A p) h d.
