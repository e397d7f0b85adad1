(** * What a contract keeps in the chain's database.

    The host gives each contract a map from byte strings to byte strings: read,
    write, remove and scan between two keys.  Everything the contracts keep goes
    through cw-storage-plus 1.2.0 (/repo/Cargo.toml:51): an [Item] lives under its
    name, an entry of a [Map] under the name of the map preceded by its length in
    two bytes, followed by the key; of a composite key all parts but the last are
    preceded by their length too.  Values are JSON texts.  The external cw20 token
    is left out. *)
From Coq Require Import List NArith Bool.
From Verif Require Import Base OMap Coins Json Merkle Chain Ownable Router Utils Mailbox Va Isms Hooks Igp Warp
  Contracts Wire WireQuery.
Import ListNotations.

(** ** The host's database *)
(** the storage behind [deps.storage], e.g. /repo/contracts/core/mailbox/src/contract.rs:17-24 *)
Definition db : Type := omap bytes bytes.
(** [Storage::range] between an inclusive and an exclusive bound; used behind
    /repo/packages/router/src/lib.rs:174 *)
Definition scan (lo hi : bytes) (o : order) (d : db) : list (bytes * bytes) :=
  let sel := filter (fun p => negb (bytes_ltb (fst p) lo) && bytes_ltb (fst p) hi)%bool d in
  match o with Asc => sel | Desc => rev sel end.

(** ** cw-storage-plus *)
(** [encode_length] and the name it precedes (cw-storage-plus helpers.rs), behind
    /repo/packages/router/src/lib.rs:28-33 *)
Definition named (n : bytes) : bytes := be 2 (N.of_nat (length n)) ++ n.
(** [nested_namespaces_with_key] without the key (helpers.rs), behind
    /repo/contracts/hooks/routing-custom/src/lib.rs:49-50, 158 *)
Definition prefix (l : list bytes) : bytes := flat_map named l.
(** [Path::new] (path.rs) for a key of one part, e.g. /repo/contracts/core/mailbox/src/state.rs:65 *)
Definition path (ns k : bytes) : bytes := prefix [ns] ++ k.
(** a [u32] as a key, /repo/packages/router/src/lib.rs:28 *)
Definition u32_key (n : N) : bytes := be 4 n.
(** the parts of a [(u32, Vec<u8>)] after the name of the map,
    /repo/contracts/hooks/routing-custom/src/lib.rs:50 *)
Definition pair_key (p : N * bytes) : bytes := named (u32_key (fst p)) ++ snd p.
(** [namespace_upper_bound] (prefix.rs): trailing 255s become 0, the byte before
    them is incremented; behind /repo/packages/router/src/lib.rs:148 *)
Fixpoint carry (l : bytes) : bytes :=
  match l with
  | [] => []
  | b :: l' => if bN b =? 255 then x00 :: carry l' else nB (bN b + 1) :: l'
  end.
(** the same, from the front *)
Definition upper (p : bytes) : bytes := rev (carry (rev p)).
(** [range_with_prefix] (prefix.rs), for the exclusive bounds of
    /repo/packages/interface/src/lib.rs:69-82 *)
Definition ranged (p : bytes) (min max : option bytes) (o : order) (d : db) : list (bytes * bytes) :=
  let lo := match min with Some k => p ++ k ++ [x00] | None => p end in
  let hi := match max with Some k => p ++ k | None => upper p end in
  map (fun e => (skipn (length p) (fst e), snd e)) (scan lo hi o d).

(** ** Values *)
(** [to_json_vec], e.g. /repo/contracts/core/mailbox/src/contract.rs:42 *)
Definition value_text {A} (c : codec A) (a : A) : bytes := text (write c a).
(** [from_json] *)
Definition value_read {A} (c : codec A) (t : bytes) : option A :=
  match parse t with Some j => read c j | None => None end.
(** [Option]: [null] when there is nothing; /repo/packages/router/src/lib.rs:74 *)
Definition option_c {A} (c : codec A) : codec (option A) :=
  mkCodec (fun o => match o with Some a => write c a | None => JNull end)
    (fun j => match j with JNull => Some None | _ => option_map Some (read c j) end)
    (fun o => match o with Some a => fits c a | None => true end).
(** [Vec<u8>] is an array of numbers: /repo/contracts/core/mailbox/src/state.rs:62 *)
Definition octets_c : codec bytes := as_c (map nB) (map bN) (list_c u8_c).
(** [u64]: /repo/contracts/core/mailbox/src/state.rs:50-53 *)
Definition u64_c : codec N := int_c (fun n => n <? u64_max).
(** cosmwasm_std's [Empty]: /repo/contracts/core/va/src/state.rs:11 *)
Definition nothing_c : codec unit := struct none.
(** cw2's [ContractVersion] *)
Definition version_c : codec cw2 :=
  as_c (fun '(a, (b, _)) => mkCw2 a b) (fun v => (cv_contract v, (cv_version v, tt)))
    (struct (field (s "contract") string_c (field (s "version") string_c none))).
(** /repo/contracts/core/mailbox/src/state.rs:5-13 *)
Definition config_c : codec (str * (N * (option addr * (option addr * (option addr * unit))))) :=
  struct (field (s "hrp") string_c (field (s "local_domain") u32_c
    (optional (s "default_ism") string_c (optional (s "default_hook") string_c
      (optional (s "required_hook") string_c none))))).
(** /repo/contracts/core/mailbox/src/state.rs:49-53 *)
Definition delivery_c : codec delivery :=
  as_c (fun '(a, (b, _)) => mkDelivery a b) (fun v => (dl_sender v, (dl_height v, tt)))
    (struct (field (s "sender") string_c (field (s "block_number") u64_c none))).
(** /repo/packages/interface/src/types/merkle.rs:47-51 *)
Definition tree_c : codec merkle_tree :=
  as_c (fun '(a, (b, _)) => Build_merkle_tree a b) (fun t => (mt_branch t, (mt_count t, tt)))
    (struct (field (s "branch") branch_c (field (s "count") u128_c none))).
(** /repo/contracts/igps/oracle/src/state.rs:6-10 *)
Definition gas_data_c : codec gas_data :=
  as_c (fun '(a, (b, _)) => mkGasData a b) (fun v => (gd_rate v, (gd_price v, tt)))
    (struct (field (s "token_exchange_rate") u128_c (field (s "gas_price") u128_c none))).

(** ** Cells *)
(** an [Item], perhaps empty, or a [Map], as keys (after its name) and values;
    e.g. /repo/contracts/core/mailbox/src/state.rs:55-65 *)
Inductive cell : Type :=
| One (k : str) (v : option bytes)
| Many (ns : str) (l : list (bytes * bytes)).
(** an [Item] holding [a], e.g. /repo/contracts/core/mailbox/src/state.rs:59 *)
Definition item {A} (k : str) (c : codec A) (a : A) : cell := One k (Some (value_text c a)).
(** an [Item] that may be empty, e.g. /repo/packages/ownable/src/lib.rs:14-15 *)
Definition maybe {A} (k : str) (c : codec A) (o : option A) : cell := One k (option_map (value_text c) o).
(** a [Map], e.g. /repo/contracts/isms/multisig/src/state.rs:4-8 *)
Definition table {K A} (ns : str) (key : K -> bytes) (c : codec A) (m : omap K A) : cell :=
  Many ns (map (fun p => (key (fst p), value_text c (snd p))) m).
(** what a cell puts into the database *)
Definition entries (c : cell) : list (bytes * bytes) :=
  match c with
  | One k (Some v) => [(k, v)]
  | One _ None => []
  | Many ns l => map (fun p => (path ns (fst p), snd p)) l
  end.
(** all cells of a contract in its database *)
Definition layout (l : list cell) : db := om_of_list (flat_map entries l).

(** /repo/packages/ownable/src/lib.rs:11-15 *)
Definition own_cells (o : own) : list cell :=
  [item (s "owner") string_c (o_owner o); maybe (s "pending_owner") string_c (o_pending o)].
(** /repo/packages/pausable/src/lib.rs:11-12 *)
Definition pause_cell (b : bool) : cell := item (s "pause") bool_c b.
(** /repo/packages/router/src/lib.rs:18, 28-33; a removed route is stored as [null] *)
Definition routes_cell (h : bool) (r : routes) : cell := table (s "routes") u32_key (option_c (route_c h)) r.
(** /repo/packages/connection/src/lib.rs:10-17 *)
Definition conn_cells (c : conn) : list cell :=
  [maybe (s "conn::mailbox") string_c (cn_mailbox c); maybe (s "conn::ism") string_c (cn_ism c);
   maybe (s "conn::hook") string_c (cn_hook c)].
(** cw2, e.g. /repo/contracts/core/mailbox/src/contract.rs:24 *)
Definition info_cell (v : cw2) : cell := item (s "contract_info") version_c v.
(** /repo/contracts/warp/native/src/lib.rs:17-31, /repo/contracts/warp/cw20/src/lib.rs:16-30 *)
Definition warp_cells (x : wp) : list cell :=
  own_cells (wp_own x) ++ routes_cell true (wp_routes x) :: conn_cells (wp_conn x) ++
  [maybe (s "token") string_c (wp_token x); item (s "mode") token_mode_c (wp_mode x);
   item (s "hrp") string_c (wp_hrp x); item (s "mailbox") string_c (wp_mailbox x)].

(** - /repo/contracts/core/mailbox/src/state.rs:55-65
    - /repo/contracts/core/va/src/state.rs:4-17
    - /repo/contracts/isms/multisig/src/state.rs:4-8
    - /repo/contracts/isms/aggregate/src/lib.rs:26-30
    - /repo/contracts/isms/routing/src/state.rs:4-5
    - /repo/contracts/hooks/merkle/src/lib.rs:46-50
    - /repo/contracts/hooks/aggregate/src/lib.rs:41-42
    - /repo/contracts/hooks/routing-custom/src/lib.rs:49-50
    - /repo/contracts/hooks/routing-fallback/src/lib.rs:39-40
    - /repo/contracts/hooks/fee/src/lib.rs:38-39
    - /repo/contracts/igps/oracle/src/state.rs:12-13
    - /repo/contracts/igps/core/src/lib.rs:21-34 *)
Definition cells (st : cstate) : list cell :=
  match st with
  | SMailbox x => own_cells (mb_own x) ++
      [item (s "config") config_c (mb_hrp x, (mb_domain x, (mb_ism x, (mb_hook x, (mb_required x, tt)))));
       item (s "nonce") u32_c (mb_nonce x);
       maybe (s "latest_dispatched_id") octets_c (mb_latest x);
       table (s "deliveries") (fun k => k) delivery_c (mb_deliveries x)]
  | SVa x =>
      [item (s "mailbox") octets_c (va_mailbox x); item (s "local_domain") u32_c (va_domain x);
       table (s "validators") (fun k => k) nothing_c (va_validators x);
       table (s "storage_locations") (fun k => k) (list_c string_c) (va_locations x);
       table (s "replay_protections") (fun k => k) nothing_c (va_replay x)]
  | SMultisig x => own_cells (ms_own x) ++
      [table (s "validators") u32_key (list_c hex_c) (ms_validators x);
       table (s "threshold") u32_key u8_c (ms_threshold x)]
  | SAggIsm x => own_cells (ag_own x) ++
      [item (s "isms") (list_c string_c) (ag_isms x); item (s "threshold") u8_c (ag_threshold x)]
  | SRoutingIsm x => own_cells (ri_own x) ++ [table (s "modules") u32_key string_c (ri_modules x)]
  | SPausableIsm x => own_cells (pi_own x) ++ [pause_cell (pi_paused x)]
  | SMerkle x => [item (s "mailbox") string_c (mk_mailbox x); item (s "message_tree") tree_c (mk_tree x)]
  | SAggHook x => own_cells (ah_own x) ++ [item (s "hooks") (list_c string_c) (ah_hooks x)]
  | SPausableHook x => own_cells (ph_own x) ++ [pause_cell (ph_paused x)]
  | SRoutingHook x => own_cells (rh_own x) ++ [routes_cell false (rh_routes x)]
  | SCustomHook x => own_cells (cu_own x) ++
      [routes_cell false (cu_routes x); table (s "custom_hooks") pair_key string_c (cu_hooks x)]
  | SFallbackHook x => own_cells (fb_own x) ++
      [routes_cell false (fb_routes x); maybe (s "fallback_hook") string_c (fb_fallback x)]
  | SFeeHook x => own_cells (fe_own x) ++ [item (s "coin_fee") coin_c (fe_fee x)]
  | SOracle x => own_cells (or_own x) ++ [table (s "remote_gas_data") u32_key gas_data_c (or_data x)]
  | SIgp x => own_cells (gp_own x) ++
      [routes_cell false (gp_routes x); item (s "hrp") string_c (gp_hrp x); item (s "gas_token") string_c (gp_token x);
       item (s "default_gas_usage") u128_c (gp_default_gas x);
       table (s "gas_for_domain") u32_key u128_c (gp_gas x); item (s "beneficiary") string_c (gp_beneficiary x)]
  | SWarpNative x | SWarpCw20 x => warp_cells x
  | SCw20 _ => []
  end.
(** the database of a contract whose version record is [v] *)
Definition storage (v : cw2) (st : cstate) : db := layout (info_cell v :: cells st).

(** ** Reading *)
(** [Item::may_load] and [Map::may_load], e.g. /repo/packages/ownable/src/lib.rs:142 *)
Definition may_load {A} (c : codec A) (k : bytes) (d : db) : res (option A) :=
  match om_get k d with
  | None => Ok None
  | Some t => match value_read c t with Some a => Ok (Some a) | None => Err EStd end
  end.
(** [Item::load] and [Map::load], e.g. /repo/packages/ownable/src/lib.rs:137-139 *)
Definition load {A} (c : codec A) (k : bytes) (d : db) : res A :=
  o <- may_load c k d ;; ok_or o EStd.
(** a key as a number: four bytes exactly; behind /repo/packages/router/src/lib.rs:148 *)
Definition u32_back (k : bytes) : option N := if Nat.eqb (length k) 4 then Some (of_be k) else None.
(** a composite key, behind /repo/contracts/hooks/routing-custom/src/lib.rs:50 *)
Definition pair_back (k : bytes) : option (N * bytes) :=
  if bytes_eqb (firstn 2 k) (be 2 4) && Nat.leb 6 (length k)
  then Some (of_be (firstn 4 (skipn 2 k)), skipn 6 k) else None.
(** [deserialize_kv] on each entry, the first that cannot be read ends it;
    e.g. /repo/packages/router/src/lib.rs:173-183 *)
Definition load_list {K A} (back : bytes -> option K) (c : codec A) (l : list (bytes * bytes)) : res (list (K * A)) :=
  mapM (fun e => match back (fst e), value_read c (snd e) with
                 | Some k, Some a => Ok (k, a)
                 | _, _ => Err EStd
                 end) l.
(** [Map::range], e.g. /repo/packages/router/src/lib.rs:173-183 *)
Definition load_range {K A} (back : bytes -> option K) (c : codec A) (p : bytes) (min max : option bytes) (o : order)
    (d : db) : res (list (K * A)) := load_list back c (ranged p min max o d).
(** a page: /repo/packages/interface/src/lib.rs:69-82 with, e.g.,
    /repo/contracts/igps/core/src/query.rs:36-55; entries behind the page are not read *)
Definition load_page {K A} (key : K -> bytes) (back : bytes -> option K) (c : codec A) (p : bytes)
    (start : option K) (limit : option N) (o : option order) (d : db) : res (list (K * A)) :=
  l <- get_and_check_limit limit MAX_LIMIT DEFAULT_LIMIT ;;
  let from := option_map key start in
  load_list back c (firstn (N.to_nat l)
    match o with
    | Some Desc => ranged p None from Desc d
    | _ => ranged p from None Asc d
    end).
(** all of a [Map], ascending, e.g. /repo/contracts/core/va/src/contract.rs:103-106 *)
Definition load_all {K A} (back : bytes -> option K) (c : codec A) (ns : str) (d : db) : res (omap K A) :=
  load_range back c (prefix [ns]) None None Asc d.

(** /repo/packages/ownable/src/lib.rs:137-145 *)
Definition load_own (d : db) : res own :=
  o <- load string_c (s "owner") d ;; p <- may_load string_c (s "pending_owner") d ;; Ok (mkOwn o p).
(** /repo/packages/connection/src/lib.rs:90-100 *)
Definition load_conn (d : db) : res conn :=
  a <- may_load string_c (s "conn::mailbox") d ;; b <- may_load string_c (s "conn::ism") d ;;
  c <- may_load string_c (s "conn::hook") d ;; Ok (mkConn a b c).
(** all routes with those removed, /repo/packages/router/src/lib.rs:162-184 *)
Definition load_routes (h : bool) (d : db) : res routes := load_all u32_back (option_c (route_c h)) (s "routes") d.
(** one route, /repo/packages/router/src/lib.rs:152-160: what cannot be read counts as none *)
Definition load_route (h : bool) (n : N) (d : db) : option bytes :=
  match load (route_c h) (path (s "routes") (u32_key n)) d with Ok a => Some a | _ => None end.
(** keys that are byte strings *)
Definition octets_back (k : bytes) : option bytes := Some k.
(** /repo/contracts/warp/native/src/lib.rs:17-31 *)
Definition load_warp (d : db) : res wp :=
  o <- load_own d ;; r <- load_routes true d ;; c <- load_conn d ;; t <- may_load string_c (s "token") d ;;
  m <- load token_mode_c (s "mode") d ;; h <- load string_c (s "hrp") d ;; a <- load string_c (s "mailbox") d ;;
  Ok (mkWp o r c t m h a).
(** everything a contract of /repo keeps; the lines are those of [cells] *)
Definition load_state (p : program) (d : db) : res cstate :=
  match p with
  | PMailbox =>
      o <- load_own d ;;
      ' (hrp, (dom, (ism, (hook, (req, _))))) <- load config_c (s "config") d ;;
      n <- load u32_c (s "nonce") d ;; l <- may_load octets_c (s "latest_dispatched_id") d ;;
      m <- load_all octets_back delivery_c (s "deliveries") d ;;
      Ok (SMailbox (mkMb o hrp dom ism hook req n l m))
  | PVa =>
      a <- load octets_c (s "mailbox") d ;; n <- load u32_c (s "local_domain") d ;;
      v <- load_all octets_back nothing_c (s "validators") d ;;
      l <- load_all octets_back (list_c string_c) (s "storage_locations") d ;;
      r <- load_all octets_back nothing_c (s "replay_protections") d ;;
      Ok (SVa (mkVa a n v l r))
  | PMultisig =>
      o <- load_own d ;; v <- load_all u32_back (list_c hex_c) (s "validators") d ;;
      t <- load_all u32_back u8_c (s "threshold") d ;; Ok (SMultisig (mkMs o v t))
  | PAggIsm =>
      o <- load_own d ;; l <- load (list_c string_c) (s "isms") d ;; t <- load u8_c (s "threshold") d ;;
      Ok (SAggIsm (mkAg o l t))
  | PRoutingIsm => o <- load_own d ;; m <- load_all u32_back string_c (s "modules") d ;; Ok (SRoutingIsm (mkRi o m))
  | PPausableIsm => o <- load_own d ;; b <- load bool_c (s "pause") d ;; Ok (SPausableIsm (mkPi o b))
  | PMerkle => a <- load string_c (s "mailbox") d ;; t <- load tree_c (s "message_tree") d ;; Ok (SMerkle (mkMk a t))
  | PAggHook => o <- load_own d ;; l <- load (list_c string_c) (s "hooks") d ;; Ok (SAggHook (mkAh o l))
  | PPausableHook => o <- load_own d ;; b <- load bool_c (s "pause") d ;; Ok (SPausableHook (mkPh o b))
  | PRoutingHook => o <- load_own d ;; r <- load_routes false d ;; Ok (SRoutingHook (mkRh o r))
  | PCustomHook =>
      o <- load_own d ;; r <- load_routes false d ;; m <- load_all pair_back string_c (s "custom_hooks") d ;;
      Ok (SCustomHook (mkCu o r m))
  | PFallbackHook =>
      o <- load_own d ;; r <- load_routes false d ;; f <- may_load string_c (s "fallback_hook") d ;;
      Ok (SFallbackHook (mkFb o r f))
  | PFeeHook => o <- load_own d ;; c <- load coin_c (s "coin_fee") d ;; Ok (SFeeHook (mkFe o c))
  | POracle => o <- load_own d ;; m <- load_all u32_back gas_data_c (s "remote_gas_data") d ;; Ok (SOracle (mkOrc o m))
  | PIgp =>
      o <- load_own d ;; r <- load_routes false d ;; h <- load string_c (s "hrp") d ;; t <- load string_c (s "gas_token") d ;;
      g <- load u128_c (s "default_gas_usage") d ;; m <- load_all u32_back u128_c (s "gas_for_domain") d ;;
      b <- load string_c (s "beneficiary") d ;; Ok (SIgp (mkGp o r h t g m b))
  | PWarpNative => x <- load_warp d ;; Ok (SWarpNative x)
  | PWarpCw20 => x <- load_warp d ;; Ok (SWarpCw20 x)
  | PCw20 => Err EStd
  end.
