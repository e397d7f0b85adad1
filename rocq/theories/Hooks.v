(** * Post-dispatch hooks: /repo/contracts/hooks *)
From Coq Require Import List NArith Bool.
From Verif Require Import Base OMap Crypto Message Merkle Hex Coins Chain Ownable Router.
Import ListNotations.

(** The text every hook without a mailbox answers: aggregate/src/lib.rs:152-156,
    pausable 95-99, routing 90-94, routing-custom 120-124, routing-fallback
    109-113, fee 145-149, igps/core/src/query.rs:13-17 *)
Definition unrestricted : str := s "unrestricted".

(** ** hooks/merkle/src/lib.rs *)
(** merkle/src/lib.rs:46-50 *)
Record mk : Type := mkMk { mk_mailbox : addr; mk_tree : merkle_tree }.

(** merkle/src/lib.rs:57-75 *)
Definition mk_instantiate (A : api) (mailbox : str) : res (mk * response) :=
  m <- addr_validate A mailbox ;; Ok (mkMk m mt_default, resp0).

(** merkle/src/lib.rs:85-119 *)
Definition mk_post_dispatch (q : querier) (message : bytes) (x : mk) : res (mk * response) :=
  r <- smart q (mk_mailbox x) QLatestDispatchId ;;
  match r with
  | RMessageId latest =>
      m <- msg_decode message ;;
      _ <- ensure (bytes_eqb latest (msg_id m)) EUnauthorized ;;
      t <- mt_insert (mk_tree x) (msg_id m) ;;
      Ok (mkMk (mk_mailbox x) t, resp0)
  | _ => Err EStd
  end.

(** merkle/src/lib.rs:78-121 *)
Definition mk_execute (q : querier) (m : emsg) (x : mk) : res (mk * response) :=
  match m with
  | MPostDispatch _ msg => mk_post_dispatch q msg x
  | _ => Err EParse
  end.

(** merkle/src/lib.rs:124-194; [count as u32] truncates *)
Definition mk_query (m : qmsg) (x : mk) : res qres :=
  let c := mt_count (mk_tree x) mod u32_max in
  match m with
  | QHookMailbox => Ok (RMailbox (mk_mailbox x))
  | QHookQuote _ _ => Ok (RFees [])
  | QMerkleCount => Ok (RCount c)
  | QMerkleRoot => Ok (RRoot (mt_root (mk_tree x)))
  | QMerkleBranch => Ok (RBranch (mt_branch (mk_tree x)))
  | QMerkleTree => Ok (RTree (mt_branch (mk_tree x)) c)
  | QMerkleCheckPoint =>
      n <- (if mt_count (mk_tree x) =? 0 then Ok 0
            else (_ <- need (1 <=? c) ;; Ok (c - 1))) ;;
      Ok (RCheckPoint (mt_root (mk_tree x)) n)
  | _ => Err EParse
  end.

(** ** hooks/aggregate/src/lib.rs *)
(** aggregate/src/lib.rs:41-42 *)
Record ah : Type := mkAh { ah_own : own; ah_hooks : list addr }.

(** aggregate/src/lib.rs:49-74 *)
Definition ah_instantiate (A : api) (owner : str) (hooks : list str) : res (ah * response) :=
  o <- addr_validate A owner ;;
  l <- mapM (addr_validate A) hooks ;;
  Ok (mkAh (own_init o) l, resp0).

(** aggregate/src/lib.rs:85-112 *)
Definition ah_post_dispatch (q : querier) (metadata message : bytes) (x : ah) : res (ah * response) :=
  msgs <- mapM (fun h => f <- quote_dispatch q h metadata message ;;
                         Ok (post_dispatch h metadata message f)) (ah_hooks x) ;;
  _ <- msg_decode message ;;
  Ok (x, resp msgs).

(** aggregate/src/lib.rs:77-134 *)
Definition ah_execute (A : api) (q : querier) (i : info) (m : emsg) (x : ah) : res (ah * response) :=
  match m with
  | MOwnable om => o <- own_handle A i om (ah_own x) ;; Ok (mkAh o (ah_hooks x), resp0)
  | MPostDispatch md msg => ah_post_dispatch q md msg x
  | MSetHooks hooks =>
      _ <- only_owner (ah_own x) i ;;
      l <- mapM (addr_validate A) hooks ;;
      Ok (mkAh (ah_own x) l, resp0)
  | _ => Err EParse
  end.

(** aggregate/src/lib.rs:158-185 *)
Definition ah_quote (q : querier) (metadata message : bytes) (x : ah) : res (list coin) :=
  total <- foldM (fun acc h => f <- quote_dispatch q h metadata message ;;
                               foldM coins_add f acc) (ah_hooks x) [] ;;
  Ok (coins_to_vec total).

(** aggregate/src/lib.rs:137-156, 187-195 *)
Definition ah_query (q : querier) (m : qmsg) (x : ah) : res qres :=
  match m with
  | QOwner | QPendingOwner => own_query m (ah_own x)
  | QHookMailbox => Ok (RMailbox unrestricted)
  | QHookQuote md msg => f <- ah_quote q md msg x ;; Ok (RFees f)
  | QAggHooks => Ok (RHooks (ah_hooks x))
  | _ => Err EParse
  end.

(** ** hooks/pausable/src/lib.rs *)
(** storage of packages/ownable and packages/pausable:
    /repo/packages/ownable/src/lib.rs:11-15, /repo/packages/pausable/src/lib.rs:11-12 *)
Record ph : Type := mkPh { ph_own : own; ph_paused : bool }.

(** pausable/src/lib.rs:41-59 *)
Definition ph_instantiate (A : api) (owner : str) (paused : bool) : res (ph * response) :=
  o <- addr_validate A owner ;; Ok (mkPh (own_init o) paused, resp0).

(** pausable/src/lib.rs:62-81 *)
Definition ph_execute (A : api) (i : info) (m : emsg) (x : ph) : res (ph * response) :=
  match m with
  | MOwnable om => o <- own_handle A i om (ph_own x) ;; Ok (mkPh o (ph_paused x), resp0)
  | MPausable pm => b <- pause_handle (ph_own x) i pm (ph_paused x) ;; Ok (mkPh (ph_own x) b, resp0)
  | MPostDispatch _ _ => _ <- ensure (negb (ph_paused x)) EPaused ;; Ok (x, resp0)
  | _ => Err EParse
  end.

(** pausable/src/lib.rs:84-103 *)
Definition ph_query (m : qmsg) (x : ph) : res qres :=
  match m with
  | QOwner | QPendingOwner => own_query m (ph_own x)
  | QPauseInfo => pause_query m (ph_paused x)
  | QHookMailbox => Ok (RMailbox unrestricted)
  | QHookQuote _ _ => Ok (RFees [])
  | _ => Err EParse
  end.

(** ** hooks/routing/src/lib.rs *)
(** storage of packages/ownable and packages/router:
    /repo/packages/ownable/src/lib.rs:11-15, /repo/packages/router/src/lib.rs:18-33 *)
Record rh : Type := mkRh { rh_own : own; rh_routes : routes }.

(** routing/src/lib.rs:45-62 *)
Definition rh_instantiate (A : api) (owner : str) : res (rh * response) :=
  o <- addr_validate A owner ;; Ok (mkRh (own_init o) [], resp0).

(** routing/src/lib.rs:112-122 *)
Definition rh_route (message : bytes) (x : rh) : res addr :=
  m <- msg_decode message ;;
  ok_or (rs_route (get_route (rh_routes x) (m_dest m))) ERouteNotFound.

(** routing/src/lib.rs:65-76 and 124-139: no funds are forwarded *)
Definition rh_execute (A : api) (i : info) (m : emsg) (x : rh) : res (rh * response) :=
  match m with
  | MOwnable om => o <- own_handle A i om (rh_own x) ;; Ok (mkRh o (rh_routes x), resp0)
  | MRouter rm => r <- router_handle (rh_own x) i rm (rh_routes x) ;; Ok (mkRh (rh_own x) r, resp0)
  | MPostDispatch md msg =>
      h <- rh_route msg x ;; Ok (x, resp [CExec h (MPostDispatch md msg) []])
  | _ => Err EParse
  end.

(** routing/src/lib.rs:79-110 *)
Definition rh_query (q : querier) (m : qmsg) (x : rh) : res qres :=
  match m with
  | QOwner | QPendingOwner => own_query m (rh_own x)
  | QDomains | QGetRoute _ | QListRoutes _ _ _ => router_query m (rh_routes x)
  | QHookMailbox => Ok (RMailbox unrestricted)
  | QHookQuote md msg =>
      h <- rh_route msg x ;; f <- quote_dispatch q h md msg ;; Ok (RFees f)
  | _ => Err EParse
  end.

(** ** hooks/routing-custom/src/lib.rs *)
(** routing-custom/src/lib.rs:49-50 and packages/ownable, packages/router *)
Record cu : Type := mkCu { cu_own : own; cu_routes : routes; cu_hooks : omap (N * bytes) addr }.

(** routing-custom/src/lib.rs:57-74 *)
Definition cu_instantiate (A : api) (owner : str) : res (cu * response) :=
  o <- addr_validate A owner ;; Ok (mkCu (own_init o) [] [], resp0).

(** routing-custom/src/lib.rs:186-204, one iteration *)
Definition cu_register1 (A : api) (m : omap (N * bytes) addr) (c : custom_hook)
  : res (omap (N * bytes) addr) :=
  r <- hex_decode (ch_recipient c) ;;
  _ <- ensure (Nat.eqb (length r) 32) EInvalidConfig ;;
  h <- addr_validate A (ch_hook c) ;;
  Ok (om_set (ch_dest c, r) h m).

(** routing-custom/src/lib.rs:175-224 *)
Definition cu_register (A : api) (i : info) (l : list custom_hook) (x : cu) : res (cu * response) :=
  _ <- only_owner (cu_own x) i ;;
  m <- foldM (cu_register1 A) l (cu_hooks x) ;;
  Ok (mkCu (cu_own x) (cu_routes x) m, resp0).

(** routing-custom/src/lib.rs:226-265 *)
Definition cu_clear (i : info) (l : list (N * str)) (x : cu) : res (cu * response) :=
  _ <- only_owner (cu_own x) i ;;
  m <- foldM (fun m p => r <- hex_decode (snd p) ;; Ok (om_del (fst p, r) m)) l (cu_hooks x) ;;
  Ok (mkCu (cu_own x) (cu_routes x) m, resp0).

(** routing-custom/src/lib.rs:267-283 *)
Definition cu_route (message : bytes) (x : cu) : res addr :=
  m <- msg_decode message ;;
  match om_get (m_dest m, m_recipient m) (cu_hooks x) with
  | Some h => Ok h
  | None => ok_or (rs_route (get_route (cu_routes x) (m_dest m))) ERouteNotFound
  end.

(** routing-custom/src/lib.rs:77-94, 285-300: no funds are forwarded *)
Definition cu_execute (A : api) (i : info) (m : emsg) (x : cu) : res (cu * response) :=
  match m with
  | MOwnable om =>
      o <- own_handle A i om (cu_own x) ;; Ok (mkCu o (cu_routes x) (cu_hooks x), resp0)
  | MRouter rm =>
      r <- router_handle (cu_own x) i rm (cu_routes x) ;; Ok (mkCu (cu_own x) r (cu_hooks x), resp0)
  | MPostDispatch md msg =>
      h <- cu_route msg x ;; Ok (x, resp [CExec h (MPostDispatch md msg) []])
  | MRegisterCustomHook h => cu_register A i [h] x
  | MRegisterCustomHooks l => cu_register A i l x
  | MClearCustomHook d r => cu_clear i [(d, r)] x
  | MClearCustomHooks l => cu_clear i l x
  | _ => Err EParse
  end.

(** [CUSTOM_HOOKS.prefix(dest)]: /repo/contracts/hooks/routing-custom/src/lib.rs:158 *)
Definition cu_prefix (d : N) (m : omap (N * bytes) addr) : omap bytes addr :=
  map (fun p => (snd (fst p), snd p)) (filter (fun p => fst (fst p) =? d) m).

(** routing-custom/src/lib.rs:142-173 *)
Definition cu_list (d : N) (off : option str) (lim : option N) (o : option order) (x : cu)
  : res (list custom_hook) :=
  start <- match off with
           | Some t => v <- hex_decode t ;; Ok (Some v)
           | None => Ok None
           end ;;
  l <- range_page (cu_prefix d (cu_hooks x)) start lim o ;;
  Ok (map (fun p => mkCustomHook d (hex_encode (fst p)) (snd p)) l).

(** routing-custom/src/lib.rs:97-140, 302-316 *)
Definition cu_query (q : querier) (m : qmsg) (x : cu) : res qres :=
  match m with
  | QOwner | QPendingOwner => own_query m (cu_own x)
  | QDomains | QGetRoute _ | QListRoutes _ _ _ => router_query m (cu_routes x)
  | QHookMailbox => Ok (RMailbox unrestricted)
  | QHookQuote md msg =>
      h <- cu_route msg x ;; f <- quote_dispatch q h md msg ;; Ok (RFees f)
  | QCustomHook d r =>
      v <- hex_decode r ;;
      h <- ok_or (om_get (d, v) (cu_hooks x)) EStd ;;
      Ok (RCustomHook (mkCustomHook d (hex_encode v) h))
  | QCustomHooks d off lim o => l <- cu_list d off lim o x ;; Ok (RCustomHooks l)
  | _ => Err EParse
  end.

(** ** hooks/routing-fallback/src/lib.rs *)
(** routing-fallback/src/lib.rs:39-40 and packages/ownable, packages/router *)
Record fb : Type := mkFb { fb_own : own; fb_routes : routes; fb_fallback : option addr }.

(** routing-fallback/src/lib.rs:47-64 *)
Definition fb_instantiate (A : api) (owner : str) : res (fb * response) :=
  o <- addr_validate A owner ;; Ok (mkFb (own_init o) [] None, resp0).

(** routing-fallback/src/lib.rs:115-125: the fallback is loaded first *)
Definition fb_route (message : bytes) (x : fb) : res addr :=
  m <- msg_decode message ;;
  f <- ok_or (fb_fallback x) EStd ;;
  Ok (match rs_route (get_route (fb_routes x) (m_dest m)) with Some h => h | None => f end).

(** routing-fallback/src/lib.rs:67-95, 127-142: no funds are forwarded *)
Definition fb_execute (A : api) (i : info) (m : emsg) (x : fb) : res (fb * response) :=
  match m with
  | MOwnable om =>
      o <- own_handle A i om (fb_own x) ;; Ok (mkFb o (fb_routes x) (fb_fallback x), resp0)
  | MRouter rm =>
      r <- router_handle (fb_own x) i rm (fb_routes x) ;; Ok (mkFb (fb_own x) r (fb_fallback x), resp0)
  | MPostDispatch md msg =>
      h <- fb_route msg x ;; Ok (x, resp [CExec h (MPostDispatch md msg) []])
  | MSetFallbackHook h =>
      _ <- only_owner (fb_own x) i ;;
      a <- addr_validate A h ;;
      Ok (mkFb (fb_own x) (fb_routes x) (Some a), resp0)
  | _ => Err EParse
  end.

(** routing-fallback/src/lib.rs:98-113, 144-158 *)
Definition fb_query (q : querier) (m : qmsg) (x : fb) : res qres :=
  match m with
  | QOwner | QPendingOwner => own_query m (fb_own x)
  | QDomains | QGetRoute _ | QListRoutes _ _ _ => router_query m (fb_routes x)
  | QHookMailbox => Ok (RMailbox unrestricted)
  | QHookQuote md msg =>
      h <- fb_route msg x ;; f <- quote_dispatch q h md msg ;; Ok (RFees f)
  | _ => Err EParse
  end.

(** ** hooks/fee/src/lib.rs *)
(** fee/src/lib.rs:38-39 *)
Record fe : Type := mkFe { fe_own : own; fe_fee : coin }.

(** fee/src/lib.rs:46-66 *)
Definition fe_instantiate (A : api) (owner : str) (fee : coin) : res (fe * response) :=
  o <- addr_validate A owner ;; Ok (mkFe (own_init o) fee, resp0).

(** fee/src/lib.rs:75-131 *)
Definition fe_execute (A : api) (q : querier) (e : env) (i : info) (m : emsg) (x : fe)
  : res (fe * response) :=
  match m with
  | MOwnable om => o <- own_handle A i om (fe_own x) ;; Ok (mkFe o (fe_fee x), resp0)
  | MSetFee c =>
      _ <- ensure (bytes_eqb (o_owner (fe_own x)) (i_sender i)) EUnauthorized ;;
      Ok (mkFe (fe_own x) c, resp0)
  | MFeeClaim rcp =>
      _ <- ensure (bytes_eqb (o_owner (fe_own x)) (i_sender i)) EUnauthorized ;;
      let r := match rcp with Some a => a | None => o_owner (fe_own x) end in
      Ok (x, resp [CBankSend r (q_all_balances q (e_contract e))])
  | MPostDispatch _ _ =>
      supplied <- must_pay (i_funds i) (c_denom (fe_fee x)) ;;
      _ <- ensure (c_amount (fe_fee x) <=? supplied) EInsufficientFunds ;;
      Ok (x, resp0)
  | _ => Err EParse
  end.

(** fee/src/lib.rs:134-154 *)
Definition fe_query (m : qmsg) (x : fe) : res qres :=
  match m with
  | QOwner | QPendingOwner => own_query m (fe_own x)
  | QHookMailbox => Ok (RMailbox unrestricted)
  | QHookQuote _ _ => Ok (RFees [fe_fee x])
  | QFee => Ok (RFee (fe_fee x))
  | _ => Err EParse
  end.
