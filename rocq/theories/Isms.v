(** * Interchain security modules: /repo/contracts/isms *)
From Coq Require Import List NArith Bool.
From Verif Require Import Base OMap Crypto Message Bech32 Metadata Coins Chain Ownable.
Import ListNotations.

(** ** isms/multisig *)
(** multisig/src/state.rs:4-8 and the ownable storage *)
Record ms : Type := mkMs {
  ms_own : own;
  ms_validators : omap N (list bytes);
  ms_threshold : omap N N
}.

(** multisig/src/contract.rs:25-38 *)
Definition ms_instantiate (A : api) (owner : str) : res (ms * response) :=
  o <- addr_validate A owner ;;
  Ok (mkMs (own_init o) [] [], resp0).

(** multisig/src/contract.rs:52-84 *)
Definition ms_set_validators (i : info) (d t : N) (vs : list bytes) (x : ms) : res (ms * response) :=
  _ <- only_owner (ms_own x) i ;;
  _ <- ensure (forallb (fun v => Nat.eqb (length v) 20) vs) EWrongLength ;;
  _ <- ensure ((t <=? N.of_nat (length vs)) && (0 <? t))%bool EInvalidConfig ;;
  Ok (mkMs (ms_own x) (om_set d vs (ms_validators x)) (om_set d t (ms_threshold x)), resp0).

(** multisig/src/contract.rs:85-100 *)
Definition ms_unset_domain (i : info) (d : N) (x : ms) : res (ms * response) :=
  _ <- only_owner (ms_own x) i ;;
  Ok (mkMs (ms_own x) (om_del d (ms_validators x)) (om_del d (ms_threshold x)), resp0).

(** multisig/src/contract.rs:42-102 *)
Definition ms_execute (A : api) (i : info) (m : emsg) (x : ms) : res (ms * response) :=
  match m with
  | MOwnable om =>
      o <- own_handle A i om (ms_own x) ;;
      Ok (mkMs o (ms_validators x) (ms_threshold x), resp0)
  | MSetValidators d t vs => ms_set_validators i d t vs x
  | MUnsetDomain d => ms_unset_domain i d x
  | _ => Err EParse
  end.

(** multisig/src/lib.rs:15-24 *)
Definition ms_domain_hash (domain : N) (address : bytes) : bytes :=
  keccak256_hash (be4 domain ++ address ++ s "HYPERLANE").

(** multisig/src/lib.rs:26-42 *)
Definition ms_multisig_hash (domain_hash root : bytes) (index : N) (message_id : bytes) : bytes :=
  keccak256_hash (domain_hash ++ root ++ be4 index ++ message_id).

(** multisig/src/query.rs:46-53: public key recovery and the signer's address *)
Definition ms_signer (A : api) (hash signature : bytes) : res bytes :=
  rs <- slice 0 64 signature ;;
  v <- slice 64 65 signature ;;
  _ <- need (27 <=? of_be v) ;;
  pk <- ok_or (api_recover A hash rs (of_be v - 27)) ERecover ;;
  eth_addr pk.

(** multisig/src/query.rs:45-63; returns what is left of the threshold.
    [threshold -= 1] on a zero [u8] aborts. *)
Fixpoint ms_loop (A : api) (hash : bytes) (validators : list bytes) (sigs : list bytes)
    (matched : list bytes) (threshold : N) : res N :=
  match sigs with
  | [] => Ok threshold
  | sg :: sigs' =>
      a <- ms_signer A hash sg ;;
      if (mem_bytes a validators && negb (mem_bytes a matched))%bool then
        _ <- need (1 <=? threshold) ;;
        if threshold - 1 =? 0 then Ok 0
        else ms_loop A hash validators sigs' (a :: matched) (threshold - 1)
      else ms_loop A hash validators sigs' matched threshold
  end.

(** multisig/src/query.rs:29-38 *)
Definition ms_digest (m : message) (md : mid_meta) : res bytes :=
  index <- mid_merkle_index md ;;
  Ok (eth_hash (ms_multisig_hash (ms_domain_hash (m_origin m) (mid_tree md)) (mid_root md)
                  index (msg_id m))).

(** multisig/src/query.rs:21-68 *)
Definition ms_verify (A : api) (metadata raw : bytes) (x : ms) : res bool :=
  md <- mid_decode metadata ;;
  m <- msg_decode raw ;;
  hash <- ms_digest m md ;;
  vs <- ok_or (om_get (m_origin m) (ms_validators x)) EStd ;;
  t <- ok_or (om_get (m_origin m) (ms_threshold x)) EStd ;;
  left <- ms_loop A hash vs (mid_signatures md) [] t ;;
  Ok (left =? 0).

(** multisig/src/query.rs:70-83 *)
Definition ms_verify_info (raw : bytes) (x : ms) : res qres :=
  m <- msg_decode raw ;;
  t <- ok_or (om_get (m_origin m) (ms_threshold x)) EStd ;;
  vs <- ok_or (om_get (m_origin m) (ms_validators x)) EStd ;;
  Ok (RVerifyInfo t vs).

(** multisig/src/contract.rs:106-134 *)
Definition ms_query (A : api) (m : qmsg) (x : ms) : res qres :=
  match m with
  | QOwner | QPendingOwner => own_query m (ms_own x)
  | QModuleType => Ok (RModuleType TMessageIdMultisig)
  | QVerify md msg => b <- ms_verify A md msg x ;; Ok (RVerified b)
  | QVerifyInfo msg => ms_verify_info msg x
  | QEnrolled d =>
      vs <- ok_or (om_get d (ms_validators x)) EStd ;;
      t <- ok_or (om_get d (ms_threshold x)) EStd ;;
      Ok (REnrolled vs t)
  | _ => Err EParse
  end.

(** ** isms/aggregate/src/lib.rs *)
(** aggregate/src/lib.rs:26-30 *)
Record ag : Type := mkAg { ag_own : own; ag_isms : list addr; ag_threshold : N }.

(** aggregate/src/lib.rs:37-64: no check on the threshold *)
Definition ag_instantiate (A : api) (owner : str) (isms : list str) (t : N) : res (ag * response) :=
  o <- addr_validate A owner ;;
  l <- mapM (addr_validate A) isms ;;
  Ok (mkAg (own_init o) l t, resp0).

(** aggregate/src/lib.rs:75-102 *)
Definition ag_set_isms (A : api) (i : info) (isms : list str) (t : N) (x : ag) : res (ag * response) :=
  _ <- only_owner (ag_own x) i ;;
  _ <- ensure (0 <? t) EInvalidConfig ;;
  _ <- ensure (t <=? N.of_nat (length isms)) EInvalidConfig ;;
  l <- mapM (addr_validate A) isms ;;
  Ok (mkAg (ag_own x) l t, resp0).

(** aggregate/src/lib.rs:67-104 *)
Definition ag_execute (A : api) (i : info) (m : emsg) (x : ag) : res (ag * response) :=
  match m with
  | MOwnable om =>
      o <- own_handle A i om (ag_own x) ;; Ok (mkAg o (ag_isms x) (ag_threshold x), resp0)
  | MSetIsms isms t => ag_set_isms A i isms t x
  | _ => Err EParse
  end.

(** aggregate/src/lib.rs:145-155; [threshold -= 1] on a zero [u8] aborts *)
Fixpoint ag_loop (q : querier) (message : bytes) (l : list (addr * bytes)) (threshold : N) : res N :=
  match l with
  | [] => Ok threshold
  | (ism, md) :: l' =>
      v <- ism_verify q ism md message ;;
      t <- (if (v : bool) then (_ <- need (1 <=? threshold) ;; Ok (threshold - 1))
            else Ok threshold) ;;
      if t =? 0 then Ok 0 else ag_loop q message l' t
  end.

(** aggregate/src/lib.rs:136-160 *)
Definition ag_verify (q : querier) (metadata message : bytes) (x : ag) : res bool :=
  m <- agg_from_hex metadata (ag_isms x) ;;
  left <- ag_loop q message m (ag_threshold x) ;;
  Ok (left =? 0).

(** aggregate/src/lib.rs:107-134, 162-171 *)
Definition ag_query (q : querier) (m : qmsg) (x : ag) : res qres :=
  match m with
  | QOwner | QPendingOwner => own_query m (ag_own x)
  | QModuleType => Ok (RModuleType TAggregation)
  | QVerify md msg => b <- ag_verify q md msg x ;; Ok (RVerified b)
  | QVerifyInfo _ => vs <- mapM bech32_decode (ag_isms x) ;; Ok (RVerifyInfo (ag_threshold x) vs)
  | QIsms => Ok (RIsms (ag_isms x) (ag_threshold x))
  | _ => Err EParse
  end.

(** ** isms/routing *)
(** routing/src/state.rs:4-5 *)
Record ri : Type := mkRi { ri_own : own; ri_modules : omap N addr }.

(** routing/src/contract.rs:31-37 *)
Definition ri_save_all (A : api) (l : list (N * str)) (m : omap N addr) : res (omap N addr) :=
  foldM (fun m p => a <- addr_validate A (snd p) ;; Ok (om_set (fst p) a m)) l m.

(** routing/src/contract.rs:19-42 *)
Definition ri_instantiate (A : api) (owner : str) (isms : list (N * str)) : res (ri * response) :=
  o <- addr_validate A owner ;;
  m <- ri_save_all A isms [] ;;
  Ok (mkRi (own_init o) m, resp0).

(** routing/src/contract.rs:45-100 *)
Definition ri_execute (A : api) (i : info) (m : emsg) (x : ri) : res (ri * response) :=
  match m with
  | MOwnable om => o <- own_handle A i om (ri_own x) ;; Ok (mkRi o (ri_modules x), resp0)
  | MRoutingSet d a =>
      _ <- only_owner (ri_own x) i ;;
      a' <- addr_validate A a ;;
      Ok (mkRi (ri_own x) (om_set d a' (ri_modules x)), resp0)
  | MRoutingUnset ds =>
      _ <- only_owner (ri_own x) i ;;
      Ok (mkRi (ri_own x) (fold_left (fun m d => om_del d m) ds (ri_modules x)), resp0)
  | _ => Err EParse
  end.

(** routing/src/contract.rs:113-117, 126-130, 141-145 *)
Definition ri_module (message : bytes) (x : ri) : res addr :=
  m <- msg_decode message ;;
  ok_or (om_get (m_origin m) (ri_modules x)) ERouteNotFound.

(** routing/src/contract.rs:103-152; VerifyInfo sends the query without the
    [ism] wrapper and reads the answer as a [VerifyResponse] *)
Definition ri_query (q : querier) (m : qmsg) (x : ri) : res qres :=
  match m with
  | QOwner | QPendingOwner => own_query m (ri_own x)
  | QModuleType => Ok (RModuleType TRouting)
  | QVerify md msg =>
      a <- ri_module msg x ;;
      b <- ism_verify q a md msg ;; Ok (RVerified b)
  | QVerifyInfo msg =>
      a <- ri_module msg x ;;
      r <- smart q a (QBareVerifyInfo msg) ;;
      match r with RVerified b => Ok (RVerified b) | _ => Err EStd end
  | QRoute msg => a <- ri_module msg x ;; Ok (RRouteIsm a)
  | _ => Err EParse
  end.

(** ** isms/pausable/src/lib.rs *)
(** pausable storage: packages/pausable/src/lib.rs:11-12 *)
Record pi : Type := mkPi { pi_own : own; pi_paused : bool }.

(** pausable/src/lib.rs:39-57 *)
Definition pi_instantiate (A : api) (owner : str) (paused : bool) : res (pi * response) :=
  o <- addr_validate A owner ;; Ok (mkPi (own_init o) paused, resp0).

(** pausable/src/lib.rs:60-70 *)
Definition pi_execute (A : api) (i : info) (m : emsg) (x : pi) : res (pi * response) :=
  match m with
  | MOwnable om => o <- own_handle A i om (pi_own x) ;; Ok (mkPi o (pi_paused x), resp0)
  | MPausable pm => b <- pause_handle (pi_own x) i pm (pi_paused x) ;; Ok (mkPi (pi_own x) b, resp0)
  | _ => Err EParse
  end.

(** pausable/src/lib.rs:73-94; VerifyInfo is [unimplemented!()] *)
Definition pi_query (m : qmsg) (x : pi) : res qres :=
  match m with
  | QOwner | QPendingOwner => own_query m (pi_own x)
  | QPauseInfo => pause_query m (pi_paused x)
  | QModuleType => Ok (RModuleType TNull)
  | QVerify _ _ => _ <- ensure (negb (pi_paused x)) EPaused ;; Ok (RVerified true)
  | QVerifyInfo _ => Panic
  | _ => Err EParse
  end.
