(** * The chain with raw databases.

    World.v keeps a record for each contract.  Here each keeps what the host keeps:
    the program it runs and a database of texts under keys; its entry points are those
    of Raw.v.  The external cw20 token, which is not in /repo, and all other programs
    are as in World.v.  [ver] gives the name and version recorded by each
    program: contracts at different addresses may run different versions. *)
From Coq Require Import List NArith Bool.
From Verif Require Import Base OMap Message Coins Chain Utils Cw20 Contracts World Wire Store Raw.
Import ListNotations.

(** a contract of /repo/contracts/*/*/src/*.rs with its database, a cw20 token, or another program *)
Inductive rinst := RC (p : program) (d : db) | RT (x : cw) | RX (st : bytes).
(** the chain around the contracts of /repo/contracts/*/*/src/*.rs: storage, bank,
    token factory, height (/repo/contracts/core/mailbox/src/state.rs:50-53) *)
Record rworld : Type := mkRaw {
  rw_inst : omap addr rinst;
  rw_bank : omap (addr * str) N;
  rw_admin : omap str addr;
  rw_height : N;
  rw_next : N
}.
(** runtime rule (DESIGN.md, "Runtime rules"); used by every [save], e.g.
    /repo/contracts/core/mailbox/src/state.rs:55-65 *)
Definition rset_inst (a : addr) (x : rinst) (w : rworld) : rworld :=
  mkRaw (om_set a x (rw_inst w)) (rw_bank w) (rw_admin w) (rw_height w) (rw_next w).
(** runtime rule (DESIGN.md, "Runtime rules"); used by
    /repo/contracts/warp/native/src/conv.rs:28-33 *)
Definition rset_bank (b : omap (addr * str) N) (w : rworld) : rworld :=
  mkRaw (rw_inst w) b (rw_admin w) (rw_height w) (rw_next w).
(** runtime rule (DESIGN.md, "Runtime rules"); used by
    /repo/contracts/warp/native/src/contract.rs:52-58 *)
Definition rset_admin (d : str) (a : addr) (w : rworld) : rworld :=
  mkRaw (rw_inst w) (rw_bank w) (om_set d a (rw_admin w)) (rw_height w) (rw_next w).
(** runtime rule (DESIGN.md, "Runtime rules"); used by
    /repo/contracts/warp/cw20/src/contract.rs:55-64 *)
Definition rbump (w : rworld) : rworld :=
  mkRaw (rw_inst w) (rw_bank w) (rw_admin w) (rw_height w) (rw_next w + 1).
(** runtime rule (DESIGN.md, "Runtime rules"); used by
    /repo/contracts/core/mailbox/src/state.rs:50-53 (block_number) *)
Definition rset_height (h : N) (w : rworld) : rworld :=
  mkRaw (rw_inst w) (rw_bank w) (rw_admin w) h (rw_next w).
(** runtime rule (DESIGN.md, "Runtime rules"); used by
    /repo/contracts/igps/core/src/execute.rs:98 *)
Definition rbalance (w : rworld) (a : addr) (d : str) : N := bal (rw_bank w) a d.
(** runtime rule (DESIGN.md, "Runtime rules"); used by
    /repo/contracts/hooks/fee/src/lib.rs:101 *)
Definition rall_balances (w : rworld) (a : addr) : list coin :=
  flat_map (fun p => if (bytes_eqb a (fst (fst p)) && negb (snd p =? 0))%bool
                     then [mkCoin (snd (fst p)) (snd p)] else []) (rw_bank w).
(** runtime rule (DESIGN.md, "Runtime rules"); used by
    /repo/contracts/warp/native/src/conv.rs:28-33,
    /repo/packages/interface/src/hook/mod.rs:76-91 *)
Definition rmove_coins (from to : addr) (l : list coin) (w : rworld) : res rworld :=
  _ <- ensure (coins_ok l) EParse ;;
  b <- foldM (fun b c => move_coin from to c b) (norm_coins l) (rw_bank w) ;;
  Ok (rset_bank b w).

(** which program an instantiation message is for; the [instantiate] entry points of
    /repo/contracts/*/*/src/{contract,lib}.rs *)
Definition program_made (m : imsg) : program :=
  match m with
  | IMailbox _ _ _ => PMailbox | IVa _ => PVa | IMultisig _ => PMultisig | IAggIsm _ _ _ => PAggIsm
  | IRoutingIsm _ _ => PRoutingIsm | IPausableIsm _ _ => PPausableIsm | IMerkle _ => PMerkle | IAggHook _ _ => PAggHook
  | IPausableHook _ _ => PPausableHook | IRoutingHook _ => PRoutingHook | ICustomHook _ => PCustomHook
  | IFallbackHook _ => PFallbackHook | IFeeHook _ _ => PFeeHook | IOracle _ => POracle | IIgp _ _ _ _ _ => PIgp
  | IWarpNative _ _ _ _ => PWarpNative | IWarpCw20 _ _ _ _ => PWarpCw20 | ICw20 _ _ => PCw20
  end.

(** queries see the databases of the moment; runtime rule (DESIGN.md, "Runtime rules");
    used by /repo/packages/interface/src/ism/mod.rs:93-117 *)
Fixpoint rwq (C : chain) (n : nat) (w : rworld) : querier :=
  mkQuerier
    (fun a m =>
       match n with
       | O => Err EStd
       | S n' =>
           match om_get a (rw_inst w) with
           | Some (RC p d) => raw_query (ch_api C) (rwq C n' w) m p d
           | Some (RT x) => c_query (ch_api C) (rwq C n' w) m (SCw20 x)
           | Some (RX st) => x_query (ch_ext C) (mkEnv a (rw_height w)) m (rwq C n' w) st
           | None => Err EStd
           end
       end)
    (rbalance w) (rall_balances w).

Section Exec.
  Variable C : chain.
  Variable ver : addr -> program -> cw2.
  (** (notation) the [Api] of e.g. /repo/contracts/core/mailbox/src/contract.rs:18-48 *)
  Notation A := (ch_api C).
  Variable k : nat.
  Variable rec : addr -> list submsg -> rworld -> res rworld.

  (** runtime rule (DESIGN.md, "Runtime rules"); used by
      /repo/packages/interface/src/core/mailbox.rs:106-134 *)
  Definition rinvoke (caller a : addr) (m : emsg) (funds : list coin) (w : rworld) : res rworld :=
    let e := mkEnv a (rw_height w) in
    let i := mkInfo caller funds in
    match om_get a (rw_inst w) with
    | Some (RC p d) =>
        ' (d', r) <- raw_execute A (fun y => rwq C k (rset_inst a (RC p y) w)) e i m p d ;;
        rec a (r_msgs r) (rset_inst a (RC p d') w)
    | Some (RT x) =>
        _ <- ensure (emsg_ok m) EParse ;;
        ' (x', r) <- cw_execute A i m x ;;
        rec a (r_msgs r) (rset_inst a (RT x') w)
    | Some (RX st) =>
        ' (st', r) <- x_exec (ch_ext C) e i m (rwq C k w) st ;;
        rec a (r_msgs r) (rset_inst a (RX st') w)
    | None => Err EStd
    end.

  (** runtime rule (DESIGN.md, "Runtime rules"); used by
      /repo/contracts/warp/native/src/contract.rs:52-58, 122-144 *)
  Definition rgive_reply (a : addr) (id : N) (rr : res reply_result) (w : rworld) : res rworld :=
    match om_get a (rw_inst w) with
    | Some (RC p d) =>
        ' (d', r) <- raw_reply A id rr p d ;;
        rec a (r_msgs r) (rset_inst a (RC p d') w)
    | Some (RT _) => Err EParse
    | Some (RX st) =>
        ' (st', r) <- x_reply (ch_ext C) (mkEnv a (rw_height w)) id rr (rwq C k w) st ;;
        rec a (r_msgs r) (rset_inst a (RX st') w)
    | None => Err EStd
    end.

  (** what a new contract keeps: the version record and what its [instantiate] saves, e.g.
      /repo/contracts/core/mailbox/src/contract.rs:18-48 *)
  Definition rborn (q : querier) (e : env) (m : imsg) : res (rinst * response) :=
    match m with
    | ICw20 minter init =>
        _ <- ensure (imsg_ok m) EParse ;; x <- cw_instantiate A minter init ;; Ok (RT x, resp0)
    | _ => ' (d, r) <- raw_instantiate A q e m (ver (e_contract e) (program_made m)) ;; Ok (RC (program_made m) d, r)
    end.
  (** a new contract: its address must be fresh; funds arrive before its [instantiate]
      runs; runtime rule (DESIGN.md, "Runtime rules"); used by
      /repo/contracts/warp/cw20/src/contract.rs:55-64 *)
  Definition rdeploy (caller : addr) (m : imsg) (funds : list coin) (w : rworld)
    : res (rworld * addr) :=
    let a := ch_addr C (rw_next w) in
    match om_get a (rw_inst w) with
    | Some _ => Err EStd
    | None =>
        w1 <- rmove_coins caller a funds (rbump w) ;;
        ' (x, r) <- rborn (rwq C k w1) (mkEnv a (rw_height w)) m ;;
        w2 <- rec a (r_msgs r) (rset_inst a x w1) ;;
        Ok (w2, a)
    end.
  (** deployment of a program that is not in /repo/contracts/*/*/src/*.rs *)
  Definition rdeploy_ext (caller : addr) (st : bytes) (funds : list coin) (w : rworld)
    : res rworld :=
    let a := ch_addr C (rw_next w) in
    match om_get a (rw_inst w) with
    | Some _ => Err EStd
    | None => w1 <- rmove_coins caller a funds (rbump w) ;; Ok (rset_inst a (RX st) w1)
    end.

  (** one message, sent by [caller]; runtime rule (DESIGN.md, "Runtime rules"); used by
      /repo/contracts/warp/native/src/proto.rs:13-150, /repo/contracts/warp/native/src/conv.rs:8-67 *)
  Definition rperform (caller : addr) (m : cmsg) (w : rworld) : res (rworld * reply_result) :=
    match m with
    | CExec a em funds =>
        w1 <- rmove_coins caller a funds w ;;
        w2 <- rinvoke caller a em (norm_coins funds) w1 ;;
        Ok (w2, RrNone)
    | CBankSend to amount =>
        _ <- ensure (api_valid A to) EStd ;;
        _ <- ensure (negb (match norm_coins amount with [] => true | _ => false end)) EStd ;;
        w1 <- rmove_coins caller to amount w ;;
        Ok (w1, RrNone)
    | CCreateDenom sender sub =>
        _ <- ensure (bytes_eqb sender caller) EUnauthorized ;;
        let d := factory_denom sender sub in
        match om_get d (rw_admin w) with
        | Some _ => Err EStd
        | None => Ok (rset_admin d sender w, RrDenom d)
        end
    | CSetDenomMetadata sender md =>
        _ <- ensure (bytes_eqb sender caller) EUnauthorized ;;
        match om_get (md_base md) (rw_admin w) with
        | Some x => _ <- ensure (bytes_eqb x sender) EUnauthorized ;; Ok (w, RrNone)
        | None => Err EStd
        end
    | CMint sender n d =>
        _ <- ensure (bytes_eqb sender caller) EUnauthorized ;;
        _ <- ensure (negb (n =? 0)) EStd ;;
        match om_get d (rw_admin w) with
        | Some x => _ <- ensure (bytes_eqb x sender) EUnauthorized ;;
                    Ok (rset_bank (credit sender d n (rw_bank w)) w, RrNone)
        | None => Err EStd
        end
    | CBurn sender n d =>
        _ <- ensure (bytes_eqb sender caller) EUnauthorized ;;
        _ <- ensure (negb (n =? 0)) EStd ;;
        match om_get d (rw_admin w) with
        | Some x => _ <- ensure (bytes_eqb x sender) EUnauthorized ;;
                    b <- debit sender d n (rw_bank w) ;;
                    Ok (rset_bank b w, RrNone)
        | None => Err EStd
        end
    | CInstantiateCw20 minter init =>
        ' (w1, a) <- rdeploy caller (ICw20 (Some minter) init) [] w ;;
        Ok (w1, RrContract a)
    end.

  (** a submessage; runtime rule (DESIGN.md, "Runtime rules"); used by
      /repo/contracts/warp/native/src/contract.rs:52-61 *)
  Definition rrun_sub (caller : addr) (s : submsg) (w : rworld) : res rworld :=
    match rperform caller (sm_msg s) w with
    | Ok (w', rr) =>
        match sm_reply s with
        | RpSuccess id | RpAlways id => rgive_reply caller id (Ok rr) w'
        | _ => Ok w'
        end
    | bad =>
        match sm_reply s with
        | RpError id | RpAlways id => rgive_reply caller id (Err EStd) w
        | _ => match bad with Err e => Err e | _ => Panic end
        end
    end.
End Exec.

(** submessages run in order; runtime rule (DESIGN.md, "Runtime rules"); used by
    /repo/contracts/warp/native/src/contract.rs:189-194, 235-259 *)
Fixpoint rexec (C : chain) (ver : addr -> program -> cw2) (k : nat) (caller : addr) (l : list submsg) (w : rworld) : res rworld :=
  match k with
  | O => Err EStd
  | S k' =>
      match l with
      | [] => Ok w
      | s :: l' => w1 <- rrun_sub C ver k' (rexec C ver k') caller s w ;; rexec C ver k' caller l' w1
      end
  end.

(** a transaction; runtime rule (DESIGN.md, "Runtime rules"); used by every entry point of
    /repo/contracts/*/*/src/{contract,lib}.rs *)
Definition rtx_run (C : chain) (ver : addr -> program -> cw2) (k : nat) (t : tx) (w : rworld) : res rworld :=
  match t with
  | TExec s a m f =>
      _ <- ensure (ch_account C s) EUnauthorized ;;
      ' (w', _) <- rperform C ver k (rexec C ver k) s (CExec a m f) w ;; Ok w'
  | TSend s to amount =>
      _ <- ensure (ch_account C s) EUnauthorized ;;
      ' (w', _) <- rperform C ver k (rexec C ver k) s (CBankSend to amount) w ;; Ok w'
  | TDeploy s m f =>
      _ <- ensure (ch_account C s) EUnauthorized ;;
      ' (w', _) <- rdeploy C ver k (rexec C ver k) s m f w ;; Ok w'
  | TDeployExt s st f =>
      _ <- ensure (ch_account C s) EUnauthorized ;;
      rdeploy_ext C s st f w
  | TBlock h => _ <- ensure (rw_height w <=? h) EStd ;; Ok (rset_height h w)
  end.
(** a failed transaction changes nothing; runtime rule (DESIGN.md, "Runtime rules");
    used by every entry point of /repo/contracts/*/*/src/{contract,lib}.rs *)
Definition rtx_step (C : chain) (ver : addr -> program -> cw2) (w : rworld) (t : nat * tx) : rworld :=
  match rtx_run C ver (fst t) (snd t) w with Ok w' => w' | _ => w end.
(** a history of transactions calling /repo/contracts/*/*/src/{contract,lib}.rs *)
Definition rchain_run (C : chain) (ver : addr -> program -> cw2) (w : rworld) (l : list (nat * tx)) : rworld :=
  fold_left (rtx_step C ver) l w.
(** any distribution of coins, no contract yet; runtime rule (DESIGN.md, "Runtime
    rules"); used by every [instantiate] of /repo/contracts/*/*/src/{contract,lib}.rs *)
Definition rgenesis (bank : omap (addr * str) N) : rworld := mkRaw [] bank [] 0 0.
