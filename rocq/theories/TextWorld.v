(** * The chain with JSON texts and raw databases.

    RawWorld.v with texts between the contracts: whatever a contract of /repo sends or
    asks another crosses as the JSON text its Rust type is written to and is read with
    the type the other side declares; transactions carry texts too.  What the other
    programs send, ask and are given stays a value; so do the messages to the bank and
    the token factory, the order for a new cw20 token and the replies. *)
From Coq Require Import List NArith Bool.
From Verif Require Import Base OMap Message Coins Json Chain Utils Cw20 Contracts World Wire WireQuery WireInit WireWorld Store Raw RawWorld.
Import ListNotations.

(** a message for program [p]; [t]: the sender is a contract of /repo/contracts/*/*/src/*.rs, which writes it
    as a text, e.g. [wasm_execute] at /repo/packages/interface/src/hook/mod.rs:82-90 *)
Definition handed (t : bool) (p : program) (m : emsg) : res emsg :=
  if t then ok_or (read_exec p (send_text m)) EParse else Ok m.
(** a query for program [p] and its answer, e.g. [query_wasm_smart] at
    /repo/packages/interface/src/ism/mod.rs:97-103 *)
Definition answered (t : bool) (p : program) (m : qmsg) (ask : qmsg -> res qres) : res qres :=
  if t then
    m' <- ok_or (read_query p (ask_text m)) EParse ;;
    r <- ask m' ;;
    ok_or (read_expected m (answer_text p m' r)) EStd
  else ask m.

(** queries see the databases of the moment; [t]: in texts; runtime rule (DESIGN.md, "Runtime rules");
    used by /repo/packages/interface/src/ism/mod.rs:93-117 *)
Fixpoint twq (C : chain) (n : nat) (t : bool) (w : rworld) : querier :=
  mkQuerier
    (fun a m =>
       match n with
       | O => Err EStd
       | S n' =>
           match om_get a (rw_inst w) with
           | Some (RC p d) => answered t p m (fun m' => raw_query (ch_api C) (twq C n' true w) m' p d)
           | Some (RT x) => answered t PCw20 m (fun m' => c_query (ch_api C) (twq C n' true w) m' (SCw20 x))
           | Some (RX st) => x_query (ch_ext C) (mkEnv a (rw_height w)) m (twq C n' false w) st
           | None => Err EStd
           end
       end)
    (rbalance w) (rall_balances w).

Section Exec.
  Variable C : chain.
  Variable ver : addr -> program -> cw2.
  (** (notation) the [Api] of e.g. /repo/contracts/core/mailbox/src/contract.rs:18-48 *)
  Notation A := (ch_api C).
  Variable k : nat.
  (** [rec t a l w] carries out what [a] returned; [t]: in texts *)
  Variable rec : bool -> addr -> list submsg -> rworld -> res rworld.

  (** runtime rule (DESIGN.md, "Runtime rules"); used by
      /repo/packages/interface/src/core/mailbox.rs:106-134 *)
  Definition tinvoke (t : bool) (caller a : addr) (m : emsg) (funds : list coin) (w : rworld) : res rworld :=
    let e := mkEnv a (rw_height w) in
    let i := mkInfo caller funds in
    match om_get a (rw_inst w) with
    | Some (RC p d) =>
        m' <- handed t p m ;;
        ' (d', r) <- raw_execute A (fun y => twq C k true (rset_inst a (RC p y) w)) e i m' p d ;;
        rec true a (r_msgs r) (rset_inst a (RC p d') w)
    | Some (RT x) =>
        m' <- handed t PCw20 m ;;
        _ <- ensure (emsg_ok m') EParse ;;
        ' (x', r) <- cw_execute A i m' x ;;
        rec true a (r_msgs r) (rset_inst a (RT x') w)
    | Some (RX st) =>
        ' (st', r) <- x_exec (ch_ext C) e i m (twq C k false w) st ;;
        rec false a (r_msgs r) (rset_inst a (RX st') w)
    | None => Err EStd
    end.

  (** runtime rule (DESIGN.md, "Runtime rules"); used by
      /repo/contracts/warp/native/src/contract.rs:52-58, 122-144 *)
  Definition tgive_reply (a : addr) (id : N) (rr : res reply_result) (w : rworld) : res rworld :=
    match om_get a (rw_inst w) with
    | Some (RC p d) =>
        ' (d', r) <- raw_reply A id rr p d ;;
        rec true a (r_msgs r) (rset_inst a (RC p d') w)
    | Some (RT _) => Err EParse
    | Some (RX st) =>
        ' (st', r) <- x_reply (ch_ext C) (mkEnv a (rw_height w)) id rr (twq C k false w) st ;;
        rec false a (r_msgs r) (rset_inst a (RX st') w)
    | None => Err EStd
    end.

  (** a new contract: its address must be fresh; funds arrive before its [instantiate]
      runs; runtime rule (DESIGN.md, "Runtime rules"); used by
      /repo/contracts/warp/cw20/src/contract.rs:55-64 *)
  Definition tdeploy (caller : addr) (m : imsg) (funds : list coin) (w : rworld)
    : res (rworld * addr) :=
    let a := ch_addr C (rw_next w) in
    match om_get a (rw_inst w) with
    | Some _ => Err EStd
    | None =>
        w1 <- rmove_coins caller a funds (rbump w) ;;
        ' (x, r) <- rborn C ver (twq C k true w1) (mkEnv a (rw_height w)) m ;;
        w2 <- rec true a (r_msgs r) (rset_inst a x w1) ;;
        Ok (w2, a)
    end.
  (** one message, sent by [caller]; runtime rule (DESIGN.md, "Runtime rules"); used by
      /repo/contracts/warp/native/src/proto.rs:13-150, /repo/contracts/warp/native/src/conv.rs:8-67 *)
  Definition tperform (t : bool) (caller : addr) (m : cmsg) (w : rworld) : res (rworld * reply_result) :=
    match m with
    | CExec a em funds =>
        w1 <- rmove_coins caller a funds w ;;
        w2 <- tinvoke t caller a em (norm_coins funds) w1 ;;
        Ok (w2, RrNone)
    | CBankSend to amount =>
        _ <- ensure (api_valid A to) EStd ;;
        _ <- ensure (negb (match norm_coins amount with [] => true | _ => false end)) EStd ;;
        w1 <- rmove_coins caller to amount w ;;
        Ok (w1, RrNone)
    | CCreateDenom sender sub =>
        _ <- ensure (bytes_eqb sender caller) EUnauthorized ;;
        let d := factory_denom sender sub in
        match om_get d (rw_admin w) with
        | Some _ => Err EStd
        | None => Ok (rset_admin d sender w, RrDenom d)
        end
    | CSetDenomMetadata sender md =>
        _ <- ensure (bytes_eqb sender caller) EUnauthorized ;;
        match om_get (md_base md) (rw_admin w) with
        | Some x => _ <- ensure (bytes_eqb x sender) EUnauthorized ;; Ok (w, RrNone)
        | None => Err EStd
        end
    | CMint sender n d =>
        _ <- ensure (bytes_eqb sender caller) EUnauthorized ;;
        _ <- ensure (negb (n =? 0)) EStd ;;
        match om_get d (rw_admin w) with
        | Some x => _ <- ensure (bytes_eqb x sender) EUnauthorized ;;
                    Ok (rset_bank (credit sender d n (rw_bank w)) w, RrNone)
        | None => Err EStd
        end
    | CBurn sender n d =>
        _ <- ensure (bytes_eqb sender caller) EUnauthorized ;;
        _ <- ensure (negb (n =? 0)) EStd ;;
        match om_get d (rw_admin w) with
        | Some x => _ <- ensure (bytes_eqb x sender) EUnauthorized ;;
                    b <- debit sender d n (rw_bank w) ;;
                    Ok (rset_bank b w, RrNone)
        | None => Err EStd
        end
    | CInstantiateCw20 minter init =>
        ' (w1, a) <- tdeploy caller (ICw20 (Some minter) init) [] w ;;
        Ok (w1, RrContract a)
    end.

  (** a submessage; runtime rule (DESIGN.md, "Runtime rules"); used by
      /repo/contracts/warp/native/src/contract.rs:52-61 *)
  Definition trun_sub (t : bool) (caller : addr) (s : submsg) (w : rworld) : res rworld :=
    match tperform t caller (sm_msg s) w with
    | Ok (w', rr) =>
        match sm_reply s with
        | RpSuccess id | RpAlways id => tgive_reply caller id (Ok rr) w'
        | _ => Ok w'
        end
    | bad =>
        match sm_reply s with
        | RpError id | RpAlways id => tgive_reply caller id (Err EStd) w
        | _ => match bad with Err e => Err e | _ => Panic end
        end
    end.
End Exec.

(** submessages run in order; runtime rule (DESIGN.md, "Runtime rules"); used by
    /repo/contracts/warp/native/src/contract.rs:189-194, 235-259 *)
Fixpoint texec (C : chain) (ver : addr -> program -> cw2) (k : nat) (t : bool) (caller : addr) (l : list submsg) (w : rworld) : res rworld :=
  match k with
  | O => Err EStd
  | S k' =>
      match l with
      | [] => Ok w
      | s :: l' => w1 <- trun_sub C ver k' (texec C ver k') t caller s w ;; texec C ver k' t caller l' w1
      end
  end.

(** a transaction with texts: a message for the contract at [a], an instantiation message for program [p];
    or one by values, as in World.v; used by every entry point of /repo/contracts/*/*/src/{contract,lib}.rs *)
Inductive ttx :=
| Write (s a : addr) (t : str) (f : list coin)
| Make (s : addr) (p : program) (t : str) (f : list coin)
| Plain (t : tx).
(** a text for the contract at [a]; runtime rule (DESIGN.md, "Runtime rules"); used by every [execute] of
    /repo/contracts/*/*/src/{contract,lib}.rs *)
Definition read_for (w : rworld) (a : addr) (t : str) : res emsg :=
  match om_get a (rw_inst w) with
  | Some (RC p _) => ok_or (read_exec p t) EParse
  | Some (RT _) => ok_or (read_exec PCw20 t) EParse
  | _ => Err EParse
  end.
(** runtime rule (DESIGN.md, "Runtime rules"); used by every entry point of
    /repo/contracts/*/*/src/{contract,lib}.rs *)
Definition ttx_run (C : chain) (ver : addr -> program -> cw2) (k : nat) (t : ttx) (w : rworld) : res rworld :=
  match t with
  | Write s a t f =>
      _ <- ensure (ch_account C s) EUnauthorized ;;
      m <- read_for w a t ;;
      ' (w', _) <- tperform C ver k (texec C ver k) false s (CExec a m f) w ;; Ok w'
  | Make s p t f =>
      _ <- ensure (ch_account C s) EUnauthorized ;;
      b <- ok_or (read_init p t) EParse ;;
      ' (w', _) <- tdeploy C ver k (texec C ver k) s (meant b) f w ;; Ok w'
  | Plain (TExec s a m f) =>
      _ <- ensure (ch_account C s) EUnauthorized ;;
      ' (w', _) <- tperform C ver k (texec C ver k) false s (CExec a m f) w ;; Ok w'
  | Plain (TSend s to amount) =>
      _ <- ensure (ch_account C s) EUnauthorized ;;
      ' (w', _) <- tperform C ver k (texec C ver k) false s (CBankSend to amount) w ;; Ok w'
  | Plain (TDeploy s m f) =>
      _ <- ensure (ch_account C s) EUnauthorized ;;
      ' (w', _) <- tdeploy C ver k (texec C ver k) s m f w ;; Ok w'
  | Plain (TDeployExt s st f) =>
      _ <- ensure (ch_account C s) EUnauthorized ;;
      rdeploy_ext C s st f w
  | Plain (TBlock h) => _ <- ensure (rw_height w <=? h) EStd ;; Ok (rset_height h w)
  end.
(** a failed transaction changes nothing; runtime rule (DESIGN.md, "Runtime rules");
    used by every entry point of /repo/contracts/*/*/src/{contract,lib}.rs *)
Definition ttx_step (C : chain) (ver : addr -> program -> cw2) (w : rworld) (t : nat * ttx) : rworld :=
  match ttx_run C ver (fst t) (snd t) w with Ok w' => w' | _ => w end.
(** a history of transactions calling /repo/contracts/*/*/src/{contract,lib}.rs *)
Definition tchain_run (C : chain) (ver : addr -> program -> cw2) (w : rworld) (l : list (nat * ttx)) : rworld :=
  fold_left (ttx_step C ver) l w.
