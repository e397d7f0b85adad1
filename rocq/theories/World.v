(** * The chain: contracts calling each other, the bank, the token factory.

    /repo contains no chain; this file states the runtime rules the contracts
    are written against, as documented for CosmWasm 1.5 / wasmd and the Cosmos
    SDK's bank and token-factory modules (see DESIGN.md, "Runtime rules").  The
    contracts themselves enter only through [c_instantiate], [c_execute],
    [c_query] and [c_reply] (Contracts.v).  Every other contract of the chain is
    an [ext]: an arbitrary program with an arbitrary private state. *)
From Coq Require Import List NArith Bool.
From Verif Require Import Base OMap Message Coins Chain Contracts.
Import ListNotations.

(** ** Parameters of a chain *)
(** contracts that are not in /repo: the bytes are their whole private state (code
    included), so one [ext] stands for any number of different programs: e.g. the ISMs
    and hooks called at /repo/packages/interface/src/ism/mod.rs:93-117,
    /repo/packages/interface/src/hook/mod.rs:76-107 *)
Record ext : Type := mkExt {
  x_exec : env -> info -> emsg -> querier -> bytes -> res (bytes * response);
  x_reply : env -> N -> res reply_result -> querier -> bytes -> res (bytes * response);
  x_query : env -> qmsg -> querier -> bytes -> res qres
}.

(** [ch_addr n] is the address of the [n]-th contract; [ch_account a] says that [a]
    can sign transactions. The [Api] of
    /repo/contracts/core/mailbox/src/contract.rs:18-48; the rest is not in /repo. *)
Record chain : Type := mkChain {
  ch_api : api;
  ch_ext : ext;
  ch_addr : N -> addr;
  ch_account : addr -> bool
}.
(** contract addresses are hashes: nobody holds a key for one; runtime rule
    (DESIGN.md, "Runtime rules"); used by the sender checks of e.g.
    /repo/contracts/warp/native/src/contract.rs:153-157 *)
Definition chain_ok (C : chain) : Prop := forall n, ch_account C (ch_addr C n) = false.

(** ** State *)
(** a contract of /repo/contracts/*/*/src/*.rs or another program *)
Inductive inst := IC (st : cstate) | IX (st : bytes).

(** what has been committed, oldest first (the calls of /repo/contracts/*/*/src/*.rs
    and what they returned) *)
Inductive entry :=
| LDo (caller : addr) (m : cmsg)                     (* a message was carried out *)
| LNew (a : addr) (e : env) (i : info) (q : querier) (m : imsg) (r : response)
| LNewX (a : addr) (i : info) (st : bytes)           (* another program was deployed *)
| LCall (a : addr) (ev : event) (r : response).      (* a contract accepted a call or reply *)

(** the chain around the contracts of /repo/contracts/*/*/src/*.rs: storage, bank,
    token factory, height (/repo/contracts/core/mailbox/src/state.rs:50-53) *)
Record world : Type := mkWorld {
  w_inst : omap addr inst;
  w_bank : omap (addr * str) N;
  w_admin : omap str addr;        (* token-factory denominations *)
  w_height : N;
  w_next : N;                          (* number of contracts deployed *)
  w_log : list entry
}.

(** runtime rule (DESIGN.md, "Runtime rules"); used by every [save], e.g.
    /repo/contracts/core/mailbox/src/state.rs:55-65 *)
Definition set_inst (a : addr) (x : inst) (w : world) : world :=
  mkWorld (om_set a x (w_inst w)) (w_bank w) (w_admin w) (w_height w) (w_next w) (w_log w).
(** runtime rule (DESIGN.md, "Runtime rules"); used by
    /repo/contracts/warp/native/src/conv.rs:28-33 *)
Definition set_bank (b : omap (addr * str) N) (w : world) : world :=
  mkWorld (w_inst w) b (w_admin w) (w_height w) (w_next w) (w_log w).
(** runtime rule (DESIGN.md, "Runtime rules"); used by
    /repo/contracts/warp/native/src/contract.rs:52-58 *)
Definition set_admin (d : str) (a : addr) (w : world) : world :=
  mkWorld (w_inst w) (w_bank w) (om_set d a (w_admin w)) (w_height w) (w_next w) (w_log w).
(** bookkeeping for statements: what the entry points of /repo/contracts/*/*/src/*.rs did *)
Definition add_log (l : entry) (w : world) : world :=
  mkWorld (w_inst w) (w_bank w) (w_admin w) (w_height w) (w_next w) (w_log w ++ [l]).
(** runtime rule (DESIGN.md, "Runtime rules"); used by
    /repo/contracts/warp/cw20/src/contract.rs:55-64 *)
Definition bump (w : world) : world :=
  mkWorld (w_inst w) (w_bank w) (w_admin w) (w_height w) (w_next w + 1) (w_log w).
(** runtime rule (DESIGN.md, "Runtime rules"); used by
    /repo/contracts/core/mailbox/src/state.rs:50-53 (block_number) *)
Definition set_height (h : N) (w : world) : world :=
  mkWorld (w_inst w) (w_bank w) (w_admin w) h (w_next w) (w_log w).

(** ** The bank *)
(** runtime rule (DESIGN.md, "Runtime rules"); used by
    /repo/contracts/warp/native/src/conv.rs:28-33 *)
Definition bal (b : omap (addr * str) N) (a : addr) (d : str) : N :=
  match om_get (a, d) b with Some n => n | None => 0 end.
(** runtime rule (DESIGN.md, "Runtime rules"); used by
    /repo/contracts/igps/core/src/execute.rs:98 *)
Definition balance (w : world) (a : addr) (d : str) : N := bal (w_bank w) a d.
(** runtime rule (DESIGN.md, "Runtime rules"); used by
    /repo/contracts/hooks/fee/src/lib.rs:101 *)
Definition all_balances (w : world) (a : addr) : list coin :=
  flat_map (fun p => if (bytes_eqb a (fst (fst p)) && negb (snd p =? 0))%bool
                     then [mkCoin (snd (fst p)) (snd p)] else []) (w_bank w).

(** runtime rule (DESIGN.md, "Runtime rules"); used by
    /repo/contracts/warp/native/src/conv.rs:8-33 *)
Definition credit (a : addr) (d : str) (n : N) (b : omap (addr * str) N) :=
  om_set (a, d) (bal b a d + n) b.
(** runtime rule (DESIGN.md, "Runtime rules"); used by
    /repo/contracts/warp/native/src/conv.rs:18-33 *)
Definition debit (a : addr) (d : str) (n : N) (b : omap (addr * str) N) :=
  if n <=? bal b a d then Ok (om_set (a, d) (bal b a d - n) b) else Err EStd.

(** the coins of a message as the SDK sees them: sorted by denomination, repeated
    denominations added up, zero amounts dropped (wasmd's ConvertWasmCoinsToSdkCoins);
    amounts are [Uint128]. Funds of e.g.
    /repo/contracts/warp/native/src/contract.rs:212-224. *)
Definition norm_coins (l : list coin) : list coin :=
  coins_to_vec (fold_left (fun (m : coins) c =>
    if c_amount c =? 0 then m
    else om_set (c_denom c)
           ((match om_get (c_denom c) m with Some n => n | None => 0 end) + c_amount c) m) l []).
(** amounts are [Uint128]: /repo/contracts/warp/native/src/conv.rs:35-45 *)
Definition coins_ok (l : list coin) : bool := forallb (fun c => u128_ok (c_amount c)) l.

(** runtime rule (DESIGN.md, "Runtime rules"); used by
    /repo/contracts/warp/native/src/conv.rs:28-33 *)
Definition move_coin (from to : addr) (c : coin) (b : omap (addr * str) N) :=
  b1 <- debit from (c_denom c) (c_amount c) b ;;
  Ok (credit to (c_denom c) (c_amount c) b1).
(** runtime rule (DESIGN.md, "Runtime rules"); used by
    /repo/contracts/warp/native/src/conv.rs:28-33,
    /repo/packages/interface/src/hook/mod.rs:76-91 *)
Definition move_coins (from to : addr) (l : list coin) (w : world) : res world :=
  _ <- ensure (coins_ok l) EParse ;;
  b <- foldM (fun b c => move_coin from to c b) (norm_coins l) (w_bank w) ;;
  Ok (set_bank b w).

(** ** Queries *)
(** a query runs on the state of the moment; [n] bounds the nesting of queries;
    runtime rule (DESIGN.md, "Runtime rules"); used by
    /repo/packages/interface/src/ism/mod.rs:93-117 *)
Fixpoint wq (C : chain) (n : nat) (w : world) : querier :=
  mkQuerier
    (fun a m =>
       match n with
       | O => Err EStd
       | S n' =>
           match om_get a (w_inst w) with
           | Some (IC st) => c_query (ch_api C) (wq C n' w) m st
           | Some (IX st) => x_query (ch_ext C) (mkEnv a (w_height w)) m (wq C n' w) st
           | None => Err EStd
           end
       end)
    (balance w) (all_balances w).

(** ** Messages *)
Section Exec.
  Variable C : chain.
  (** (notation) the [Api] of e.g. /repo/contracts/core/mailbox/src/contract.rs:18-48 *)
  Notation A := (ch_api C).

  (** [k] bounds nesting of queries, [rec caller msgs w] carries out the
      submessages a contract returns *)
  Variable k : nat.
  Variable rec : addr -> list submsg -> world -> res world.

  (** runtime rule (DESIGN.md, "Runtime rules"); used by
      /repo/packages/interface/src/core/mailbox.rs:106-134 *)
  Definition invoke (caller a : addr) (m : emsg) (funds : list coin) (w : world) : res world :=
    let e := mkEnv a (w_height w) in
    let i := mkInfo caller funds in
    match om_get a (w_inst w) with
    | Some (IC st) =>
        let Q := fun s => wq C k (set_inst a (IC s) w) in
        ' (st', r) <- c_execute A Q e i m st ;;
        rec a (r_msgs r) (add_log (LCall a (EvExec e i m Q) r) (set_inst a (IC st') w))
    | Some (IX st) =>
        let Q := fun _ : cstate => wq C k w in
        ' (st', r) <- x_exec (ch_ext C) e i m (wq C k w) st ;;
        rec a (r_msgs r) (add_log (LCall a (EvExec e i m Q) r) (set_inst a (IX st') w))
    | None => Err EStd
    end.

  (** runtime rule (DESIGN.md, "Runtime rules"); used by
      /repo/contracts/warp/native/src/contract.rs:52-58, 122-144 *)
  Definition give_reply (a : addr) (id : N) (rr : res reply_result) (w : world) : res world :=
    match om_get a (w_inst w) with
    | Some (IC st) =>
        ' (st', r) <- c_reply A id rr st ;;
        rec a (r_msgs r) (add_log (LCall a (EvReply id rr) r) (set_inst a (IC st') w))
    | Some (IX st) =>
        ' (st', r) <- x_reply (ch_ext C) (mkEnv a (w_height w)) id rr (wq C k w) st ;;
        rec a (r_msgs r) (add_log (LCall a (EvReply id rr) r) (set_inst a (IX st') w))
    | None => Err EStd
    end.

  (** a new contract: its address must be fresh; funds arrive before its [instantiate]
      runs; runtime rule (DESIGN.md, "Runtime rules"); used by
      /repo/contracts/warp/cw20/src/contract.rs:55-64 *)
  Definition deploy (caller : addr) (m : imsg) (funds : list coin) (w : world)
    : res (world * addr) :=
    let a := ch_addr C (w_next w) in
    match om_get a (w_inst w) with
    | Some _ => Err EStd
    | None =>
        w1 <- move_coins caller a funds (bump w) ;;
        let e := mkEnv a (w_height w) in
        let i := mkInfo caller (norm_coins funds) in
        let q := wq C k w1 in
        ' (st, r) <- c_instantiate A q e i m ;;
        w2 <- rec a (r_msgs r) (add_log (LNew a e i q m r) (set_inst a (IC st) w1)) ;;
        Ok (w2, a)
    end.

  (** deployment of a program that is not in /repo/contracts/*/*/src/*.rs *)
  Definition deploy_ext (caller : addr) (st : bytes) (funds : list coin) (w : world)
    : res world :=
    let a := ch_addr C (w_next w) in
    match om_get a (w_inst w) with
    | Some _ => Err EStd
    | None =>
        w1 <- move_coins caller a funds (bump w) ;;
        Ok (add_log (LNewX a (mkInfo caller (norm_coins funds)) st) (set_inst a (IX st) w1))
    end.

  (** token factory: the denomination [factory/<creator>/<subdenom>]:
      /repo/contracts/warp/native/src/contract.rs:69 *)
  Definition factory_denom (creator subdenom : str) : str :=
    (s "factory/" ++ creator ++ s "/" ++ subdenom)%list%string.

  (** one message, sent by [caller]; the chain refuses token-factory messages that
      name another sender, and empty bank transfers; runtime rule (DESIGN.md, "Runtime
      rules"); used by /repo/contracts/warp/native/src/proto.rs:13-150,
      /repo/contracts/warp/native/src/conv.rs:8-67 *)
  Definition perform (caller : addr) (m : cmsg) (w : world) : res (world * reply_result) :=
    let w := add_log (LDo caller m) w in
    match m with
    | CExec a em funds =>
        w1 <- move_coins caller a funds w ;;
        w2 <- invoke caller a em (norm_coins funds) w1 ;;
        Ok (w2, RrNone)
    | CBankSend to amount =>
        _ <- ensure (api_valid A to) EStd ;;
        _ <- ensure (negb (match norm_coins amount with [] => true | _ => false end)) EStd ;;
        w1 <- move_coins caller to amount w ;;
        Ok (w1, RrNone)
    | CCreateDenom sender sub =>
        _ <- ensure (bytes_eqb sender caller) EUnauthorized ;;
        let d := factory_denom sender sub in
        match om_get d (w_admin w) with
        | Some _ => Err EStd
        | None => Ok (set_admin d sender w, RrDenom d)
        end
    | CSetDenomMetadata sender md =>
        _ <- ensure (bytes_eqb sender caller) EUnauthorized ;;
        match om_get (md_base md) (w_admin w) with
        | Some x => _ <- ensure (bytes_eqb x sender) EUnauthorized ;; Ok (w, RrNone)
        | None => Err EStd
        end
    | CMint sender n d =>
        _ <- ensure (bytes_eqb sender caller) EUnauthorized ;;
        _ <- ensure (negb (n =? 0)) EStd ;;
        match om_get d (w_admin w) with
        | Some x => _ <- ensure (bytes_eqb x sender) EUnauthorized ;;
                    Ok (set_bank (credit sender d n (w_bank w)) w, RrNone)
        | None => Err EStd
        end
    | CBurn sender n d =>
        _ <- ensure (bytes_eqb sender caller) EUnauthorized ;;
        _ <- ensure (negb (n =? 0)) EStd ;;
        match om_get d (w_admin w) with
        | Some x => _ <- ensure (bytes_eqb x sender) EUnauthorized ;;
                    b <- debit sender d n (w_bank w) ;;
                    Ok (set_bank b w, RrNone)
        | None => Err EStd
        end
    | CInstantiateCw20 minter init =>
        ' (w1, a) <- deploy caller (ICw20 (Some minter) init) [] w ;;
        Ok (w1, RrContract a)
    end.

  (** a submessage: a failure undoes it alone when the contract asked to be told, and
      fails the whole call otherwise; runtime rule (DESIGN.md, "Runtime rules"); used
      by /repo/contracts/warp/native/src/contract.rs:52-61 *)
  Definition run_sub (caller : addr) (s : submsg) (w : world) : res world :=
    match perform caller (sm_msg s) w with
    | Ok (w', rr) =>
        match sm_reply s with
        | RpSuccess id | RpAlways id => give_reply caller id (Ok rr) w'
        | _ => Ok w'
        end
    | bad =>
        match sm_reply s with
        | RpError id | RpAlways id => give_reply caller id (Err EStd) w
        | _ => match bad with Err e => Err e | _ => Panic end
        end
    end.
End Exec.

(** submessages run in order, each with everything it causes, before the next; runtime
    rule (DESIGN.md, "Runtime rules"); used by
    /repo/contracts/warp/native/src/contract.rs:189-194, 235-259 *)
Fixpoint exec (C : chain) (k : nat) (caller : addr) (l : list submsg) (w : world) : res world :=
  match k with
  | O => Err EStd
  | S k' =>
      match l with
      | [] => Ok w
      | s :: l' => w1 <- run_sub C k' (exec C k') caller s w ;; exec C k' caller l' w1
      end
  end.

(** ** Transactions *)
(** what a user can submit; e.g. /repo/packages/interface/src/core/mailbox.rs:81-104 *)
Inductive tx :=
| TExec (sender : addr) (a : addr) (m : emsg) (funds : list coin)
| TSend (sender : addr) (to : addr) (amount : list coin)
| TDeploy (sender : addr) (m : imsg) (funds : list coin)
| TDeployExt (sender : addr) (st : bytes) (funds : list coin)
| TBlock (height : N).

(** runtime rule (DESIGN.md, "Runtime rules"); used by every entry point of
    /repo/contracts/*/*/src/{contract,lib}.rs *)
Definition tx_run (C : chain) (k : nat) (t : tx) (w : world) : res world :=
  match t with
  | TExec s a m f =>
      _ <- ensure (ch_account C s) EUnauthorized ;;
      ' (w', _) <- perform C k (exec C k) s (CExec a m f) w ;; Ok w'
  | TSend s to amount =>
      _ <- ensure (ch_account C s) EUnauthorized ;;
      ' (w', _) <- perform C k (exec C k) s (CBankSend to amount) w ;; Ok w'
  | TDeploy s m f =>
      _ <- ensure (ch_account C s) EUnauthorized ;;
      ' (w', _) <- deploy C k (exec C k) s m f w ;; Ok w'
  | TDeployExt s st f =>
      _ <- ensure (ch_account C s) EUnauthorized ;;
      deploy_ext C s st f w
  | TBlock h => _ <- ensure (w_height w <=? h) EStd ;; Ok (set_height h w)
  end.

(** a failed transaction changes nothing; runtime rule (DESIGN.md, "Runtime rules");
    used by every entry point of /repo/contracts/*/*/src/{contract,lib}.rs *)
Definition tx_step (C : chain) (w : world) (t : nat * tx) : world :=
  match tx_run C (fst t) (snd t) w with Ok w' => w' | _ => w end.

(** a history of transactions calling /repo/contracts/*/*/src/{contract,lib}.rs *)
Definition chain_run (C : chain) (w : world) (l : list (nat * tx)) : world :=
  fold_left (tx_step C) l w.

(** any distribution of coins, no contract yet; runtime rule (DESIGN.md, "Runtime
    rules"); used by every [instantiate] of /repo/contracts/*/*/src/{contract,lib}.rs *)
Definition genesis (bank : omap (addr * str) N) : world :=
  mkWorld [] bank [] 0 0 [].

(** after any history of calls to /repo/contracts/*/*/src/{contract,lib}.rs *)
Definition reachable (C : chain) (w : world) : Prop :=
  exists bank l, om_sorted bank /\ w = chain_run C (genesis bank) l.
