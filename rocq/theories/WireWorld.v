(** * The chain with JSON between the contracts.

    In World.v a contract hands a message, a query or an answer to another as a value.
    Here each crosses as the JSON text its Rust type is written to and is read with the
    type the other side declares: the program called reads its own [ExecuteMsg] or
    [QueryMsg], the contract that asked reads the answer type it named. *)
From Coq Require Import List NArith Bool.
From Verif Require Import Base OMap Coins Json Chain Contracts Wire WireQuery World.
Import ListNotations.

(** the type the asking contract names for an answer: [QuoteDispatchResponse]
    (/repo/packages/interface/src/hook/mod.rs:99), [VerifyResponse] (ism/mod.rs:110),
    [InterchainSecurityModuleResponse] (ism/mod.rs:97), [LocalDomainResponse]
    (/repo/contracts/core/va/src/contract.rs:38), [LatestDispatchedIdResponse]
    (/repo/contracts/hooks/merkle/src/lib.rs:88),
    [GetExchangeRateAndGasPriceResponse] (/repo/contracts/igps/core/src/query.rs:72) *)
Definition expected_c (m : qmsg) : codec qres :=
  match m with
  | QHookQuote _ _ => fees_c
  | QVerify _ _ | QBareVerifyInfo _ => verified_c
  | QIsmSpecifier =>
      ans (struct (optional (s "ism") string_c none)) (fun '(x, _) => RIsm x)
        (fun r => match r with RIsm x => Some (x, tt) | _ => None end)
  | QLocalDomain => local_domain_c
  | QLatestDispatchId =>
      ans (struct (field (s "message_id") hex_c none)) (fun '(x, _) => RMessageId x)
        (fun r => match r with RMessageId x => Some (x, tt) | _ => None end)
  | QOracle _ => oracle_c
  | _ => no_answer_c
  end.
(** [query_wasm_smart::<T>(..)], e.g. /repo/packages/interface/src/ism/mod.rs:97-103 *)
Definition read_expected (m : qmsg) (t : str) : option qres :=
  match parse t with Some j => read (expected_c m) j | None => None end.

(** a message from one contract to another, e.g. [wasm_execute] at
    /repo/packages/interface/src/hook/mod.rs:82-90, then the [execute] entry point *)
Definition call_json (A : api) (Q : cstate -> querier) (e : env) (i : info) (m : emsg) (st : cstate)
  : res (cstate * response) :=
  match read_exec (program_of st) (send_text m) with
  | Some m' => c_execute A Q e i m' st
  | None => Err EParse
  end.

(** a query from one contract to another and the answer to it, e.g.
    /repo/packages/interface/src/hook/mod.rs:93-107 *)
Definition ask_json (A : api) (q : querier) (m : qmsg) (st : cstate) : res qres :=
  match read_query (program_of st) (ask_text m) with
  | Some m' =>
      r <- c_query A q m' st ;;
      ok_or (read_expected m (answer_text (program_of st) m' r)) EStd
  | None => Err EParse
  end.

(** [wq] of World.v with JSON between the contracts of /repo/contracts/*/*/src/*.rs *)
Fixpoint wqj (C : chain) (n : nat) (w : world) : querier :=
  mkQuerier
    (fun a m =>
       match n with
       | O => Err EStd
       | S n' =>
           match om_get a (w_inst w) with
           | Some (IC st) => ask_json (ch_api C) (wqj C n' w) m st
           | Some (IX st) => x_query (ch_ext C) (mkEnv a (w_height w)) m (wq C n' w) st
           | None => Err EStd
           end
       end)
    (balance w) (all_balances w).
