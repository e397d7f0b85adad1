(** * The mock contracts of /repo/contracts/mocks.

    A security module that accepts everything, a hook with a settable price and
    a receiver that only reports what it was sent; deployed on test networks
    beside the real contracts.  On the chain of World.v they are programs whose
    private state is written as bytes ([mock_bytes], a choice of this file). *)
From Coq Require Import List NArith Bool.
From Verif Require Import Base Bech32 Coins Hex Events Json Proto Chain Wire World Utils Found.
Import ListNotations.

(** what each keeps: nothing; [GAS] and [GAS_TOKEN]
    (/repo/contracts/mocks/mock-hook/src/contract.rs:19-23); [HRP]
    (/repo/contracts/mocks/mock-msg-receiver/src/contract.rs:22-23) *)
Inductive mock :=
| MockIsm
| MockHook (gas : option N) (token : str)
| MockReceiver (hrp : str).

(** /repo/contracts/mocks/mock-hook/src/contract.rs:16-17 *)
Definition DEFAULT_GAS : N := 500000.
(** /repo/contracts/mocks/mock-hook/src/contract.rs:17 *)
Definition DEFAULT_GAS_TOKEN : str := s "uosmo".

(** /repo/contracts/mocks/mock-ism/src/contract.rs:24-34 *)
Definition ism_instantiate : mock := MockIsm.
(** /repo/contracts/mocks/mock-hook/src/contract.rs:38-51 *)
Definition hook_instantiate : mock := MockHook (Some DEFAULT_GAS) DEFAULT_GAS_TOKEN.
(** /repo/contracts/mocks/mock-msg-receiver/src/contract.rs:25-37 *)
Definition receiver_instantiate (hrp : str) : mock := MockReceiver hrp.

(** [CARGO_PKG_NAME]: line 2 of /repo/contracts/mocks/mock-ism/Cargo.toml, mock-hook/Cargo.toml and
    mock-msg-receiver/Cargo.toml *)
Definition mock_name (k : mock) : str :=
  match k with
  | MockIsm => s "hpl-test-mock-ism" | MockHook _ _ => s "hpl-test-mock-hook" | MockReceiver _ => s "hpl-test-mock-msg-receiver"
  end.
(** [set_contract_version]: /repo/contracts/mocks/mock-ism/src/contract.rs:30, mock-hook/src/contract.rs:45,
    mock-msg-receiver/src/contract.rs:32 *)
Definition mock_record (k : mock) : cw2 := mkCw2 (mock_name k) code_version.
(** [migrate] of version [ver] of a mock, called on a contract whose record is [c]; a failure is unwrapped:
    /repo/contracts/mocks/mock-ism/src/contract.rs:63-67, mock-hook/src/contract.rs:116-120,
    mock-msg-receiver/src/contract.rs:77-81 *)
Definition mock_migrate (k : mock) (ver : str) (c : option cw2) : res cw2 := unwrap (migrate c (mock_name k) ver).

(** ** Messages *)
(** [ExecuteMsg] of the three: /repo/contracts/mocks/mock-ism/src/contract.rs:20-21,
    mock-hook/src/contract.rs:28-32, /repo/packages/interface/src/core/mod.rs:18-24 *)
Inductive mock_msg :=
| KNothing
| KSetGas (gas : option N)
| KPostDispatch (metadata message : bytes)
| KHandle (origin : N) (sender body : bytes).

(** /repo/contracts/mocks/mock-ism/src/contract.rs:20-21: a struct without fields *)
Definition ism_msg_c : codec mock_msg :=
  mkCodec (fun _ => write (struct none) tt) (fun j => option_map (fun _ => KNothing) (read (struct none) j))
    (fun m => match m with KNothing => true | _ => false end).
(** /repo/contracts/mocks/mock-hook/src/contract.rs:28-32 *)
Definition hook_msg_c : codec mock_msg :=
  enum (fun m => match m with KSetGas (Some g) => u256_ok g | _ => true end)
    [on (s "set_gas_amount") (struct (optional (s "gas") u256_c none)) (fun '(g, _) => KSetGas g)
       (fun m => match m with KSetGas g => Some (g, tt) | _ => None end);
     on (s "post_dispatch") meta_message_c (fun '(a, (b, _)) => KPostDispatch a b)
       (fun m => match m with KPostDispatch a b => Some (a, (b, tt)) | _ => None end)].
(** [ExpectedHandleMsg]: /repo/packages/interface/src/core/mod.rs:7-24 *)
Definition receiver_msg_c : codec mock_msg :=
  enum (fun m => match m with KHandle o _ _ => u32_ok o | _ => true end)
    [on (s "handle") (struct (field (s "origin") u32_c (field (s "sender") hex_c (field (s "body") hex_c none))))
       (fun '(a, (b, (c, _))) => KHandle a b c)
       (fun m => match m with KHandle a b c => Some (a, (b, (c, tt))) | _ => None end)].
(** the message type of each mock: /repo/contracts/mocks/*/src/contract.rs *)
Definition mock_msg_c (k : mock) : codec mock_msg :=
  match k with MockIsm => ism_msg_c | MockHook _ _ => hook_msg_c | MockReceiver _ => receiver_msg_c end.
(** what a mock understands: the messages the other contracts send it are values
    on the chain of World.v, everything else is a text;
    /repo/contracts/mocks/*/src/contract.rs *)
Definition mock_reads (k : mock) (m : emsg) : option mock_msg :=
  match k, m with
  | MockHook _ _, MPostDispatch a b => Some (KPostDispatch a b)
  | MockReceiver _, MHandle a b c => Some (KHandle a b c)
  | _, MOther t => match parse t with Some j => read (mock_msg_c k) j | None => None end
  | _, _ => None
  end.

(** ** Execution *)
(** /repo/contracts/mocks/mock-ism/src/contract.rs:37-45,
    mock-hook/src/contract.rs:55-87, mock-msg-receiver/src/contract.rs:41-61: the
    events are [mock_events] *)
Definition mock_execute (m : mock_msg) (k : mock) : res (mock * response) :=
  match k, m with
  | MockIsm, KNothing => Ok (MockIsm, resp0)
  | MockHook gas t, KSetGas g => Ok (MockHook g t, resp0)
  | MockHook gas t, KPostDispatch _ _ => _ <- ok_or gas EStd ;; Ok (MockHook gas t, resp0)
  | MockReceiver hrp, KHandle _ sender body =>
      _ <- bech32_encode hrp sender ;;
      _ <- ensure (valid_utf8 body) EStd ;;
      Ok (MockReceiver hrp, resp0)
  | _, _ => Err EParse
  end.

(** /repo/contracts/mocks/mock-hook/src/contract.rs:63-76,
    mock-msg-receiver/src/contract.rs:49-59 *)
Definition mock_events (i : info) (m : mock_msg) (k : mock) : list wevent :=
  match k, m with
  | MockHook (Some gas) _, KPostDispatch metadata message =>
      [mkWev (s "hpl_mock_hook::post-dispatch")
         [(s "gas", dec gas); (s "sender", i_sender i); (s "message", hex_encode message);
          (s "metadata", match metadata with [] => s "0x" | _ => hex_encode metadata end)]]
  | MockReceiver hrp, KHandle origin sender body =>
      match bech32_encode hrp sender with
      | Ok a => [mkWev (s "mailbox_msg_received")
                   [(s "sender", a); (s "origin", dec origin); (s "body", body)]]
      | _ => []
      end
  | _, _ => []
  end.

(** ** Queries *)
(** /repo/contracts/mocks/mock-hook/src/contract.rs:94-108: the amount is read as a
    [u128] *)
Definition hook_quote (gas : option N) (token : str) : res qres :=
  match gas with
  | Some v => _ <- ensure (u128_ok v) EStd ;; Ok (RFees [mkCoin token v])
  | None => Ok (RFees [])
  end.
(** /repo/contracts/mocks/mock-ism/src/contract.rs:49-62, mock-hook/src/contract.rs:91-115,
    mock-msg-receiver/src/contract.rs:65-78 *)
Definition mock_query (m : qmsg) (k : mock) : res qres :=
  match k, m with
  | MockIsm, QModuleType => Ok (RModuleType TNull)
  | MockIsm, QVerify _ _ => Ok (RVerified true)
  | MockIsm, QVerifyInfo _ => Ok (RVerifyInfo 1 [])
  | MockHook gas t, QHookQuote _ _ => hook_quote gas t
  | MockHook _ _, QHookMailbox => Panic
  | MockReceiver _, QIsmSpecifier => Ok (RIsm None)
  | _, _ => Err EParse
  end.

(** ** On the chain *)
(** the private state as bytes; the layout is of no consequence and not that of
    /repo/contracts/mocks/*/src/contract.rs *)
Definition mock_bytes (k : mock) : bytes :=
  match k with
  | MockIsm => [x00]
  | MockHook None t => x01 :: t
  | MockHook (Some g) t => x02 :: be32 g ++ t
  | MockReceiver hrp => x03 :: hrp
  end.
(** the mock kept in these bytes; see [mock_bytes] on
    /repo/contracts/mocks/*/src/contract.rs *)
Definition mock_of (b : bytes) : option mock :=
  match b with
  | [x00] => Some MockIsm
  | x01 :: t => Some (MockHook None t)
  | x02 :: t => Some (MockHook (Some (of_be (firstn 32 t))) (skipn 32 t))
  | x03 :: hrp => Some (MockReceiver hrp)
  | _ => None
  end.
(** the mocks as programs of World.v: /repo/contracts/mocks/*/src/contract.rs *)
Definition mock_ext : ext :=
  mkExt
    (fun e i m q b =>
       k <- ok_or (mock_of b) EStd ;;
       m' <- ok_or (mock_reads k m) EParse ;;
       ' (k', r) <- mock_execute m' k ;;
       Ok (mock_bytes k', r))
    (fun e id rr q b => Err EStd)
    (fun e m q b => k <- ok_or (mock_of b) EStd ;; mock_query m k).
