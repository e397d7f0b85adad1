(** * Instantiation messages as JSON texts (C84). *)
From Coq Require Import List NArith Bool.
From Verif Require Import Base OMap Coins Hex Json SpecJson JsonGrammar Chain Ownable Warp Contracts Wire WireInit RawWorld SpecWire SpecInitText
  StepFacts InitFacts WireInitFacts PropsAccess.
Import ListNotations.

(** the text of an instantiation message is read by the contract as that message ... *)
Theorem C84_births b : proper b = true -> read_init (program_made (meant b)) (birth_text b) = Some b.
Proof. exact (birth_reads b). Qed.
Print Assumptions C84_births.

(** ... and whatever text a contract accepts, it takes for one of its own, with numbers that fit *)
Theorem C84_nothing_else p t b : read_init p t = Some b ->
  program_made (meant b) = p /\ proper b = true /\ imsg_ok (meant b) = true.
Proof. exact (birth_only_ok p t b). Qed.
Print Assumptions C84_nothing_else.

(** of a text a contract accepts, no member is passed over *)
Theorem C84_all_read p t b : read_init p t = Some b -> exists j j', document j t /\ document j' (birth_text b) /\ within j j'.
Proof. exact (birth_strict p t b). Qed.
Print Assumptions C84_all_read.

(** it is understood however it is spelled *)
Theorem C84_spelled b j j' t : proper b = true -> document j' (birth_text b) -> alike j j' -> document j t ->
  read_init (program_made (meant b)) t = Some b.
Proof. exact (birth_alike b j j' t). Qed.
Print Assumptions C84_spelled.

Theorem C84_texts_differ b b' : proper b = true -> proper b' = true -> program_made (meant b) = program_made (meant b') ->
  birth_text b = birth_text b' -> b = b'.
Proof. exact (birth_inj b b'). Qed.
Print Assumptions C84_texts_differ.

(** what the contract does on that text: the prefix given to a validator announce does
    not matter, nor does what is said of a new token but its opening balances *)
Theorem C84_calls A q e i b : proper b = true ->
  init_json A q e i (program_made (meant b)) (birth_text b) =
  c_instantiate A q e i
    match b with
    | BPlain m => m
    | BVa _ mb => IVa mb
    | BWarp (ChNew _ x) h o mb => IWarpCw20 (CtBridged (ti_balances x)) h o mb
    | BWarp (ChOld a) h o mb => IWarpCw20 (CtCollateral a) h o mb
    end.
Proof. exact (births_by_text A q e i b). Qed.
Print Assumptions C84_calls.

(** a text accepted by a program makes a contract that runs it *)
Theorem C84_made A q e i p t st r : init_json A q e i p t = Ok (st, r) ->
  program_of st = p /\ exists b, read_init p t = Some b /\ c_instantiate A q e i (meant b) = Ok (st, r).
Proof. exact (births_made A q e i p t st r). Qed.
Print Assumptions C84_made.

(** the token a cw20 warp route creates: of the given code, administered and minted by
    the route and by nobody else, without a cap, otherwise as the deployer said; the
    token reads it so *)
Theorem C84_token A q e i n x h o mb st r :
  proper (BWarp (ChNew n x) h o mb) = true -> c_instantiate A q e i (meant (BWarp (ChNew n x) h o mb)) = Ok (st, r) ->
  r_msgs r = [mkSub (CInstantiateCw20 (e_contract e) (ti_balances x)) (RpSuccess REPLY_ID_CREATE_DENOM)] /\
  let d := order_token e n x in
  let y := mkTokenInit (ti_name x) (ti_symbol x) (ti_decimals x) (ti_balances x) (Some (e_contract e, None)) (ti_marketing x) in
  od_admin d = Some (e_contract e) /\ od_code d = n /\ od_text d = token_init_text y /\ read_token (od_text d) = Some y /\
  token_meant y = Some (ICw20 (Some (e_contract e)) (ti_balances x)).
Proof. exact (token_ordered A q e i n x h o mb st r). Qed.
Print Assumptions C84_token.

Definition ex_metadata : denom_metadata :=
  mkMetadata (s "wrapped") [mkUnit (s "uw") 0 []; mkUnit (s "w") 6 [s "W"]] (s "uw") (s "w") (s "Wrapped") (s "WRP").
Definition ex_token : token_init :=
  mkTokenInit (s "Wrapped") (s "WRP") 6 [(s "alice", 5)] (Some (s "mallory", Some 9)) (Some (mkMarketing None (Some (s "x")) None (Some (s "u")))).
Example C84_example :
  birth_text (BPlain (IMailbox (s "osmo") (s "alice") 7)) = s "{""hrp"":""osmo"",""owner"":""alice"",""domain"":7}" /\
  birth_text (BPlain (IIgp (s "osmo") (s "alice") (s "uosmo") (s "bob") 250000))
    = s "{""hrp"":""osmo"",""owner"":""alice"",""gas_token"":""uosmo"",""beneficiary"":""bob"",""default_gas_usage"":""250000""}" /\
  birth_text (BPlain (IRoutingIsm (s "alice") [(7, s "x"); (8, s "y")]))
    = s "{""owner"":""alice"",""isms"":[{""domain"":7,""address"":""x""},{""domain"":8,""address"":""y""}]}" /\
  birth_text (BPlain (IWarpNative (NtBridged (s "uw") (Some ex_metadata)) (s "osmo") (s "alice") (s "mb")))
    = s "{""token"":{""bridged"":{""denom"":""uw"",""metadata"":{""description"":""wrapped"",""denom_units"":[{""denom"":""uw"",""exponent"":""0"",""aliases"":[]},{""denom"":""w"",""exponent"":""6"",""aliases"":[""W""]}],""base"":""uw"",""display"":""w"",""name"":""Wrapped"",""symbol"":""WRP""}}},""hrp"":""osmo"",""owner"":""alice"",""mailbox"":""mb""}" /\
  proper (BPlain (IWarpNative (NtBridged (s "uw") (Some ex_metadata)) (s "osmo") (s "alice") (s "mb"))) = true /\
  (* members moved, one left away *)
  read_init PWarpNative (s " {""mailbox"":""mb"",""owner"":""alice"" , ""token"":{""bridged"":{""denom"":""uw""}},""hrp"":""osmo""}")
    = Some (BPlain (IWarpNative (NtBridged (s "uw") None) (s "osmo") (s "alice") (s "mb"))) /\
  (* a member too many, one too few, an exponent as a number, a domain as a string *)
  read_init PMultisig (s "{""owner"":""alice"",""paused"":false}") = None /\
  read_init PVa (s "{""mailbox"":""mb""}") = None /\
  read_init PMailbox (s "{""hrp"":""osmo"",""owner"":""alice"",""domain"":""7""}") = None /\
  read_init PMailbox (s "{""hrp"":""osmo"",""owner"":""alice"",""domain"":4294967296}") = None /\
  od_text (order_token (mkEnv (s "route") 1) 3 ex_token)
    = s "{""name"":""Wrapped"",""symbol"":""WRP"",""decimals"":6,""initial_balances"":[{""address"":""alice"",""amount"":""5""}],""mint"":{""minter"":""route"",""cap"":null},""marketing"":{""project"":null,""description"":""x"",""marketing"":null,""logo"":{""url"":""u""}}}" /\
  (exists st, init_json ex_api no_querier ex_env (mkInfo (s "alice") []) PPausableIsm (s "{""paused"":true,""owner"":""alice""}") = Ok (st, resp0) /\
     program_of st = PPausableIsm) /\
  proper (BWarp (ChNew 3 ex_token) (s "osmo") (s "alice") (s "mb")) = true /\
  is_ok (c_instantiate ex_api no_querier ex_env (mkInfo (s "alice") []) (meant (BWarp (ChNew 3 ex_token) (s "osmo") (s "alice") (s "mailbox")))) = true.
Proof. repeat split; try (eexists; split); vm_compute; reflexivity. Qed.
