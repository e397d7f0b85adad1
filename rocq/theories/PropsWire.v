(** * Messages, queries and answers as JSON texts (C72, C73, C74). *)
From Coq Require Import List NArith Bool.
From Verif Require Import Base OMap Coins Hex JsonGrammar Json Chain Ownable Contracts World Wire WireQuery WireWorld SpecModules SpecWorld SpecQuery SpecCodec SpecEvents SpecWire SpecJson
  StepFacts WorldFacts WireFacts WireQueryFacts WireAnswers WireWidths WireCalls WireWorldFacts WireTexts WireStrict CaseFacts
  PropsAccess PropsMailbox PropsIgp PropsWorld PropsRoute.
Import ListNotations.

(** ** C72: texts and interfaces *)
(** the text of a message is read by the contract as that message ... *)
Theorem C72_messages st m : understands st m = true -> emsg_ok m = true ->
  read_exec (program_of st) (message_text (hex_router st) m) = Some m.
Proof. exact (message_reads st m). Qed.
Print Assumptions C72_messages.

(** ... and whatever text it accepts, it takes for a message of its interface *)
Theorem C72_nothing_else st t m : read_exec (program_of st) t = Some m -> understands st m = true /\ emsg_ok m = true.
Proof. exact (exec_only st t m). Qed.
Print Assumptions C72_nothing_else.

(** of a text a contract accepts, no member is passed over *)
Theorem C72_all_read st t m : read_exec (program_of st) t = Some m ->
  exists j j', document j t /\ document j' (message_text (hex_router st) m) /\ within j j'.
Proof. exact (exec_strict st t m). Qed.
Print Assumptions C72_all_read.

Theorem C72_queries st m : answers_to st m = true -> qmsg_ok m = true ->
  read_query (program_of st) (question_text m) = Some m.
Proof. exact (question_reads st m). Qed.
Print Assumptions C72_queries.

Theorem C72_no_other_queries st t m : read_query (program_of st) t = Some m -> answers_to st m = true /\ qmsg_ok m = true.
Proof. exact (query_only st t m). Qed.
Print Assumptions C72_no_other_queries.

Theorem C72_all_of_queries_read st t m : read_query (program_of st) t = Some m ->
  exists j j', document j t /\ document j' (question_text m) /\ within j j'.
Proof. exact (query_strict st t m). Qed.
Print Assumptions C72_all_of_queries_read.

(** an answer is written as its type says, and read as it was given *)
Theorem C72_answers A q e i im q' m h st0 r0 r :
  c_instantiate A q e i im = Ok (st0, r0) -> is_token st0 = false -> c_query A q' m (c_run A st0 h) = Ok r ->
  let st := c_run A st0 h in
  answer_text (program_of st) m r = reply_text (hex_router st) m r /\
  read_answer (program_of st) m (reply_text (hex_router st) m r) = Some r.
Proof. exact (reply_reads A q e i im q' m h st0 r0 r). Qed.
Print Assumptions C72_answers.

(** two messages with the same text are the same message *)
Theorem C72_texts_differ st m m' : understands st m = true -> emsg_ok m = true -> understands st m' = true -> emsg_ok m' = true ->
  message_text (hex_router st) m = message_text (hex_router st) m' -> m = m'.
Proof. exact (message_inj st m m'). Qed.
Print Assumptions C72_texts_differ.

(** bytes are read from two hexadecimal digits each, of either case, and from
    nothing else *)
Theorem C72_hexadecimal text data : hex_decode text = Ok data <-> Forall2 lowers text (SpecEvents.hex_of data).
Proof. exact (hex_exact text data). Qed.
Print Assumptions C72_hexadecimal.
Example C72_hexadecimal_example :
  hex_decode (s "00aBFf") = Ok [x00; xab; xff] /\ hex_decode (s "00aBF") = Err EStd /\ hex_decode (s "0xab") = Err EStd.
Proof. vm_compute. repeat split. Qed.

Example C72_example :
  let reads st t := read_exec (program_of st) t in
  message_text false (MSetValidators 7 2 [hx "00ff"; hx "0a0b"])
    = s "{""set_validators"":{""domain"":7,""threshold"":2,""validators"":[""00ff"",""0a0b""]}}" /\
  message_text false (MRouter (SetRoutes [mkRouteSet 7 (Some (s "bob")); mkRouteSet 8 None]))
    = s "{""router"":{""set_routes"":{""set"":[{""domain"":7,""route"":""bob""},{""domain"":8,""route"":null}]}}}" /\
  message_text true (MRouter (SetRoute (mkRouteSet 7 (Some (hx "b0b0")))))
    = s "{""router"":{""set_route"":{""set"":{""domain"":7,""route"":""b0b0""}}}}" /\
  reads (born (IMultisig (s "alice"))) (s "{ ""unset_domain"" : { ""domain"" : 7 } }") = Some (MUnsetDomain 7) /\
  reads (born (IMultisig (s "alice"))) (s "{""unset_domain"":{""domain"":4294967296}}") = None /\
  reads (born (IMultisig (s "alice"))) (s "{""unset_domain"":{""domain"":7,""extra"":1}}") = None /\
  reads (born (IMultisig (s "alice"))) (s "{""unset_domain"":{""domain"":7},""unset_domain"":{""domain"":8}}") = None /\
  reads (born (IMultisig (s "alice"))) (s "{""process"":{""metadata"":"""",""message"":""""}}") = None /\
  reads ex_mailbox (s "{""process"":{""metadata"":"""",""message"":""00""}}") = Some (MProcess [] [x00]) /\
  reads ex_mailbox (s "{""set_default_ism"":{""ism"":""a\""bA""}}") = Some (MSetDefaultIsm (s "a""bA")) /\
  question_text (QListRoutes None (Some 3) (Some Desc))
    = s "{""router"":{""list_routes"":{""offset"":null,""limit"":3,""order"":""desc""}}}" /\
  reply_text false (QEnrolled 7) (REnrolled [hx "00ff"] 1) = s "{""validators"":[""00ff""],""threshold"":1}".
Proof. repeat split; vm_compute; reflexivity. Qed.

(** ** C73: what contracts tell each other *)
(** the texts contracts send are those of the interfaces, and whoever receives one
    takes it for the message meant or refuses it *)
Theorem C73_calls hx st m : sent m = true -> emsg_ok m = true ->
  send_text m = message_text hx m /\
  read_exec (program_of st) (message_text hx m) = if understands st m then Some m else None.
Proof. exact (sent_reads hx st m). Qed.
Print Assumptions C73_calls.

Theorem C73_questions st m : asked m = true -> qmsg_ok m = true ->
  ask_text m = question_text m /\
  read_query (program_of st) (question_text m) = if answers_to st m then Some m else None.
Proof. exact (asked_reads st m). Qed.
Print Assumptions C73_questions.

(** contracts send no other messages *)
Theorem C73_only_these C w a st b m f : chain_ok C -> reachable C w -> contract_at w a st ->
  In (LDo a (CExec b m f)) (w_log w) -> sent m = true /\ emsg_ok m = true.
Proof. exact (sent_in_log C w a st b m f). Qed.
Print Assumptions C73_only_these.

(** the calls between the contracts of a small chain, as texts, and who would read them *)
Definition calls_from (a : addr) (w : world) : list (addr * str) :=
  flat_map (fun x => match x with LDo b (CExec c m _) => if bytes_eqb a b then [(c, firstn 43 (send_text m))] else [] | _ => [] end) (w_log w).
Example C73_example :
  calls_from (at_ 0) ex_world =
    [(at_ 1, s "{""post_dispatch"":{""metadata"":"""",""message"":"""); (at_ 2, s "{""post_dispatch"":{""metadata"":"""",""message"":""");
     (at_ 1, s "{""post_dispatch"":{""metadata"":"""",""message"":"""); (at_ 2, s "{""post_dispatch"":{""metadata"":"""",""message"":""");
     (at_ 4, s "{""handle"":{""origin"":9,""sender"":""02020202020")] /\
  send_text (MDispatch (mkDispatch 9 [x01] [x02] None (Some [x03])))
    = s "{""dispatch"":{""dest_domain"":9,""recipient_addr"":""01"",""msg_body"":""02"",""hook"":null,""metadata"":""03""}}" /\
  send_text (MCw20Mint (s "alice") 5) = s "{""mint"":{""recipient"":""alice"",""amount"":""5""}}" /\
  ask_text QIsmSpecifier = s "{""ism_specifier"":{""interchain_security_module"":[]}}" /\
  ask_text (QHookQuote [] [x00]) = s "{""hook"":{""quote_dispatch"":{""metadata"":"""",""message"":""00""}}}" /\
  (* the mailbox has a query of that name, with other members *)
  read_query (program_of ex_mailbox) (ask_text (QHookQuote [] [x00])) = None /\
  (* what a routing module asks of the module it routes to *)
  ask_text (QBareVerifyInfo [x00]) = s "{""verify_info"":{""message"":""00""}}" /\
  read_query (program_of (born (IMultisig (s "alice")))) (ask_text (QBareVerifyInfo [x00])) = None.
Proof. repeat split; vm_compute; reflexivity. Qed.

(** ** C74: values and texts *)
(** on a chain where contracts exchange texts, a call does what it does where they
    hand over values *)
Theorem C74_calls C w a st k e i m :
  (forall b x, contract_at w b x -> deployed (ch_api C) x) -> contract_at w a st -> sent m = true -> emsg_ok m = true ->
  call_json (ch_api C) (fun x => wqj C k (set_inst a (IC x) w)) e i m st =
  c_execute (ch_api C) (fun x => wq C k (set_inst a (IC x) w)) e i m st.
Proof. exact (calls_same C w a st k e i m). Qed.
Print Assumptions C74_calls.

Theorem C74_births C w k e i m : (forall b x, contract_at w b x -> deployed (ch_api C) x) ->
  c_instantiate (ch_api C) (wqj C k w) e i m = c_instantiate (ch_api C) (wq C k w) e i m.
Proof. exact (births_same C w k e i m). Qed.
Print Assumptions C74_births.

Theorem C74_queries C w a k m :
  (forall b x, contract_at w b x -> deployed (ch_api C) x) -> asked m = true -> qmsg_ok m = true ->
  q_smart (wqj C k w) a m = q_smart (wq C k w) a m.
Proof. exact (queries_same C w a k m). Qed.
Print Assumptions C74_queries.

(** and so it is with every contract on the chain *)
Theorem C74_everywhere C w a st : reachable C w -> contract_at w a st -> deployed (ch_api C) st.
Proof. exact (reachable_deployed C w a st). Qed.
Print Assumptions C74_everywhere.

(** a quote and a domain asked, a call and a refused call made in texts *)
Definition talk (w : world) :=
  let call a i := read_at w a (fun st =>
    match call_json ex_api (fun x => wqj ex_chain 3 (set_inst a (IC x) w)) (mkEnv a 1) i (MPostDispatch [] ex_arriving) st with
    | Ok _ => Some None | Err e => Some (Some e) | Panic => None end) in
  (q_smart (wqj ex_chain 3 w) (at_ 2) (QHookQuote [] ex_arriving), q_smart (wqj ex_chain 3 w) (at_ 0) QLocalDomain,
   call (at_ 2) (mkInfo (at_ 0) [mkCoin (s "uosmo") 4]), call (at_ 3) (mkInfo (at_ 0) [])).
Example C74_example :
  reachable ex_chain ex_world /\ (exists st, contract_at ex_world (at_ 0) st) /\
  talk ex_world = (Ok (RFees [mkCoin (s "uosmo") 4]), Ok (RLocalDomain 7), Some (Some None), Some (Some (Some EParse))).
Proof.
  split; [exact ex_reachable|]. split; [destruct ex_mailbox_there as (st & H & _); eauto|]. vm_compute. reflexivity.
Qed.

(** ** C81: any way of writing it *)
(** a text is read just when the grammar allows it, and as what it says *)
Theorem C81_grammar t j : parse t = Some j <-> document j t.
Proof. exact (grammar j t). Qed.
Print Assumptions C81_grammar.

(** a message is understood however it is spelled: with blanks and escapes, its
    members in any order, those that are [null] left away *)
Theorem C81_messages st m j j' t : understands st m = true -> emsg_ok m = true -> document j' (message_text (hex_router st) m) ->
  alike j j' -> document j t -> read_exec (program_of st) t = Some m.
Proof. exact (exec_alike st m j j' t). Qed.
Print Assumptions C81_messages.

Theorem C81_queries st m j j' t : answers_to st m = true -> qmsg_ok m = true -> document j' (question_text m) ->
  alike j j' -> document j t -> read_query (program_of st) t = Some m.
Proof. exact (query_alike st m j j' t). Qed.
Print Assumptions C81_queries.

(** a dispatch: members moved, one escaped, one left away *)
Definition ex_spelled : str :=
  s " {""dispatch"" :{ ""msg_body"":""aB"",""dest_domain"": 9,
       ""metadata"":null ,""recipient_addr"":""01""}}
  ".
Example C81_example :
  read_exec PMailbox ex_spelled = Some (MDispatch (mkDispatch 9 [x01] [xab] None None)) /\
  (exists j j', document j ex_spelled /\ document j' (message_text false (MDispatch (mkDispatch 9 [x01] [xab] None None))) /\ within j j') /\
  (* something after it, a comma too many, a zero before a number, a member twice, a half of a pair *)
  parse (ex_spelled ++ s "}") = None /\ parse (s "{""claim"":{},}") = None /\ parse (s "[09]") = None /\
  read_exec PIgp (s "{""set_default_gas"":{""gas"":""1"",""gas"":""1""}}") = None /\ parse (s """\ud83d""") = None /\
  parse (s """\u20aC""") = Some (JStr [xe2; x82; xac]) /\ parse (s "[0 , -1]") = None.
Proof.
  split; [vm_compute; reflexivity|]. split; [|repeat split; vm_compute; reflexivity].
  apply (C72_all_read ex_mailbox). vm_compute. reflexivity.
Qed.
