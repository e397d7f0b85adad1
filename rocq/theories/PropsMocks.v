(** * The mock contracts (C88), and chains that use them (C89). *)
From Coq Require Import List NArith Bool Lia.
From Verif Require Import Base OMap Crypto Bech32 Message Coins Hex Events Json Chain Contracts Wire Spec SpecModules World SpecWorld
  SpecLive SpecSend Proto SpecProto Mocks SpecMocks Utils Found SpecVersion MocksFacts WorldFacts ProtoFacts PropsAccess PropsWorld PropsBridge PropsSend.
Import ListNotations.

(** ** C88 *)
Theorem C88_module_trusts_everything md raw :
  mock_query (QVerify md raw) MockIsm = Ok (RVerified true) /\ mock_query (QVerifyInfo raw) MockIsm = Ok (RVerifyInfo 1 []) /\
  mock_query QModuleType MockIsm = Ok (RModuleType TNull).
Proof. exact (conj eq_refl (conj eq_refl eq_refl)). Qed.
Print Assumptions C88_module_trusts_everything.

(** a hook quotes its price when that is set and fits 128 bits, and nothing when it is not set *)
Theorem C88_quote md raw gas t r :
  mock_query (QHookQuote md raw) (MockHook gas t) = Ok r <->
  (gas = None /\ r = RFees []) \/ (exists g, gas = Some g /\ g < 2 ^ 128 /\ r = RFees [mkCoin t g]).
Proof. exact (hook_quotes md raw gas t r). Qed.
Print Assumptions C88_quote.

(** it takes messages exactly when its price is set, whatever was paid *)
Theorem C88_post md raw gas t k' r :
  mock_execute (KPostDispatch md raw) (MockHook gas t) = Ok (k', r) <-> gas <> None /\ k' = MockHook gas t /\ r = resp0.
Proof. exact (hook_posts md raw gas t k' r). Qed.
Print Assumptions C88_post.

(** so the hook that asks for nothing takes nothing *)
Theorem C88_free_means_closed md raw t :
  mock_query (QHookQuote md raw) (MockHook None t) = Ok (RFees []) /\
  forall k' r, mock_execute (KPostDispatch md raw) (MockHook None t) <> Ok (k', r).
Proof. exact (free_closed md raw t). Qed.
Print Assumptions C88_free_means_closed.

(** the receiver takes the messages whose sender it can print and whose body is text *)
Theorem C88_receive o sender body hrp k' r :
  mock_execute (KHandle o sender body) (MockReceiver hrp) = Ok (k', r) <->
  (exists a, bech32_encode hrp sender = Ok a) /\ utf8 body /\ k' = MockReceiver hrp /\ r = resp0.
Proof. exact (receiver_takes o sender body hrp k' r). Qed.
Print Assumptions C88_receive.

Theorem C88_report i o sender body hrp a :
  bech32_encode hrp sender = Ok a ->
  mock_events i (KHandle o sender body) (MockReceiver hrp) =
  [mkWev (s "mailbox_msg_received") [(s "sender", a); (s "origin", dec o); (s "body", body)]].
Proof. exact (receiver_reports i o sender body hrp a). Qed.
Print Assumptions C88_report.

(** no mock sends anything; the price of a hook is all that ever changes *)
Theorem C88_quiet m k k' r : mock_execute m k = Ok (k', r) ->
  r = resp0 /\ (k' = k \/ exists old g t, k = MockHook old t /\ m = KSetGas g /\ k' = MockHook g t).
Proof. exact (mock_quiet m k k' r). Qed.
Print Assumptions C88_quiet.

(** what a mock writes down is what it reads *)
Theorem C88_kept k : mock_fits k -> mock_of (mock_bytes k) = Some k.
Proof. exact (mock_of_bytes k). Qed.
Print Assumptions C88_kept.

Theorem C88_price_fits e i m q k b' r : mock_fits k ->
  x_exec mock_ext e i m q (mock_bytes k) = Ok (b', r) -> exists k', b' = mock_bytes k' /\ mock_fits k'.
Proof. exact (mock_fits_step e i m q k b' r). Qed.
Print Assumptions C88_price_fits.

(** messages written out are read back *)
Theorem C88_texts k m :
  Wire.fits (mock_msg_c k) m = true -> mock_reads k (MOther (text (write (mock_msg_c k) m))) = Some m.
Proof. exact (mock_reads_text k m). Qed.
Print Assumptions C88_texts.

Theorem C88_price_text gas t g : match g with Some n => n < 2 ^ 256 | None => True end ->
  mock_reads (MockHook gas t) (MOther (set_gas_text g)) = Some (KSetGas g).
Proof. exact (gas_text_reads gas t g). Qed.
Print Assumptions C88_price_text.

(** a mock's code is replaced exactly by a later version of the same mock; every other attempt aborts *)
Theorem C88_migrate k ver c c' :
  (mock_migrate k ver c = Ok c' <->
   exists old, c = Some old /\ cv_contract old = mock_name k /\ c' = mkCw2 (mock_name k) ver /\ supersedes c' old) /\
  (mock_migrate k ver c = Panic <-> forall x, mock_migrate k ver c <> Ok x).
Proof. exact (mock_migrates k ver c c'). Qed.
Print Assumptions C88_migrate.

(** the module knows only the empty message *)
Example C88_example :
  mock_reads MockIsm (MOther (s "{}")) = Some KNothing /\ mock_reads MockIsm (MOther (s "{""a"":1}")) = None /\
  mock_query (QHookQuote [] []) hook_instantiate = Ok (RFees [mkCoin (s "uosmo") 500000]) /\
  (exists r, mock_execute (KPostDispatch [] []) hook_instantiate = Ok (hook_instantiate, r)) /\
  mock_query (QHookQuote [] []) (MockHook (Some (2 ^ 128)) (s "uosmo")) = Err EStd /\
  mock_execute (KPostDispatch [] []) (MockHook None (s "uosmo")) = Err EStd /\
  mock_query QHookMailbox hook_instantiate = Panic /\
  mock_migrate MockIsm (s "0.1.0") (Some (mock_record MockIsm)) = Ok (mkCw2 (s "hpl-test-mock-ism") (s "0.1.0")) /\
  mock_migrate MockIsm code_version (Some (mock_record MockIsm)) = Panic /\
  mock_migrate MockIsm (s "0.1.0") (Some (mock_record hook_instantiate)) = Panic /\
  mock_reads hook_instantiate (MOther (s "{""set_gas_amount"":{""gas"":""12""}}")) = Some (KSetGas (Some 12)) /\
  mock_reads hook_instantiate (MOther (s "{""set_gas_amount"":{}}")) = Some (KSetGas None) /\
  mock_reads hook_instantiate (MOther (s "{""set_gas_amount"":{""gas"":12}}")) = None /\
  mock_reads (MockReceiver (s "osmo")) (MOther (s "{""handle"":{""origin"":7,""sender"":""0a"",""body"":""6869""}}"))
    = Some (KHandle 7 [x0a] (s "hi")) /\
  mock_execute (KHandle 7 (be32 1) [xff]) (MockReceiver (s "osmo")) = Err EStd /\
  mock_execute (KHandle 7 (be32 1) (s "hi")) (MockReceiver []) = Err EStd /\
  mock_events (mkInfo alice []) (KHandle 7 (be32 1) (s "hi")) (MockReceiver (s "osmo")) =
    [mkWev (s "mailbox_msg_received") [(s "sender", at_ 1); (s "origin", s "7"); (s "body", s "hi")]] /\
  mock_events (mkInfo alice []) (KPostDispatch [] (s "hi")) hook_instantiate =
    [mkWev (s "hpl_mock_hook::post-dispatch")
       [(s "gas", s "500000"); (s "sender", alice); (s "message", s "6869"); (s "metadata", s "0x")]].
Proof.
  split; [vm_compute; reflexivity |]. split; [vm_compute; reflexivity |]. split; [vm_compute; reflexivity |].
  split; [exists resp0; vm_compute; reflexivity |].
  repeat (split; [vm_compute; reflexivity |]). vm_compute; reflexivity.
Qed.

(** ** C89 *)
(** a mailbox whose default module is the mock delivers to a mock receiver the
    messages of its version and domain that it has not delivered and the receiver
    can report, each once, from anybody and with any metadata *)
Theorem C89_processed C k w mb mbst ism relayer md raw m r hrp :
  hosts_mocks C -> trusting w mb mbst ism -> msg_decode raw = Ok m ->
  (exists h, reported_hrp mbst = Some h /\ bech32_encode h (m_recipient m) = Ok r) -> mock_at w r (MockReceiver hrp) ->
  ch_account C relayer = true -> (2 <= k)%nat ->
  ((exists w', tx_run C k (TExec relayer mb (MProcess md raw) []) w = Ok w') <->
   m_version m = 3 /\ reported_domain mbst = Some (m_dest m) /\ reported_delivered mbst (keccak256_hash raw) = Some false /\
   (exists a, bech32_encode hrp (m_sender m) = Ok a) /\ utf8 (m_body m)) /\
  (forall w', tx_run C k (TExec relayer mb (MProcess md raw) []) w = Ok w' ->
     only_delivered w w' mb raw /\ w_bank w' = w_bank w /\
     (forall a : addr, a <> mb -> om_get a (w_inst w') = om_get a (w_inst w))).
Proof. exact (mock_process C k w mb mbst ism relayer md raw m r hrp). Qed.
Print Assumptions C89_processed.

(** dispatching through mock hooks costs their prices *)
Theorem C89_hook_paid C w mb md raw n (h : addr) g t :
  hosts_mocks C -> mock_at w h (MockHook (Some g) t) -> g <> 0 -> g < 2 ^ 128 -> (2 <= n)%nat ->
  takes C w mb md raw n h [mkCoin t g] [(h, mkCoin t g)] [].
Proof. exact (mock_takes C w mb md raw n h g t). Qed.
Print Assumptions C89_hook_paid.

(** anybody changes the price *)
Theorem C89_anyone_prices C k w (h : addr) gas t g caller :
  hosts_mocks C -> mock_at w h (MockHook gas t) -> mock_fits (MockHook gas t) -> mock_fits (MockHook g t) ->
  ch_account C caller = true -> (1 <= k)%nat ->
  exists w', tx_run C k (TExec caller h (MOther (set_gas_text g)) []) w = Ok w' /\
    mock_at w' h (MockHook g t) /\ w_bank w' = w_bank w /\
    (forall a : addr, a <> h -> om_get a (w_inst w') = om_get a (w_inst w)).
Proof. exact (mock_priced C k w h gas t g caller). Qed.
Print Assumptions C89_anyone_prices.

(** and taking it away stops the mailboxes that require the hook *)
Theorem C89_no_price_no_dispatch C k w mb mbst h t caller d funds w' :
  hosts_mocks C -> contract_at w mb mbst -> reported_required_hook mbst = Some h -> mock_at w h (MockHook None t) ->
  tx_run C k (TExec caller mb (MDispatch d) funds) w <> Ok w'.
Proof. exact (mock_blocks C k w mb mbst h t caller d funds w'). Qed.
Print Assumptions C89_no_price_no_dispatch.

(** what is dispatched on one chain arrives at the mock receiver of another *)
Theorem C89_ping C1 C2 n k1 k2 w1 w2 mb1 mb2 mbst2 ism caller relayer d raw fees pays marks md r hrp m :
  reachable C1 w1 -> dispatchable C1 n w1 mb1 caller d raw fees pays marks ->
  (forall x, amount_of x fees <= balance w1 caller x) -> ch_account C1 caller = true -> (n + 3 <= k1)%nat ->
  hosts_mocks C2 -> trusting w2 mb2 mbst2 ism -> reported_domain mbst2 = Some (d_dest d) ->
  (exists h, reported_hrp mbst2 = Some h /\ bech32_encode h (d_recipient d) = Ok r) ->
  mock_at w2 r (MockReceiver hrp) -> reported_delivered mbst2 (keccak256_hash raw) = Some false ->
  msg_decode raw = Ok m -> (exists a, bech32_encode hrp (m_sender m) = Ok a) -> utf8 (d_body d) ->
  ch_account C2 relayer = true -> (2 <= k2)%nat ->
  exists w1' w2',
    tx_run C1 k1 (TExec caller mb1 (MDispatch d) fees) w1 = Ok w1' /\ dispatched_one w1 w1' mb1 raw /\
    tx_run C2 k2 (TExec relayer mb2 (MProcess md raw) []) w2 = Ok w2' /\ only_delivered w2 w2' mb2 raw.
Proof. exact (mock_ping C1 C2 n k1 k2 w1 w2 mb1 mb2 mbst2 ism caller relayer d raw fees pays marks md r hrp m). Qed.
Print Assumptions C89_ping.

(** ** Examples: two test networks *)
Definition lab_chain : chain := mkChain ex_api mock_ext at_ ex_account.
(** 0 mailbox, 1 hook (required and default), 2 security module, 3 receiver *)
Definition lab_setup (domain : N) : list (nat * tx) :=
  map (fun t => (20%nat, t))
  [TDeploy alice (IMailbox (s "osmo") alice domain) [];
   TDeployExt alice (mock_bytes hook_instantiate) [];
   TDeployExt alice (mock_bytes ism_instantiate) [];
   TDeployExt alice (mock_bytes (receiver_instantiate (s "neutron"))) [];
   TExec alice (at_ 0) (MSetRequiredHook (at_ 1)) [];
   TExec alice (at_ 0) (MSetDefaultHook (at_ 1)) [];
   TExec alice (at_ 0) (MSetDefaultIsm (at_ 2)) [];
   TExec relayer (at_ 1) (MOther (s "{""set_gas_amount"":{""gas"":""15""}}")) []].
Definition lab_bank : omap (addr * str) N := om_set (alice, uosmo) 1000 [].
Definition lab (domain : N) : world := chain_run lab_chain (genesis lab_bank) (lab_setup domain).
Lemma lab_hosts : hosts_mocks lab_chain.
Proof. apply mock_hosts. reflexivity. Qed.
Lemma lab_reachable d : reachable lab_chain (lab d).
Proof. exists lab_bank, (lab_setup d). split; [unfold lab_bank; apply om_sorted_set; exact I | reflexivity]. Qed.

Definition hello : dispatch_msg := mkDispatch 9 (be32 3) (s "hello") None None.
Definition hello_mail : message := mkMessage 3 0 7 to_alice 9 (be32 3) (s "hello").
Definition hello_raw : bytes := msg_encode hello_mail.
Definition lab_run (w : world) (t : tx) : res world := tx_run lab_chain 20 t w.

Lemma hello_dispatchable :
  dispatchable lab_chain 2 (lab 7) (at_ 0) alice hello hello_raw [mkCoin uosmo 30]
    [(at_ 1, mkCoin uosmo 15); (at_ 1, mkCoin uosmo 15)] [].
Proof.
  destruct (read_at_some (lab 7) (at_ 0)
    (fun st => (reported_nonce st, reported_domain st, reported_required_hook st, reported_default_hook st))
    (Some 0, Some 7, Some (at_ 1), Some (at_ 1))) as (s0 & C0 & H0); [vm_compute; reflexivity |].
  apply pair_equal_spec in H0 as [H0 D0]. apply pair_equal_spec in H0 as [H0 R0]. apply pair_equal_spec in H0 as [N0 M0].
  assert (T : takes lab_chain (lab 7) (at_ 0) (request_metadata hello) hello_raw 2 (at_ 1) [mkCoin uosmo 15] [(at_ 1, mkCoin uosmo 15)] []).
  { apply mock_takes; [exact lab_hosts | vm_compute; reflexivity | discriminate | reflexivity | lia]. }
  exists s0, 0, 7, to_alice, (at_ 1), (at_ 1), [mkCoin uosmo 15], [(at_ 1, mkCoin uosmo 15)], [],
    [mkCoin uosmo 15], [(at_ 1, mkCoin uosmo 15)], [].
  split; [exact C0 |]. split; [exact N0 |]. split; [exact M0 |]. split; [reflexivity |]. split; [reflexivity |]. split; [reflexivity |].
  split; [reflexivity |]. split; [vm_compute; reflexivity |]. split; [reflexivity |]. split; [exact R0 |].
  split; [exists (at_ 1); split; [exact D0 | reflexivity] |]. split; [exact T |]. split; [exact T |].
  split; [apply total_bounds; vm_compute; reflexivity |].
  split; [vm_compute; reflexivity |]. split; [reflexivity |]. split; [reflexivity |]. apply room_check. vm_compute. reflexivity.
Qed.

Lemma lab_trusting : exists st, trusting (lab 9) (at_ 0) st (at_ 2) /\ reported_domain st = Some 9 /\
  reported_hrp st = Some (s "osmo") /\ reported_delivered st (keccak256_hash hello_raw) = Some false.
Proof.
  destruct (read_at_some (lab 9) (at_ 0)
    (fun st => (reported_default_ism st, reported_domain st, reported_hrp st, reported_delivered st (keccak256_hash hello_raw)))
    (Some (at_ 2), Some 9, Some (s "osmo"), Some false)) as (s0 & C0 & H0); [vm_compute; reflexivity |].
  apply pair_equal_spec in H0 as [H0 D0]. apply pair_equal_spec in H0 as [H0 R0]. apply pair_equal_spec in H0 as [N0 M0].
  exists s0. split; [split; [exact C0 |]; split; [exact N0 | vm_compute; reflexivity] |]. auto.
Qed.

Example C89_example :
  dispatchable lab_chain 2 (lab 7) (at_ 0) alice hello hello_raw [mkCoin uosmo 30]
    [(at_ 1, mkCoin uosmo 15); (at_ 1, mkCoin uosmo 15)] [] /\
  (exists st, trusting (lab 9) (at_ 0) st (at_ 2) /\ reported_domain st = Some 9 /\
     reported_hrp st = Some (s "osmo") /\ reported_delivered st (keccak256_hash hello_raw) = Some false) /\
  bech32_encode (s "osmo") (be32 3) = Ok (at_ 3) /\ mock_at (lab 9) (at_ 3) (MockReceiver (s "neutron")) /\
  msg_decode hello_raw = Ok hello_mail /\ utf8 (d_body hello) /\
  match lab_run (lab 7) (TExec alice (at_ 0) (MDispatch hello) [mkCoin uosmo 30]) with
  | Ok w' => dispatched_at (at_ 0) (w_log w') = [hello_raw] /\ balance w' (at_ 1) uosmo = 30
  | _ => False
  end /\
  match lab_run (lab 9) (TExec relayer (at_ 0) (MProcess (s "anything") hello_raw) []) with
  | Ok w' => processed_at (at_ 0) (w_log w') = [hello_raw] /\
             ~ exists w'', lab_run w' (TExec relayer (at_ 0) (MProcess (s "anything") hello_raw) []) = Ok w''
  | _ => False
  end /\
  match lab_run (lab 7) (TExec relayer (at_ 1) (MOther (set_gas_text None)) []) with
  | Ok w' => mock_at w' (at_ 1) (MockHook None uosmo) /\
             ~ exists w'', lab_run w' (TExec alice (at_ 0) (MDispatch hello) [mkCoin uosmo 30]) = Ok w''
  | _ => False
  end.
Proof.
  split; [exact hello_dispatchable |]. split; [exact lab_trusting |]. split; [vm_compute; reflexivity |].
  split; [vm_compute; reflexivity |]. split; [vm_compute; reflexivity |].
  split; [apply (valid_utf8_sound 5); vm_compute; reflexivity |].
  split; [vm_compute; split; reflexivity |].
  split; [vm_compute; split; [reflexivity | intros (w & H); discriminate H] |].
  vm_compute; split; [reflexivity | intros (w & H); discriminate H].
Qed.
