(** * Limits on nested calls and queries (C92). *)
From Coq Require Import List NArith Bool Lia.
From Verif Require Import Base OMap Coins Json Chain Contracts Mailbox World WorldFacts Mocks SpecMocks Raw RawWorld SpecRawWorld
  TextWorld SpecTextWorld SpecGas GasFacts PropsAccess PropsWorld PropsSend PropsMocks.
Import ListNotations.

(** ** Contracts take no failed query for an answer: what they do when some queries fail, they do when fewer fail *)
Theorem C92_execute A Q1 Q2 e i m st : (forall x, knows_more (Q1 x) (Q2 x)) ->
  at_least (c_execute A Q1 e i m st) (c_execute A Q2 e i m st).
Proof. exact (execute_least A Q1 Q2 e i m st). Qed.
Print Assumptions C92_execute.

Theorem C92_query A q1 q2 m st : knows_more q1 q2 -> at_least (c_query A q1 m st) (c_query A q2 m st).
Proof. exact (fun H => query_least q1 q2 H A m st). Qed.
Print Assumptions C92_query.

Theorem C92_instantiate A q1 q2 e i m : knows_more q1 q2 -> at_least (c_instantiate A q1 e i m) (c_instantiate A q2 e i m).
Proof. exact (fun H => instantiate_least q1 q2 H A e i m). Qed.
Print Assumptions C92_instantiate.

(** ** The limit of a transaction decides whether it succeeds, not what it does *)
Theorem C92_transaction C k1 k2 t w w1 : steady (ch_ext C) -> (k1 <= k2)%nat -> tx_run C k1 t w = Ok w1 ->
  exists w2, tx_run C k2 t w = Ok w2 /\ same_chain w1 w2.
Proof. exact (fun HX L => tx_follows C k1 k2 t w w HX L (same_refl w) w1). Qed.
Print Assumptions C92_transaction.

Theorem C92_any_two C k1 k2 t w w1 w2 : steady (ch_ext C) -> tx_run C k1 t w = Ok w1 -> tx_run C k2 t w = Ok w2 -> same_chain w1 w2.
Proof. exact (tx_any_two C k1 k2 t w w1 w2). Qed.
Print Assumptions C92_any_two.

Theorem C92_history C l1 l2 w : steady (ch_ext C) -> more_generous l1 l2 -> all_succeed C w l1 ->
  all_succeed C w l2 /\ same_chain (chain_run C w l1) (chain_run C w l2).
Proof. exact (fun HX M => history_follows C HX l1 l2 w w M (same_refl w)). Qed.
Print Assumptions C92_history.

(** databases and texts, to the byte *)
Theorem C92_databases C ver k1 k2 t w : asks_only (ch_ext C) -> steady (ch_ext C) -> timely_reachable C w -> tx_timely (k1, t) ->
  (k1 <= k2)%nat -> at_least (rtx_run C ver k1 t (spread ver w)) (rtx_run C ver k2 t (spread ver w)).
Proof. exact (raw_follows C ver k1 k2 t w). Qed.
Print Assumptions C92_databases.

Theorem C92_texts C ver k1 k2 t w : asks_only (ch_ext C) -> steady (ch_ext C) -> timely_reachable C w -> ttx_timely (k1, t) ->
  (k1 <= k2)%nat -> at_least (ttx_run C ver k1 t (spread ver w)) (ttx_run C ver k2 t (spread ver w)).
Proof. exact (text_follows C ver k1 k2 t w). Qed.
Print Assumptions C92_texts.

(** the mock contracts are such programs *)
Theorem C92_mocks : steady mock_ext.
Proof. exact mocks_steady. Qed.
Print Assumptions C92_mocks.

(** ** It takes a program that is not [steady] to tell limits apart *)
(** asked [a] it asks itself [b], wanting to be told of failure; asked [b] it asks itself [c]; told, it takes note *)
Definition ex_nosy : ext :=
  mkExt
    (fun e i m q st =>
       match m with
       | MOther [x61] => Ok (st, mkResp [mkSub (CExec (e_contract e) (MOther [x62]) []) (RpError 1)] None)
       | MOther [x62] => Ok (st, mkResp [mkSub (CExec (e_contract e) (MOther [x63]) []) RpNever] None)
       | _ => Ok (st, resp0)
       end)
    (fun e id rr q st => Ok (st ++ [xff], resp0))
    (fun e m q st => Err EStd).
Definition nosy_chain : chain := mkChain ex_api ex_nosy at_ ex_account.
Definition nosy_world : world := chain_run nosy_chain (genesis []) [(9%nat, TDeployExt alice [x00] [])].
Definition nosy_state (r : res world) : option inst := match r with Ok w => om_get (at_ 0) (w_inst w) | _ => None end.
Theorem C92_catching_refuted :
  exists C w t k1 k2 w1 w2, reachable C w /\ (k1 <= k2)%nat /\ tx_run C k1 t w = Ok w1 /\ tx_run C k2 t w = Ok w2 /\ ~ same_chain w1 w2.
Proof.
  exists nosy_chain, nosy_world, (TExec alice (at_ 0) (MOther [x61]) []), 2%nat, 5%nat.
  assert (E1 : nosy_state (tx_run nosy_chain 2 (TExec alice (at_ 0) (MOther [x61]) []) nosy_world) = Some (IX [x00; xff]))
    by (vm_compute; reflexivity).
  assert (E2 : nosy_state (tx_run nosy_chain 5 (TExec alice (at_ 0) (MOther [x61]) []) nosy_world) = Some (IX [x00]))
    by (vm_compute; reflexivity).
  destruct (tx_run nosy_chain 2 _ nosy_world) as [w1|e|]; try discriminate E1.
  destruct (tx_run nosy_chain 5 _ nosy_world) as [w2|e|]; try discriminate E2.
  exists w1, w2. split; [exists [], [(9%nat, TDeployExt alice [x00] [])]; split; [exact I | reflexivity]|].
  split; [lia|]. split; [reflexivity|]. split; [reflexivity|]. intros (S & _). cbn [nosy_state] in E1, E2. rewrite S, E2 in E1. discriminate E1.
Qed.
Print Assumptions C92_catching_refuted.

(** A test network: its setup, and a dispatch that needs a limit of 3; at any greater limit it does the same. *)
Definition lab_generous (k : nat) : list (nat * tx) := map (fun t => (k, snd t)) (lab_setup 7).
Definition lab_hello (k : nat) (w : world) : option (N * N * N) :=
  match tx_run lab_chain k (TExec alice (at_ 0) (MDispatch hello) [mkCoin uosmo 30]) w with
  | Ok w' => Some (balance w' alice uosmo, balance w' (at_ 1) uosmo, w_next w')
  | _ => None
  end.
(** a querier that fails, and one that answers *)
Definition ex_silent : querier := mkQuerier (fun _ _ => Err EStd) (fun _ _ => 0) (fun _ => []).
Definition ex_verifies : querier := mkQuerier (fun _ _ => Ok (RVerified true)) (fun _ _ => 0) (fun _ => []).
Example C92_example :
  steady (ch_ext lab_chain) /\ knows_more ex_silent ex_verifies /\ ~ knows_more ex_verifies ex_silent /\
  more_generous (lab_generous 2) (lab_setup 7) /\ all_succeed lab_chain (genesis lab_bank) (lab_generous 2) /\
  lab_hello 1 (lab 7) = None /\ lab_hello 3 (lab 7) = Some (970, 30, 4) /\ lab_hello 12 (lab 7) = Some (970, 30, 4).
Proof.
  split; [exact mocks_steady|]. split; [split; [intros a m v H; discriminate H | split; reflexivity]|].
  split; [intros (H & _); discriminate (H [] QModuleType _ eq_refl)|].
  split; [unfold lab_generous, lab_setup; repeat (constructor; [split; [reflexivity | cbn [fst]; lia]|]); constructor|].
  split; [apply all_ok_succeed; vm_compute; reflexivity|].
  split; [vm_compute; reflexivity|]. split; vm_compute; reflexivity.
Qed.
