(** * Who relays a message, and when, makes no difference (C94). *)
From Coq Require Import List NArith Bool Lia.
From Verif Require Import Base OMap Crypto Message Coins Chain Mailbox Contracts World SpecWorld Spec WorldFacts Mocks SpecMocks SpecRawWorld SpecRelay RelayFacts
  PropsAccess PropsWorld PropsSend PropsMocks.
Import ListNotations.

(** ** One call: the caller of [relayable] calls, the height, and what mailboxes noted of relayers decide nothing *)
Theorem C94_call A Q1 Q2 a h1 h2 i1 i2 m st1 st2 : unsigned_state st1 = unsigned_state st2 ->
  (forall y1 y2, unsigned_state y1 = unsigned_state y2 -> alike (Q1 y1) (Q2 y2)) -> i1 = i2 \/ relayable m = true ->
  matched (fun p1 p2 => unsigned_state (fst p1) = unsigned_state (fst p2) /\ snd p1 = snd p2)
    (c_execute A Q1 (mkEnv a h1) i1 m st1) (c_execute A Q2 (mkEnv a h2) i2 m st2).
Proof. exact (execute_unsigned A Q1 Q2 a h1 h2 i1 i2 m st1 st2). Qed.
Print Assumptions C94_call.

Theorem C94_birth A q a h1 h2 i m : c_instantiate A q (mkEnv a h1) i m = c_instantiate A q (mkEnv a h2) i m.
Proof. exact (instantiate_unsigned A q q a h1 h2 i m (alike_refl q)). Qed.
Print Assumptions C94_birth.

Theorem C94_answer A q m st1 st2 : unsigned_state st1 = unsigned_state st2 -> c_query A q m st1 = c_query A q m st2.
Proof. exact (query_unsigned A q m st1 st2). Qed.
Print Assumptions C94_answer.

(** ** The chain: every query is answered alike, every transaction does alike *)
Theorem C94_queries C free n w1 w2 : asks_only_at free (ch_ext C) -> same_but_relayers free w1 w2 -> alike (wq C n w1) (wq C n w2).
Proof. exact (fun HX => wq_alike C free HX n w1 w2). Qed.
Print Assumptions C94_queries.

Theorem C94_transaction C free k t w1 w2 : asks_only_at free (ch_ext C) -> same_but_relayers free w1 w2 ->
  (forall h, t = TBlock h -> w_height w1 = w_height w2) -> matched (same_but_relayers free) (tx_run C k t w1) (tx_run C k t w2).
Proof. exact (fun HX => tx_sbr C free HX k t w1 w2). Qed.
Print Assumptions C94_transaction.

Theorem C94_relayer C free k u v a m w1 w2 : asks_only_at free (ch_ext C) -> same_but_relayers free w1 w2 -> relayable m = true ->
  ch_account C u = true -> ch_account C v = true -> not_foreign w1 a ->
  matched (same_but_relayers free) (tx_run C k (TExec u a m []) w1) (tx_run C k (TExec v a m []) w2).
Proof. exact (fun HX => relay_sbr C free HX k u v a m w1 w2). Qed.
Print Assumptions C94_relayer.

Theorem C94_history C free w l1 l2 : asks_only_at free (ch_ext C) -> retold C free w l1 l2 ->
  same_but_relayers free (chain_run C w l1) (chain_run C w l2).
Proof. exact (fun HX R => retold_sbr C free HX w l1 l2 R w (sbr_refl free w)). Qed.
Print Assumptions C94_history.

(** whoever wins a race, the chain ends up the same *)
Theorem C94_race C k u v a m st w : asks_only (ch_ext C) -> contract_at w a st -> relayable m = true ->
  ch_account C u = true -> ch_account C v = true ->
  same_but_relayers false (chain_run C w [(k, TExec u a m []); (k, TExec v a m [])]) (chain_run C w [(k, TExec v a m []); (k, TExec u a m [])]).
Proof. exact (race_sbr C k u v a m st w). Qed.
Print Assumptions C94_race.

(** programs that learn by asking only meet what is asked of them with heights kept; the mock contracts meet it in any case *)
Theorem C94_asking X : asks_only X -> asks_only_at false X.
Proof. exact (asks_only_same X). Qed.
Print Assumptions C94_asking.
Theorem C94_mocks : asks_only_at true mock_ext.
Proof. exact mocks_timeless. Qed.
Print Assumptions C94_mocks.

(** ** A program from outside that notes the height can tell *)
Definition ex_diary : ext :=
  mkExt (fun e i m q st => Ok (st ++ be 8 (e_height e), resp0)) (fun e id rr q st => Err EStd) (fun e m q st => Err EStd).
Definition diary_chain : chain := mkChain ex_api ex_diary at_ ex_account.
Definition diary_setup : list (nat * tx) := [(9%nat, TDeployExt alice [] [])].
Definition diary_call : nat * tx := (9%nat, TExec alice (at_ 0) (MOther []) []).
Theorem C94_diary_refuted : exists C w l1 l2, asks_only (ch_ext C) /\ reachable C w /\ retold C true w l1 l2 /\
  ~ same_but_relayers true (chain_run C w l1) (chain_run C w l2).
Proof.
  exists diary_chain, (chain_run diary_chain (genesis []) diary_setup), [diary_call], [(9%nat, TBlock 5); diary_call].
  split; [repeat split|]. split; [exists [], diary_setup; split; [exact I | reflexivity]|].
  split; [apply rt_block_more; [reflexivity|]; apply rt_same, rt_end|].
  intros (E & _). vm_compute in E. discriminate E.
Qed.
Print Assumptions C94_diary_refuted.

(** A test network: the relayer delivers in block 0, or alice does in block 8; the mailbox notes it, nothing else tells. *)
Definition hello_by (u : addr) : nat * tx := (20%nat, TExec u (at_ 0) (MProcess (s "anything") hello_raw) []).
Definition told_first : list (nat * tx) := [hello_by relayer; (20%nat, TBlock 9)].
Definition told_again : list (nat * tx) := [(20%nat, TBlock 8); hello_by alice].
Lemma lab_mailbox : not_foreign (lab 9) (at_ 0).
Proof.
  destruct lab_trusting as (st & ((H & _) & _)). exact (contract_here (lab 9) (at_ 0) st H).
Qed.
Lemma lab_retold : retold lab_chain true (lab 9) told_first told_again.
Proof.
  unfold told_first, told_again. apply rt_block_more; [reflexivity|]. unfold hello_by.
  apply rt_relayer; [reflexivity | vm_compute; reflexivity | vm_compute; reflexivity | exact lab_mailbox|].
  apply rt_block_less; [reflexivity|]. apply rt_end.
Qed.
Definition noted (w : world) : option (option (addr * N)) := read_at w (at_ 0) (fun st => delivery_record st (keccak256_hash hello_raw)).
Example C94_example :
  asks_only_at true (ch_ext lab_chain) /\ retold lab_chain true (lab 9) told_first told_again /\
  noted (chain_run lab_chain (lab 9) told_first) = Some (Some (relayer, 0)) /\
  noted (chain_run lab_chain (lab 9) told_again) = Some (Some (alice, 8)) /\
  alike (wq lab_chain 5 (chain_run lab_chain (lab 9) told_first)) (wq lab_chain 5 (chain_run lab_chain (lab 9) told_again)).
Proof.
  split; [exact mocks_timeless|]. split; [exact lab_retold|].
  split; [vm_compute; reflexivity|]. split; [vm_compute; reflexivity|].
  exact (wq_alike lab_chain true mocks_timeless 5 _ _ (retold_sbr lab_chain true mocks_timeless (lab 9) _ _ lab_retold (lab 9) (sbr_refl true (lab 9)))).
Qed.
