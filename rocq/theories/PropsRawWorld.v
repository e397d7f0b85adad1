(** * The chain on raw databases: C83 *)
From Coq Require Import List NArith Bool.
From Verif Require Import Base OMap Coins Chain Utils Contracts World SpecWorld Wire Store SpecStore Raw RawWorld SpecRawWorld RawWorldFacts
  PropsWorld PropsBridge.
Import ListNotations.

(** ** C83: the chain that keeps databases and the chain that keeps records are one *)
Theorem C83_histories C ver bank l : asks_only (ch_ext C) -> Forall tx_timely l ->
  rchain_run C ver (rgenesis bank) l = spread ver (chain_run C (genesis bank) l).
Proof. exact (laid_run C ver bank l). Qed.
Print Assumptions C83_histories.

Theorem C83_transactions C ver k t w : asks_only (ch_ext C) -> timely_reachable C w -> tx_timely (k, t) ->
  rtx_run C ver k t (spread ver w) = laid ver (tx_run C k t w).
Proof. exact (laid_tx C ver k t w). Qed.
Print Assumptions C83_transactions.

Theorem C83_queries C ver k w : asks_only (ch_ext C) -> timely_reachable C w ->
  alike (rwq C k (spread ver w)) (wq C k w).
Proof. exact (laid_queries C ver k w). Qed.
Print Assumptions C83_queries.

(** A chain with a mailbox, an ISM, hooks, a token-factory route and another program: set up, a transfer minted, two burned and dispatched; then a third. *)
Definition ex_versions (a : addr) (p : program) : cw2 := mkCw2 (s "hpl") (s "0.0.7").
Definition ex_raw_there : rworld := rchain_run ex_chain ex_versions (rgenesis []) there_txs.
(** the entry under a key of a contract's database *)
Definition ex_entry (w : rworld) (a : addr) (k : bytes) : option bytes :=
  match om_get a (rw_inst w) with Some (RC _ d) => om_get k d | _ => None end.
Lemma ex_asks_only : asks_only (ch_ext ex_chain).
Proof. split; [|split]; intros; reflexivity. Qed.
Definition ex_then (t : tx) : option (option bytes * N) :=
  match rtx_run ex_chain ex_versions 40 t ex_raw_there with
  | Ok w => Some (ex_entry w (at_ 0) (s "nonce"), rbalance w alice wosmo)
  | _ => None
  end.
Example C83_example :
  asks_only (ch_ext ex_chain) /\ Forall tx_timely there_txs /\ timely_reachable ex_chain there /\
  length (rw_inst ex_raw_there) = length (w_inst there) /\
  ex_entry ex_raw_there (at_ 0) (s "nonce") = Some (s "2") /\
  ex_entry ex_raw_there route (s "token") = Some (s """" ++ wosmo ++ s """")%list /\
  rbalance ex_raw_there alice wosmo = 4 /\
  ex_then (go 7 to_alice 4 [mkCoin wosmo 4]) = Some (Some (s "3"), 0) /\
  ex_then (go 7 to_alice 5 [mkCoin wosmo 5]) = None.
Proof.
  assert (F : Forall tx_timely there_txs) by (repeat (constructor; [exact I|]); constructor).
  split; [exact ex_asks_only|]. split; [exact F|]. split; [exists [], there_txs; split; [exact F|exact there_run]|].
  split; [vm_compute; reflexivity|]. split; [vm_compute; reflexivity|]. split; [vm_compute; reflexivity|]. split; [vm_compute; reflexivity|].
  split; vm_compute; reflexivity.
Qed.
