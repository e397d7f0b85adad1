(** * Quotes and verdicts change only when somebody in charge acts (C96). *)
From Coq Require Import List NArith Bool Lia.
From Verif Require Import Base BaseFacts OMap Coins Crypto Message Bech32 Chain Ownable Contracts Spec SpecModules Mailbox Hooks
  StepFacts CoinsFacts MailboxConfFacts GasFacts World SpecWorld SpecSend WorldFacts SpecStranger StrangerFacts SpecQuote QuoteFacts
  PropsAccess PropsWorld PropsBridge PropsSend PropsStranger.
Import ListNotations.

(** ** One question: traffic and the number of the message do not matter *)
Theorem C96_query A (q1 q2 : querier) m m' st st' v :
  (forall a m m' v, asks_alike m m' -> q_smart q1 a m = Ok v -> q_smart q2 a m' = Ok v) ->
  asks_alike m m' -> set_up st' = set_up st ->
  c_query A q1 m st = Ok v -> c_query A q2 m' st' = Ok v.
Proof.
  intros H AL E. apply (query_near q1 q2); [|exact AL | exact E].
  intros a x x' AL' v' Hv. exact (H a x x' v' AL' Hv).
Qed.
Print Assumptions C96_query.

(** ** The chain, while those in charge sign nothing *)
Theorem C96_set_up C w l a st : chain_ok C -> reachable C w -> undisturbed C w l a -> contract_at w a st ->
  exists st', contract_at (chain_run C w l) a st' /\ set_up st' = set_up st.
Proof. exact (undisturbed_run C w l a st). Qed.
Print Assumptions C96_set_up.

(** answers obtained from contracts in [P] alone stay; [QMailboxQuote] and [QHookQuote] are quotes, [QVerify] asks for a verdict *)
Theorem C96_answer C P w l n n' a m v :
  chain_ok C -> reachable C w -> (forall a, P a = true -> undisturbed C w l a) -> lasting m = true -> (n <= n')%nat ->
  q_smart (wq C n (keep P w)) a m = Ok v -> q_smart (wq C n' (chain_run C w l)) a m = Ok v.
Proof. exact (answer_stays C P w l n n' a m v). Qed.
Print Assumptions C96_answer.

(** what could be dispatched can be, under a later number, for the same fees to the same payees *)
Theorem C96_dispatchable C P w l n mb caller d raw fees pays marks :
  chain_ok C -> reachable C w -> (forall a, P a = true -> undisturbed C w l a) ->
  dispatchable C n (keep P w) mb caller d raw fees pays marks ->
  exists mbst nonce, contract_at (chain_run C w l) mb mbst /\ reported_nonce mbst = Some nonce /\
    (nonce + 1 < 2 ^ 32 -> room (chain_run C w l) marks ->
     exists raw', renumbered raw raw' /\ dispatchable C n (chain_run C w l) mb caller d raw' fees pays marks).
Proof. exact (still_dispatchable C P w l n mb caller d raw fees pays marks). Qed.
Print Assumptions C96_dispatchable.

(** and whoever still has the fees pays exactly them *)
Theorem C96_paid C P w l n k mb caller d raw fees pays marks :
  chain_ok C -> reachable C w -> (forall a, P a = true -> undisturbed C w l a) ->
  dispatchable C n (keep P w) mb caller d raw fees pays marks ->
  (forall st nonce, contract_at (chain_run C w l) mb st -> reported_nonce st = Some nonce -> nonce + 1 < 2 ^ 32) ->
  room (chain_run C w l) marks ->
  (forall x, amount_of x fees <= balance (chain_run C w l) caller x) -> ch_account C caller = true -> (n + 3 <= k)%nat ->
  exists raw' w', renumbered raw raw' /\ tx_run C k (TExec caller mb (MDispatch d) fees) (chain_run C w l) = Ok w' /\
    dispatched_one (chain_run C w l) w' mb raw' /\ fees_paid (chain_run C w l) w' caller fees pays /\
    recorded (chain_run C w l) w' raw' marks /\ others_same (chain_run C w l) w' mb marks.
Proof. exact (dispatch_still_paid C P w l n k mb caller d raw fees pays marks). Qed.
Print Assumptions C96_paid.

(** ** The example of C66: the relayer tries to change prices and hooks, deploys a hook, and dispatches a message of their own *)
Definition haggling : list (nat * tx) :=
  both [TExec relayer (at_ 3) (MSetFee (mkCoin uosmo 9)) [];
        TExec relayer (at_ 4) (MSetRemoteGasData (mkGasConfig 9 10000000000 4)) [];
        TExec relayer (at_ 2) (MPausable Pause) [];
        TExec relayer (at_ 0) (MSetRequiredHook (at_ 1)) [];
        TDeploy relayer (IFeeHook relayer (mkCoin uosmo 1)) [];
        TBlock 50;
        TExec relayer (at_ 0) (MDispatch (mkDispatch 9 (be32 6) [x03] None (Some toll_md))) [mkCoin uosmo 505]].
Definition haggled : world := chain_run ex_chain toll haggling.

Lemma keep_all w : keep (fun _ => true) w = w.
Proof.
  destruct w as [i b ad h n lg]. unfold keep. cbn [w_inst w_bank w_admin w_height w_next w_log]. f_equal.
  induction i as [|x i IH]; [reflexivity|]. cbn [filter]. now rewrite IH.
Qed.
Lemma alice_idle_haggling : idle haggling alice.
Proof.
  assert (N : relayer <> alice) by (apply bytes_eqb_neq; vm_compute; reflexivity).
  intros t Ht. unfold haggling, both in Ht. cbn [map In] in Ht.
  repeat (destruct Ht as [<- | Ht]; [cbn [snd signer]; congruence|]). contradiction.
Qed.
(** the contracts are owned by [u] and offered to nobody, or cannot be owned *)
Definition all_of_or_none (u : addr) (w : world) : bool :=
  forallb (fun p : addr * inst => match snd p with
    | IC (SMerkle _) | IC (SVa _) => true
    | IC st => match own_of st with Some o => bytes_eqb (o_owner o) u && match o_pending o with None => true | _ => false end | None => false end
    | IX _ => false end)%bool (w_inst w).
Lemma all_undisturbed C w l u : all_of_or_none u w = true -> ch_account C u = true -> idle l u -> forall a, undisturbed C w l a.
Proof.
  intros H Hu Hi a. unfold undisturbed. destruct (om_get a (w_inst w)) as [i|] eqn:Hc; [|exact I]. assert (Hg := Hc).
  apply om_get_In in Hc. unfold all_of_or_none in H. rewrite forallb_forall in H. specialize (H _ Hc). cbn [snd] in H. clear Hc.
  destruct i as [st|b]; [|discriminate H].
  assert (L : (exists o, own_of st = Some o /\ o_owner o = u /\ o_pending o = None) -> left_alone C w l a).
  { intros (o & E & E1 & E2) st' Hst'. unfold contract_at in Hst'. rewrite Hg in Hst'. injection Hst' as <-.
    unfold in_charge. rewrite reported_owner_own, reported_pending_own, E. cbn [option_map]. rewrite E1, E2.
    split; [discriminate|]. intros v [F | F]; [|discriminate F]. injection F as <-. split; assumption. }
  assert (B : forall o, (bytes_eqb (o_owner o) u && match o_pending o with None => true | _ => false end)%bool = true ->
     o_owner o = u /\ o_pending o = None).
  { intros o F. apply andb_true_iff in F as [F F']. apply bytes_eqb_eq in F. destruct (o_pending o); [discriminate F'|]. auto. }
  destruct st; try exact I; try discriminate H; apply L; cbn [own_of] in *;
    match type of H with
    | (match ?x with Some _ => _ | None => _ end) = true => destruct x as [o|]; [|discriminate H]
    | _ => idtac
    end; eexists; (split; [reflexivity|]); now apply B.
Qed.
Lemma toll_undisturbed a : undisturbed ex_chain toll haggling a.
Proof.
  revert a. apply (all_undisturbed ex_chain toll haggling alice); [vm_compute; reflexivity | vm_compute; reflexivity | exact alice_idle_haggling].
Qed.
Lemma toll_keep : dispatchable ex_chain 8 (keep (fun _ => true) toll) (at_ 0) alice toll_msg toll_raw [mkCoin uosmo 505] toll_pays [at_ 1].
Proof. rewrite keep_all. exact toll_dispatchable. Qed.
Lemma haggled_nonce st nonce : contract_at haggled (at_ 0) st -> reported_nonce st = Some nonce -> nonce + 1 < 2 ^ 32.
Proof.
  intros H E. destruct (read_at_some haggled (at_ 0) reported_nonce (Some 1)) as (s0 & C0 & H0); [vm_compute; reflexivity|].
  rewrite (at_same _ _ _ _ H C0), H0 in E. injection E as <-. reflexivity.
Qed.
Lemma haggled_enough x : amount_of x [mkCoin uosmo 505] <= balance haggled alice x.
Proof.
  rewrite amount_of_cons. destruct (bytes_eqb x (c_denom (mkCoin uosmo 505))) eqn:E; [| apply N.le_0_l].
  apply bytes_eqb_eq in E. subst x. apply N.leb_le. vm_compute. reflexivity.
Qed.
Example C96_example :
  (forall a, undisturbed ex_chain toll haggling a) /\
  dispatchable ex_chain 8 (keep (fun _ => true) toll) (at_ 0) alice toll_msg toll_raw [mkCoin uosmo 505] toll_pays [at_ 1] /\
  (forall st nonce, contract_at haggled (at_ 0) st -> reported_nonce st = Some nonce -> nonce + 1 < 2 ^ 32) /\
  room haggled [at_ 1] /\ (forall x, amount_of x [mkCoin uosmo 505] <= balance haggled alice x) /\
  (balance haggled relayer uosmo, w_height haggled, read_at haggled (at_ 0) reported_nonce, read_at haggled (at_ 1) reported_count)
    = (95, 50, Some (Some 1), Some (Some 1)) /\
  q_smart (wq ex_chain 9 toll) (at_ 0) (QMailboxQuote alice toll_msg) = Ok (RFees [mkCoin uosmo 505]) /\
  q_smart (wq ex_chain 9 haggled) (at_ 0) (QMailboxQuote alice toll_msg) = Ok (RFees [mkCoin uosmo 505]) /\
  match tx_run ex_chain 11 (TExec alice (at_ 0) (MDispatch toll_msg) [mkCoin uosmo 505]) haggled with
  | Ok w' => (balance w' alice uosmo, balance w' (at_ 3) uosmo, balance w' (at_ 5) uosmo) = (495, 10, 1000)
  | _ => False
  end.
Proof.
  split; [exact toll_undisturbed|]. split; [exact toll_keep|]. split; [exact haggled_nonce|].
  split; [apply room_check; vm_compute; reflexivity|]. split; [exact haggled_enough|].
  split; [vm_compute; reflexivity|]. split; [vm_compute; reflexivity|]. split; [vm_compute; reflexivity|]. vm_compute. reflexivity.
Qed.

(** ** An owner can raise the price between the quote and the dispatch that pays it *)
Definition raising : list (nat * tx) := both [TExec alice (at_ 3) (MSetFee (mkCoin uosmo 6)) []].
Theorem C96_owner_refuted : exists C w l n k mb caller d raw fees pays marks,
  chain_ok C /\ reachable C w /\ dispatchable C n w mb caller d raw fees pays marks /\ (n + 3 <= k)%nat /\ ch_account C caller = true /\
  (forall x, amount_of x fees <= balance (chain_run C w l) caller x) /\
  q_smart (wq C k w) mb (QMailboxQuote caller d) = Ok (RFees fees) /\
  is_ok (tx_run C k (TExec caller mb (MDispatch d) fees) (chain_run C w l)) = false.
Proof.
  exists ex_chain, toll, raising, 8%nat, 11%nat, (at_ 0), alice, toll_msg, toll_raw, [mkCoin uosmo 505], toll_pays, [at_ 1].
  split; [exact ex_chain_ok|]. split; [exact toll_reachable|]. split; [exact toll_dispatchable|]. split; [lia|].
  split; [vm_compute; reflexivity|].
  split.
  { intros x. rewrite amount_of_cons. destruct (bytes_eqb x (c_denom (mkCoin uosmo 505))) eqn:E; [| apply N.le_0_l].
    apply bytes_eqb_eq in E. subst x. apply N.leb_le. vm_compute. reflexivity. }
  split; [vm_compute; reflexivity|]. vm_compute. reflexivity.
Qed.
Print Assumptions C96_owner_refuted.
