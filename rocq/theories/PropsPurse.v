(** * Nobody's money moves without their word (C101). *)
From Coq Require Import List NArith Bool.
From Verif Require Import Base BaseFacts OMap Coins Chain Cw20 Contracts StepFacts World SpecWorld WorldFacts WorldRoute SpecModules SpecBridge SpecTransfer
  SpecStranger SpecPurse PurseFacts PropsAccess PropsWorld PropsBridge PropsSend PropsTransfer.
Import ListNotations.

(** an account loses no more coins than it attached to the transactions it signed *)
Theorem C101_coins C w l p d :
  chain_ok C -> reachable C w -> ch_account C p = true ->
  balance w p d <= balance (chain_run C w l) p d + spent d p l.
Proof. exact (coins_spent C w l p d). Qed.
Print Assumptions C101_coins.

(** so an account that signs nothing loses nothing *)
Theorem C101_idle C w l p d :
  chain_ok C -> reachable C w -> ch_account C p = true -> idle l p ->
  balance w p d <= balance (chain_run C w l) p d.
Proof. intros HC R Hp Hi. pose proof (coins_spent C w l p d HC R Hp) as H. rewrite (idle_spent d p l Hi), N.add_0_r in H. exact H. Qed.
Print Assumptions C101_idle.

(** somebody who neither calls a token contract nor asks for a remote transfer loses tokens only by the
    allowances they gave, each of which falls by exactly what is drawn on it; and no contract draws on the one it has *)
Theorem C101_tokens C w l p tk tst :
  chain_ok C -> reachable C w -> ch_account C p = true -> contract_at w tk tst -> is_cw20 tst -> hands_off tk l p ->
  exists new tst', w_log (chain_run C w l) = w_log w ++ new /\ contract_at (chain_run C w l) tk tst' /\ is_cw20 tst' /\
    cw_holding tst p <= cw_holding tst' p + drawn p (answers_at tk new) /\
    (forall sp, cw_allowed tst p sp = cw_allowed tst' p sp + drawn_by p sp (answers_at tk new)) /\
    forall sp st, contract_at w sp st -> drawn_by p sp (answers_at tk new) = 0.
Proof. exact (tokens_drawn C w l p tk tst). Qed.
Print Assumptions C101_tokens.

(** with allowances for contracts only, such as warp routes, they lose nothing, allowances included *)
Theorem C101_kept C w l p tk tst :
  chain_ok C -> reachable C w -> ch_account C p = true -> contract_at w tk tst -> is_cw20 tst -> hands_off tk l p ->
  (forall sp, cw_allowed tst p sp <> 0 -> exists st, contract_at w sp st) ->
  exists tst', contract_at (chain_run C w l) tk tst' /\ is_cw20 tst' /\ cw_holding tst p <= cw_holding tst' p /\
    forall sp, cw_allowed tst' p sp = cw_allowed tst p sp.
Proof. exact (tokens_kept C w l p tk tst). Qed.
Print Assumptions C101_kept.

(** allowances grow only by the word of those who give them, and by no more than they say *)
Theorem C101_granted A ev st st' r p sp :
  c_apply A ev st = Ok (st', r) -> is_cw20 st -> cw_allowed st' p sp <= cw_allowed st p sp + grant p sp ev.
Proof. exact (cw_granted A ev st st' r p sp). Qed.
Print Assumptions C101_granted.

(** *** Alice lets a route have 25 of her 30 tokens *)
(** a stranger dispatches a message, which succeeds, asks the route for a transfer and tries to take the tokens,
    which does not *)
Definition prowl : list tx :=
  [TExec relayer (at_ 0) (MDispatch (mkDispatch 9 peer to_alice None None)) [];
   TExec relayer (at_ 5) (MTransferRemote 9 to_alice 5 None None) [];
   TExec relayer (at_ 6) (MCw20TransferFrom alice relayer 5) [];
   TExec relayer (at_ 6) (MCw20BurnFrom alice 5) [];
   TExec relayer (at_ 6) (MCw20DecreaseAllowance (at_ 5) 5) []].
Definition tokens_of (st : cstate) : N * N * N := (cw_holding st alice, cw_allowed st alice (at_ 5), cw_allowed st alice relayer).
Definition lent_by (st : cstate) : option (omap (addr * addr) N) := match st with SCw20 x => Some (cw_allowances x) | _ => None end.
Lemma prowl_read : (ch_account ex_chain alice, read_at pier (at_ 6) lent_by, read_at pier (at_ 5) kind, read_at pier (at_ 6) tokens_of,
    read_at (chain_run ex_chain pier (both prowl)) (at_ 6) tokens_of)
  = (true, Some (Some [((alice, at_ 5), 25)]), Some 16, Some (30, 25, 0), Some (30, 25, 0)).
Proof. vm_compute. reflexivity. Qed.

Lemma prowl_idle : idle (both prowl) alice.
Proof.
  intros t Ht E. assert (X : forallb (fun t : nat * tx => match signer (snd t) with Some u => negb (bytes_eqb alice u) | None => true end) (both prowl) = true)
    by (vm_compute; reflexivity).
  rewrite forallb_forall in X. specialize (X t Ht). rewrite E, bytes_eqb_refl in X. discriminate X.
Qed.

Example C101_example : exists tst,
  chain_ok ex_chain /\ reachable ex_chain pier /\ ch_account ex_chain alice = true /\ contract_at pier (at_ 6) tst /\ is_cw20 tst /\
  hands_off (at_ 6) (both prowl) alice /\ (forall sp, cw_allowed tst alice sp <> 0 -> exists st, contract_at pier sp st) /\
  read_at pier (at_ 6) tokens_of = Some (30, 25, 0) /\ read_at (chain_run ex_chain pier (both prowl)) (at_ 6) tokens_of = Some (30, 25, 0).
Proof.
  pose proof prowl_read as H. repeat apply pair_equal_spec in H as [H ?H].
  destruct (read_at_some pier (at_ 6) lent_by _ H3) as (tst & Hc & E). destruct (read_at_some pier (at_ 5) kind _ H2) as (rst & Hr & _).
  destruct tst; try discriminate E. cbn [lent_by] in E. injection E as E. exists (SCw20 x).
  split; [exact ex_chain_ok |]. split; [exact pier_reachable |]. split; [exact H |]. split; [exact Hc |]. split; [exact I |].
  split; [apply idle_hands; exact prowl_idle |]. split; [| split; [exact H1 | exact H0]].
  intros sp Hs. exists rst. assert (X : sp = at_ 5); [| rewrite X; exact Hr].
  rewrite cw_query_allowed in Hs. unfold alw_in in Hs. rewrite E in Hs. cbn [om_get] in Hs.
  destruct (keqb (alice, sp) (alice, at_ 5)) eqn:K; [| now destruct Hs]. apply keqb_eq in K. apply pair_equal_spec in K as [_ K]. exact K.
Qed.

(** *** Allowances given to people are theirs to use *)
Definition trusting : list tx := [TExec alice (at_ 6) (MCw20IncreaseAllowance relayer 10) []].
(** the world in which she does *)
Notation pier2 := (chain_run ex_chain pier (both trusting)).
Definition used : list tx := [TExec relayer (at_ 6) (MCw20TransferFrom alice relayer 7) []].
Lemma used_read : (read_at pier2 (at_ 6) tokens_of, read_at (chain_run ex_chain pier2 (both used)) (at_ 6) tokens_of) = (Some (30, 25, 10), Some (23, 25, 3)).
Proof. vm_compute. reflexivity. Qed.
Lemma used_idle : idle (both used) alice.
Proof.
  intros t Ht E. assert (X : forallb (fun t : nat * tx => match signer (snd t) with Some u => negb (bytes_eqb alice u) | None => true end) (both used) = true)
    by (vm_compute; reflexivity).
  rewrite forallb_forall in X. specialize (X t Ht). rewrite E, bytes_eqb_refl in X. discriminate X.
Qed.

(** the call by which Alice gave the allowance *)
Example C101_granted_example : exists st st' r,
  contract_at pier (at_ 6) st /\ is_cw20 st /\
  c_apply ex_api (EvExec (mkEnv (at_ 6) 0) (mkInfo alice []) (MCw20IncreaseAllowance relayer 10) (fun _ => no_querier)) st = Ok (st', r) /\
  (cw_allowed st alice relayer, cw_allowed st' alice relayer) = (0, 10).
Proof.
  destruct (read_at_some pier (at_ 6) (fun st =>
    match c_apply ex_api (EvExec (mkEnv (at_ 6) 0) (mkInfo alice []) (MCw20IncreaseAllowance relayer 10) (fun _ => no_querier)) st with
    | Ok (st', _) => Some (kind st, cw_allowed st alice relayer, cw_allowed st' alice relayer) | _ => None end) (Some (17, 0, 10)))
    as (st & Hc & E); [vm_compute; reflexivity |].
  destruct (c_apply _ _ st) as [[st' r] | |] eqn:H; try discriminate E. exists st, st', r.
  injection E as E1 E2 E3. split; [exact Hc |]. split; [destruct st; try discriminate E1; exact I |]. split; [exact H |]. now rewrite E2, E3.
Qed.

(** so without the condition on allowances the conclusion fails *)
Theorem C101_kept_from_people_refuted : exists C w l p tk tst tst',
  chain_ok C /\ reachable C w /\ ch_account C p = true /\ contract_at w tk tst /\ is_cw20 tst /\ idle l p /\
  contract_at (chain_run C w l) tk tst' /\ cw_holding tst p = 30 /\ cw_holding tst' p = 23.
Proof.
  pose proof used_read as H. apply pair_equal_spec in H as [H1 H2].
  apply read_at_some in H1 as (tst & Hc & E). apply read_at_some in H2 as (tst' & Hc' & E').
  unfold tokens_of in E, E'. apply pair_equal_spec in E as [E _]. apply pair_equal_spec in E as [E _]. apply pair_equal_spec in E' as [E' _]. apply pair_equal_spec in E' as [E' _].
  exists ex_chain, pier2, (both used), alice, (at_ 6), tst, tst'.
  split; [exact ex_chain_ok |]. split; [apply reachable_later; exact pier_reachable |].
  split; [pose proof prowl_read as X; repeat apply pair_equal_spec in X as [X ?]; exact X |]. split; [exact Hc |].
  split; [destruct tst; try discriminate E; exact I |]. split; [exact used_idle |]. split; [exact Hc' |]. split; [exact E | exact E'].
Qed.
Print Assumptions C101_kept_from_people_refuted.

(** *** Alice sends 10 coins on with 4 for the hook, and nothing more leaves her *)
Definition outing : list tx :=
  [TExec alice (at_ 4) (MTransferRemote 9 to_alice 10 None None) [mkCoin uosmo 14]; TExec relayer (at_ 2) (MFeeClaim None) [];
   TExec alice (at_ 0) (MSetDefaultHook (at_ 1)) []].
Example C101_coins_example :
  chain_ok ex_chain /\ reachable ex_chain pier /\
  (balance pier alice uosmo, balance (chain_run ex_chain pier (both outing)) alice uosmo, spent uosmo alice (both outing)) = (100, 86, 14).
Proof. split; [exact ex_chain_ok |]. split; [exact pier_reachable |]. vm_compute. reflexivity. Qed.
