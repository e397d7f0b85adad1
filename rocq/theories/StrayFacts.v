(** * Coins at contracts that have no business with coins (C99). *)
From Coq Require Import List NArith Bool Lia Permutation.
From Verif Require Import Base BaseFacts OMap Hex Coins Crypto Message Bech32 Metadata Chain Ownable Router Contracts
  Mailbox Va Isms Hooks Igp Warp Cw20 StepFacts MailboxConfFacts World SpecWorld WorldFacts WorldRoute WorldMailbox SpecStray.
Import ListNotations.

Definition outs (d : str) (r : response) : N := total (msg_out d) (map sm_msg (r_msgs r)).

Lemma quiet_exec A Q e i m st st' r d :
  c_execute A Q e i m st = Ok (st', r) -> paying st m = false -> outs d r = 0.
Proof.
  intros H P. unfold c_execute in H. apply bind_Ok_inv in H as (u & _ & H). unfold lift in H.
  destruct st; apply bind_Ok_inv in H as ([y r1] & H & E); apply Ok_inj, pair_equal_spec in E as [_ <-]; destruct m; try discriminate P; try discriminate H.
  all: cbn [mb_execute va_execute ms_execute ag_execute ri_execute pi_execute mk_execute ah_execute ph_execute rh_execute
            cu_execute fb_execute fe_execute or_execute gp_execute wn_execute wc_execute cw_execute] in H.
  all: try (inv_all; split_matches; reflexivity).
  all: unfold mb_set_default_ism, mb_set_default_hook, mb_set_required_hook, mb_process, va_announce, ms_set_validators, ms_unset_domain,
         ag_set_isms, mk_post_dispatch, cu_register, cu_clear, wp_common, wc_handle in H.
  all: try (inv_all; split_matches; reflexivity).
Qed.

Lemma born_quiet A q e i m st r d : c_instantiate A q e i m = Ok (st, r) -> outs d r = 0.
Proof.
  intros H. unfold c_instantiate, lift in H. destruct m;
  unfold mb_instantiate, va_instantiate, ms_instantiate, ag_instantiate, ri_instantiate,
    pi_instantiate, mk_instantiate, ah_instantiate, ph_instantiate, rh_instantiate,
    cu_instantiate, fb_instantiate, fe_instantiate, or_instantiate, gp_instantiate,
    wn_instantiate, wc_instantiate in H; inv_all; split_matches; try reflexivity.
  all: try (destruct md; reflexivity).
Qed.

Lemma apply_quiet A ev st st' r d : c_apply A ev st = Ok (st', r) ->
  match ev with EvExec _ _ m _ => paying st m = false | EvReply _ _ => True end -> outs d r = 0.
Proof.
  destruct ev as [e i m Q | id rr]; cbn [c_apply]; intros H P; [exact (quiet_exec _ _ _ _ _ _ _ _ d H P) |].
  unfold c_reply, lift in H. destruct st; try discriminate H; unfold wn_reply, wc_reply in H; inv_all; split_matches; reflexivity.
Qed.

Lemma total_flat {X Y} (f : Y -> N) (g : X -> list Y) l :
  (forall x, In x l -> total f (g x) = 0) -> total f (flat_map g l) = 0.
Proof.
  induction l as [| x l IH]; intros H; [reflexivity |]. cbn [flat_map]. rewrite total_app, (H x (or_introl eq_refl)), IH; [reflexivity |].
  intros y Hy. apply H. now right.
Qed.

Lemma never_kind st st' : kind st' = kind st -> never_pays st -> never_pays st'.
Proof. destruct st; intros K H; try contradiction H; destruct st'; try discriminate K; exact I. Qed.
Lemma never_paying st m : never_pays st -> paying st m = false.
Proof. destruct st; intros H; try contradiction H; reflexivity. Qed.

(** ** Funds make no difference *)
Lemma funds_unnoticed A Q e sender f f' m st : never_pays st ->
  c_execute A Q e (mkInfo sender f) m st = c_execute A Q e (mkInfo sender f') m st.
Proof. destruct st; intros H; try contradiction H; unfold c_execute; destruct m; reflexivity. Qed.

(** ** They stay *)
Lemma never_asked C w a st d : reachable C w -> contract_at w a st -> never_pays st ->
  total (msg_out d) (asked_by a (w_log w)) = 0.
Proof.
  intros R Hc Hn. destruct (chain_history C w a st R Hc) as (e & i & q & m & r & st0 & B & _ & Hi & L & E).
  assert (N0 : never_pays st0).
  { apply (never_kind st); [| exact Hn]. rewrite E. symmetry. apply run_kind. }
  rewrite (summ_perm _ _ _ (asked_split a (w_log w))), total_app, B. cbn [flat_map snd app]. rewrite app_nil_r.
  pose proof (born_quiet _ _ _ _ _ _ _ d Hi) as B0. unfold outs in B0. rewrite B0. cbn [N.add].
  clear -L N0. induction L as [| h st1 ev st2 r L IH H]; [reflexivity |].
  rewrite flat_map_app, total_app, IH. cbn [flat_map snd N.add]. rewrite app_nil_r.
  assert (N1 : never_pays st1).
  { apply (never_kind st0); [| exact N0]. rewrite <- (lives_run _ _ _ _ L). apply run_kind. }
  apply (apply_quiet _ _ _ _ _ d H). destruct ev as [e i m Q | id rr]; [now apply never_paying | exact I].
Qed.

Lemma coins_stay C bank l w a st d :
  chain_ok C -> om_sorted bank -> w = chain_run C (genesis bank) l -> contract_at w a st -> never_pays st ->
  balance w a d = bal bank a d + inflow a d (w_log w).
Proof.
  intros HC Hb Hw Hc Hn. assert (R : reachable C w) by (exists bank, l; auto).
  pose proof (contract_money C bank l w a st d HC Hb Hw Hc) as M. rewrite (never_asked C w a st d R Hc Hn) in M.
  now rewrite N.add_0_r in M.
Qed.

Lemma kept_kind C w txs a st : contract_at w a st -> exists st', contract_at (chain_run C w txs) a st' /\ kind st' = kind st.
Proof.
  intros Hc. destruct (asteps_kind C w _ a (IC st) (chain_run_steps C txs w) Hc) as ([st' | y] & Hy & K); [| contradiction K].
  exists st'. split; [exact Hy |]. cbn [same_kind] in K. congruence.
Qed.

Lemma coins_grow C w txs a st d :
  chain_ok C -> reachable C w -> contract_at w a st -> never_pays st ->
  exists new, w_log (chain_run C w txs) = w_log w ++ new /\
    balance (chain_run C w txs) a d = balance w a d + inflow a d new.
Proof.
  intros HC (bank & l & Hb & Hw) Hc Hn. destruct (kept_kind C w txs a st Hc) as (st' & Hc' & K).
  destruct (asteps_extends C _ _ (chain_run_steps C txs w)) as [new L]. exists new. split; [exact L |].
  rewrite (coins_stay C bank l w a st d HC Hb Hw Hc Hn).
  rewrite (coins_stay C bank (l ++ txs) (chain_run C w txs) a st' d HC Hb); [| | exact Hc' | exact (never_kind st st' K Hn)].
  - rewrite L. unfold inflow. rewrite total_app. lia.
  - rewrite Hw. unfold chain_run. now rewrite fold_left_app.
Qed.

(** ** The mailbox *)
Lemma dispatch_funds_seen a d l : dispatch_funds a d l = total (paid_dispatch a d) (calls_seen l).
Proof.
  unfold dispatch_funds, answers_at, calls_seen. induction l as [| x l IH]; [reflexivity |].
  cbn [flat_map]. rewrite !total_app, IH. f_equal.
  destruct x as [c m | | | b [e i m Q | id rr] r]; try reflexivity.
  - unfold total. destruct (bytes_eqb a b) eqn:E; cbn [fold_right dispatch_fund paid_dispatch]; rewrite ?E; destruct m; try reflexivity; lia.
  - destruct (bytes_eqb a b); reflexivity.
Qed.

Lemma dispatch_sent_in a d l : total (paid_dispatch a d) (calls_sent l) <= inflow a d l.
Proof.
  unfold calls_sent, inflow. induction l as [| x l IH]; [reflexivity |].
  cbn [flat_map]. rewrite total_app. change (x :: l) with ([x] ++ l). rewrite total_app.
  apply N.add_le_mono; [| exact IH]. unfold total.
  destruct x as [c m | | | ]; cbn [fold_right]; try lia.
  destruct m as [b m f | | | | | |]; cbn [fold_right entry_in msg_in paid_dispatch]; try lia.
  destruct m; cbn [paid_dispatch]; try lia. rewrite norm_amount. destruct (bytes_eqb a b); lia.
Qed.

Lemma mailbox_coins C w txs a st d :
  chain_ok C -> reachable C w -> contract_at w a st -> is_mailbox st ->
  exists new, w_log (chain_run C w txs) = w_log w ++ new /\
    total (paid_dispatch a d) (calls_sent new) <= inflow a d new /\
    balance (chain_run C w txs) a d + total (paid_dispatch a d) (calls_sent new) = balance w a d + inflow a d new.
Proof.
  intros HC R Hc Hm. pose proof R as (bank & l & Hb & Hw). destruct (kept_kind C w txs a st Hc) as (st' & Hc' & K).
  destruct (asteps_extends C _ _ (chain_run_steps C txs w)) as [new L]. exists new. split; [exact L |].
  split; [apply dispatch_sent_in |].
  assert (Hw' : chain_run C w txs = chain_run C (genesis bank) (l ++ txs)).
  { rewrite Hw. unfold chain_run. now rewrite fold_left_app. }
  assert (R' : reachable C (chain_run C w txs)) by (exists bank, (l ++ txs); auto).
  pose proof (calls_reachable C w R) as S1. pose proof (calls_reachable C _ R') as S2. rewrite L in S2.
  unfold calls_sent, calls_seen in S2. rewrite !flat_map_app in S2. fold (calls_sent (w_log w)) (calls_seen (w_log w)) (calls_sent new) (calls_seen new) in S2.
  rewrite S1 in S2. apply app_inv_head in S2.
  pose proof (chain_dispatch_funds C bank l w a st d HC Hb Hw Hc Hm) as M1.
  assert (Hm' : is_mailbox st') by (unfold is_mailbox in *; congruence).
  pose proof (chain_dispatch_funds C bank (l ++ txs) _ a st' d HC Hb Hw' Hc' Hm') as M2.
  rewrite L in M2. rewrite dispatch_funds_seen in M1, M2.
  unfold calls_seen in M2. rewrite flat_map_app, total_app in M2. fold (calls_seen (w_log w)) (calls_seen new) in M2.
  unfold inflow in M1, M2 |- *. rewrite total_app in M2. rewrite <- S2 in M2. lia.
Qed.

Lemma only_paying A st st' r d :
  (forall Q e i m, c_execute A Q e i m st = Ok (st', r) -> paying st m = false ->
     total (msg_out d) (map sm_msg (r_msgs r)) = 0) /\
  (forall id rr, c_reply A id rr st = Ok (st', r) -> total (msg_out d) (map sm_msg (r_msgs r)) = 0) /\
  (forall q e i m, c_instantiate A q e i m = Ok (st', r) -> total (msg_out d) (map sm_msg (r_msgs r)) = 0).
Proof.
  split; [| split].
  - intros Q e i m H P. exact (quiet_exec A Q e i m st st' r d H P).
  - intros id rr H. exact (apply_quiet A (EvReply id rr) st st' r d H I).
  - intros q e i m H. exact (born_quiet A q e i m st' r d H).
Qed.
