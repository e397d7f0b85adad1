(** * Collected fees (C100). *)
From Coq Require Import List NArith Bool Lia Permutation.
From Verif Require Import Base BaseFacts OMap Hex Coins CoinsFacts Crypto Message Bech32 Metadata Chain Ownable Router Contracts
  Mailbox Va Isms Hooks Igp Warp Cw20 Spec SpecModules StepFacts HookFacts IgpFacts World SpecWorld WorldFacts WorldRoute WorldLive WorldSend
  SpecStray StrayFacts SpecFees.
Import ListNotations.

Lemma answers_app a l1 l2 : answers_at a (l1 ++ l2) = answers_at a l1 ++ answers_at a l2.
Proof. apply flat_map_app. Qed.
Lemma births_app a l1 l2 : births_at a (l1 ++ l2) = births_at a l1 ++ births_at a l2.
Proof. apply flat_map_app. Qed.

(** ** What leaves a contract leaves in its answers *)
Lemma outs_answers d h : total (msg_out d) (flat_map (fun p : event * response => map sm_msg (r_msgs (snd p))) h) = total (fun p => outs d (snd p)) h.
Proof.
  induction h as [| p h IH]; [reflexivity |]. cbn [flat_map]. rewrite total_app, IH. reflexivity.
Qed.

Lemma lives_split A st0 h1 h2 st : lives A st0 (h1 ++ h2) st -> exists st1, lives A st0 h1 st1 /\ lives A st1 h2 st.
Proof.
  revert st. induction h2 as [| [ev r] h2 IH] using rev_ind; intros st H.
  - rewrite app_nil_r in H. exists st. split; [exact H | constructor].
  - rewrite app_assoc in H. inversion H as [E | h st1 ev' st2 r' L1 L2 E].
    + symmetry in E. apply app_eq_nil in E as [_ E]. discriminate E.
    + apply app_inj_tail in E as [-> E]. apply pair_equal_spec in E as [-> ->]. subst.
      destruct (IH _ L1) as (s1 & A1 & A2). exists s1. split; [exact A1 |]. econstructor; eassumption.
Qed.

Lemma lives_kind A st0 h st : lives A st0 h st -> kind st = kind st0.
Proof. intros L. rewrite <- (lives_run _ _ _ _ L). apply run_kind. Qed.

Lemma money_between C w txs a st d :
  chain_ok C -> reachable C w -> contract_at w a st ->
  exists new st', w_log (chain_run C w txs) = w_log w ++ new /\
    contract_at (chain_run C w txs) a st' /\ lives (ch_api C) st (answers_at a new) st' /\
    balance (chain_run C w txs) a d + total (fun p => outs d (snd p)) (answers_at a new) = balance w a d + inflow a d new.
Proof.
  intros HC R Hc. pose proof R as (bank & l & Hb & Hw). destruct (kept_kind C w txs a st Hc) as (st' & Hc' & K).
  destruct (asteps_extends C _ _ (chain_run_steps C txs w)) as [new L].
  assert (Hw' : chain_run C w txs = chain_run C (genesis bank) (l ++ txs)).
  { rewrite Hw. unfold chain_run. now rewrite fold_left_app. }
  assert (R' : reachable C (chain_run C w txs)) by (exists bank, (l ++ txs); auto).
  destruct (chain_history C w a st R Hc) as (e & i & q & m & r & st0 & B & _ & Hi & L1 & _).
  destruct (chain_history C _ a st' R' Hc') as (e' & i' & q' & m' & r' & st0' & B' & _ & Hi' & L2 & _).
  rewrite L, births_app, B in B'. cbn [app] in B'. injection B' as E1 E2 E3 E4 E5 B'.
  rewrite <- E1, <- E2, <- E3, <- E4, Hi in Hi'. apply Ok_inj, pair_equal_spec in Hi' as [E0 _].
  exists new, st'. split; [exact L |]. split; [exact Hc' |]. split.
  { rewrite L, answers_app, <- E0 in L2. apply lives_split in L2 as (st1 & V1 & V2).
    rewrite <- (lives_run _ _ _ _ V1), (lives_run _ _ _ _ L1) in V2. exact V2. }
  pose proof (contract_money C bank l _ a st d HC Hb Hw Hc) as M1.
  pose proof (contract_money C bank (l ++ txs) _ a st' d HC Hb Hw' Hc') as M2.
  rewrite (summ_perm _ _ _ (asked_split a (w_log w))), total_app in M1.
  rewrite (summ_perm _ _ _ (asked_split a (w_log (chain_run C w txs)))), total_app in M2.
  rewrite L, births_app, answers_app, B', app_nil_r, flat_map_app, total_app in M2.
  rewrite outs_answers in M1. rewrite (outs_answers d (answers_at a (w_log w))), (outs_answers d (answers_at a new)) in M2.
  unfold inflow in M1, M2 |- *. rewrite total_app in M2. lia.
Qed.

(** every answer in a life, with the state it was given in *)
Lemma lives_each A st0 h st (P : cstate -> event * response -> Prop) :
  (forall st1 ev st2 r, kind st1 = kind st0 -> c_apply A ev st1 = Ok (st2, r) -> P st1 (ev, r)) ->
  lives A st0 h st -> Forall (fun p => exists st1, kind st1 = kind st0 /\ P st1 p) h.
Proof.
  intros HP L. induction L as [| h st1 ev st2 r L IH H]; [constructor |].
  apply Forall_app. split; [exact IH |]. constructor; [| constructor].
  exists st1. pose proof (lives_kind _ _ _ _ L) as K. split; [exact K | exact (HP st1 ev st2 r K H)].
Qed.
Lemma total_ext {X} (f g : X -> N) l : Forall (fun x => f x = g x) l -> total f l = total g l.
Proof. unfold total. induction 1 as [| x l H _ IH]; cbn [fold_right]; [reflexivity |]. rewrite H, IH. reflexivity. Qed.
Lemma total_zero {X} (l : list X) : total (fun _ => 0) l = 0.
Proof. unfold total. induction l as [| x l IH]; [reflexivity | exact IH]. Qed.
Lemma total_sum {X} (f g : X -> N) l : total (fun x => f x + g x) l = total f l + total g l.
Proof. unfold total. induction l as [| x l IH]; cbn [fold_right]; [reflexivity |]. rewrite IH. lia. Qed.
Lemma total_le {X} (f g : X -> N) l : Forall (fun x => f x <= g x) l -> total f l <= total g l.
Proof. unfold total. induction 1 as [| x l H _ IH]; cbn [fold_right]; lia. Qed.

(** ** The fee hook *)
Lemma fee_money C w txs a st d :
  chain_ok C -> reachable C w -> contract_at w a st -> is_fee_hook st ->
  exists new, w_log (chain_run C w txs) = w_log w ++ new /\
    balance (chain_run C w txs) a d + claimed a d new = balance w a d + inflow a d new.
Proof.
  intros HC R Hc Hf. destruct (money_between C w txs a st d HC R Hc) as (new & st' & L & _ & V2 & M).
  exists new. split; [exact L |]. rewrite <- M. f_equal. unfold claimed, sent_in.
  apply total_ext.
  refine (Forall_impl _ _ (lives_each _ _ _ _ (fun _ p => outs d (snd p) = (if is_claim (fst p) then outs d (snd p) else 0)) _ V2)).
  - intros p (s1 & _ & E). symmetry; exact E.
  - intros s1 ev s2 r K H. cbn [fst snd]. destruct (is_claim ev) eqn:E; [reflexivity |].
    apply (apply_quiet _ _ _ _ _ d H). destruct ev as [e i m Q | id rr]; [| exact I].
    destruct st; try contradiction Hf. destruct s1; try discriminate K. cbn [paying].
    destruct m; try reflexivity. discriminate E.
Qed.

(** ** The gas paymaster *)
Lemma gas_call_refunds A Q e i m st st' r d : is_igp st -> is_gas_call m = true ->
  c_execute A Q e i m st = Ok (st', r) -> outs d r <= amount_of d (i_funds i) /\ (d <> gas_token st -> outs d r = 0).
Proof.
  intros Hg Hm H.
  assert (G : exists dom gas refund, gas_paid (Q st) st i dom gas refund r).
  { destruct m; try discriminate Hm.
    - apply (gas_dispatch A Q e i _ _ st st' r Hg) in H as (m & gas & refund & _ & _ & _ & _ & H). eauto.
    - apply (gas_payment A Q e i _ _ _ _ st st' r Hg) in H as (_ & _ & _ & H). eauto. }
  destruct G as (dom & gas & refund & price & rate & paid & _ & _ & Hf & _ & Hle & _ & ->). rewrite Hf.
  unfold outs. cbn [r_msgs]. destruct (paid =? _); cbn [map total fold_right sm_msg msg_out amount_of].
  - split; [lia | reflexivity].
  - cbn [c_denom c_amount]. destruct (bytes_eqb d (gas_token st)) eqn:E; [| split; [lia | intros _; lia]].
    apply bytes_eqb_eq in E. split; [lia | contradiction].
Qed.

Lemma claim_foreign A Q e i st st' r d : is_igp st -> c_execute A Q e i MClaim st = Ok (st', r) -> d <> gas_token st -> outs d r = 0.
Proof.
  intros Hg H Hd. apply (claim_iff A Q e i st st' r Hg) in H as (_ & _ & ->).
  unfold outs. cbn [r_msgs map total fold_right sm_msg msg_out amount_of c_denom c_amount].
  destruct (bytes_eqb d (gas_token st)) eqn:E; [apply bytes_eqb_eq in E; contradiction | reflexivity].
Qed.

Lemma calls_new C w txs new : reachable C w -> w_log (chain_run C w txs) = w_log w ++ new -> calls_sent new = calls_seen new.
Proof.
  intros R L. assert (R' : reachable C (chain_run C w txs)) by (apply reachable_later; exact R).
  pose proof (calls_reachable C w R) as S1. pose proof (calls_reachable C _ R') as S2. rewrite L in S2.
  unfold calls_sent, calls_seen in S1, S2 |- *. rewrite !flat_map_app, S1 in S2. exact (app_inv_head _ _ _ S2).
Qed.

Lemma gas_funds_in a d l : gas_funds a d l <= inflow a d l.
Proof.
  unfold gas_funds, calls_sent, inflow. induction l as [| x l IH]; [reflexivity |].
  cbn [flat_map]. rewrite total_app. change (x :: l) with ([x] ++ l). rewrite total_app.
  apply N.add_le_mono; [| exact IH]. unfold total.
  destruct x as [c m | | | ]; cbn [fold_right]; try lia.
  destruct m as [b m f | | | | | |]; cbn [fold_right entry_in msg_in]; try lia.
  rewrite norm_amount. destruct (bytes_eqb a b), (is_gas_call m); cbn [andb]; lia.
Qed.

Definition gas_fund (d : str) (p : event * response) : N :=
  match fst p with EvExec _ i m _ => if is_gas_call m then amount_of d (i_funds i) else 0 | _ => 0 end.
Lemma gas_funds_seen a d l : calls_sent l = calls_seen l -> gas_funds a d l = total (gas_fund d) (answers_at a l).
Proof.
  intros E. unfold gas_funds. rewrite E. clear E. unfold answers_at, calls_seen. induction l as [| x l IH]; [reflexivity |].
  cbn [flat_map]. rewrite !total_app, IH. f_equal.
  destruct x as [c m | | | b [e i m Q | id rr] r]; try reflexivity; unfold total; destruct (bytes_eqb a b) eqn:E; cbn [fold_right];
    rewrite ?E; cbn [andb]; try reflexivity.
Qed.

Lemma gas_money C w txs a st d :
  chain_ok C -> reachable C w -> contract_at w a st -> is_igp st ->
  exists new, w_log (chain_run C w txs) = w_log w ++ new /\
    balance (chain_run C w txs) a d + claimed a d new + refunded a d new = balance w a d + inflow a d new /\
    refunded a d new <= gas_funds a d new /\ gas_funds a d new <= inflow a d new.
Proof.
  intros HC R Hc Hf. destruct (money_between C w txs a st d HC R Hc) as (new & st' & L & _ & V2 & M).
  exists new. split; [exact L |].
  assert (G : forall s, kind s = kind st -> is_igp s).
  { intros s K. destruct st; try contradiction Hf. destruct s; try discriminate K. exact I. }
  split; [| split; [| apply gas_funds_in]].
  - rewrite <- M, <- N.add_assoc. f_equal. unfold claimed, refunded, sent_in. rewrite <- total_sum. apply total_ext.
    refine (Forall_impl _ _ (lives_each _ _ _ _ (fun _ p => outs d (snd p) = (if is_claim (fst p) then outs d (snd p) else 0) +
      (if match ev_msg (fst p) with Some m => is_gas_call m | None => false end then outs d (snd p) else 0)) _ V2)).
    + intros p (s1 & _ & E). symmetry. exact E.
    + intros s1 ev s2 r K H. cbn [fst snd]. specialize (G s1 K). destruct s1; try contradiction G.
      destruct ev as [e i m Q | id rr].
      * destruct (paying (SIgp x) m) eqn:P; [destruct m; try discriminate P; cbn [is_claim ev_msg is_gas_call]; lia |].
        rewrite (apply_quiet _ _ _ _ _ d H P). now repeat match goal with |- context [if ?b then _ else _] => destruct b end.
      * rewrite (apply_quiet _ _ _ _ _ d H I). reflexivity.
  - rewrite (gas_funds_seen a d new (calls_new C w txs new R L)). unfold refunded, sent_in. apply total_le.
    refine (Forall_impl _ _ (lives_each _ _ _ _ (fun _ p => (if match ev_msg (fst p) with Some m => is_gas_call m | None => false end
      then outs d (snd p) else 0) <= gas_fund d p) _ V2)).
    + intros p (s1 & _ & E). exact E.
    + intros s1 ev s2 r K H. cbn [fst snd]. specialize (G s1 K). unfold gas_fund. cbn [fst].
      destruct ev as [e i m Q | id rr]; cbn [ev_msg]; [| lia]. destruct (is_gas_call m) eqn:E; [| lia].
      cbn [c_apply] in H. exact (proj1 (gas_call_refunds _ _ _ _ _ _ _ _ d G E H)).
Qed.

Lemma gas_token_step A ev st st' r : c_apply A ev st = Ok (st', r) -> is_igp st -> gas_token st' = gas_token st.
Proof.
  intros H Hg. destruct st; try contradiction Hg. destruct ev as [e i m Q | id rr]; cbn [c_apply] in H; [| discriminate H].
  unfold c_execute, lift in H. apply bind_Ok_inv in H as (u & _ & H). apply bind_Ok_inv in H as ([x' r'] & H & E).
  apply Ok_inj, pair_equal_spec in E as [<- <-]. cbn [gas_token]. destruct m; cbn [gp_execute] in H; try discriminate H.
  all: unfold gp_claim, gp_pay_for_gas, gp_post_dispatch, gp_pay_for_gas in H; inv_all; split_matches; reflexivity.
Qed.

Lemma gas_foreign C w txs a st d :
  chain_ok C -> reachable C w -> contract_at w a st -> is_igp st -> d <> gas_token st ->
  exists new, w_log (chain_run C w txs) = w_log w ++ new /\
    balance (chain_run C w txs) a d = balance w a d + inflow a d new.
Proof.
  intros HC R Hc Hf Hd. destruct (money_between C w txs a st d HC R Hc) as (new & st' & L & _ & V2 & M).
  exists new. split; [exact L |].
  rewrite <- M, <- (N.add_0_r (balance _ a d)) at 1. f_equal.
  assert (T : Forall (fun p => outs d (snd p) = 0) (answers_at a new)); [| now rewrite (total_ext _ (fun _ => 0) _ T), total_zero].
  clear M L. revert Hd. induction V2 as [| h s1 ev s2 r V IH H]; intros Hd; [constructor |].
  apply Forall_app. split; [exact (IH Hd) |]. constructor; [| constructor]. cbn [snd].
  assert (G : is_igp s1 /\ gas_token s1 = gas_token st).
  { clear -V Hf. induction V as [| h s1 ev s2 r V IH H]; [split; [exact Hf | reflexivity] |]. destruct IH as [G1 T1].
    pose proof (gas_token_step _ _ _ _ _ H G1) as T2. split; [| congruence].
    pose proof (lives_kind _ _ _ _ (lives_next _ _ _ _ _ _ _ V H)) as K. destruct st; try contradiction Hf. destruct s2; try discriminate K. exact I. }
  destruct G as [G T]. rewrite <- T in Hd.
  destruct (match ev with EvExec _ _ m _ => paying s1 m | _ => false end) eqn:P.
  - destruct ev as [e i m Q | id rr]; [| discriminate P]. cbn [c_apply] in H.
    destruct (is_gas_call m) eqn:Gm; [exact (proj2 (gas_call_refunds _ _ _ _ _ _ _ _ d G Gm H) Hd) |].
    destruct s1; try contradiction G. destruct m; try discriminate P; try discriminate Gm.
    exact (claim_foreign _ _ _ _ _ _ _ d G H Hd).
  - apply (apply_quiet _ _ _ _ _ d H). destruct ev as [e i m Q | id rr]; [exact P | exact I].
Qed.

(** ** Who claims *)
Lemma claims_entitled C w txs a st :
  chain_ok C -> reachable C w -> contract_at w a st -> is_fee_hook st \/ is_igp st ->
  exists new, w_log (chain_run C w txs) = w_log w ++ new /\
    forall h1 ev r h2, answers_at a new = h1 ++ (ev, r) :: h2 -> is_claim ev = true ->
      ev_sender ev = collector (c_run (ch_api C) st (map fst h1)).
Proof.
  intros HC R Hc Hk. destruct (money_between C w txs a st [] HC R Hc) as (new & st' & L & _ & V2 & _).
  exists new. split; [exact L |]. intros h1 ev r h2 E Hev. rewrite E in V2.
  apply lives_split in V2 as (s1 & V1 & V2). rewrite (lives_run _ _ _ _ V1).
  change ((ev, r) :: h2) with ([(ev, r)] ++ h2) in V2. apply lives_split in V2 as (s2 & V2 & _).
  pose proof (lives_kind _ _ _ _ V1) as K.
  assert (H : c_apply (ch_api C) ev s1 = Ok (s2, r)).
  { inversion V2 as [E1 | h st1 ev' st2 r' L1 L2 E1]. destruct h as [| y h]; [| now destruct h]. cbn [app] in E1.
    injection E1 as -> ->. inversion L1 as [| h ? ? ? ? ? ? E2]; [subst; assumption | now destruct h]. }
  destruct ev as [e i m Q | id rr]; [| discriminate Hev]. cbn [c_apply ev_sender] in *.
  assert (G : is_fee_hook s1 \/ is_igp s1).
  { destruct Hk as [Hk | Hk]; [left | right]; destruct st; try contradiction Hk; destruct s1; try discriminate K; exact I. }
  destruct G as [G | G].
  - destruct s1; try contradiction G. destruct m; try discriminate Hev; cbn [collector].
    + destruct (fee_claim (ch_api C) Q e i recipient (SFeeHook x) (fe_fee x) s2 r eq_refl) as [F _]. exact (proj1 (F H)).
    + discriminate H.
  - destruct s1; try contradiction G. destruct m; try discriminate Hev; cbn [collector].
    + discriminate H.
    + exact (proj1 (proj1 (claim_iff (ch_api C) Q e i (SIgp x) s2 r I) H)).
Qed.

(** ** Collecting *)
Definition held_in (a : addr) (b : omap (addr * str) N) : list coin :=
  flat_map (fun p => if (bytes_eqb a (fst (fst p)) && negb (snd p =? 0))%bool then [mkCoin (snd (fst p)) (snd p)] else []) b.
Lemma held_none a d b : ~ In (a, d) (map fst b) -> amount_of d (held_in a b) = 0.
Proof.
  induction b as [| [[a1 d1] n] b IH]; intros H; [reflexivity |]. unfold held_in. cbn [flat_map fst snd]. rewrite amount_of_app.
  fold (held_in a b). rewrite IH; [| intros X; apply H; right; exact X]. rewrite N.add_0_r.
  destruct (bytes_eqb a a1 && negb (n =? 0))%bool eqn:E; [| reflexivity]. apply andb_true_iff in E as [E _]. apply bytes_eqb_eq in E. subst a1.
  rewrite amount_of_cons. cbn [c_denom c_amount]. destruct (bytes_eqb d d1) eqn:E; [| reflexivity].
  apply bytes_eqb_eq in E. subst d1. exfalso. apply H. left. reflexivity.
Qed.
Lemma held_all a d b : om_sorted b -> amount_of d (held_in a b) = bal b a d.
Proof.
  induction b as [| [[a1 d1] n] b IH]; intros S; [reflexivity |].
  pose proof (om_sorted_NoDup _ S) as ND. inversion ND as [| k l NI ND']. subst.
  unfold held_in. cbn [flat_map fst snd]. rewrite amount_of_app. fold (held_in a b).
  unfold bal. cbn [om_get]. destruct (keqb (a, d) (a1, d1)) eqn:E.
  - apply keqb_eq in E. injection E as <- <-. rewrite held_none by exact NI. rewrite bytes_eqb_refl. cbn [andb].
    destruct (n =? 0) eqn:Z; cbn [negb]; [apply N.eqb_eq in Z; now subst |]. rewrite amount_of_cons. cbn [c_denom c_amount]. rewrite bytes_eqb_refl.
    cbn [amount_of fold_right]. lia.
  - apply keqb_neq in E. destruct S as [_ S]. fold (bal b a d). rewrite (IH S).
    destruct (bytes_eqb a a1 && negb (n =? 0))%bool eqn:E1; [| reflexivity]. apply andb_true_iff in E1 as [E1 _]. apply bytes_eqb_eq in E1. subst a1.
    rewrite amount_of_cons. cbn [c_denom c_amount]. destruct (bytes_eqb d d1) eqn:E2; [| reflexivity].
    apply bytes_eqb_eq in E2. subst d1. contradiction.
Qed.
Lemma all_balances_amount C w a d : reachable C w -> amount_of d (all_balances w a) = balance w a d.
Proof.
  intros R. pose proof R as (bank & l & Hb & Hw). apply held_all.
  apply (money_reachable C bank w Hb). rewrite Hw. apply chain_run_steps.
Qed.

(** a contract that answers a call with one transfer of its own coins *)
Lemma pays_out C k w a st st' m who to coins r :
  contract_at w a st -> ch_account C who = true -> api_valid (ch_api C) to = true ->
  c_execute (ch_api C) (fun s => wq C (S (S k)) (set_inst a (IC s) (add_log (LDo who (CExec a m [])) w))) (mkEnv a (w_height w)) (mkInfo who []) m st = Ok (st', r) ->
  st' = st -> r_msgs r = [mkSub (CBankSend to coins) RpNever] ->
  (forall d, amount_of d coins <= balance w a d) -> (forall d, amount_of d coins < 2 ^ 128) -> (exists d, amount_of d coins <> 0) ->
  exists w', tx_run C (S (S k)) (TExec who a m []) w = Ok w' /\ (forall c : addr, om_get c (w_inst w') = om_get c (w_inst w)) /\
    forall y d, balance w' y d + (if bytes_eqb y a then amount_of d coins else 0) = balance w y d + (if bytes_eqb y to then amount_of d coins else 0).
Proof.
  intros Hc Hw Hv He -> Hr H1 H2 [d0 H3].
  set (w1 := add_log (LDo who (CExec a m [])) w).
  set (w2 := add_log (LCall a (EvExec (mkEnv a (w_height w)) (mkInfo who []) m (fun s => wq C (S (S k)) (set_inst a (IC s) w1))) r) (set_inst a (IC st) w1)).
  set (w3 := add_log (LDo a (CBankSend to coins)) w2).
  destruct (move_ok a to coins w3) as (b & Hm & B); [apply coins_bounded; exact H2 | exact H1 |].
  exists (set_bank b w3). split; [| split].
  - unfold tx_run. rewrite Hw. cbn [ensure bind]. unfold perform at 1. fold w1. rewrite move_none. cbn [bind].
    change (norm_coins []) with (@nil coin).
    rewrite (invoke_ok C (S (S k)) (exec C (S (S k))) who a m [] w1 st st r (set_bank b w3) Hc He); [reflexivity |].
    rewrite Hr. fold w2. change (w_height w1) with (w_height w). fold w2.
    rewrite (exec_never C (S k) a (CBankSend to coins) w2 (set_bank b w3) RrNone []); [reflexivity |].
    unfold perform. rewrite Hv. cbn [ensure bind].
    destruct (norm_coins coins) as [| c l] eqn:E.
    + exfalso. apply H3. rewrite <- norm_amount, E. reflexivity.
    + cbn [negb ensure bind]. fold w3. rewrite Hm. reflexivity.
  - intros c. cbn [w_inst set_bank]. unfold w3, w2, w1. cbn [w_inst add_log]. apply (same_at w a st Hc).
  - intros y d. exact (B y d).
Qed.

Lemma fee_collected C k w a st who to :
  reachable C w -> contract_at w a st -> is_fee_hook st -> collector st = Some who -> ch_account C who = true ->
  api_valid (ch_api C) to = true -> to <> a -> (forall d, balance w a d < 2 ^ 128) -> (exists d, balance w a d <> 0) -> (2 <= k)%nat ->
  exists w', tx_run C k (TExec who a (MFeeClaim (Some to)) []) w = Ok w' /\ emptied w w' a to (fun _ => true).
Proof.
  intros R Hc Hf Ho Hw Hv Ht Hb Hn Hk. destruct k as [| [| k]]; [lia | lia |].
  destruct st; try contradiction Hf. cbn [collector] in Ho.
  set (Q := fun s => wq C (S (S k)) (set_inst a (IC s) (add_log (LDo who (CExec a (MFeeClaim (Some to)) [])) w))).
  destruct (fee_claim (ch_api C) Q (mkEnv a (w_height w)) (mkInfo who []) (Some to) (SFeeHook x) (fe_fee x) (SFeeHook x)
    (mkResp [mkSub (CBankSend to (all_balances w a)) RpNever] None) eq_refl) as [_ F].
  destruct (pays_out C k w a (SFeeHook x) (SFeeHook x) (MFeeClaim (Some to)) who to (all_balances w a) _ Hc Hw Hv (F (conj (eq_sym Ho) (conj eq_refl eq_refl))) eq_refl eq_refl)
    as (w' & T & I' & B).
  { intros d. rewrite (all_balances_amount C w a d R). lia. }
  { intros d. rewrite (all_balances_amount C w a d R). apply Hb. }
  { destruct Hn as [d Hd]. exists d. rewrite (all_balances_amount C w a d R). exact Hd. }
  exists w'. split; [exact T |]. split; [| split; [| exact I']].
  - intros d _. pose proof (B a d) as B1. pose proof (B to d) as B2. rewrite (all_balances_amount C w a d R) in B1, B2.
    rewrite bytes_eqb_refl in B1, B2. rewrite (proj2 (bytes_eqb_neq _ _) Ht) in B2.
    rewrite (proj2 (bytes_eqb_neq _ _) (not_eq_sym Ht)) in B1. lia.
  - intros c d [[H1 H2] | H]; [| discriminate H]. specialize (B c d).
    rewrite (proj2 (bytes_eqb_neq _ _) H1), (proj2 (bytes_eqb_neq _ _) H2) in B. lia.
Qed.

Lemma gas_collected C k w a st who :
  chain_ok C -> reachable C w -> contract_at w a st -> is_igp st -> collector st = Some who -> ch_account C who = true ->
  api_valid (ch_api C) who = true -> balance w a (gas_token st) < 2 ^ 128 -> balance w a (gas_token st) <> 0 -> (2 <= k)%nat ->
  exists w', tx_run C k (TExec who a MClaim []) w = Ok w' /\ emptied w w' a who (fun d => bytes_eqb d (gas_token st)).
Proof.
  intros HC R Hc Hf Ho Hw Hv Hb Hn Hk. destruct k as [| [| k]]; [lia | lia |].
  assert (Ht : who <> a). { intros ->. rewrite (contract_account C w a st HC R Hc) in Hw. discriminate Hw. }
  destruct st; try contradiction Hf. cbn [collector] in Ho. set (tk := gas_token (SIgp x)) in *.
  set (Q := fun s => wq C (S (S k)) (set_inst a (IC s) (add_log (LDo who (CExec a MClaim [])) w))).
  set (coins := [mkCoin tk (balance w a tk)]).
  assert (AM : forall d, amount_of d coins = if bytes_eqb d tk then balance w a tk else 0).
  { intros d. unfold coins. rewrite amount_of_cons. cbn [c_denom c_amount amount_of fold_right]. destruct (bytes_eqb d tk); lia. }
  destruct (claim_iff (ch_api C) Q (mkEnv a (w_height w)) (mkInfo who []) (SIgp x) (SIgp x)
    (mkResp [mkSub (CBankSend who coins) RpNever] None) I) as [_ F].
  destruct (pays_out C k w a (SIgp x) (SIgp x) MClaim who who coins _ Hc Hw Hv (F (conj (eq_sym Ho) (conj eq_refl eq_refl))) eq_refl eq_refl)
    as (w' & T & I' & B).
  { intros d. rewrite AM. destruct (bytes_eqb d tk) eqn:E; [apply bytes_eqb_eq in E; subst d; lia | lia]. }
  { intros d. rewrite AM. destruct (bytes_eqb d tk); [exact Hb | reflexivity]. }
  { exists tk. rewrite AM, bytes_eqb_refl. exact Hn. }
  exists w'. split; [exact T |]. split; [| split; [| exact I']].
  - intros d E. pose proof (B a d) as B1. pose proof (B who d) as B2. rewrite AM, E in B1, B2. apply bytes_eqb_eq in E. subst d.
    rewrite bytes_eqb_refl in B1, B2. rewrite (proj2 (bytes_eqb_neq _ _) Ht) in B2.
    rewrite (proj2 (bytes_eqb_neq _ _) (not_eq_sym Ht)) in B1. lia.
  - intros c d H. specialize (B c d). rewrite AM in B. destruct H as [[H1 H2] | H].
    + rewrite (proj2 (bytes_eqb_neq _ _) H1), (proj2 (bytes_eqb_neq _ _) H2) in B. lia.
    + rewrite H in B. destruct (bytes_eqb c a), (bytes_eqb c who); lia.
Qed.

(** ** The aggregate hook *)
Lemma aggregate_blind A Q e sender f sender' f' md raw st : is_aggregate_hook st ->
  c_execute A Q e (mkInfo sender f) (MPostDispatch md raw) st = c_execute A Q e (mkInfo sender' f') (MPostDispatch md raw) st.
Proof. intros H. destruct st; try contradiction H. reflexivity. Qed.
