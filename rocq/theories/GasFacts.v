(** * Limits on nested calls and queries: proofs. *)
From Coq Require Import List NArith Bool Lia Arith.
From Verif Require Import Base BaseFacts OMap Crypto Coins Hex Merkle Json Message Chain Ownable Router Utils Mailbox Va
  Isms Hooks Igp Warp Cw20 Contracts StepFacts World WorldFacts Mocks MocksFacts
  Raw RawWorld SpecRawWorld RawWorldFacts TextWorld SpecTextWorld TextWorldFacts SpecGas.
Import ListNotations.

Lemma at_least_refl {X} (r : res X) : at_least r r.
Proof. intros v H. exact H. Qed.
Lemma at_least_Err {X} e (r : res X) : at_least (Err e) r.
Proof. intros v H. discriminate H. Qed.
Lemma at_least_Panic {X} (r : res X) : at_least Panic r.
Proof. intros v H. discriminate H. Qed.
Lemma bind_least {X Y} (r1 r2 : res X) (f g : X -> res Y) :
  at_least r1 r2 -> (forall x, r1 = Ok x -> at_least (f x) (g x)) -> at_least (bind r1 f) (bind r2 g).
Proof.
  intros H HF v E. apply bind_Ok_inv in E as (x & E1 & E). rewrite (H x E1). exact (HF x E1 v E).
Qed.
Lemma foldM_least {X Y} (f g : Y -> X -> res Y) l : (forall b a, at_least (f b a) (g b a)) -> forall b, at_least (foldM f l b) (foldM g l b).
Proof.
  intros H. induction l as [|a l IH]; intros b; [apply at_least_refl|]. cbn [foldM]. apply bind_least; [apply H|]. intros x _. apply IH.
Qed.
Lemma mapM_least {X Y} (f g : X -> res Y) l : (forall a, at_least (f a) (g a)) -> at_least (mapM f l) (mapM g l).
Proof.
  intros H. induction l as [|a l IH]; [apply at_least_refl|]. cbn [mapM]. apply bind_least; [apply H|]. intros x _.
  apply bind_least; [apply IH|]. intros y _. apply at_least_refl.
Qed.
Lemma lift_least {X} (c : X -> cstate) (r1 r2 : res (X * response)) : at_least r1 r2 -> at_least (lift c r1) (lift c r2).
Proof. intros H. unfold lift. apply bind_least; [exact H|]. intros x _. apply at_least_refl. Qed.

Ltac least_by tac :=
  repeat first
    [ tac | apply at_least_refl | apply at_least_Err | apply at_least_Panic
    | assumption
    | apply bind_least; [|intros]
    | match goal with |- at_least (match ?x with _ => _ end) (match ?x with _ => _ end) => destruct x end ].

Section Least.
  Variables q1 q2 : querier.
  Hypothesis AG : knows_more q1 q2.

  Lemma smart_least a m : at_least (smart q1 a m) (smart q2 a m).
  Proof.
    intros v H. unfold smart in *. pose proof (proj1 AG a m) as K. destruct (q_smart q1 a m) as [x|e|] eqn:E; try discriminate H.
    rewrite (K x eq_refl). exact H.
  Qed.
  Lemma quote_least h md msg : at_least (quote_dispatch q1 h md msg) (quote_dispatch q2 h md msg).
  Proof. unfold quote_dispatch. apply bind_least; [apply smart_least|]. intros x _. apply at_least_refl. Qed.
  Lemma recipient_least r : at_least (recipient_ism q1 r) (recipient_ism q2 r).
  Proof. unfold recipient_ism. apply bind_least; [apply smart_least|]. intros x _. apply at_least_refl. Qed.
  Lemma verify_least a md msg : at_least (ism_verify q1 a md msg) (ism_verify q2 a md msg).
  Proof. unfold ism_verify. apply bind_least; [apply smart_least|]. intros x _. apply at_least_refl. Qed.
  Lemma oracle_least a d : at_least (query_oracle q1 a d) (query_oracle q2 a d).
  Proof. unfold query_oracle. apply bind_least; [apply smart_least|]. intros x _. apply at_least_refl. Qed.
  Lemma igp_least x d g : at_least (gp_quote q1 x d g) (gp_quote q2 x d g).
  Proof.
    unfold gp_quote. apply bind_least; [apply at_least_refl|]. intros a _. apply bind_least; [apply oracle_least|]. intros; apply at_least_refl.
  Qed.
  Lemma pay_least i x d g r : at_least (gp_pay_for_gas q1 i d g r x) (gp_pay_for_gas q2 i d g r x).
  Proof. unfold gp_pay_for_gas. least_by ltac:(apply igp_least). Qed.
  Lemma ag_loop_least msg l : forall t, at_least (ag_loop q1 msg l t) (ag_loop q2 msg l t).
  Proof.
    induction l as [|[a md] l IH]; intros t; [apply at_least_refl|]. cbn [ag_loop]. apply bind_least; [apply verify_least|].
    intros v _. apply bind_least; [apply at_least_refl|]. intros t' _. least_by ltac:(apply IH).
  Qed.

  Lemma instantiate_least A e i m : at_least (c_instantiate A q1 e i m) (c_instantiate A q2 e i m).
  Proof.
    unfold c_instantiate. apply bind_least; [apply at_least_refl|]. intros _ _. destruct m; try apply at_least_refl.
    apply lift_least. unfold va_instantiate. least_by ltac:(apply smart_least).
  Qed.

  Lemma query_least A m st : at_least (c_query A q1 m st) (c_query A q2 m st).
  Proof.
    unfold c_query. apply bind_least; [apply at_least_refl|]. intros _ _.
    destruct st; try apply at_least_refl; destruct m; try apply at_least_refl;
      cbn [mb_query va_query ms_query ag_query ri_query pi_query mk_query ah_query ph_query rh_query cu_query fb_query fe_query or_query
         gp_query].
    all: unfold mb_recipient_ism, mb_quote_dispatch, ag_verify, ah_quote, gp_quote_dispatch.
    all: least_by ltac:(first [apply recipient_least | apply quote_least | apply ag_loop_least | apply verify_least |
         apply smart_least | apply igp_least | apply oracle_least]).
    apply foldM_least. intros b a. least_by ltac:(apply quote_least).
  Qed.
End Least.

Lemma execute_least A Q1 Q2 e i m st : (forall x, knows_more (Q1 x) (Q2 x)) ->
  at_least (c_execute A Q1 e i m st) (c_execute A Q2 e i m st).
Proof.
  intros AG. unfold c_execute. apply bind_least; [apply at_least_refl|]. intros _ _. pose proof (AG st) as AS.
  destruct st; try apply at_least_refl; destruct m; try apply at_least_refl; apply lift_least;
    cbn [mb_execute mk_execute ah_execute fe_execute gp_execute].
  all: unfold mb_dispatch, mb_process, mk_post_dispatch, ah_post_dispatch, gp_post_dispatch, gp_claim.
  all: try rewrite (proj2 (proj2 AS)); try rewrite (proj1 (proj2 AS)).
  all: least_by ltac:(first [apply quote_least, AG | apply recipient_least, AG | apply verify_least, AG | apply smart_least, AG | apply pay_least, AG]).
  apply mapM_least. intros a. least_by ltac:(apply quote_least, AG).
Qed.

(** ** The chain *)
Lemma same_refl w : same_chain w w.
Proof. unfold same_chain. auto. Qed.
Lemma same_trans w1 w2 w3 : same_chain w1 w2 -> same_chain w2 w3 -> same_chain w1 w3.
Proof. intros (A1 & A2 & A3 & A4 & A5) (B1 & B2 & B3 & B4 & B5). unfold same_chain. repeat split; congruence. Qed.
Lemma same_inst w1 w2 a x : same_chain w1 w2 -> same_chain (set_inst a x w1) (set_inst a x w2).
Proof. intros (A1 & A2 & A3 & A4 & A5). unfold same_chain, set_inst; cbn. rewrite A1. repeat split; assumption. Qed.
Lemma same_log w1 w2 x y : same_chain w1 w2 -> same_chain (add_log x w1) (add_log y w2).
Proof. intros (A1 & A2 & A3 & A4 & A5). unfold same_chain, add_log; cbn. repeat split; assumption. Qed.
Lemma same_bank w1 w2 b : same_chain w1 w2 -> same_chain (set_bank b w1) (set_bank b w2).
Proof. intros (A1 & A2 & A3 & A4 & A5). unfold same_chain, set_bank; cbn. repeat split; assumption. Qed.
Lemma same_admin w1 w2 d a : same_chain w1 w2 -> same_chain (set_admin d a w1) (set_admin d a w2).
Proof. intros (A1 & A2 & A3 & A4 & A5). unfold same_chain, set_admin; cbn. rewrite A3. repeat split; assumption. Qed.
Lemma same_bump w1 w2 : same_chain w1 w2 -> same_chain (bump w1) (bump w2).
Proof. intros (A1 & A2 & A3 & A4 & A5). unfold same_chain, bump; cbn. rewrite A5. repeat split; assumption. Qed.
Lemma same_height w1 w2 h : same_chain w1 w2 -> same_chain (set_height h w1) (set_height h w2).
Proof. intros (A1 & A2 & A3 & A4 & A5). unfold same_chain, set_height; cbn. repeat split; assumption. Qed.
Lemma same_move f t l w1 w2 w1' : same_chain w1 w2 -> move_coins f t l w1 = Ok w1' ->
  exists w2', move_coins f t l w2 = Ok w2' /\ same_chain w1' w2'.
Proof.
  intros S H. unfold move_coins in *. apply bind_Ok_inv in H as (u & H1 & H). rewrite H1. cbn [bind].
  apply bind_Ok_inv in H as (b & H2 & H). apply Ok_inj in H as <-. rewrite <- (proj1 (proj2 S)), H2. cbn [bind].
  exists (set_bank b w2). split; [reflexivity | apply same_bank, S].
Qed.

Lemma wq_least C n : steady (ch_ext C) -> forall n' w1 w2, (n <= n')%nat -> same_chain w1 w2 -> knows_more (wq C n w1) (wq C n' w2).
Proof.
  intros HX. induction n as [|n IH]; intros n' w1 w2 L S; pose proof S as (S1 & S2 & _ & S4 & _);
  (split; [|split; [intros a d; destruct n'; cbn [wq q_balance]; unfold balance; rewrite S2; reflexivity
                   |intros a; destruct n'; cbn [wq q_all_balances]; unfold all_balances; rewrite S2; reflexivity]]).
  - intros a m v H. discriminate H.
  - intros a m. destruct n' as [|n']; [lia|]. cbn [wq q_smart]. rewrite <- S1, <- S4.
    assert (K : knows_more (wq C n w1) (wq C n' w2)) by (apply IH; [lia | exact S]).
    destruct (om_get a (w_inst w1)) as [[st|st]|]; [apply query_least, K | apply HX, K | apply at_least_refl].
Qed.

(** [r2] succeeds as [r1] does, up to the log *)
Definition follows (r1 r2 : res world) : Prop := forall w1, r1 = Ok w1 -> exists w2, r2 = Ok w2 /\ same_chain w1 w2.

Lemma not_caught_uncaught l : forallb uncaught l = forallb not_caught l.
Proof. reflexivity. Qed.

Section Follow.
  Variable C : chain.
  Hypothesis HX : steady (ch_ext C).
  Variables k1 k2 : nat.
  Hypothesis HK : (k1 <= k2)%nat.
  Variables rec1 rec2 : addr -> list submsg -> world -> res world.
  Hypothesis HR : forall a l w1 w2, forallb not_caught l = true -> same_chain w1 w2 -> follows (rec1 a l w1) (rec2 a l w2).

  Lemma invoke_follows s a m f w1 w2 : same_chain w1 w2 -> follows (invoke C k1 rec1 s a m f w1) (invoke C k2 rec2 s a m f w2).
  Proof.
    intros S v H. unfold invoke in *. cbv zeta in *. pose proof S as (S1 & _ & _ & S4 & _). rewrite <- S1, <- S4.
    destruct (om_get a (w_inst w1)) as [[st|st]|]; [| |discriminate H].
    - apply bind_Ok_inv in H as ([st' r] & E & H).
      assert (E2 := execute_least (ch_api C) (fun s => wq C k1 (set_inst a (IC s) w1)) (fun s => wq C k2 (set_inst a (IC s) w2))
                      (mkEnv a (w_height w1)) (mkInfo s f) m st
                      (fun x => wq_least C k1 HX k2 _ _ HK (same_inst w1 w2 a (IC x) S)) _ E).
      rewrite E2. cbn [bind].
      eapply HR; [|apply same_log, same_inst, S|exact H].
      exact (apply_uncaught (ch_api C) (EvExec (mkEnv a (w_height w1)) (mkInfo s f) m _) st st' r E).
    - apply bind_Ok_inv in H as ([st' r] & E & H).
      rewrite (proj1 HX _ _ _ _ _ _ (wq_least C k1 HX k2 _ _ HK S) _ E). cbn [bind].
      eapply HR; [|apply same_log, same_inst, S|exact H]. destruct HX as (_ & _ & _ & H4 & _). eapply H4, E.
  Qed.

  Lemma reply_follows a id rr w1 w2 : same_chain w1 w2 -> follows (give_reply C k1 rec1 a id rr w1) (give_reply C k2 rec2 a id rr w2).
  Proof.
    intros S v H. unfold give_reply in *. pose proof S as (S1 & _ & _ & S4 & _). rewrite <- S1, <- S4.
    destruct (om_get a (w_inst w1)) as [[st|st]|]; [| |discriminate H].
    - apply bind_Ok_inv in H as ([st' r] & E & H). rewrite E. cbn [bind].
      eapply HR; [|apply same_log, same_inst, S|exact H].
      exact (apply_uncaught (ch_api C) (EvReply id rr) st st' r E).
    - apply bind_Ok_inv in H as ([st' r] & E & H). destruct HX as (_ & _ & H3 & _ & H5).
      rewrite (H3 _ _ _ _ _ _ (wq_least C k1 HX k2 _ _ HK S) _ E). cbn [bind].
      eapply HR; [|apply same_log, same_inst, S|exact H]. eapply H5, E.
  Qed.

  Lemma deploy_follows s m f w1 w2 w1' a : same_chain w1 w2 -> deploy C k1 rec1 s m f w1 = Ok (w1', a) ->
    exists w2', deploy C k2 rec2 s m f w2 = Ok (w2', a) /\ same_chain w1' w2'.
  Proof.
    intros S H. unfold deploy in *. cbv zeta in *. pose proof S as (S1 & _ & _ & S4 & S5). rewrite <- S1, <- S4, <- S5.
    destruct (om_get _ (w_inst w1)); [discriminate H|].
    apply bind_Ok_inv in H as (w3 & M & H). destruct (same_move _ _ _ _ _ _ (same_bump _ _ S) M) as (w4 & M2 & S').
    rewrite M2. cbn [bind]. apply bind_Ok_inv in H as ([st r] & E & H).
    rewrite (instantiate_least _ _ (wq_least C k1 HX k2 _ _ HK S') _ _ _ _ _ E). cbn [bind].
    apply bind_Ok_inv in H as (w5 & R & H). apply Ok_inj in H as H. injection H as <- <-.
    edestruct HR as (w6 & R2 & S6); [|apply same_log, same_inst, S'|exact R|].
    - exact (instantiate_uncaught _ _ _ _ _ _ _ E).
    - rewrite R2. cbn [bind]. exists w6. split; [reflexivity | exact S6].
  Qed.

  Lemma perform_follows s m w1 w2 w1' rr : same_chain w1 w2 -> perform C k1 rec1 s m w1 = Ok (w1', rr) ->
    exists w2', perform C k2 rec2 s m w2 = Ok (w2', rr) /\ same_chain w1' w2'.
  Proof.
    intros S0 H. unfold perform in *. assert (S := same_log w1 w2 (LDo s m) (LDo s m) S0). cbv zeta in *.
    pose proof S as (S1 & S2 & S3 & S4 & S5).
    destruct m as [a em f|to am|sd sub|sd md|sd n d|sd n d|mi ini].
    - apply bind_Ok_inv in H as (w3 & M & H). destruct (same_move _ _ _ _ _ _ S M) as (w4 & M2 & S').
      rewrite M2. cbn [bind]. apply bind_Ok_inv in H as (w5 & I & H). apply Ok_inj in H. injection H as <- <-.
      destruct (invoke_follows s a em (norm_coins f) w3 w4 S' w5 I) as (w6 & I2 & S6). rewrite I2. cbn [bind]. eauto.
    - apply bind_Ok_inv in H as (u & E1 & H). rewrite E1. cbn [bind]. apply bind_Ok_inv in H as (u2 & E2 & H). rewrite E2. cbn [bind].
      apply bind_Ok_inv in H as (w3 & M & H). apply Ok_inj in H. injection H as <- <-.
      destruct (same_move _ _ _ _ _ _ S M) as (w4 & M2 & S'). rewrite M2. cbn [bind]. eauto.
    - apply bind_Ok_inv in H as (u & E1 & H). rewrite E1. cbn [bind]. rewrite <- S3.
      destruct (om_get _ (w_admin (add_log _ w1))); [discriminate H|]. apply Ok_inj in H. injection H as <- <-.
      eexists. split; [reflexivity|]. apply same_admin, S.
    - apply bind_Ok_inv in H as (u & E1 & H). rewrite E1. cbn [bind]. rewrite <- S3.
      destruct (om_get _ (w_admin (add_log _ w1))); [|discriminate H].
      apply bind_Ok_inv in H as (u2 & E2 & H). rewrite E2. cbn [bind]. apply Ok_inj in H. injection H as <- <-.
      eexists. split; [reflexivity | exact S].
    - apply bind_Ok_inv in H as (u & E1 & H). rewrite E1. cbn [bind]. apply bind_Ok_inv in H as (u2 & E2 & H). rewrite E2. cbn [bind].
      rewrite <- S3. destruct (om_get _ (w_admin (add_log _ w1))); [|discriminate H].
      apply bind_Ok_inv in H as (u3 & E3 & H). rewrite E3. cbn [bind]. apply Ok_inj in H. injection H as <- <-.
      eexists. split; [reflexivity|]. rewrite <- S2. apply same_bank, S.
    - apply bind_Ok_inv in H as (u & E1 & H). rewrite E1. cbn [bind]. apply bind_Ok_inv in H as (u2 & E2 & H). rewrite E2. cbn [bind].
      rewrite <- S3. destruct (om_get _ (w_admin (add_log _ w1))); [|discriminate H].
      apply bind_Ok_inv in H as (u3 & E3 & H). rewrite E3. cbn [bind]. apply bind_Ok_inv in H as (b & E4 & H).
      rewrite <- S2, E4. cbn [bind]. apply Ok_inj in H. injection H as <- <-. eexists. split; [reflexivity|]. apply same_bank, S.
    - apply bind_Ok_inv in H as ([w3 a] & D & H). apply Ok_inj in H. injection H as <- <-.
      destruct (deploy_follows _ _ _ _ _ _ _ S D) as (w4 & D2 & S'). rewrite D2. cbn [bind]. eauto.
  Qed.

  Lemma run_sub_follows s x w1 w2 : not_caught x = true -> same_chain w1 w2 ->
    follows (run_sub C k1 rec1 s x w1) (run_sub C k2 rec2 s x w2).
  Proof.
    intros N S v H. unfold run_sub in *. unfold not_caught in N.
    destruct (perform C k1 rec1 s (sm_msg x) w1) as [[w3 rr]|e|] eqn:E.
    - destruct (perform_follows _ _ _ _ _ _ S E) as (w4 & E2 & S'). rewrite E2.
      destruct (sm_reply x); try discriminate N.
      + apply Ok_inj in H as <-. eauto.
      + eapply reply_follows; eassumption.
    - destruct (sm_reply x); discriminate.
    - destruct (sm_reply x); discriminate.
  Qed.
End Follow.

Lemma exec_follows C : steady (ch_ext C) -> forall k1 k2, (k1 <= k2)%nat -> forall a l w1 w2,
  forallb not_caught l = true -> same_chain w1 w2 -> follows (exec C k1 a l w1) (exec C k2 a l w2).
Proof.
  intros HX. induction k1 as [|k1 IH]; intros k2 L a l w1 w2 N S v H; [discriminate H|].
  destruct k2 as [|k2]; [lia|]. cbn [exec] in *. assert (L' : (k1 <= k2)%nat) by lia.
  destruct l as [|x l]; [apply Ok_inj in H as <-; eauto|].
  cbn [forallb] in N. apply andb_true_iff in N as [N1 N2].
  apply bind_Ok_inv in H as (w3 & R & H).
  destruct (run_sub_follows C HX k1 k2 L' (exec C k1) (exec C k2) (IH k2 L') a x w1 w2 N1 S w3 R) as (w4 & R2 & S').
  rewrite R2. cbn [bind]. exact (IH k2 L' a l w3 w4 N2 S' v H).
Qed.

Lemma tx_follows C k1 k2 t w1 w2 : steady (ch_ext C) -> (k1 <= k2)%nat -> same_chain w1 w2 ->
  follows (tx_run C k1 t w1) (tx_run C k2 t w2).
Proof.
  intros HX L S v H. assert (HR := exec_follows C HX k1 k2 L).
  destruct t as [s a m f|s to am|s m f|s st f|h]; cbn [tx_run] in *.
  - apply bind_Ok_inv in H as (u & E & H). rewrite E. cbn [bind]. apply bind_Ok_inv in H as ([w3 rr] & P & H). apply Ok_inj in H as <-.
    destruct (perform_follows C HX k1 k2 L _ _ HR _ _ _ _ _ _ S P) as (w4 & P2 & S'). rewrite P2. cbn [bind]. eauto.
  - apply bind_Ok_inv in H as (u & E & H). rewrite E. cbn [bind]. apply bind_Ok_inv in H as ([w3 rr] & P & H). apply Ok_inj in H as <-.
    destruct (perform_follows C HX k1 k2 L _ _ HR _ _ _ _ _ _ S P) as (w4 & P2 & S'). rewrite P2. cbn [bind]. eauto.
  - apply bind_Ok_inv in H as (u & E & H). rewrite E. cbn [bind]. apply bind_Ok_inv in H as ([w3 rr] & P & H). apply Ok_inj in H as <-.
    destruct (deploy_follows C HX k1 k2 L _ _ HR _ _ _ _ _ _ _ S P) as (w4 & P2 & S'). rewrite P2. cbn [bind]. eauto.
  - apply bind_Ok_inv in H as (u & E & H). rewrite E. cbn [bind]. unfold deploy_ext in *. cbv zeta in *. pose proof S as (S1 & _ & _ & _ & S5).
    rewrite <- S1, <- S5. destruct (om_get _ (w_inst w1)); [discriminate H|].
    apply bind_Ok_inv in H as (w3 & M & H). destruct (same_move _ _ _ _ _ _ (same_bump _ _ S) M) as (w4 & M2 & S').
    rewrite M2. cbn [bind]. apply Ok_inj in H as <-. eexists. split; [reflexivity|]. apply same_log, same_inst, S'.
  - apply bind_Ok_inv in H as (u & E & H). destruct S as (S1 & S2 & S3 & S4 & S5). rewrite <- S4, E. cbn [bind].
    apply Ok_inj in H as <-. eexists. split; [reflexivity|]. apply same_height. unfold same_chain. auto.
Qed.

Lemma history_follows C : steady (ch_ext C) -> forall l1 l2 w1 w2, more_generous l1 l2 -> same_chain w1 w2 ->
  all_succeed C w1 l1 -> all_succeed C w2 l2 /\ same_chain (chain_run C w1 l1) (chain_run C w2 l2).
Proof.
  intros HX. induction l1 as [|t1 l1 IH]; intros l2 w1 w2 M S A; inversion M as [|x y l l' [E L] M' E1 E2]; subst;
    [split; [exact I | exact S]|].
  cbn [all_succeed] in A. destruct A as (w1' & R & A).
  destruct (tx_follows C (fst t1) (fst y) (snd t1) w1 w2 HX L S w1' R) as (w2' & R2 & S').
  rewrite E in R2. destruct (IH l' w1' w2' M' S' A) as [A2 S2].
  split.
  - cbn [all_succeed]. exists w2'. split; [exact R2 | exact A2].
  - unfold chain_run in *. cbn [fold_left]. unfold tx_step at 2 4. rewrite R, R2. exact S2.
Qed.

(** ** Databases and texts *)
Lemma same_spread ver w1 w2 : same_chain w1 w2 -> spread ver w1 = spread ver w2.
Proof. intros (S1 & S2 & S3 & S4 & S5). unfold spread. rewrite S1, S2, S3, S4, S5. reflexivity. Qed.

Lemma laid_follows C ver k1 k2 t w : steady (ch_ext C) -> (k1 <= k2)%nat ->
  at_least (laid ver (tx_run C k1 t w)) (laid ver (tx_run C k2 t w)).
Proof.
  intros HX L x H. destruct (tx_run C k1 t w) as [w1|e|] eqn:E; try discriminate H. cbn [laid] in H. apply Ok_inj in H as <-.
  destruct (tx_follows C k1 k2 t w w HX L (same_refl w) w1 E) as (w2 & E2 & S). rewrite E2. cbn [laid]. f_equal. symmetry. apply same_spread, S.
Qed.

Lemma raw_follows C ver k1 k2 t w : asks_only (ch_ext C) -> steady (ch_ext C) -> timely_reachable C w -> tx_timely (k1, t) ->
  (k1 <= k2)%nat -> at_least (rtx_run C ver k1 t (spread ver w)) (rtx_run C ver k2 t (spread ver w)).
Proof.
  intros HA HX HR HT L. rewrite (laid_tx C ver k1 t w HA HR HT), (laid_tx C ver k2 t w HA HR HT). apply laid_follows; assumption.
Qed.

Lemma text_follows C ver k1 k2 t w : asks_only (ch_ext C) -> steady (ch_ext C) -> timely_reachable C w -> ttx_timely (k1, t) ->
  (k1 <= k2)%nat -> at_least (ttx_run C ver k1 t (spread ver w)) (ttx_run C ver k2 t (spread ver w)).
Proof.
  intros HA HX HR HT L. assert (HT2 : ttx_timely (k2, t)) by (destruct t; exact HT).
  pose proof (text_tx C ver k1 t w HA HR HT) as T1. pose proof (text_tx C ver k2 t w HA HR HT2) as T2.
  destruct (heard w t) as [t'|].
  - rewrite T1, T2. apply laid_follows; assumption.
  - destruct T1 as (e & T1). rewrite T1. apply at_least_Err.
Qed.

(** ** Programs of others that qualify *)
Lemma mocks_steady : steady mock_ext.
Proof.
  split; [intros; apply at_least_refl|]. split; [intros; apply at_least_refl|]. split; [intros; apply at_least_refl|].
  split; [|intros e id rr q st st' r H; discriminate H].
  intros e i m q st st' r H. cbn [x_exec mock_ext] in H. apply bind_Ok_inv in H as (kk & _ & H). apply bind_Ok_inv in H as (m' & _ & H).
  apply bind_Ok_inv in H as ([k' r'] & E & H). apply Ok_inj in H. injection H as _ <-.
  apply mock_quiet in E as [-> _]. reflexivity.
Qed.

Lemma tx_any_two C k1 k2 t w w1 w2 : steady (ch_ext C) -> tx_run C k1 t w = Ok w1 -> tx_run C k2 t w = Ok w2 -> same_chain w1 w2.
Proof.
  intros HX H1 H2. destruct (Nat.le_ge_cases k1 k2) as [L|L].
  - destruct (tx_follows C k1 k2 t w w HX L (same_refl w) w1 H1) as (w3 & H3 & S). rewrite H2 in H3. apply Ok_inj in H3 as <-. exact S.
  - destruct (tx_follows C k2 k1 t w w HX L (same_refl w) w2 H2) as (w3 & H3 & S). rewrite H1 in H3. apply Ok_inj in H3 as <-.
    destruct S as (S1 & S2 & S3 & S4 & S5). unfold same_chain. auto.
Qed.

(** ** Deciding [all_succeed] *)
Fixpoint all_ok (C : chain) (w : world) (l : list (nat * tx)) : bool :=
  match l with
  | [] => true
  | t :: l' => match tx_run C (fst t) (snd t) w with Ok w' => all_ok C w' l' | _ => false end
  end.
Lemma all_ok_succeed C l : forall w, all_ok C w l = true -> all_succeed C w l.
Proof.
  induction l as [|t l IH]; intros w H; [exact I|]. cbn [all_ok all_succeed] in *.
  destruct (tx_run C (fst t) (snd t) w) as [w'|e|]; try discriminate H. exists w'. split; [reflexivity | apply IH, H].
Qed.
