(** * The chain executor: atomic steps, money, histories, messages. *)
From Coq Require Import List NArith Bool Lia Permutation Relations.
From Verif Require Import Base BaseFacts OMap Message Coins CoinsFacts Chain Contracts
  Ownable Router Mailbox Va Isms Hooks Igp Warp Cw20 StepFacts World SpecWorld.
Import ListNotations.

(** ** Atomic steps *)
Definition able (C : chain) (w : world) (a : addr) : Prop :=
  ch_account C a = true \/ om_get a (w_inst w) <> None.

(** what a reply may report: a denomination just created, a token contract just
    deployed, at the request of [a] *)
Definition done_reply (w : world) (a : addr) (rr : res reply_result) : Prop :=
  match rr with
  | Ok (RrDenom d) =>
      exists sub, In (LDo a (CCreateDenom a sub)) (w_log w) /\ d = factory_denom a sub /\
        om_get d (w_admin w) = Some a
  | Ok (RrContract b) =>
      exists minter init e q r, In (LDo a (CInstantiateCw20 minter init)) (w_log w) /\
        In (LNew b e (mkInfo a []) q (ICw20 (Some minter) init) r) (w_log w)
  | _ => True
  end.

Inductive astep (C : chain) : world -> world -> Prop :=
| as_call k caller a m f w w1 st st' r e i Q :
    able C w caller ->
    move_coins caller a f (add_log (LDo caller (CExec a m f)) w) = Ok w1 ->
    contract_at w1 a st ->
    e = mkEnv a (w_height w1) -> i = mkInfo caller (norm_coins f) ->
    Q = (fun s => wq C k (set_inst a (IC s) w1)) ->
    c_execute (ch_api C) Q e i m st = Ok (st', r) ->
    astep C w (add_log (LCall a (EvExec e i m Q) r) (set_inst a (IC st') w1))
| as_callx k caller a m f w w1 st st' r e i Q :
    able C w caller ->
    move_coins caller a f (add_log (LDo caller (CExec a m f)) w) = Ok w1 ->
    om_get a (w_inst w1) = Some (IX st) ->
    e = mkEnv a (w_height w1) -> i = mkInfo caller (norm_coins f) ->
    Q = (fun _ : cstate => wq C k w1) ->
    x_exec (ch_ext C) e i m (wq C k w1) st = Ok (st', r) ->
    astep C w (add_log (LCall a (EvExec e i m Q) r) (set_inst a (IX st') w1))
| as_reply a id rr w st st' r :
    contract_at w a st -> done_reply w a rr -> c_reply (ch_api C) id rr st = Ok (st', r) ->
    astep C w (add_log (LCall a (EvReply id rr) r) (set_inst a (IC st') w))
| as_replyx k a id rr w st st' r :
    om_get a (w_inst w) = Some (IX st) -> done_reply w a rr ->
    x_reply (ch_ext C) (mkEnv a (w_height w)) id rr (wq C k w) st = Ok (st', r) ->
    astep C w (add_log (LCall a (EvReply id rr) r) (set_inst a (IX st') w))
| as_send caller to f w w1 :
    able C w caller -> api_valid (ch_api C) to = true ->
    move_coins caller to f (add_log (LDo caller (CBankSend to f)) w) = Ok w1 ->
    astep C w w1
| as_create caller sub w :
    able C w caller ->
    om_get (factory_denom caller sub) (w_admin w) = None ->
    astep C w (set_admin (factory_denom caller sub) caller (add_log (LDo caller (CCreateDenom caller sub)) w))
| as_meta caller d w :
    able C w caller -> astep C w (add_log (LDo caller (CSetDenomMetadata caller d)) w)
| as_mint caller n d w :
    able C w caller -> om_get d (w_admin w) = Some caller -> n <> 0 ->
    astep C w (set_bank (credit caller d n (w_bank w)) (add_log (LDo caller (CMint caller n d)) w))
| as_burn caller n d w b :
    able C w caller -> om_get d (w_admin w) = Some caller -> n <> 0 ->
    debit caller d n (w_bank w) = Ok b ->
    astep C w (set_bank b (add_log (LDo caller (CBurn caller n d)) w))
| as_cw20 k caller minter init w w0 w1 a e i q st r :
    able C w caller ->
    w0 = add_log (LDo caller (CInstantiateCw20 minter init)) w ->
    a = ch_addr C (w_next w) -> om_get a (w_inst w) = None ->
    move_coins caller a [] (bump w0) = Ok w1 ->
    e = mkEnv a (w_height w) -> i = mkInfo caller (norm_coins []) -> q = wq C k w1 ->
    c_instantiate (ch_api C) q e i (ICw20 (Some minter) init) = Ok (st, r) ->
    astep C w (add_log (LNew a e i q (ICw20 (Some minter) init) r) (set_inst a (IC st) w1))
| as_deploy k caller m f w w1 a e i q st r :
    ch_account C caller = true ->
    a = ch_addr C (w_next w) -> om_get a (w_inst w) = None ->
    move_coins caller a f (bump w) = Ok w1 ->
    e = mkEnv a (w_height w) -> i = mkInfo caller (norm_coins f) -> q = wq C k w1 ->
    c_instantiate (ch_api C) q e i m = Ok (st, r) ->
    astep C w (add_log (LNew a e i q m r) (set_inst a (IC st) w1))
| as_deployx caller st f w w1 a i :
    ch_account C caller = true ->
    a = ch_addr C (w_next w) -> om_get a (w_inst w) = None ->
    move_coins caller a f (bump w) = Ok w1 -> i = mkInfo caller (norm_coins f) ->
    astep C w (add_log (LNewX a i st) (set_inst a (IX st) w1))
| as_block h w : w_height w <= h -> astep C w (set_height h w).

Definition asteps (C : chain) : world -> world -> Prop := clos_refl_trans _ (astep C).

Lemma asteps_refl C w : asteps C w w.
Proof. apply rt_refl. Qed.
Lemma asteps_one C w w' : astep C w w' -> asteps C w w'.
Proof. apply rt_step. Qed.
Lemma asteps_trans C w1 w2 w3 : asteps C w1 w2 -> asteps C w2 w3 -> asteps C w1 w3.
Proof. apply rt_trans. Qed.

Lemma asteps_inv C (P : world -> Prop) :
  (forall w w', P w -> astep C w w' -> P w') ->
  forall w w', asteps C w w' -> P w -> P w'.
Proof. intros Hs w w' H. induction H; eauto. Qed.

(** ** Bank transfers touch only the bank *)
Lemma move_coins_shape from to f w w' :
  move_coins from to f w = Ok w' ->
  exists b, w' = set_bank b w /\ foldM (fun b c => move_coin from to c b) (norm_coins f) (w_bank w) = Ok b.
Proof.
  unfold move_coins. intros H.
  apply bind_Ok_inv in H as (u & H1 & H). apply bind_Ok_inv in H as (b & H2 & H).
  apply Ok_inj in H. eauto.
Qed.

Lemma move_coins_same from to f w w' :
  move_coins from to f w = Ok w' ->
  w_inst w' = w_inst w /\ w_log w' = w_log w /\ w_admin w' = w_admin w /\
  w_height w' = w_height w /\ w_next w' = w_next w.
Proof. intros H. apply move_coins_shape in H as (b & -> & _). repeat split. Qed.

Lemma set_inst_keeps a x b (m : omap addr inst) :
  om_get b m <> None -> om_get b (om_set a x m) <> None.
Proof.
  intros H. rewrite om_get_set. destruct (keqb b a); [discriminate | assumption].
Qed.

Lemma astep_keeps C w w' b :
  astep C w w' -> om_get b (w_inst w) <> None -> om_get b (w_inst w') <> None.
Proof.
  intros H Hb. destruct H; subst;
    repeat match goal with
    | M : move_coins _ _ _ _ = Ok _ |- _ =>
        apply move_coins_same in M as (M & _ & _); cbn [w_inst add_log bump] in M
    end; cbn [w_inst add_log bump set_inst set_admin set_bank set_height];
    try apply set_inst_keeps;
    repeat match goal with M : w_inst ?x = w_inst _ |- context [w_inst ?x] => rewrite M end;
    assumption.
Qed.

Lemma asteps_keeps C w w' b :
  asteps C w w' -> om_get b (w_inst w) <> None -> om_get b (w_inst w') <> None.
Proof.
  intros H. refine (asteps_inv C (fun w => om_get b (w_inst w) <> None) _ w w' H).
  intros; eapply astep_keeps; eauto.
Qed.

Lemma asteps_extends C w w' : asteps C w w' -> exists new, w_log w' = w_log w ++ new.
Proof.
  intros H. refine (asteps_inv C (fun x => exists new, w_log x = w_log w ++ new) _ w w' H _).
  2: { exists []. now rewrite app_nil_r. }
  intros u v (new & L) Hs. destruct Hs; subst;
    repeat match goal with
    | M : move_coins _ _ _ _ = Ok _ |- _ =>
        apply move_coins_same in M as (_ & M & _); cbn [w_log add_log bump] in M
    end; cbn [w_log add_log bump set_inst set_admin set_bank set_height];
    repeat match goal with M : w_log ?x = _ |- context [w_log ?x] => rewrite M; clear M end;
    rewrite ?L; rewrite <- ?app_assoc; eauto.
Qed.

Lemma set_inst_here a x w : om_get a (w_inst (set_inst a x w)) <> None.
Proof. cbn [w_inst set_inst]. rewrite om_get_set_eq. discriminate. Qed.

(** ** The executor takes atomic steps *)
Definition rec_steps (C : chain) (rec : addr -> list submsg -> world -> res world) : Prop :=
  forall caller l w w', om_get caller (w_inst w) <> None ->
    rec caller l w = Ok w' -> asteps C w w'.

Section Steps.
  Variable C : chain.
  Variable k : nat.
  Variable rec : addr -> list submsg -> world -> res world.
  Hypothesis Hrec : rec_steps C rec.

  Lemma give_reply_steps a id rr w w' :
    done_reply w a rr -> give_reply C k rec a id rr w = Ok w' -> asteps C w w'.
  Proof.
    unfold give_reply. intros D H. destruct (om_get a (w_inst w)) as [[st | st] |] eqn:E.
    - apply bind_Ok_inv in H as ([st' r] & H1 & H).
      eapply asteps_trans.
      + apply asteps_one. eapply as_reply; [exact E | exact D | exact H1].
      + eapply Hrec; [| exact H]. apply set_inst_here.
    - apply bind_Ok_inv in H as ([st' r] & H1 & H).
      eapply asteps_trans.
      + apply asteps_one. eapply as_replyx; [exact E | exact D | exact H1].
      + eapply Hrec; [| exact H]. apply set_inst_here.
    - discriminate H.
  Qed.

  Lemma perform_steps caller m w w' rr :
    able C w caller -> perform C k rec caller m w = Ok (w', rr) -> asteps C w w'.
  Proof.
    intros Hb H. destruct m; unfold perform in H.
    - apply bind_Ok_inv in H as (w1 & H1 & H). apply bind_Ok_inv in H as (w2 & H2 & H).
      apply Ok_inj in H. injection H as <- <-.
      unfold invoke in H2.
      destruct (om_get contract (w_inst w1)) as [[st | st] |] eqn:E; [| | discriminate H2].
      + apply bind_Ok_inv in H2 as ([st' r] & H3 & H2).
        eapply asteps_trans.
        * apply asteps_one. eapply as_call; [exact Hb | exact H1 | exact E | reflexivity | reflexivity | reflexivity | exact H3].
        * eapply Hrec; [| exact H2]. apply set_inst_here.
      + apply bind_Ok_inv in H2 as ([st' r] & H3 & H2).
        eapply asteps_trans.
        * apply asteps_one. eapply as_callx; [exact Hb | exact H1 | exact E | reflexivity | reflexivity | reflexivity | exact H3].
        * eapply Hrec; [| exact H2]. apply set_inst_here.
    - apply bind_Ok_inv in H as (u & H1 & H). apply bind_Ok_inv in H as (u' & _ & H).
      apply bind_Ok_inv in H as (w1 & H2 & H). apply Ok_inj in H. injection H as <- <-.
      apply ensure_Ok_inv in H1. apply asteps_one. eapply as_send; eauto.
    - apply bind_Ok_inv in H as (u & H1 & H). apply ensure_Ok_inv in H1.
      apply bytes_eqb_eq in H1 as ->.
      destruct (om_get (factory_denom caller subdenom) _) eqn:E; [discriminate |].
      apply Ok_inj in H. injection H as <- <-. apply asteps_one. apply as_create; assumption.
    - apply bind_Ok_inv in H as (u & H1 & H). apply ensure_Ok_inv in H1.
      apply bytes_eqb_eq in H1 as ->.
      destruct (om_get (md_base m) _) eqn:E; [| discriminate].
      apply bind_Ok_inv in H as (u' & _ & H).
      apply Ok_inj in H. injection H as <- <-. apply asteps_one. apply as_meta; assumption.
    - apply bind_Ok_inv in H as (u & H1 & H). apply ensure_Ok_inv in H1.
      apply bytes_eqb_eq in H1 as ->.
      apply bind_Ok_inv in H as (u' & H2 & H). apply ensure_Ok_inv in H2.
      destruct (om_get denom _) eqn:E; [| discriminate].
      apply bind_Ok_inv in H as (u'' & H3 & H). apply ensure_Ok_inv, bytes_eqb_eq in H3 as ->.
      apply Ok_inj in H. injection H as <- <-. apply asteps_one. apply as_mint; try assumption.
      intros ->. discriminate H2.
    - apply bind_Ok_inv in H as (u & H1 & H). apply ensure_Ok_inv in H1.
      apply bytes_eqb_eq in H1 as ->.
      apply bind_Ok_inv in H as (u' & H2 & H). apply ensure_Ok_inv in H2.
      destruct (om_get denom _) eqn:E; [| discriminate].
      apply bind_Ok_inv in H as (u'' & H3 & H). apply ensure_Ok_inv, bytes_eqb_eq in H3 as ->.
      apply bind_Ok_inv in H as (b & H4 & H).
      apply Ok_inj in H. injection H as <- <-. apply asteps_one. apply as_burn; try assumption.
      intros ->. discriminate H2.
    - apply bind_Ok_inv in H as ([w1 a] & H1 & H). apply Ok_inj in H. injection H as <- <-.
      unfold deploy in H1. cbn [w_next add_log w_inst] in H1.
      destruct (om_get (ch_addr C (w_next w)) (w_inst w)) eqn:E; [discriminate H1 |].
      apply bind_Ok_inv in H1 as (w2 & H2 & H1).
      apply bind_Ok_inv in H1 as ([st r] & H3 & H1).
      apply bind_Ok_inv in H1 as (w3 & H4 & H1). apply Ok_inj in H1. injection H1 as <- <-.
      eapply asteps_trans.
      + apply asteps_one. eapply as_cw20; [exact Hb | reflexivity | reflexivity | exact E | exact H2 | reflexivity | reflexivity | reflexivity | exact H3].
      + eapply Hrec; [| exact H4]. apply set_inst_here.
  Qed.

  Lemma perform_result caller m w w' rr :
    perform C k rec caller m w = Ok (w', rr) -> done_reply w' caller (Ok rr).
  Proof.
    intros H. destruct m; unfold perform in H.
    - apply bind_Ok_inv in H as (w1 & _ & H). apply bind_Ok_inv in H as (w2 & _ & H).
      apply Ok_inj in H. injection H as <- <-. exact I.
    - apply bind_Ok_inv in H as (u & _ & H). apply bind_Ok_inv in H as (u' & _ & H).
      apply bind_Ok_inv in H as (w1 & _ & H). apply Ok_inj in H. injection H as <- <-. exact I.
    - apply bind_Ok_inv in H as (u & H1 & H). apply ensure_Ok_inv in H1.
      apply bytes_eqb_eq in H1 as ->.
      destruct (om_get (factory_denom caller subdenom) _) eqn:E; [discriminate |].
      apply Ok_inj in H. injection H as <- <-. exists subdenom.
      cbn [w_log w_admin set_admin add_log]. split; [apply in_or_app; right; left; reflexivity |].
      split; [reflexivity |]. apply om_get_set_eq.
    - apply bind_Ok_inv in H as (u & _ & H). destruct (om_get (md_base m) _); [| discriminate].
      apply bind_Ok_inv in H as (u' & _ & H). apply Ok_inj in H. injection H as <- <-. exact I.
    - apply bind_Ok_inv in H as (u & _ & H). apply bind_Ok_inv in H as (u' & _ & H).
      destruct (om_get denom _); [| discriminate].
      apply bind_Ok_inv in H as (u'' & _ & H). apply Ok_inj in H. injection H as <- <-. exact I.
    - apply bind_Ok_inv in H as (u & _ & H). apply bind_Ok_inv in H as (u' & _ & H).
      destruct (om_get denom _); [| discriminate].
      apply bind_Ok_inv in H as (u'' & _ & H). apply bind_Ok_inv in H as (b & _ & H).
      apply Ok_inj in H. injection H as <- <-. exact I.
    - apply bind_Ok_inv in H as ([w1 a] & H1 & H). apply Ok_inj in H. injection H as <- <-.
      unfold deploy in H1. cbn [w_next add_log w_inst] in H1.
      destruct (om_get (ch_addr C (w_next w)) (w_inst w)) eqn:E; [discriminate H1 |].
      apply bind_Ok_inv in H1 as (w2 & H2 & H1).
      apply bind_Ok_inv in H1 as ([st r] & H3 & H1).
      apply bind_Ok_inv in H1 as (w3 & H4 & H1). apply Ok_inj in H1. injection H1 as <- <-.
      apply Hrec in H4; [| apply set_inst_here].
      apply asteps_extends in H4 as (new & L). apply move_coins_same in H2 as (_ & L2 & _).
      cbn [w_log add_log set_inst bump] in L, L2. rewrite L2 in L.
      exists minter, initial, (mkEnv (ch_addr C (w_next w)) (w_height w)), (wq C k w2), r. rewrite L.
      split; apply in_or_app; left; apply in_or_app; [left; apply in_or_app; right; left; reflexivity |].
      right. left. reflexivity.
  Qed.

  Lemma deploy_steps caller m f w w' a :
    ch_account C caller = true -> deploy C k rec caller m f w = Ok (w', a) -> asteps C w w'.
  Proof.
    intros Hb H1. unfold deploy in H1.
    destruct (om_get (ch_addr C (w_next w)) (w_inst w)) eqn:E; [discriminate H1 |].
    apply bind_Ok_inv in H1 as (w2 & H2 & H1).
    apply bind_Ok_inv in H1 as ([st r] & H3 & H1).
    apply bind_Ok_inv in H1 as (w3 & H4 & H1). apply Ok_inj in H1. injection H1 as <- <-.
    eapply asteps_trans.
    - apply asteps_one. eapply as_deploy; [exact Hb | reflexivity | exact E | exact H2 | reflexivity | reflexivity | reflexivity | exact H3].
    - eapply Hrec; [| exact H4]. apply set_inst_here.
  Qed.

  Lemma run_sub_steps caller s w w' :
    om_get caller (w_inst w) <> None -> run_sub C k rec caller s w = Ok w' -> asteps C w w'.
  Proof.
    intros Hb H. unfold run_sub in H.
    destruct (perform C k rec caller (sm_msg s) w) as [[w1 rr] | e |] eqn:E.
    - assert (S1 : asteps C w w1) by (eapply perform_steps; [right; exact Hb | exact E]).
      destruct (sm_reply s);
        first [ apply Ok_inj in H as <-; exact S1
              | eapply asteps_trans; [exact S1 | eapply give_reply_steps; [| exact H]];
                exact (perform_result _ _ _ _ _ E) ].
    - destruct (sm_reply s); try discriminate H; (eapply give_reply_steps; [| exact H]; exact I).
    - destruct (sm_reply s); try discriminate H; (eapply give_reply_steps; [| exact H]; exact I).
  Qed.
End Steps.

Lemma exec_steps C k : rec_steps C (exec C k).
Proof.
  induction k as [| k IH]; intros caller l w w' Hb H; [discriminate H |].
  cbn [exec] in H. destruct l as [| s l].
  - apply Ok_inj in H as <-. apply asteps_refl.
  - apply bind_Ok_inv in H as (w1 & H1 & H).
    assert (S1 : asteps C w w1) by (eapply run_sub_steps; [exact IH | exact Hb | exact H1]).
    eapply asteps_trans; [exact S1 |].
    eapply IH; [| exact H]. eapply asteps_keeps; eauto.
Qed.

Lemma tx_steps C k t w w' : tx_run C k t w = Ok w' -> asteps C w w'.
Proof.
  destruct t; unfold tx_run; intros H.
  - apply bind_Ok_inv in H as (u & H1 & H). apply ensure_Ok_inv in H1.
    apply bind_Ok_inv in H as ([w1 rr] & H2 & H). apply Ok_inj in H as <-.
    eapply perform_steps; [apply exec_steps | left; exact H1 | exact H2].
  - apply bind_Ok_inv in H as (u & H1 & H). apply ensure_Ok_inv in H1.
    apply bind_Ok_inv in H as ([w1 rr] & H2 & H). apply Ok_inj in H as <-.
    eapply perform_steps; [apply exec_steps | left; exact H1 | exact H2].
  - apply bind_Ok_inv in H as (u & H1 & H). apply ensure_Ok_inv in H1.
    apply bind_Ok_inv in H as ([w1 rr] & H2 & H). apply Ok_inj in H as <-.
    eapply deploy_steps; [apply exec_steps | exact H1 | exact H2].
  - apply bind_Ok_inv in H as (u & H1 & H). apply ensure_Ok_inv in H1.
    unfold deploy_ext in H.
    destruct (om_get (ch_addr C (w_next w)) (w_inst w)) eqn:E; [discriminate H |].
    apply bind_Ok_inv in H as (w1 & H2 & H). apply Ok_inj in H as <-.
    apply asteps_one. eapply as_deployx; [exact H1 | reflexivity | exact E | exact H2 | reflexivity].
  - apply bind_Ok_inv in H as (u & H1 & H). apply ensure_Ok_inv in H1.
    apply Ok_inj in H as <-. apply asteps_one. apply as_block.
    exact (proj1 (N.leb_le _ _) H1).
Qed.

Lemma chain_run_steps C l w : asteps C w (chain_run C w l).
Proof.
  revert w. induction l as [| t l IH]; intros w; [apply asteps_refl |].
  cbn [chain_run fold_left]. eapply asteps_trans; [| apply IH].
  unfold tx_step. destruct (tx_run C (fst t) (snd t) w) eqn:E; try apply asteps_refl.
  eapply tx_steps; eauto.
Qed.

Lemma reachable_steps C w : reachable C w ->
  exists bank, om_sorted bank /\ asteps C (genesis bank) w.
Proof. intros (bank & l & Hs & ->). exists bank. split; [exact Hs | apply chain_run_steps]. Qed.

(** ** Normalised coins *)
Lemma norm_fold_sorted l (m : coins) :
  om_sorted m ->
  om_sorted (fold_left (fun (m : coins) c =>
    if c_amount c =? 0 then m
    else om_set (c_denom c)
           ((match om_get (c_denom c) m with Some n => n | None => 0 end) + c_amount c) m) l m).
Proof.
  revert m. induction l as [| c l IH]; intros m Hm; [exact Hm |].
  cbn [fold_left]. apply IH. destruct (c_amount c =? 0); [exact Hm | apply om_sorted_set; exact Hm].
Qed.

Lemma norm_fold_get d l (m : coins) :
  cget d (fold_left (fun (m : coins) c =>
    if c_amount c =? 0 then m
    else om_set (c_denom c)
           ((match om_get (c_denom c) m with Some n => n | None => 0 end) + c_amount c) m) l m)
  = cget d m + amount_of d l.
Proof.
  revert m. induction l as [| c l IH]; intros m.
  - cbn [fold_left amount_of fold_right]. lia.
  - cbn [fold_left]. rewrite IH, amount_of_cons.
    destruct (c_amount c =? 0) eqn:E.
    + apply N.eqb_eq in E. rewrite E. destruct (bytes_eqb d (c_denom c)); lia.
    + rewrite cget_set. destruct (bytes_eqb d (c_denom c)) eqn:Ed; [| lia].
      apply bytes_eqb_eq in Ed as ->. unfold cget. lia.
Qed.

Lemma norm_amount d l : amount_of d (norm_coins l) = amount_of d l.
Proof.
  unfold norm_coins. rewrite amount_to_vec by (apply norm_fold_sorted; exact I).
  rewrite norm_fold_get. reflexivity.
Qed.

Lemma norm_no_repeats l : no_repeats (norm_coins l).
Proof. unfold norm_coins. apply to_vec_no_repeats, norm_fold_sorted. exact I. Qed.

Lemma norm_positive l : Forall (fun c => c_amount c <> 0) (norm_coins l).
Proof.
  unfold norm_coins, coins_to_vec.
  assert (H : forall (m : coins), Forall (fun p => snd p <> 0) m ->
    Forall (fun p => snd p <> 0) (fold_left (fun (m : coins) c =>
    if c_amount c =? 0 then m
    else om_set (c_denom c)
           ((match om_get (c_denom c) m with Some n => n | None => 0 end) + c_amount c) m) l m)).
  { induction l as [| c l IH]; intros m Hm; [exact Hm |]. cbn [fold_left]. apply IH.
    destruct (c_amount c =? 0) eqn:E; [exact Hm |]. apply N.eqb_neq in E.
    apply om_set_Forall; [cbn [snd]; lia | exact Hm]. }
  specialize (H [] (Forall_nil _)).
  apply Forall_map. eapply Forall_impl; [| exact H]. intros p Hp. exact Hp.
Qed.

(** ** Bank arithmetic *)
Lemma bal_set b a d n a' d' :
  bal (om_set (a, d) n b) a' d' = if (bytes_eqb a' a && bytes_eqb d' d)%bool then n else bal b a' d'.
Proof.
  unfold bal. rewrite om_get_set.
  destruct (keqb (a', d') (a, d)) eqn:E.
  - apply keqb_eq in E. injection E as -> ->. rewrite !bytes_eqb_refl. reflexivity.
  - apply keqb_neq in E. destruct (bytes_eqb a' a) eqn:E1; [| reflexivity].
    destruct (bytes_eqb d' d) eqn:E2; [| reflexivity].
    apply bytes_eqb_eq in E1 as ->. apply bytes_eqb_eq in E2 as ->. contradiction.
Qed.

Lemma supply_set b a d n d' :
  om_sorted b ->
  supply_of d' (om_set (a, d) n b) + (if bytes_eqb d' d then bal b a d else 0) =
  supply_of d' b + (if bytes_eqb d' d then n else 0).
Proof.
  induction b as [| [k v] b IH]; intros Hs.
  - cbn [om_set supply_of bal om_get snd]. destruct (bytes_eqb d' d); unfold bal; cbn [om_get]; lia.
  - destruct Hs as [Hk Hs]. cbn [om_set].
    destruct (klt (a, d) k) eqn:E1; [| destruct (klt k (a, d)) eqn:E2].
    + cbn [supply_of snd].
      assert (Hb : bal ((k, v) :: b) a d = 0).
      { unfold bal. replace (om_get (a, d) ((k, v) :: b)) with (@None N); [reflexivity |].
        symmetry. cbn [om_get].
        destruct (keqb (a, d) k) eqn:E.
        - apply keqb_eq in E. subst k. rewrite klt_irrefl in E1. discriminate.
        - destruct (om_get (a, d) b) eqn:G; [| reflexivity].
          apply om_get_In in G. rewrite Forall_forall in Hk. apply Hk in G. cbn [fst] in G.
          pose proof (klt_trans _ _ _ E1 G) as T. rewrite klt_irrefl in T. discriminate. }
      rewrite Hb. destruct (bytes_eqb d' d), (bytes_eqb d' (snd k)); lia.
    + cbn [supply_of snd].
      assert (Hb : bal ((k, v) :: b) a d = bal b a d).
      { unfold bal. cbn [om_get].
        destruct (keqb (a, d) k) eqn:E; [| reflexivity].
        apply keqb_eq in E. subst k. rewrite klt_irrefl in E2. discriminate. }
      rewrite Hb. specialize (IH Hs). lia.
    + assert (k = (a, d)) as -> by (symmetry; apply klt_total; assumption).
      cbn [supply_of snd].
      assert (Hb : bal (((a, d), v) :: b) a d = v).
      { unfold bal. cbn [om_get]. rewrite keqb_refl. reflexivity. }
      rewrite Hb. destruct (bytes_eqb d' d); lia.
Qed.

Lemma debit_inv a d n b b' :
  debit a d n b = Ok b' -> n <= bal b a d /\ b' = om_set (a, d) (bal b a d - n) b.
Proof.
  unfold debit. destruct (n <=? bal b a d) eqn:E; [| discriminate].
  intros H. apply Ok_inj in H. split; [exact (proj1 (N.leb_le _ _) E) | congruence].
Qed.

Lemma debit_spec a d n b b' :
  om_sorted b -> debit a d n b = Ok b' ->
  om_sorted b' /\
  (forall d', supply_of d' b' + (if bytes_eqb d' d then n else 0) = supply_of d' b) /\
  (forall a' d', bal b' a' d' + (if bytes_eqb a' a then if bytes_eqb d' d then n else 0 else 0) = bal b a' d').
Proof.
  intros Hs H. apply debit_inv in H as [Hn ->]. split; [apply om_sorted_set; exact Hs |]. split.
  - intros d'. pose proof (supply_set b a d (bal b a d - n) d' Hs) as E.
    destruct (bytes_eqb d' d); lia.
  - intros a' d'. rewrite bal_set.
    destruct (bytes_eqb a' a) eqn:E1; cbn [andb]; [| lia].
    destruct (bytes_eqb d' d) eqn:E2; [| lia].
    apply bytes_eqb_eq in E1 as ->. apply bytes_eqb_eq in E2 as ->. lia.
Qed.

Lemma credit_spec a d n b :
  om_sorted b ->
  om_sorted (credit a d n b) /\
  (forall d', supply_of d' (credit a d n b) = supply_of d' b + (if bytes_eqb d' d then n else 0)) /\
  (forall a' d', bal (credit a d n b) a' d' =
     bal b a' d' + (if bytes_eqb a' a then if bytes_eqb d' d then n else 0 else 0)).
Proof.
  intros Hs. unfold credit. split; [apply om_sorted_set; exact Hs |]. split.
  - intros d'. pose proof (supply_set b a d (bal b a d + n) d' Hs) as E.
    destruct (bytes_eqb d' d); lia.
  - intros a' d'. rewrite bal_set.
    destruct (bytes_eqb a' a) eqn:E1; cbn [andb]; [| lia].
    destruct (bytes_eqb d' d) eqn:E2; [| lia].
    apply bytes_eqb_eq in E1 as ->. apply bytes_eqb_eq in E2 as ->. lia.
Qed.

Lemma move_fold_spec from to l : forall b b',
  om_sorted b -> foldM (fun b c => move_coin from to c b) l b = Ok b' ->
  om_sorted b' /\
  (forall d, supply_of d b' = supply_of d b) /\
  (forall a d, bal b' a d + (if bytes_eqb a from then amount_of d l else 0) =
               bal b a d + (if bytes_eqb a to then amount_of d l else 0)).
Proof.
  induction l as [| c l IH]; intros b b' Hs H.
  - apply Ok_inj in H as <-. repeat split; auto.
    intros a d. cbn [amount_of fold_right]. destruct (bytes_eqb a from), (bytes_eqb a to); reflexivity.
  - cbn [foldM] in H. apply bind_Ok_inv in H as (b1 & H1 & H).
    unfold move_coin in H1. apply bind_Ok_inv in H1 as (b0 & H0 & H1). apply Ok_inj in H1.
    destruct (debit_spec _ _ _ _ _ Hs H0) as (S0 & P0 & B0).
    destruct (credit_spec to (c_denom c) (c_amount c) b0 S0) as (S1 & P1 & B1).
    rewrite H1 in S1, P1, B1.
    destruct (IH _ _ S1 H) as (S2 & P2 & B2). split; [exact S2 |]. split.
    + intros d. rewrite P2, P1, <- P0. reflexivity.
    + intros a d. specialize (B0 a d). specialize (B1 a d). specialize (B2 a d).
      rewrite amount_of_cons. destruct (bytes_eqb d (c_denom c)), (bytes_eqb a from), (bytes_eqb a to); lia.
Qed.

Lemma move_coins_spec from to f w w' :
  om_sorted (w_bank w) -> move_coins from to f w = Ok w' ->
  om_sorted (w_bank w') /\
  (forall d, supply w' d = supply w d) /\
  (forall a d, balance w' a d + (if bytes_eqb a from then amount_of d f else 0) =
               balance w a d + (if bytes_eqb a to then amount_of d f else 0)).
Proof.
  intros Hs H. apply move_coins_shape in H as (b & -> & H).
  apply move_fold_spec in H as (S1 & P & B); [| exact Hs].
  split; [exact S1 |]. split; [exact P |].
  intros a d. specialize (B a d). rewrite norm_amount in B. exact B.
Qed.

(** ** Money over histories *)
Lemma total_app {X} (f : X -> N) l1 l2 : total f (l1 ++ l2) = total f l1 + total f l2.
Proof. unfold total. induction l1 as [| x l1 IH]; cbn [app fold_right]; [reflexivity | lia]. Qed.
Lemma total_one {X} (f : X -> N) x : total f [x] = f x.
Proof. unfold total. cbn [fold_right]. lia. Qed.

Definition money (bank : omap (addr * str) N) (w : world) : Prop :=
  om_sorted (w_bank w) /\
  (forall d, supply w d + burned d (w_log w) = supply_of d bank + minted d (w_log w)) /\
  (forall a d, balance w a d + outflow a d (w_log w) = bal bank a d + inflow a d (w_log w)).

Ltac money_log :=
  unfold burned, minted, outflow, inflow in *;
  rewrite ?total_app, ?total_one in *;
  cbn [mint_of burn_of entry_out entry_in msg_out msg_in i_sender i_funds] in *;
  rewrite ?norm_amount in *.

Lemma money_step C bank w w' : money bank w -> astep C w w' -> money bank w'.
Proof.
  intros (Hs & Hp & Hb) H. unfold money.
  destruct H; subst;
    try match goal with
    | M : move_coins _ _ _ _ = Ok _ |- _ =>
        pose proof M as M2; apply move_coins_spec in M2 as (S1 & P1 & B1); [| exact Hs];
        apply move_coins_same in M as (_ & L1 & _)
    end;
    unfold supply, balance in *;
    cbn [w_bank w_log add_log set_inst set_bank set_admin set_height bump] in *.
  all: try rewrite L1.
  all: try (split; [assumption |]; split;
    [ intros d'; specialize (Hp d'); try specialize (P1 d'); money_log; lia
    | intros a' d'; specialize (Hb a' d'); try specialize (B1 a' d'); money_log;
      repeat match goal with |- context [if ?b then _ else _] => destruct b end;
      lia ]).
  - (* mint *)
    destruct (credit_spec caller d n (w_bank w) Hs) as (S1 & P1 & B1).
    split; [exact S1 |]. split.
    + intros d'. specialize (Hp d'). specialize (P1 d'). money_log. lia.
    + intros a' d'. specialize (Hb a' d'). specialize (B1 a' d'). money_log.
      destruct (bytes_eqb a' caller), (bytes_eqb d' d); lia.
  - (* burn *)
    match goal with D : debit _ _ _ _ = Ok _ |- _ =>
      destruct (debit_spec _ _ _ _ _ Hs D) as (S1 & P1 & B1) end.
    split; [exact S1 |]. split.
    + intros d'. specialize (Hp d'). specialize (P1 d'). money_log. lia.
    + intros a' d'. specialize (Hb a' d'). specialize (B1 a' d'). money_log.
      destruct (bytes_eqb a' caller), (bytes_eqb d' d); lia.
Qed.

Lemma money_genesis bank : om_sorted bank -> money bank (genesis bank).
Proof.
  intros Hs. split; [exact Hs |]. split.
  - intros d. reflexivity.
  - intros a d. reflexivity.
Qed.

Lemma money_reachable C bank w :
  om_sorted bank -> asteps C (genesis bank) w -> money bank w.
Proof.
  intros Hs H. eapply asteps_inv; [| exact H | apply money_genesis; exact Hs].
  intros; eapply money_step; eauto.
Qed.

(** ** Histories of the contracts *)
Lemma answers_at_snoc a l x :
  answers_at a (l ++ [x]) = answers_at a l ++ answers_at a [x].
Proof. unfold answers_at. apply flat_map_app. Qed.
Lemma births_at_snoc a l x :
  births_at a (l ++ [x]) = births_at a l ++ births_at a [x].
Proof. unfold births_at. apply flat_map_app. Qed.

Definition known (A : api) (w : world) (a : addr) : Prop :=
  match om_get a (w_inst w) with
  | Some (IC st) =>
      exists e i q m r st0,
        births_at a (w_log w) = [(e, i, q, m, r)] /\ e_contract e = a /\
        c_instantiate A q e i m = Ok (st0, r) /\
        lives A st0 (answers_at a (w_log w)) st
  | Some (IX _) => births_at a (w_log w) = []
  | None => births_at a (w_log w) = [] /\ answers_at a (w_log w) = []
  end.

(** adding entries that do not concern [a] *)
Lemma known_irrelevant A w w' a :
  om_get a (w_inst w') = om_get a (w_inst w) ->
  births_at a (w_log w') = births_at a (w_log w) ->
  answers_at a (w_log w') = answers_at a (w_log w) ->
  known A w a -> known A w' a.
Proof. unfold known. intros -> -> ->. exact (fun H => H). Qed.

Lemma quiet_do a l c m :
  births_at a (l ++ [LDo c m]) = births_at a l /\
  answers_at a (l ++ [LDo c m]) = answers_at a l.
Proof.
  rewrite births_at_snoc, answers_at_snoc.
  cbn [births_at answers_at flat_map app]. rewrite !app_nil_r. auto.
Qed.
Lemma quiet_newx a l b i st :
  births_at a (l ++ [LNewX b i st]) = births_at a l /\
  answers_at a (l ++ [LNewX b i st]) = answers_at a l.
Proof.
  rewrite births_at_snoc, answers_at_snoc.
  cbn [births_at answers_at flat_map app]. rewrite !app_nil_r. auto.
Qed.
Lemma at_call a l b ev r :
  births_at a (l ++ [LCall b ev r]) = births_at a l /\
  answers_at a (l ++ [LCall b ev r]) = answers_at a l ++ (if bytes_eqb a b then [(ev, r)] else []).
Proof.
  rewrite births_at_snoc, answers_at_snoc.
  cbn [births_at answers_at flat_map app]. rewrite !app_nil_r. auto.
Qed.
Lemma at_new a l b e i q m r :
  births_at a (l ++ [LNew b e i q m r]) =
    births_at a l ++ (if bytes_eqb a b then [(e, i, q, m, r)] else []) /\
  answers_at a (l ++ [LNew b e i q m r]) = answers_at a l.
Proof.
  rewrite births_at_snoc, answers_at_snoc.
  cbn [births_at answers_at flat_map app]. rewrite !app_nil_r. auto.
Qed.

Lemma known_call A w w1 a b ev r st st' :
  w_inst w1 = w_inst w ->
  births_at a (w_log w1) = births_at a (w_log w) /\
  answers_at a (w_log w1) = answers_at a (w_log w) ->
  om_get b (w_inst w1) = Some (IC st) -> c_apply A ev st = Ok (st', r) ->
  known A w a ->
  known A (add_log (LCall b ev r) (set_inst b (IC st') w1)) a.
Proof.
  intros Hi (L1 & L2) Hb Hap Hk.
  unfold known in *. cbn [w_inst w_log add_log set_inst].
  destruct (at_call a (w_log w1) b ev r) as (E1 & E2). rewrite E1, E2, L1, L2.
  rewrite om_get_set. destruct (keqb a b) eqn:E.
  - apply keqb_eq in E. subst b. rewrite Hi in Hb. rewrite Hb in Hk. rewrite bytes_eqb_refl.
    destruct Hk as (e & i & q & m & r0 & st0 & B1 & B2 & B3 & B4).
    exists e, i, q, m, r0, st0. repeat split; try assumption.
    eapply lives_next; eassumption.
  - apply keqb_neq in E. apply bytes_eqb_neq in E. rewrite E, !app_nil_r, Hi. exact Hk.
Qed.

Lemma known_callx A w w1 a b ev r st st' :
  w_inst w1 = w_inst w ->
  births_at a (w_log w1) = births_at a (w_log w) /\
  answers_at a (w_log w1) = answers_at a (w_log w) ->
  om_get b (w_inst w1) = Some (IX st) ->
  known A w a ->
  known A (add_log (LCall b ev r) (set_inst b (IX st') w1)) a.
Proof.
  intros Hi (L1 & L2) Hb Hk.
  unfold known in *. cbn [w_inst w_log add_log set_inst].
  destruct (at_call a (w_log w1) b ev r) as (E1 & E2). rewrite E1, E2, L1, L2.
  rewrite om_get_set. destruct (keqb a b) eqn:E.
  - apply keqb_eq in E. subst b. rewrite Hi in Hb. rewrite Hb in Hk. exact Hk.
  - apply keqb_neq in E. apply bytes_eqb_neq in E. rewrite E, !app_nil_r, Hi. exact Hk.
Qed.

Lemma known_new A w w1 a b e i q m r st :
  w_inst w1 = w_inst w ->
  births_at a (w_log w1) = births_at a (w_log w) /\
  answers_at a (w_log w1) = answers_at a (w_log w) ->
  om_get b (w_inst w) = None -> e_contract e = b -> c_instantiate A q e i m = Ok (st, r) ->
  known A w a ->
  known A (add_log (LNew b e i q m r) (set_inst b (IC st) w1)) a.
Proof.
  intros Hi (L1 & L2) Hb He Hc Hk.
  unfold known in *. cbn [w_inst w_log add_log set_inst].
  destruct (at_new a (w_log w1) b e i q m r) as (E1 & E2). rewrite E1, E2, L1, L2.
  rewrite om_get_set. destruct (keqb a b) eqn:E.
  - apply keqb_eq in E. subst a. rewrite bytes_eqb_refl. rewrite Hb in Hk.
    destruct Hk as (K1 & K2). rewrite K1, K2.
    exists e, i, q, m, r, st. repeat split; try assumption. constructor.
  - apply keqb_neq in E. apply bytes_eqb_neq in E. rewrite E, !app_nil_r, Hi. exact Hk.
Qed.

Lemma known_step C w w' a : astep C w w' -> known (ch_api C) w a -> known (ch_api C) w' a.
Proof.
  intros H Hk. destruct H; subst;
    try match goal with
    | M : move_coins _ _ _ _ = Ok _ |- _ => apply move_coins_same in M as (I1 & L1 & _)
    end;
    cbn [w_inst w_log add_log bump] in *.
  - eapply known_call; [exact I1 | | eassumption | eassumption | exact Hk].
    rewrite L1. apply quiet_do.
  - eapply known_callx; [exact I1 | | eassumption | exact Hk].
    rewrite L1. apply quiet_do.
  - eapply known_call; [reflexivity | auto | eassumption | eassumption | exact Hk].
  - eapply known_callx; [reflexivity | auto | eassumption | exact Hk].
  - destruct (quiet_do a (w_log w) caller (CBankSend to f)) as (Q1 & Q2).
    apply known_irrelevant with w; rewrite ?I1, ?L1; auto.
  - destruct (quiet_do a (w_log w) caller (CCreateDenom caller sub)) as (Q1 & Q2).
    apply known_irrelevant with w; auto.
  - destruct (quiet_do a (w_log w) caller (CSetDenomMetadata caller d)) as (Q1 & Q2).
    apply known_irrelevant with w; auto.
  - destruct (quiet_do a (w_log w) caller (CMint caller n d)) as (Q1 & Q2).
    apply known_irrelevant with w; auto.
  - destruct (quiet_do a (w_log w) caller (CBurn caller n d)) as (Q1 & Q2).
    apply known_irrelevant with w; auto.
  - eapply known_new; [exact I1 | | eassumption | reflexivity | eassumption | exact Hk].
    rewrite L1. apply quiet_do.
  - eapply known_new; [exact I1 | | eassumption | reflexivity | eassumption | exact Hk].
    rewrite L1. auto.
  - destruct (quiet_newx a (w_log w1) (ch_addr C (w_next w)) (mkInfo caller (norm_coins f)) st) as (Q1 & Q2).
    rewrite L1 in Q1, Q2.
    unfold known in *. cbn [w_inst w_log add_log set_inst]. rewrite L1, Q1, Q2, om_get_set.
    destruct (keqb a (ch_addr C (w_next w))) eqn:E.
    + apply keqb_eq in E. rewrite E in Hk. rewrite H1 in Hk. rewrite E. apply Hk.
    + rewrite I1. exact Hk.
  - apply known_irrelevant with w; auto.
Qed.

Lemma known_reachable C w a : reachable C w -> known (ch_api C) w a.
Proof.
  intros H. apply reachable_steps in H as (bank & _ & H).
  eapply (asteps_inv C (fun w => known (ch_api C) w a)); [| exact H |].
  - intros; eapply known_step; eauto.
  - unfold known. cbn. auto.
Qed.

Lemma contract_known C w a st :
  reachable C w -> contract_at w a st ->
  exists e i q m r st0,
    births_at a (w_log w) = [(e, i, q, m, r)] /\ e_contract e = a /\
    c_instantiate (ch_api C) q e i m = Ok (st0, r) /\
    lives (ch_api C) st0 (answers_at a (w_log w)) st.
Proof.
  intros H Hc. apply known_reachable with (a := a) in H. unfold known in H.
  rewrite Hc in H. exact H.
Qed.

Lemma lives_run A st h st' : lives A st h st' -> c_run A st (map fst h) = st'.
Proof.
  induction 1 as [| h st1 ev st2 r _ IH H]; [reflexivity |].
  unfold c_run in *. rewrite map_app, fold_left_app. cbn [map fst]. cbn [fold_left]. rewrite IH.
  unfold c_step. rewrite H. reflexivity.
Qed.

Lemma lives_accepted A st h st' :
  lives A st h st' -> map snd (accepted_calls A st (map fst h)) = map fst h.
Proof.
  induction 1 as [| h st1 ev st2 r L IH H]; [reflexivity |].
  rewrite map_app, accepted_calls_app, map_app, IH, (lives_run _ _ _ _ L).
  cbn [map fst accepted_calls]. unfold accepted. rewrite H. reflexivity.
Qed.

(** ** Calls reach their callees *)
Lemma calls_step C w w' :
  astep C w w' -> calls_sent (w_log w) = calls_seen (w_log w) ->
  calls_sent (w_log w') = calls_seen (w_log w').
Proof.
  intros H Hc. destruct H; subst;
    try match goal with
    | M : move_coins _ _ _ _ = Ok _ |- _ => apply move_coins_same in M as (_ & L1 & _)
    end;
    cbn [w_log add_log set_inst set_bank set_admin set_height bump] in *;
    try rewrite L1; unfold calls_sent, calls_seen in *;
    rewrite ?flat_map_app; cbn [flat_map app i_sender i_funds]; rewrite ?app_nil_r, Hc; reflexivity.
Qed.

Lemma calls_reachable C w : reachable C w -> calls_sent (w_log w) = calls_seen (w_log w).
Proof.
  intros H. apply reachable_steps in H as (bank & _ & H).
  eapply (asteps_inv C (fun w => calls_sent (w_log w) = calls_seen (w_log w))); [| exact H | reflexivity].
  intros; eapply calls_step; eauto.
Qed.

(** ** Contracts live at contract addresses *)
Lemma inst_addr C w a : reachable C w -> om_get a (w_inst w) <> None -> exists n, a = ch_addr C n.
Proof.
  intros H. apply reachable_steps in H as (bank & _ & H).
  eapply (asteps_inv C (fun w => om_get a (w_inst w) <> None -> exists n, a = ch_addr C n));
    [| exact H | intros G; now contradiction G].
  clear. intros w w' IH H Ha.
  destruct H; subst;
    try match goal with
    | M : move_coins _ _ _ _ = Ok _ |- _ => apply move_coins_same in M as (I1 & _)
    end;
    cbn [w_inst add_log set_inst set_bank set_admin set_height bump] in *;
    try rewrite om_get_set in Ha;
    try (apply IH; rewrite ?I1 in Ha; exact Ha).
  - destruct (keqb a a0) eqn:E; [| apply IH; rewrite I1 in Ha; exact Ha].
    apply keqb_eq in E. subst a0. apply IH. unfold contract_at in *. congruence.
  - destruct (keqb a a0) eqn:E; [| apply IH; rewrite I1 in Ha; exact Ha].
    apply keqb_eq in E. subst a0. apply IH. congruence.
  - destruct (keqb a a0) eqn:E; [| apply IH; exact Ha].
    apply keqb_eq in E. subst a0. apply IH. unfold contract_at in *. congruence.
  - destruct (keqb a a0) eqn:E; [| apply IH; exact Ha].
    apply keqb_eq in E. subst a0. apply IH. congruence.
  - destruct (keqb a _) eqn:E; [| apply IH; rewrite I1 in Ha; exact Ha].
    apply keqb_eq in E. eauto.
  - destruct (keqb a _) eqn:E; [| apply IH; rewrite I1 in Ha; exact Ha].
    apply keqb_eq in E. eauto.
  - destruct (keqb a _) eqn:E; [| apply IH; rewrite I1 in Ha; exact Ha].
    apply keqb_eq in E. eauto.
Qed.

(** ** Messages asked for are carried out *)
Definition uncaught (s : submsg) : bool :=
  match sm_reply s with RpError _ | RpAlways _ => false | _ => true end.

Definition calm_entry (a : addr) (x : entry) : Prop :=
  match x with
  | LCall b _ r | LNew b _ _ _ _ r => a = b -> forallb uncaught (r_msgs r) = true
  | _ => True
  end.
Definition calm (a : addr) (l : list entry) : Prop := Forall (calm_entry a) l.

Lemma done_for_app a l1 l2 : done_for a (l1 ++ l2) = done_for a l1 ++ done_for a l2.
Proof. unfold done_for. apply flat_map_app. Qed.
Lemma asked_by_app a l1 l2 : asked_by a (l1 ++ l2) = asked_by a l1 ++ asked_by a l2.
Proof. unfold asked_by. apply flat_map_app. Qed.

(** [w'] follows [w]; meanwhile [a] had to do [extra] besides what it asked for *)
Definition settles (w w' : world) (a : addr) (cond : Prop) (extra : list cmsg) : Prop :=
  exists new, w_log w' = w_log w ++ new /\
    (calm a new -> cond -> Permutation (done_for a new) (asked_by a new ++ extra)).

Definition owed (a caller : addr) (l : list cmsg) : list cmsg :=
  if bytes_eqb a caller then l else [].

Definition rec_settles (rec : addr -> list submsg -> world -> res world) : Prop :=
  forall a caller l w w', rec caller l w = Ok w' ->
    settles w w' a (a = caller -> forallb uncaught l = true) (owed a caller (map sm_msg l)).

Lemma settles_trans w1 w2 w3 a (c1 c2 c3 : Prop) x1 x2 x3 :
  settles w1 w2 a c1 x1 -> settles w2 w3 a c2 x2 ->
  (c3 -> c1 /\ c2) -> Permutation (x1 ++ x2) x3 ->
  settles w1 w3 a c3 x3.
Proof.
  intros (n1 & L1 & P1) (n2 & L2 & P2) Hc Hx. exists (n1 ++ n2).
  split; [rewrite L2, L1; symmetry; apply app_assoc |].
  intros Hcalm H3. apply Forall_app in Hcalm as [K1 K2]. destruct (Hc H3) as [H1 H2].
  rewrite done_for_app, asked_by_app.
  rewrite (P1 K1 H1), (P2 K2 H2), <- Hx.
  rewrite <- !app_assoc. apply Permutation_app_head.
  rewrite !app_assoc. apply Permutation_app_tail. apply Permutation_app_comm.
Qed.

Section Settle.
  Variable C : chain.
  Variable k : nat.
  Variable rec : addr -> list submsg -> world -> res world.
  Hypothesis Hrec : rec_settles rec.

  Definition answer (x : entry) : option (addr * response) :=
    match x with LCall b _ r | LNew b _ _ _ _ r => Some (b, r) | _ => None end.

  (** a response is logged, then its messages are carried out *)
  Lemma settles_response a b r x w1 w' (pre : list entry) w :
    rec b (r_msgs r) w1 = Ok w' ->
    w_log w1 = w_log w ++ pre ++ [x] ->
    answer x = Some (b, r) ->
    asked_by a pre = [] ->
    settles w w' a True (done_for a pre).
  Proof.
    intros HR HL Hx Hap. destruct (Hrec a b (r_msgs r) w1 w' HR) as (new & L & P).
    exists ((pre ++ [x]) ++ new). split; [rewrite L, HL; symmetry; apply app_assoc |].
    intros Hcalm _. apply Forall_app in Hcalm as [K1 K2]. apply Forall_app in K1 as [K0 K1].
    rewrite !done_for_app, !asked_by_app.
    assert (Hask : asked_by a [x] = owed a b (map sm_msg (r_msgs r)) /\ done_for a [x] = []
                   /\ (a = b -> forallb uncaught (r_msgs r) = true)).
    { apply Forall_inv in K1. destruct x; try discriminate Hx; cbn [answer] in Hx;
        apply Some_inj in Hx; apply pair_equal_spec in Hx as [-> ->];
        unfold asked_by, owed; cbn [flat_map app calm_entry] in *; rewrite app_nil_r;
        repeat split; assumption. }
    destruct Hask as (Hask & Hd & Hu). rewrite Hap, Hask, Hd, app_nil_r. cbn [app].
    rewrite (P K2 Hu).
    apply Permutation_trans with ((asked_by a new ++ owed a b (map sm_msg (r_msgs r))) ++ done_for a pre);
      [apply Permutation_app_comm |].
    apply Permutation_app_tail. apply Permutation_app_comm.
  Qed.

  Lemma give_reply_settles a b id rr w w' :
    give_reply C k rec b id rr w = Ok w' -> settles w w' a True [].
  Proof.
    unfold give_reply. intros H. destruct (om_get b (w_inst w)) as [[st | st] |] eqn:E; [| | discriminate H].
    - apply bind_Ok_inv in H as ([st' r] & H1 & H).
      eapply (settles_response a b r (LCall b (EvReply id rr) r) _ w' [] w);
        [exact H | reflexivity | reflexivity | reflexivity].
    - apply bind_Ok_inv in H as ([st' r] & H1 & H).
      eapply (settles_response a b r (LCall b (EvReply id rr) r) _ w' [] w);
        [exact H | reflexivity | reflexivity | reflexivity].
  Qed.

  Lemma settles_one a caller m w w' :
    w_log w' = w_log w ++ [LDo caller m] -> settles w w' a True (owed a caller [m]).
  Proof.
    intros H. exists [LDo caller m]. split; [exact H |]. intros _ _.
    unfold done_for, asked_by, owed. cbn [flat_map app]. rewrite app_nil_r. apply Permutation_refl.
  Qed.

  Lemma owed_done a caller m : done_for a [LDo caller m] = owed a caller [m].
  Proof. unfold done_for, owed. cbn [flat_map]. apply app_nil_r. Qed.

  Lemma perform_settles a caller m w w' rr :
    perform C k rec caller m w = Ok (w', rr) -> settles w w' a True (owed a caller [m]).
  Proof.
    intros H. destruct m; unfold perform in H.
    - apply bind_Ok_inv in H as (w1 & H1 & H). apply bind_Ok_inv in H as (w2 & H2 & H).
      apply Ok_inj in H. injection H as <- <-. apply move_coins_same in H1 as (_ & L1 & _).
      cbn [w_log add_log] in L1. rewrite <- owed_done.
      unfold invoke in H2.
      destruct (om_get contract (w_inst w1)) as [[st | st] |] eqn:E; [| | discriminate H2].
      + apply bind_Ok_inv in H2 as ([st' r] & H3 & H2).
        eapply settles_response;
          [exact H2 | cbn [w_log add_log set_inst]; rewrite L1, <- app_assoc; reflexivity | reflexivity | reflexivity].
      + apply bind_Ok_inv in H2 as ([st' r] & H3 & H2).
        eapply settles_response;
          [exact H2 | cbn [w_log add_log set_inst]; rewrite L1, <- app_assoc; reflexivity | reflexivity | reflexivity].
    - apply bind_Ok_inv in H as (u & H1 & H). apply bind_Ok_inv in H as (u' & _ & H).
      apply bind_Ok_inv in H as (w1 & H2 & H). apply Ok_inj in H. injection H as <- <-.
      apply move_coins_same in H2 as (_ & L1 & _). apply settles_one. exact L1.
    - apply bind_Ok_inv in H as (u & H1 & H).
      destruct (om_get _ _) eqn:E; [discriminate |].
      apply Ok_inj in H. injection H as <- <-. apply settles_one. reflexivity.
    - apply bind_Ok_inv in H as (u & H1 & H).
      destruct (om_get (md_base m) _) eqn:E; [| discriminate].
      apply bind_Ok_inv in H as (u' & _ & H).
      apply Ok_inj in H. injection H as <- <-. apply settles_one. reflexivity.
    - apply bind_Ok_inv in H as (u & H1 & H). apply bind_Ok_inv in H as (u' & H2 & H).
      destruct (om_get denom _) eqn:E; [| discriminate].
      apply bind_Ok_inv in H as (u'' & H3 & H).
      apply Ok_inj in H. injection H as <- <-. apply settles_one. reflexivity.
    - apply bind_Ok_inv in H as (u & H1 & H). apply bind_Ok_inv in H as (u' & H2 & H).
      destruct (om_get denom _) eqn:E; [| discriminate].
      apply bind_Ok_inv in H as (u'' & H3 & H). apply bind_Ok_inv in H as (b & H4 & H).
      apply Ok_inj in H. injection H as <- <-. apply settles_one. reflexivity.
    - apply bind_Ok_inv in H as ([w1 b] & H1 & H). apply Ok_inj in H. injection H as <- <-.
      unfold deploy in H1. cbn [w_next add_log w_inst] in H1.
      destruct (om_get (ch_addr C (w_next w)) (w_inst w)) eqn:E; [discriminate H1 |].
      apply bind_Ok_inv in H1 as (w2 & H2 & H1). apply move_coins_same in H2 as (_ & L1 & _).
      cbn [w_log add_log bump] in L1.
      apply bind_Ok_inv in H1 as ([st r] & H3 & H1).
      apply bind_Ok_inv in H1 as (w3 & H4 & H1). apply Ok_inj in H1. injection H1 as <- <-.
      rewrite <- owed_done.
      eapply settles_response;
        [exact H4 | cbn [w_log add_log set_inst]; rewrite L1, <- app_assoc; reflexivity | reflexivity | reflexivity].
  Qed.

  Lemma deploy_settles a caller m f w w' b :
    deploy C k rec caller m f w = Ok (w', b) -> settles w w' a True [].
  Proof.
    intros H1. unfold deploy in H1.
    destruct (om_get (ch_addr C (w_next w)) (w_inst w)) eqn:E; [discriminate H1 |].
    apply bind_Ok_inv in H1 as (w2 & H2 & H1). apply move_coins_same in H2 as (_ & L1 & _).
    cbn [w_log add_log bump] in L1.
    apply bind_Ok_inv in H1 as ([st r] & H3 & H1).
    apply bind_Ok_inv in H1 as (w3 & H4 & H1). apply Ok_inj in H1. injection H1 as <- <-.
    change (@nil cmsg) with (done_for a []).
    eapply settles_response;
      [exact H4 | cbn [w_log add_log set_inst]; rewrite L1; reflexivity | reflexivity | reflexivity].
  Qed.

  Lemma settles_weaken w w' a (c1 c2 : Prop) x :
    settles w w' a c1 x -> (c2 -> c1) -> settles w w' a c2 x.
  Proof. intros (n & L & P) H. exists n. auto. Qed.

  Lemma run_sub_settles a caller s w w' :
    run_sub C k rec caller s w = Ok w' ->
    settles w w' a (a = caller -> uncaught s = true) (owed a caller [sm_msg s]).
  Proof.
    intros H. unfold run_sub in H.
    destruct (perform C k rec caller (sm_msg s) w) as [[w1 rr] | e |] eqn:E.
    - assert (S1 := perform_settles a caller (sm_msg s) w w1 rr E).
      destruct (sm_reply s).
      + apply Ok_inj in H as <-. eapply settles_weaken; [exact S1 | auto].
      + eapply settles_trans; [exact S1 | eapply give_reply_settles; exact H | auto |].
        rewrite app_nil_r. apply Permutation_refl.
      + apply Ok_inj in H as <-. eapply settles_weaken; [exact S1 | auto].
      + eapply settles_trans; [exact S1 | eapply give_reply_settles; exact H | auto |].
        rewrite app_nil_r. apply Permutation_refl.
    - destruct (sm_reply s) eqn:Er; try discriminate H;
        apply (give_reply_settles a) in H; unfold uncaught, owed; rewrite Er;
        destruct (bytes_eqb a caller) eqn:Ea;
        [ apply bytes_eqb_eq in Ea; destruct H as (n & L & _); exists n; split; [exact L |];
          intros _ Hc; discriminate (Hc Ea)
        | eapply settles_weaken; [exact H | auto]
        | apply bytes_eqb_eq in Ea; destruct H as (n & L & _); exists n; split; [exact L |];
          intros _ Hc; discriminate (Hc Ea)
        | eapply settles_weaken; [exact H | auto] ].
    - destruct (sm_reply s) eqn:Er; try discriminate H;
        apply (give_reply_settles a) in H; unfold uncaught, owed; rewrite Er;
        destruct (bytes_eqb a caller) eqn:Ea;
        [ apply bytes_eqb_eq in Ea; destruct H as (n & L & _); exists n; split; [exact L |];
          intros _ Hc; discriminate (Hc Ea)
        | eapply settles_weaken; [exact H | auto]
        | apply bytes_eqb_eq in Ea; destruct H as (n & L & _); exists n; split; [exact L |];
          intros _ Hc; discriminate (Hc Ea)
        | eapply settles_weaken; [exact H | auto] ].
  Qed.
End Settle.

Lemma exec_settles C k : rec_settles (exec C k).
Proof.
  induction k as [| k IH]; intros a caller l w w' H; [discriminate H |].
  cbn [exec] in H. destruct l as [| s l].
  - apply Ok_inj in H as <-. exists []. split; [symmetry; apply app_nil_r |].
    intros _ _. unfold owed. destruct (bytes_eqb a caller); apply Permutation_refl.
  - apply bind_Ok_inv in H as (w1 & H1 & H).
    eapply settles_trans.
    + eapply run_sub_settles; [exact IH | exact H1].
    + eapply IH; exact H.
    + cbn [forallb]. intros Hc. split; intros Ha; specialize (Hc Ha);
        apply andb_true_iff in Hc; apply Hc.
    + unfold owed. destruct (bytes_eqb a caller); apply Permutation_refl.
Qed.

Lemma tx_settles C k t w w' a :
  ch_account C a = false -> tx_run C k t w = Ok w' -> settles w w' a True [].
Proof.
  intros Ha H.
  assert (Hne : forall s m, ch_account C s = true -> owed a s m = []).
  { intros s m Hs. unfold owed. destruct (bytes_eqb a s) eqn:E; [| reflexivity].
    apply bytes_eqb_eq in E. subst s. congruence. }
  destruct t; unfold tx_run in H.
  - apply bind_Ok_inv in H as (u & H1 & H). apply ensure_Ok_inv in H1.
    apply bind_Ok_inv in H as ([w1 rr] & H2 & H). apply Ok_inj in H as <-.
    eapply perform_settles in H2; [| apply exec_settles]. rewrite (Hne _ _ H1) in H2. exact H2.
  - apply bind_Ok_inv in H as (u & H1 & H). apply ensure_Ok_inv in H1.
    apply bind_Ok_inv in H as ([w1 rr] & H2 & H). apply Ok_inj in H as <-.
    eapply perform_settles in H2; [| apply exec_settles]. rewrite (Hne _ _ H1) in H2. exact H2.
  - apply bind_Ok_inv in H as (u & H1 & H). apply ensure_Ok_inv in H1.
    apply bind_Ok_inv in H as ([w1 rr] & H2 & H). apply Ok_inj in H as <-.
    eapply deploy_settles in H2; [| apply exec_settles]. exact H2.
  - apply bind_Ok_inv in H as (u & H1 & H). apply ensure_Ok_inv in H1.
    unfold deploy_ext in H.
    destruct (om_get (ch_addr C (w_next w)) (w_inst w)) eqn:E; [discriminate H |].
    apply bind_Ok_inv in H as (w1 & H2 & H). apply Ok_inj in H as <-.
    apply move_coins_same in H2 as (_ & L1 & _).
    exists [LNewX (ch_addr C (w_next w)) (mkInfo sender (norm_coins funds)) st].
    split; [cbn [w_log add_log set_inst]; rewrite L1; reflexivity |].
    intros _ _. apply Permutation_refl.
  - apply bind_Ok_inv in H as (u & H1 & H). apply Ok_inj in H as <-.
    exists []. split; [symmetry; apply app_nil_r |]. intros _ _. apply Permutation_refl.
Qed.

Lemma run_settles C a l : ch_account C a = false ->
  forall w, settles w (chain_run C w l) a True [].
Proof.
  intros Ha. induction l as [| t l IH]; intros w.
  - exists []. split; [symmetry; apply app_nil_r |]. intros _ _. apply Permutation_refl.
  - cbn [chain_run fold_left]. apply (settles_trans w (tx_step C w t) _ a True True True [] [] []); [| apply IH | auto | apply Permutation_refl].
    unfold tx_step. destruct (tx_run C (fst t) (snd t) w) eqn:E.
    + eapply tx_settles; eauto.
    + exists []. split; [symmetry; apply app_nil_r |]. intros _ _. apply Permutation_refl.
    + exists []. split; [symmetry; apply app_nil_r |]. intros _ _. apply Permutation_refl.
Qed.

(** ** The contracts of /repo never ask to survive a failing submessage *)
Lemma plain_uncaught l : forallb uncaught (map (fun m => mkSub m RpNever) l) = true.
Proof. induction l; [reflexivity | exact IHl]. Qed.

Lemma apply_uncaught A ev st st' r :
  c_apply A ev st = Ok (st', r) -> forallb uncaught (r_msgs r) = true.
Proof.
  intros H. destruct ev as [e i m Q|id rr].
  - cbn [c_apply] in H. unfold c_execute, lift in H.
    destruct st; inv_all; unfold_execs; destruct m; try discriminate; inv_all;
      unfold_helpers; inv_all; split_matches;
      first [ reflexivity | apply plain_uncaught ].
  - destruct st; cbn [c_apply c_reply] in H; unfold lift in H; try discriminate;
      unfold_helpers; inv_all; split_matches; first [ reflexivity | apply plain_uncaught ].
Qed.

Lemma instantiate_uncaught A q e i m st r :
  c_instantiate A q e i m = Ok (st, r) -> forallb uncaught (r_msgs r) = true.
Proof.
  intros H. unfold c_instantiate, lift in H. destruct m;
  unfold mb_instantiate, va_instantiate, ms_instantiate, ag_instantiate, ri_instantiate,
    pi_instantiate, mk_instantiate, ah_instantiate, ph_instantiate, rh_instantiate,
    cu_instantiate, fb_instantiate, fe_instantiate, or_instantiate, gp_instantiate,
    wn_instantiate, wc_instantiate in H; inv_all; split_matches;
    first [ reflexivity | apply plain_uncaught | destruct md; reflexivity].
Qed.

Lemma lives_calm A st h st' :
  lives A st h st' -> Forall (fun p => forallb uncaught (r_msgs (snd p)) = true) h.
Proof.
  induction 1 as [| h st1 ev st2 r _ IH H]; [constructor |].
  apply Forall_app. split; [exact IH |]. constructor; [| constructor].
  eapply apply_uncaught; exact H.
Qed.

Lemma contract_calm C w a st : reachable C w -> contract_at w a st -> calm a (w_log w).
Proof.
  intros Hr Hc. destruct (contract_known C w a st Hr Hc) as (e & i & q & m & r & st0 & B & _ & Hi & L).
  apply lives_calm in L. apply instantiate_uncaught in Hi.
  unfold calm. apply Forall_forall. intros x Hx. unfold calm_entry.
  destruct x as [c m0 | b e0 i0 q0 m0 r0 | b i0 s0 | b ev r0]; try exact I; intros <-.
  - assert (Hin : In (e0, i0, q0, m0, r0) (births_at a (w_log w))).
    { unfold births_at. apply in_flat_map. exists (LNew a e0 i0 q0 m0 r0). split; [exact Hx |].
      rewrite bytes_eqb_refl. left. reflexivity. }
    rewrite B in Hin. destruct Hin as [E | []]. inversion E; subst. exact Hi.
  - rewrite Forall_forall in L. apply (L (ev, r0)). unfold answers_at. apply in_flat_map.
    exists (LCall a ev r0). split; [exact Hx |]. rewrite bytes_eqb_refl. left. reflexivity.
Qed.

(** a contract's messages: what was carried out is what was asked for *)
Lemma messages_settled C w a st :
  chain_ok C -> reachable C w -> contract_at w a st ->
  Permutation (done_for a (w_log w)) (asked_by a (w_log w)).
Proof.
  intros HC Hr Hc. pose proof (contract_calm C w a st Hr Hc) as K.
  assert (Ha : ch_account C a = false).
  { destruct (inst_addr C w a Hr) as [n ->]; [unfold contract_at in Hc; congruence | apply HC]. }
  destruct Hr as (bank & l & Hs & ->).
  destruct (run_settles C a l Ha (genesis bank)) as (new & L & P).
  cbn [genesis w_log app] in L. rewrite L in *. rewrite (P K I), app_nil_r. apply Permutation_refl.
Qed.

(** ** A contract's coins leave only with the messages it returned *)
Notation summ := (total (X:=cmsg)).

Lemma summ_perm (f : cmsg -> N) l1 l2 : Permutation l1 l2 -> summ f l1 = summ f l2.
Proof.
  unfold total. induction 1; cbn [fold_right]; lia.
Qed.

Lemma out_one a d x :
  (match x with LNew _ _ i _ _ _ | LNewX _ i _ => a = i_sender i -> i_funds i = [] | _ => True end) ->
  entry_out a d x = summ (msg_out d) (done_for a [x]).
Proof.
  intros H. unfold done_for, total. destruct x as [c m | b e i q m r | b i st | b ev r];
    cbn [entry_out flat_map app]; try reflexivity.
  - destruct (bytes_eqb a c); cbn [app fold_right]; lia.
  - destruct (bytes_eqb a (i_sender i)) eqn:E; [| reflexivity].
    apply bytes_eqb_eq in E. rewrite (H E). reflexivity.
  - destruct (bytes_eqb a (i_sender i)) eqn:E; [| reflexivity].
    apply bytes_eqb_eq in E. rewrite (H E). reflexivity.
Qed.

Lemma outflow_done_step C w w' a d :
  ch_account C a = false -> astep C w w' ->
  outflow a d (w_log w) = summ (msg_out d) (done_for a (w_log w)) ->
  outflow a d (w_log w') = summ (msg_out d) (done_for a (w_log w')).
Proof.
  intros Ha H Hc. unfold outflow in *.
  destruct H; subst;
    try match goal with
    | M : move_coins _ _ _ _ = Ok _ |- _ => apply move_coins_same in M as (_ & L1 & _)
    end;
    cbn [w_log add_log set_inst set_bank set_admin set_height bump] in *;
    try rewrite L1; rewrite ?done_for_app, ?total_app, ?total_one, Hc;
    try reflexivity;
    rewrite ?out_one; try reflexivity; try exact I; cbn [i_sender i_funds]; intros E;
    try reflexivity; congruence.
Qed.

Lemma outflow_done C w a d :
  ch_account C a = false -> reachable C w ->
  outflow a d (w_log w) = summ (msg_out d) (done_for a (w_log w)).
Proof.
  intros Ha H. apply reachable_steps in H as (bank & _ & H).
  eapply (asteps_inv C (fun w => outflow a d (w_log w) = summ (msg_out d) (done_for a (w_log w))));
    [| exact H | reflexivity].
  intros; eapply outflow_done_step; eauto.
Qed.

Lemma contract_account C w a st : chain_ok C -> reachable C w -> contract_at w a st -> ch_account C a = false.
Proof.
  intros HC Hr Hc. destruct (inst_addr C w a Hr) as [n ->];
    [unfold contract_at in Hc; congruence | apply HC].
Qed.

Lemma contract_money C bank l w a st d :
  chain_ok C -> om_sorted bank -> w = chain_run C (genesis bank) l -> contract_at w a st ->
  balance w a d + summ (msg_out d) (asked_by a (w_log w)) = bal bank a d + inflow a d (w_log w).
Proof.
  intros HC Hs Hw Hc.
  assert (Hr : reachable C w) by (exists bank, l; auto).
  pose proof (contract_account C w a st HC Hr Hc) as Ha.
  rewrite <- (summ_perm _ _ _ (messages_settled C w a st HC Hr Hc)).
  rewrite <- (outflow_done C w a d Ha Hr).
  assert (M : money bank w).
  { apply money_reachable with C; [exact Hs |]. rewrite Hw. apply chain_run_steps. }
  apply M.
Qed.

Lemma asked_split a l :
  Permutation (asked_by a l)
    (flat_map (fun b => map sm_msg (r_msgs (snd b))) (births_at a l) ++
     flat_map (fun p => map sm_msg (r_msgs (snd p))) (answers_at a l)).
Proof.
  induction l as [| x l IH]; [apply Permutation_refl |].
  unfold asked_by, births_at, answers_at in *. cbn [flat_map].
  destruct x as [c m | b e i q m r | b i st | b ev r]; cbn [app]; try exact IH.
  - destruct (bytes_eqb a b); cbn [app flat_map snd]; [| exact IH].
    rewrite <- app_assoc. apply Permutation_app_head. exact IH.
  - destruct (bytes_eqb a b); cbn [app flat_map snd]; [| exact IH].
    rewrite (Permutation_app_head (map sm_msg (r_msgs r)) IH).
    rewrite !app_assoc. apply Permutation_app_tail. apply Permutation_app_comm.
Qed.

(** ** Who mints and burns *)
Definition factory (w : world) : Prop :=
  (forall d a, om_get d (w_admin w) = Some a -> exists sub, d = factory_denom a sub) /\
  (forall c s n d, In (LDo c (CMint s n d)) (w_log w) \/ In (LDo c (CBurn s n d)) (w_log w) ->
     s = c /\ n <> 0 /\ exists sub, d = factory_denom c sub).

Definition minting (x : entry) : bool :=
  match x with LDo _ (CMint _ _ _) | LDo _ (CBurn _ _ _) => true | _ => false end.

Lemma not_minting_In x c s n d l :
  minting x = false ->
  In (LDo c (CMint s n d)) (l ++ [x]) \/ In (LDo c (CBurn s n d)) (l ++ [x]) ->
  In (LDo c (CMint s n d)) l \/ In (LDo c (CBurn s n d)) l.
Proof.
  intros Hx. rewrite !in_app_iff. cbn [In].
  intros [[H | [H | []]] | [H | [H | []]]]; auto; subst x; discriminate Hx.
Qed.

Lemma factory_step C w w' : astep C w w' -> factory w -> factory w'.
Proof.
  intros H [F1 F2]. unfold factory.
  destruct H; subst;
    try match goal with
    | M : move_coins _ _ _ _ = Ok _ |- _ => apply move_coins_same in M as (_ & L1 & A1 & _)
    end;
    cbn [w_log w_admin add_log set_inst set_bank set_admin set_height bump] in *;
    try rewrite L1; try rewrite A1.
  all: try (split; [exact F1 |]; intros c0 s0 n0 d0 Hin;
            repeat (apply not_minting_In in Hin; [| reflexivity]);
            exact (F2 c0 s0 n0 d0 Hin)).
  - split.
    + intros d0 a0. rewrite om_get_set. destruct (keqb d0 _) eqn:E; [| apply F1].
      apply keqb_eq in E. intros G. apply Some_inj in G. subst. eauto.
    + intros c0 s0 n0 d0 Hin. apply not_minting_In in Hin; [| reflexivity].
      exact (F2 c0 s0 n0 d0 Hin).
  - split; [exact F1 |]. intros c0 s0 n0 d0 Hin. rewrite !in_app_iff in Hin. cbn [In] in Hin.
    destruct Hin as [[Hin | [Hin | []]] | [Hin | [Hin | []]]]; try discriminate.
    + apply F2. auto.
    + injection Hin as <- <- <- <-. repeat split; [assumption |]. apply F1. assumption.
    + apply F2. auto.
  - split; [exact F1 |]. intros c0 s0 n0 d0 Hin. rewrite !in_app_iff in Hin. cbn [In] in Hin.
    destruct Hin as [[Hin | [Hin | []]] | [Hin | [Hin | []]]]; try discriminate.
    + apply F2. auto.
    + apply F2. auto.
    + injection Hin as <- <- <- <-. repeat split; [assumption |]. apply F1. assumption.
Qed.

Lemma factory_reachable C w : reachable C w -> factory w.
Proof.
  intros H. apply reachable_steps in H as (bank & _ & H).
  eapply (asteps_inv C factory); [| exact H | split; [discriminate | intros c s0 n d [[] | []]]].
  intros; eapply factory_step; eauto.
Qed.

(** one transaction, from any state *)
Lemma tx_money C k t w w' :
  om_sorted (w_bank w) -> tx_run C k t w = Ok w' ->
  exists new, w_log w' = w_log w ++ new /\
    forall d, supply w' d + burned d new = supply w d + minted d new.
Proof.
  intros Hs H. apply tx_steps in H.
  assert (G : om_sorted (w_bank w') /\ exists new, w_log w' = w_log w ++ new /\
    forall d, supply w' d + burned d new = supply w d + minted d new); [| apply G].
  refine (asteps_inv C (fun x => om_sorted (w_bank x) /\ exists new, w_log x = w_log w ++ new /\
    forall d, supply x d + burned d new = supply w d + minted d new) _ w w' H _).
  2: { split; [exact Hs |]. exists []. split; [symmetry; apply app_nil_r | reflexivity]. }
  clear H w'. intros x x' [Hx (new & L & P)] Hst.
  destruct Hst; subst;
    try match goal with
    | M : move_coins _ _ _ _ = Ok _ |- _ =>
        pose proof M as M2; apply move_coins_spec in M2 as (S1 & P1 & B1); [| exact Hx];
        apply move_coins_same in M as (_ & L1 & _)
    end;
    unfold supply in *;
    cbn [w_bank w_log add_log set_inst set_bank set_admin set_height bump] in *.
  all: try rewrite L1; try rewrite L.
  all: try (split; [assumption |]; eexists; split;
    [ rewrite <- ?app_assoc; reflexivity
    | intros d'; specialize (P d'); try specialize (P1 d'); money_log; lia ]).
  - destruct (credit_spec caller d n (w_bank w0) Hx) as (S1 & P1 & _).
    split; [exact S1 |]. eexists; split; [rewrite <- ?app_assoc; reflexivity |].
    intros d'. specialize (P d'). specialize (P1 d'). money_log. lia.
  - match goal with D : debit _ _ _ _ = Ok _ |- _ =>
      destruct (debit_spec _ _ _ _ _ Hx D) as (S1 & P1 & _) end.
    split; [exact S1 |]. eexists; split; [rewrite <- ?app_assoc; reflexivity |].
    intros d'. specialize (P d'). specialize (P1 d'). money_log. lia.
Qed.

Lemma failed_tx C w t : (forall w', tx_run C (fst t) (snd t) w <> Ok w') -> tx_step C w t = w.
Proof.
  intros H. unfold tx_step. destruct (tx_run C (fst t) (snd t) w) as [w' | |] eqn:E; try reflexivity.
  now destruct (H w').
Qed.

Lemma history_money C bank l :
  om_sorted bank ->
  let w := chain_run C (genesis bank) l in
  (forall d, supply w d + burned d (w_log w) = supply_of d bank + minted d (w_log w)) /\
  (forall a d, balance w a d + outflow a d (w_log w) = bal bank a d + inflow a d (w_log w)).
Proof.
  intros Hs w. apply (money_reachable C bank w Hs). apply chain_run_steps.
Qed.

Lemma only_creators C w c x n d :
  reachable C w ->
  In (LDo c (CMint x n d)) (w_log w) \/ In (LDo c (CBurn x n d)) (w_log w) ->
  x = c /\ n <> 0 /\ exists sub, d = factory_denom c sub.
Proof. intros Hr. apply (proj2 (factory_reachable C w Hr)). Qed.

Lemma chain_history C w a st :
  reachable C w -> contract_at w a st ->
  exists e i q m r st0,
    births_at a (w_log w) = [(e, i, q, m, r)] /\ e_contract e = a /\
    c_instantiate (ch_api C) q e i m = Ok (st0, r) /\
    lives (ch_api C) st0 (answers_at a (w_log w)) st /\
    st = c_run (ch_api C) st0 (events_at a (w_log w)).
Proof.
  intros Hr Hc. destruct (contract_known C w a st Hr Hc) as (e & i & q & m & r & st0 & B & He & Hi & L).
  exists e, i, q, m, r, st0. repeat split; auto.
  symmetry. exact (lives_run _ _ _ _ L).
Qed.

(** ** Where an accepted call happened *)
Lemma astep_log C w w' : astep C w w' ->
  w_log w' = w_log w \/ exists x, w_log w' = w_log w ++ [x] \/ exists c m, w_log w' = w_log w ++ [LDo c m; x].
Proof.
  intros H. destruct H; subst;
    try match goal with
    | M : move_coins _ _ _ _ = Ok _ |- _ => apply move_coins_same in M as (_ & L1 & _)
    end;
    cbn [w_log add_log set_inst set_bank set_admin set_height bump] in *;
    try rewrite L1; rewrite <- ?app_assoc; cbn [app]; eauto 6.
Qed.

Lemma split_last {X} (l1 : list X) x l2 l y :
  l1 ++ x :: l2 = l ++ [y] ->
  (l2 = [] /\ l1 = l /\ x = y) \/ exists l3, l2 = l3 ++ [y] /\ l = l1 ++ x :: l3.
Proof.
  destruct l2 as [| z l2] using rev_ind; intros H.
  - apply app_inj_tail in H. left. tauto.
  - right. exists l2. rewrite app_comm_cons, app_assoc in H. apply app_inj_tail in H as [-> ->]. auto.
Qed.

Lemma call_point C w0 w l1 a ev r l2 :
  asteps C w0 w -> w_log w0 = [] -> w_log w = l1 ++ LCall a ev r :: l2 ->
  exists u v, asteps C w0 u /\ astep C u v /\ asteps C v w /\
    w_log v = l1 ++ [LCall a ev r] /\ w_log u <> w_log v.
Proof.
  intros H H0. revert l1 a ev r l2. apply clos_rt_rtn1 in H.
  induction H as [| w w' Hst Hrt IH]; intros l1 a ev r l2 E.
  - rewrite H0 in E. destruct l1; discriminate.
  - assert (Hold : forall l3, w_log w = l1 ++ LCall a ev r :: l3 ->
      exists u v, asteps C w0 u /\ astep C u v /\ asteps C v w' /\
        w_log v = l1 ++ [LCall a ev r] /\ w_log u <> w_log v).
    { intros l3 El. destruct (IH _ _ _ _ _ El) as (u & v & Hu & Huv & Hv & Lv & Ne).
      exists u, v. repeat split; auto. eapply asteps_trans; [exact Hv | apply asteps_one; exact Hst]. }
    assert (Hnew : l2 = [] -> w_log w <> w_log w' ->
      exists u v, asteps C w0 u /\ astep C u v /\ asteps C v w' /\
        w_log v = l1 ++ [LCall a ev r] /\ w_log u <> w_log v).
    { intros -> Ne. exists w, w'. repeat split; auto; [| apply asteps_refl].
      apply clos_rtn1_rt. exact Hrt. }
    assert (Hlen : length (w_log w) <> length (w_log w') -> w_log w <> w_log w') by (intros G1 G2; now rewrite G2 in G1).
    destruct (astep_log _ _ _ Hst) as [L | [x [L | (c & m & L)]]].
    + rewrite L in E. eauto.
    + pose proof E as E'. rewrite L in E'.
      symmetry in E'. apply split_last in E' as [(E1 & _) | (l3 & E1 & E2)]; [| eauto].
      apply Hnew; [exact E1 |]. apply Hlen. rewrite L, app_length. cbn [length]. lia.
    + pose proof E as E'. rewrite L in E'.
      symmetry in E'. change [LDo c m; x] with ([LDo c m] ++ [x]) in E'. rewrite app_assoc in E'.
      apply split_last in E' as [(E1 & _) | (l3 & E1 & E2)].
      * apply Hnew; [exact E1 |]. apply Hlen. rewrite L, app_length. cbn [length]. lia.
      * symmetry in E2. apply split_last in E2 as [(_ & _ & E2) | (l4 & E3 & E4)]; [discriminate | eauto].
Qed.

(** an accepted call in the log: the moment, the caller, what was seen *)
Lemma call_made C bank w l1 a e i m Q r l2 :
  asteps C (genesis bank) w -> w_log w = l1 ++ LCall a (EvExec e i m Q) r :: l2 ->
  exists u w1 k f,
    asteps C (genesis bank) u /\ asteps C u w /\ able C u (i_sender i) /\
    move_coins (i_sender i) a f (add_log (LDo (i_sender i) (CExec a m f)) u) = Ok w1 /\
    l1 = w_log u ++ [LDo (i_sender i) (CExec a m f)] /\ w_inst w1 = w_inst u /\
    e = mkEnv a (w_height w1) /\ i_funds i = norm_coins f /\
    ((exists st st', contract_at u a st /\ Q = (fun s => wq C k (set_inst a (IC s) w1)) /\
        c_execute (ch_api C) Q e i m st = Ok (st', r) /\
        asteps C (add_log (LCall a (EvExec e i m Q) r) (set_inst a (IC st') w1)) w) \/
     (exists st st', om_get a (w_inst u) = Some (IX st) /\
        asteps C (add_log (LCall a (EvExec e i m Q) r) (set_inst a (IX st') w1)) w)).
Proof.
  intros Hr Hl.
  destruct (call_point C _ w l1 a _ r l2 Hr eq_refl Hl) as (u & v & Hu & Huv & Hv & Lv & Ne).
  assert (Huw : asteps C u w) by (eapply asteps_trans; [apply asteps_one; exact Huv | exact Hv]).
  destruct Huv as [k caller a0 m0 f u w1 st st' r0 e0 i0 Q0 Hab Hmv Hc He Hi HQ Hex
    | k caller a0 m0 f u w1 st st' r0 e0 i0 Q0 Hab Hmv Hc He Hi HQ Hex | | | | | | | | | | |].
  - pose proof Hmv as Hmv2. apply move_coins_same in Hmv2 as (I1 & L1 & _).
    cbn [w_log add_log set_inst w_inst] in *.
    apply app_inj_tail in Lv as [Lv1 Lv2]. inversion Lv2. subst a0 e0 i0 m0 Q0 r0. subst i.
    exists u, w1, k, f. cbn [i_sender i_funds]. unfold contract_at in *. rewrite I1 in Hc.
    repeat split; auto; [rewrite <- Lv1; exact L1 |]. left. exists st, st'. subst e Q. auto.
  - pose proof Hmv as Hmv2. apply move_coins_same in Hmv2 as (I1 & L1 & _).
    cbn [w_log add_log set_inst w_inst] in *.
    apply app_inj_tail in Lv as [Lv1 Lv2]. inversion Lv2. subst a0 e0 i0 m0 Q0 r0. subst i.
    exists u, w1, k, f. cbn [i_sender i_funds]. rewrite I1 in Hc.
    repeat split; auto; [rewrite <- Lv1; exact L1 |]. right. exists st, st'. subst e Q. auto.
  - cbn [w_log add_log set_inst] in Lv. apply app_inj_tail in Lv as [_ Lv]. discriminate Lv.
  - cbn [w_log add_log set_inst] in Lv. apply app_inj_tail in Lv as [_ Lv]. discriminate Lv.
  - match goal with M : move_coins _ _ _ _ = Ok _ |- _ => apply move_coins_same in M as (_ & L1 & _) end.
    rewrite L1 in Lv. cbn [w_log add_log] in Lv. apply app_inj_tail in Lv as [_ Lv]. discriminate Lv.
  - cbn [w_log add_log set_admin] in Lv. apply app_inj_tail in Lv as [_ Lv]. discriminate Lv.
  - cbn [w_log add_log] in Lv. apply app_inj_tail in Lv as [_ Lv]. discriminate Lv.
  - cbn [w_log add_log set_bank] in Lv. apply app_inj_tail in Lv as [_ Lv]. discriminate Lv.
  - cbn [w_log add_log set_bank] in Lv. apply app_inj_tail in Lv as [_ Lv]. discriminate Lv.
  - cbn [w_log add_log set_inst] in Lv. apply app_inj_tail in Lv as [_ Lv]. discriminate Lv.
  - cbn [w_log add_log set_inst] in Lv. apply app_inj_tail in Lv as [_ Lv]. discriminate Lv.
  - cbn [w_log add_log set_inst] in Lv. apply app_inj_tail in Lv as [_ Lv]. discriminate Lv.
  - now contradiction Ne.
Qed.

(** ** What lives at an address stays what it is *)
Definition same_kind (x y : inst) : Prop :=
  match x, y with
  | IC s1, IC s2 => kind s1 = kind s2
  | IX _, IX _ => True
  | _, _ => False
  end.

Lemma same_kind_refl x : same_kind x x.
Proof. destruct x; cbn; auto. Qed.
Lemma same_kind_trans x y z : same_kind x y -> same_kind y z -> same_kind x z.
Proof. destruct x, y, z; cbn; try tauto. congruence. Qed.

Lemma astep_kind C w w' a x : astep C w w' -> om_get a (w_inst w) = Some x ->
  exists y, om_get a (w_inst w') = Some y /\ same_kind x y.
Proof.
  intros H Hx. destruct H; subst;
    try match goal with
    | M : move_coins _ _ _ _ = Ok _ |- _ => apply move_coins_same in M as (I1 & _)
    end;
    cbn [w_inst add_log set_inst set_bank set_admin set_height bump] in *;
    unfold contract_at in *;
    try rewrite om_get_set; try rewrite I1 in *;
    try (exists x; split; [exact Hx | apply same_kind_refl]).
  all: destruct (keqb a _) eqn:E; [| exists x; split; [exact Hx | apply same_kind_refl]].
  all: apply keqb_eq in E; subst a.
  all: try congruence.
  - eexists. split; [reflexivity |].
    match goal with G : om_get _ _ = Some (IC _) |- _ => rewrite G in Hx end. injection Hx as <-.
    cbn. symmetry. eapply (apply_kind (ch_api C) (EvExec _ _ _ _)). cbn [c_apply]. eassumption.
  - eexists. split; [reflexivity |].
    match goal with G : om_get _ _ = Some (IX _) |- _ => rewrite G in Hx end. injection Hx as <-.
    exact I.
  - eexists. split; [reflexivity |].
    match goal with G : om_get _ _ = Some (IC _) |- _ => rewrite G in Hx end. injection Hx as <-.
    cbn. symmetry. eapply (apply_kind (ch_api C) (EvReply _ _)). cbn [c_apply]. eassumption.
  - eexists. split; [reflexivity |].
    match goal with G : om_get _ _ = Some (IX _) |- _ => rewrite G in Hx end. injection Hx as <-.
    exact I.
Qed.

Lemma asteps_kind C w w' a x : asteps C w w' -> om_get a (w_inst w) = Some x ->
  exists y, om_get a (w_inst w') = Some y /\ same_kind x y.
Proof.
  intros H. revert x. induction H as [w w' H | w | w1 w2 w3 _ IH1 _ IH2]; intros x Hx.
  - eapply astep_kind; eauto.
  - exists x. split; [exact Hx | apply same_kind_refl].
  - destruct (IH1 _ Hx) as (y & Hy & K1). destruct (IH2 _ Hy) as (z & Hz & K2).
    exists z. split; [exact Hz | eapply same_kind_trans; eauto].
Qed.

Lemma known_asteps C bank w a : asteps C (genesis bank) w -> known (ch_api C) w a.
Proof.
  intros H. eapply (asteps_inv C (fun w => known (ch_api C) w a)); [| exact H |].
  - intros; eapply known_step; eauto.
  - unfold known. cbn. auto.
Qed.
