(** * People's money (C101). *)
From Coq Require Import List NArith Bool Lia Permutation Relations.
From Verif Require Import Base BaseFacts OMap Hex Coins CoinsFacts Crypto Message Bech32 Metadata Chain Ownable Router Contracts
  Mailbox Va Isms Hooks Igp Warp Cw20 Spec SpecModules StepFacts World SpecWorld WorldFacts WorldRoute SpecBridge SpecTransfer
  WorldToken SpecStranger StrangerFacts SpecStray StrayFacts FeesFacts SpecPurse.
Import ListNotations.

(** ** Coins *)
(** somebody who is neither an account nor a contract, now or later, of the chain [C] *)
Definition nobody (C : chain) (p : addr) (w : world) : Prop :=
  ch_account C p = false /\ (forall n, p <> ch_addr C n) /\ om_get p (w_inst w) = None /\ om_sorted (w_bank w).

Lemma nobody_unable C p w : nobody C p w -> ~ able C w p.
Proof. intros (H1 & _ & H3 & _) [H | H]; congruence. Qed.

Lemma moved_others p from to f w w' d : om_sorted (w_bank w) -> move_coins from to f w = Ok w' ->
  om_sorted (w_bank w') /\ balance w p d <= balance w' p d + (if bytes_eqb p from then amount_of d f else 0).
Proof.
  intros S M. apply move_coins_spec in M as (S1 & _ & B); [| exact S]. split; [exact S1 |].
  specialize (B p d). lia.
Qed.

Lemma nobody_step C p w w' d : astep C w w' -> nobody C p w ->
  nobody C p w' /\ balance w p d <= balance w' p d.
Proof.
  intros H N. pose proof (nobody_unable C p w N) as U. destruct N as (N1 & N2 & N3 & N4).
  assert (K : forall c, able C w c -> bytes_eqb p c = false).
  { intros c A. apply bytes_eqb_neq. intros <-. exact (U A). }
  assert (K2 : forall c, ch_account C c = true -> bytes_eqb p c = false) by (intros c A; apply K; left; exact A).
  assert (G : forall w1 a x, w_inst w1 = w_inst w -> om_get a (w_inst w) <> None \/ a = ch_addr C (w_next w) ->
    om_get p (om_set a x (w_inst w1)) = None).
  { intros w1 a x -> [Ha | ->]; rewrite om_get_set.
    - destruct (keqb p a) eqn:E; [apply keqb_eq in E; subst a; contradiction | exact N3].
    - destruct (keqb p (ch_addr C (w_next w))) eqn:E; [apply keqb_eq in E; destruct (N2 _ E) | exact N3]. }
  unfold nobody. destruct H; subst;
    try match goal with M : move_coins _ _ _ _ = Ok _ |- _ =>
      pose proof M as M2; apply (moved_others p _ _ _ _ _ d) in M2 as [S1 B1]; [| exact N4];
      apply move_coins_same in M as (I1 & _ & _) end;
    unfold balance in *;
    cbn [w_inst w_bank add_log set_inst set_bank set_admin set_height bump] in *;
    try match goal with A : able _ _ ?c, B : context [bytes_eqb p ?c] |- _ => rewrite (K c A) in B end;
    try match goal with A : ch_account _ ?c = true, B : context [bytes_eqb p ?c] |- _ => rewrite (K2 c A) in B end.
  - split; [| lia]. repeat split; auto. apply G; [exact I1 |]. left. unfold contract_at in *. congruence.
  - split; [| lia]. repeat split; auto. apply G; [exact I1 |]. left. congruence.
  - split; [| lia]. repeat split; auto. apply G; [reflexivity |]. left. unfold contract_at in *. congruence.
  - split; [| lia]. repeat split; auto. apply G; [reflexivity |]. left. congruence.
  - split; [| lia]. repeat split; auto. congruence.
  - split; [| lia]. auto.
  - split; [| lia]. auto.
  - destruct (credit_spec caller d0 n (w_bank w) N4) as (S1 & _ & B1). split; [auto |]. rewrite B1. lia.
  - destruct (debit_spec _ _ _ _ _ N4 H2) as (S1 & _ & B1). split; [auto |]. specialize (B1 p d). rewrite (K _ H) in B1. lia.
  - split; [| lia]. repeat split; auto.
  - split; [| lia]. repeat split; auto.
  - split; [| lia]. repeat split; auto.
  - split; [| lia]. auto.
Qed.

Lemma nobody_steps C p w w' d : asteps C w w' -> nobody C p w ->
  nobody C p w' /\ balance w p d <= balance w' p d.
Proof.
  intros H N. refine (asteps_inv C (fun x => nobody C p x /\ balance w p d <= balance x p d) _ w w' H _).
  - intros u v [Nu B] S. destruct (nobody_step C p u v d S Nu) as [Nv B']. split; [exact Nv | lia].
  - split; [exact N | lia].
Qed.

(** the chain on which nobody holds an account *)
Definition vacant (C : chain) : chain := mkChain (ch_api C) (ch_ext C) (ch_addr C) (fun _ => false).
Lemma exec_vacant C k : exec C k = exec (vacant C) k.
Proof. destruct C as [A X ad acc]. exact (exec_accounts A X ad acc (fun _ => false) k). Qed.

Lemma person_nobody C p w : chain_ok C -> reachable C w -> ch_account C p = true -> nobody (vacant C) p w.
Proof.
  intros HC R Hp. assert (Hn : forall n, p <> ch_addr C n) by (intros n ->; rewrite HC in Hp; discriminate Hp).
  split; [reflexivity |]. split; [exact Hn |]. split.
  - destruct (om_get p (w_inst w)) eqn:E; [| reflexivity]. destruct (inst_addr C w p R) as [n X]; [congruence | now destruct (Hn n)].
  - destruct R as (bank & l & Hb & ->). apply (money_reachable C bank _ Hb), chain_run_steps.
Qed.


(** a message of [s], then what the contract called does *)
Lemma exec_after C k p a x l L w w' d : exec C k a l (add_log L (set_inst a x w)) = Ok w' ->
  nobody (vacant C) p w -> p <> a -> balance w p d <= balance w' p d.
Proof.
  intros H (N1 & N2 & N3 & N4) Hp. rewrite exec_vacant in H. apply exec_steps in H; [| apply set_inst_here].
  apply (nobody_steps _ p _ _ d) in H as [_ B].
  - unfold balance in *. cbn [w_bank add_log set_inst] in B. exact B.
  - split; [exact N1 |]. split; [exact N2 |]. cbn [w_inst w_bank add_log set_inst]. split; [| exact N4].
    rewrite om_get_set. destruct (keqb p a) eqn:E; [apply keqb_eq in E; contradiction | exact N3].
Qed.

Lemma tx_spends C k t w w' p d : chain_ok C -> reachable C w -> ch_account C p = true ->
  tx_run C k t w = Ok w' -> balance w p d <= balance w' p d + attached d p t.
Proof.
  intros HC R Hp H. pose proof (person_nobody C p w HC R Hp) as N. pose proof N as (_ & N2 & N3 & N4). cbn [vacant ch_addr] in N2.
  assert (Z : forall w1, om_sorted (w_bank w1) -> w_inst w1 = w_inst w -> nobody (vacant C) p w1).
  { intros w1 S I. split; [reflexivity |]. split; [exact N2 |]. rewrite I. auto. }
  destruct t; unfold tx_run in H; cbn [attached].
  - apply bind_Ok_inv in H as (u & _ & H). apply bind_Ok_inv in H as ([w1 rr] & H & E). apply Ok_inj in E as <-.
    unfold perform in H. apply bind_Ok_inv in H as (w2 & M & H). apply bind_Ok_inv in H as (w3 & H & E).
    apply Ok_inj, pair_equal_spec in E as [<- _].
    pose proof M as M2. apply (moved_others p _ _ _ _ _ d) in M as [S B]; [| exact N4]. apply move_coins_same in M2 as (I & _).
    change (balance (add_log (LDo sender (CExec a m funds)) w) p d) with (balance w p d) in B. cbn [w_inst add_log] in I.
    assert (X : balance w2 p d <= balance w3 p d); [| lia].
    unfold invoke in H. destruct (om_get a (w_inst w2)) as [[st | st] |] eqn:Ea; [| | discriminate H].
    all: apply bind_Ok_inv in H as ([st' r] & _ & H); apply (exec_after C k p _ _ _ _ _ _ d) in H; [exact H | now apply Z |].
    all: intros <-; congruence.
  - apply bind_Ok_inv in H as (u & _ & H). apply bind_Ok_inv in H as ([w1 rr] & H & E). apply Ok_inj in E as <-.
    unfold perform in H. apply bind_Ok_inv in H as (u1 & _ & H). apply bind_Ok_inv in H as (u2 & _ & H).
    apply bind_Ok_inv in H as (w2 & M & E). apply Ok_inj, pair_equal_spec in E as [<- _].
    apply (moved_others p _ _ _ _ _ d) in M as [S B]; [| exact N4]. exact B.
  - apply bind_Ok_inv in H as (u & _ & H). apply bind_Ok_inv in H as ([w1 rr] & H & E). apply Ok_inj in E as <-.
    unfold deploy in H. destruct (om_get (ch_addr C (w_next w)) (w_inst w)) eqn:Ea; [discriminate H |].
    apply bind_Ok_inv in H as (w2 & M & H). apply bind_Ok_inv in H as ([st r] & _ & H).
    apply bind_Ok_inv in H as (w3 & H & E). apply Ok_inj, pair_equal_spec in E as [<- _].
    pose proof M as M2. apply (moved_others p _ _ _ _ _ d) in M as [S B]; [| exact N4]. apply move_coins_same in M2 as (I & _).
    change (balance (bump w) p d) with (balance w p d) in B. cbn [w_inst bump] in I.
    apply (exec_after C k p _ _ _ _ _ _ d) in H; [lia | now apply Z | apply N2].
  - apply bind_Ok_inv in H as (u & _ & H). unfold deploy_ext in H.
    destruct (om_get (ch_addr C (w_next w)) (w_inst w)) eqn:Ea; [discriminate H |].
    apply bind_Ok_inv in H as (w2 & M & E). apply Ok_inj in E as <-.
    apply (moved_others p _ _ _ _ _ d) in M as [S B]; [| exact N4]. exact B.
  - apply bind_Ok_inv in H as (u & _ & E). apply Ok_inj in E as <-. unfold balance. cbn [w_bank set_height]. lia.
Qed.

Lemma coins_spent C w l p d : chain_ok C -> reachable C w -> ch_account C p = true ->
  balance w p d <= balance (chain_run C w l) p d + spent d p l.
Proof.
  intros HC R Hp. revert w R. induction l as [| t l IH]; intros w R; [cbn; lia |].
  assert (R1 : reachable C (tx_step C w t)) by exact (reachable_later C w [t] R).
  specialize (IH _ R1). cbn [chain_run fold_left]. unfold chain_run in IH.
  assert (B : balance w p d <= balance (tx_step C w t) p d + attached d p (snd t)).
  { unfold tx_step. destruct (tx_run C (fst t) (snd t) w) eqn:E; [exact (tx_spends C _ _ w _ p d HC R Hp E) | lia | lia]. }
  unfold spent in *. change (t :: l) with ([t] ++ l). rewrite total_app, total_one. lia.
Qed.

Lemma idle_spent d p l : idle l p -> spent d p l = 0.
Proof.
  intros H. unfold spent. rewrite (total_ext _ (fun _ => 0)); [apply total_zero |]. apply Forall_forall. intros t Ht.
  specialize (H t Ht). destruct (snd t); cbn [attached signer] in *; try reflexivity;
    (destruct (bytes_eqb p sender) eqn:E; [apply bytes_eqb_eq in E; congruence | reflexivity]).
Qed.

(** ** Calls of people *)
Lemma person_log C w p : chain_ok C -> reachable C w -> ch_account C p = true ->
  births_at p (w_log w) = [] /\ answers_at p (w_log w) = [].
Proof.
  intros HC R Hp. pose proof (known_reachable C w p R) as K. unfold known in K.
  destruct (person_nobody C p w HC R Hp) as (_ & _ & E & _). rewrite E in K. exact K.
Qed.

Lemma settled_person C w w' p x new : chain_ok C -> reachable C w' -> ch_account C p = true ->
  settles w w' p True x -> w_log w' = w_log w ++ new -> Permutation (done_for p new) x.
Proof.
  intros HC R Hp (new' & L & P) L'. rewrite L' in L. apply app_inv_head in L. subst new'.
  destruct (person_log C w' p HC R Hp) as [B A]. rewrite L', births_app in B. rewrite L', answers_app in A.
  apply app_eq_nil in B as [_ B]. apply app_eq_nil in A as [_ A].
  rewrite P.
  - rewrite (asked_split p new), B, A. apply Permutation_refl.
  - apply Forall_forall. intros y Hy. unfold calm_entry.
    destruct y as [c m | b e i q m r | b i s | b ev r]; try exact I; intros <-; exfalso.
    + assert (In (e, i, q, m, r) (births_at p new)); [| rewrite B in *; contradiction].
      apply in_flat_map. exists (LNew p e i q m r). split; [exact Hy |]. rewrite bytes_eqb_refl. now left.
    + assert (In (ev, r) (answers_at p new)); [| rewrite A in *; contradiction].
      apply in_flat_map. exists (LCall p ev r). split; [exact Hy |]. rewrite bytes_eqb_refl. now left.
  - exact I.
Qed.

(** what [p] makes the chain do with a transaction *)
Definition signed_msg (p : addr) (t : tx) : list cmsg :=
  match t with
  | TExec s a m f => owed p s [CExec a m f]
  | TSend s to f => owed p s [CBankSend to f]
  | _ => []
  end.
Lemma tx_signed C k t w w' p : tx_run C k t w = Ok w' -> settles w w' p True (signed_msg p t).
Proof.
  intros H. destruct t; unfold tx_run in H; cbn [signed_msg].
  - apply bind_Ok_inv in H as (u & _ & H). apply bind_Ok_inv in H as ([w1 rr] & H & E). apply Ok_inj in E as <-.
    eapply perform_settles in H; [exact H | apply exec_settles].
  - apply bind_Ok_inv in H as (u & _ & H). apply bind_Ok_inv in H as ([w1 rr] & H & E). apply Ok_inj in E as <-.
    eapply perform_settles in H; [exact H | apply exec_settles].
  - apply bind_Ok_inv in H as (u & _ & H). apply bind_Ok_inv in H as ([w1 rr] & H & E). apply Ok_inj in E as <-.
    eapply deploy_settles in H; [exact H | apply exec_settles].
  - apply bind_Ok_inv in H as (u & H1 & H). unfold deploy_ext in H.
    destruct (om_get (ch_addr C (w_next w)) (w_inst w)) eqn:E; [discriminate H |].
    apply bind_Ok_inv in H as (w1 & H2 & H). apply Ok_inj in H as <-. apply move_coins_same in H2 as (_ & L1 & _).
    exists [LNewX (ch_addr C (w_next w)) (mkInfo sender (norm_coins funds)) st].
    split; [cbn [w_log add_log set_inst]; rewrite L1; reflexivity |]. intros _ _. apply Permutation_refl.
  - apply bind_Ok_inv in H as (u & _ & H). apply Ok_inj in H as <-. exists []. split; [symmetry; apply app_nil_r |].
    intros _ _. apply Permutation_refl.
Qed.

Lemma run_signed C l p : forall w, settles w (chain_run C w l) p True [] \/
  exists x, settles w (chain_run C w l) p True x /\ incl x (flat_map (fun t => signed_msg p (snd t)) l).
Proof.
  induction l as [| t l IH]; intros w.
  - left. exists []. split; [symmetry; apply app_nil_r |]. intros _ _. apply Permutation_refl.
  - right. cbn [chain_run fold_left flat_map].
    assert (T : exists x, settles w (tx_step C w t) p True x /\ incl x (signed_msg p (snd t))).
    { unfold tx_step. destruct (tx_run C (fst t) (snd t) w) eqn:E.
      - exists (signed_msg p (snd t)). split; [exact (tx_signed C _ _ _ _ p E) | apply incl_refl].
      - exists []. split; [| intros y []]. exists []. split; [symmetry; apply app_nil_r |]. intros _ _. apply Permutation_refl.
      - exists []. split; [| intros y []]. exists []. split; [symmetry; apply app_nil_r |]. intros _ _. apply Permutation_refl. }
    destruct T as (x & T1 & T2).
    destruct (IH (tx_step C w t)) as [S | (y & S & Hy)].
    + exists (x ++ []). split; [eapply settles_trans; [exact T1 | exact S | auto | apply Permutation_refl] |].
      rewrite app_nil_r. apply incl_appl. exact T2.
    + exists (x ++ y). split; [eapply settles_trans; [exact T1 | exact S | auto | apply Permutation_refl] |].
      apply incl_app; [apply incl_appl; exact T2 | apply incl_appr; exact Hy].
Qed.

Lemma own_calls C w l p new a m f : chain_ok C -> reachable C w -> ch_account C p = true ->
  w_log (chain_run C w l) = w_log w ++ new -> In (LDo p (CExec a m f)) new -> exists k, In (k, TExec p a m f) l.
Proof.
  intros HC R Hp L Hin. assert (R' : reachable C (chain_run C w l)) by (apply reachable_later; exact R).
  assert (X : exists x, settles w (chain_run C w l) p True x /\ incl x (flat_map (fun t => signed_msg p (snd t)) l)).
  { destruct (run_signed C l p w) as [S | S]; [| exact S]. exists []. split; [exact S | intros y []]. }
  destruct X as (x & S & I). pose proof (settled_person C w _ p x new HC R' Hp S L) as P.
  assert (D : In (CExec a m f) (done_for p new)).
  { apply in_flat_map. exists (LDo p (CExec a m f)). split; [exact Hin |]. rewrite bytes_eqb_refl. now left. }
  apply (Permutation_in _ P), I in D. apply in_flat_map in D as ([k t] & D1 & D2). cbn [snd] in D2. exists k.
  destruct t; cbn [signed_msg] in D2; try contradiction D2; unfold owed in D2; destruct (bytes_eqb p sender) eqn:E; try contradiction D2;
    destruct D2 as [D2 | []]; try discriminate D2. injection D2 as -> -> ->. apply bytes_eqb_eq in E. subst sender. exact D1.
Qed.

Lemma seen_call C w l p new a e i m Q r : chain_ok C -> reachable C w -> ch_account C p = true ->
  w_log (chain_run C w l) = w_log w ++ new -> In (EvExec e i m Q, r) (answers_at a new) -> i_sender i = p ->
  exists k f, In (k, TExec p a m f) l.
Proof.
  intros HC R Hp L Hin Hi. assert (S : In (p, a, m, i_funds i) (calls_seen new)).
  { unfold answers_at in Hin. apply in_flat_map in Hin as (y & Hy & Hin). destruct y as [| | | b ev r']; try contradiction Hin.
    destruct (bytes_eqb a b) eqn:E; [| contradiction Hin]. apply bytes_eqb_eq in E. subst b. destruct Hin as [Hin | []].
    apply pair_equal_spec in Hin as [-> ->]. apply in_flat_map. exists (LCall a (EvExec e i m Q) r). split; [exact Hy |]. rewrite Hi. now left. }
  rewrite <- (calls_new C w l new R L) in S. unfold calls_sent in S. apply in_flat_map in S as (y & Hy & S).
  destruct y as [c mm | | | ]; try contradiction S. destruct mm; try contradiction S. destruct S as [S | []].
  injection S as -> -> -> _. destruct (own_calls C w l p new _ _ _ HC R Hp L Hy) as [k Hk]. eauto.
Qed.

(** ** What contracts ask of tokens *)
Definition drawing (p : addr) (m : cmsg) : bool :=
  match m with
  | CExec _ (MCw20TransferFrom o _ _) _ | CExec _ (MCw20BurnFrom o _) _ => bytes_eqb p o
  | _ => false
  end.
Lemma plain_undrawn p l : forallb (fun m => negb (drawing p m)) l = true ->
  forallb (fun s => negb (drawing p (sm_msg s))) (map (fun m => mkSub m RpNever) l) = true.
Proof. intros H. rewrite forallb_forall in *. intros x Hx. apply in_map_iff in Hx as (y & <- & Hy). exact (H y Hy). Qed.

Definition asks_for (p : addr) (ev : event) : bool :=
  match ev with EvExec _ i (MTransferRemote _ _ _ _ _) _ => bytes_eqb p (i_sender i) | _ => false end.

Lemma apply_undrawn A ev st st' r p : c_apply A ev st = Ok (st', r) -> asks_for p ev = false ->
  forallb (fun s => negb (drawing p (sm_msg s))) (r_msgs r) = true.
Proof.
  intros H N. destruct ev as [e i m Q|id rr].
  - cbn [c_apply] in H. unfold c_execute, lift in H.
    destruct st; inv_all; unfold_execs; destruct m; try discriminate; inv_all;
      unfold_helpers; inv_all; split_matches; try reflexivity.
    + cbn [resp r_msgs]. apply plain_undrawn. apply mapM_Ok_Forall2 in Hr1. clear - Hr1.
      induction Hr1 as [| h c l l' E _ IH]; [reflexivity |]. cbn [forallb]. rewrite IH.
      apply bind_Ok_inv in E as (f & _ & E). apply Ok_inj in E as <-. reflexivity.
    + destruct (v1 - v2 =? 0); reflexivity.
    + destruct (v1 - v2 =? 0); reflexivity.
    + destruct (v0 - v1 =? 0); reflexivity.
    + destruct (wp_mode w); reflexivity.
    + destruct (wp_mode w); reflexivity.
    + destruct (wp_mode w); reflexivity.
    + cbn [asks_for] in N. cbn [resp r_msgs map forallb sm_msg drawing]. rewrite N. destruct (wp_mode w); reflexivity.
  - cbn [c_apply] in H. unfold c_reply, lift in H.
    destruct st; try discriminate H; unfold wn_reply, wc_reply in H; inv_all; split_matches; reflexivity.
Qed.

(** ** The life of a contract between two moments *)
Lemma life_between C w l a st new : chain_ok C -> reachable C w -> contract_at w a st ->
  w_log (chain_run C w l) = w_log w ++ new ->
  exists st', contract_at (chain_run C w l) a st' /\ lives (ch_api C) st (answers_at a new) st' /\
    Permutation (done_for a new) (flat_map (fun p => map sm_msg (r_msgs (snd p))) (answers_at a new)).
Proof.
  intros HC R Hc L. assert (R' : reachable C (chain_run C w l)) by (apply reachable_later; exact R).
  destruct (money_between C w l a st [] HC R Hc) as (new' & st' & L' & Hc' & V & _).
  rewrite L in L'. apply app_inv_head in L'. subst new'. exists st'. split; [exact Hc' |]. split; [exact V |].
  destruct (run_settles C a l (contract_account C w a st HC R Hc) w) as (new' & L' & P).
  rewrite L in L'. apply app_inv_head in L'. subst new'.
  pose proof (contract_calm C _ a st' R' Hc') as K. rewrite L in K. apply Forall_app in K as [_ K].
  rewrite (P K I), app_nil_r, asked_split.
  destruct (chain_history C w a st R Hc) as (e & i & q & m & r & st0 & B & _).
  destruct (chain_history C _ a st' R' Hc') as (e' & i' & q' & m' & r' & st0' & B' & _).
  rewrite L, births_app, B in B'. cbn [app] in B'. injection B' as _ _ _ _ _ B'. rewrite B'. apply Permutation_refl.
Qed.

(** a contract does not draw on the tokens of [p] unless [p] asks for a transfer *)
Lemma contract_undrawn C w l p new sp st tk m f :
  chain_ok C -> reachable C w -> ch_account C p = true -> contract_at w sp st ->
  w_log (chain_run C w l) = w_log w ++ new -> hands_off tk l p ->
  In (LDo sp (CExec tk m f)) new -> drawing p (CExec tk m f) = false.
Proof.
  intros HC R Hp Hc L Hh Hin. destruct (life_between C w l sp st new HC R Hc L) as (st' & _ & V & P).
  assert (D : In (CExec tk m f) (done_for sp new)).
  { apply in_flat_map. exists (LDo sp (CExec tk m f)). split; [exact Hin |]. rewrite bytes_eqb_refl. now left. }
  apply (Permutation_in _ P) in D. apply in_flat_map in D as ([ev r] & D1 & D2). cbn [snd] in D2.
  assert (E : asks_for p ev = false).
  { destruct ev as [e i mm Q | id rr]; [| reflexivity]. destruct mm; try reflexivity. cbn [asks_for].
    apply bytes_eqb_neq. intros Ei.
    destruct (seen_call C w l p new sp e i _ Q r HC R Hp L D1 (eq_sym Ei)) as (k & f' & Hk).
    destruct (Hh _ _ _ _ Hk) as [_ X]. now destruct (X dest recipient amount hook metadata). }
  pose proof (lives_each _ _ _ _ (fun _ x => asks_for p (fst x) = false -> forallb (fun s => negb (drawing p (sm_msg s))) (r_msgs (snd x)) = true)
    (fun st1 ev st2 r _ H N => apply_undrawn _ ev st1 st2 r p H N) V) as F.
  rewrite Forall_forall in F. destruct (F _ D1) as (st1 & _ & X). specialize (X E). cbn [snd] in X.
  rewrite forallb_forall in X. apply in_map_iff in D2 as (s & <- & Hs). specialize (X s Hs). now destruct (drawing p (sm_msg s)).
Qed.

(** ** The books of a token contract *)
Definition alw_in (m : omap (addr * addr) N) (p sp : addr) : N := match om_get (p, sp) m with Some n => n | None => 0 end.
Lemma cw_query_allowed x p sp : cw_allowed (SCw20 x) p sp = alw_in (cw_allowances x) p sp.
Proof. reflexivity. Qed.
Lemma alw_set m o s n p sp : alw_in (om_set (o, s) n m) p sp = if (bytes_eqb p o && bytes_eqb sp s)%bool then n else alw_in m p sp.
Proof.
  unfold alw_in. rewrite om_get_set. destruct (keqb (p, sp) (o, s)) eqn:E.
  - apply keqb_eq in E. injection E as -> ->. rewrite !bytes_eqb_refl. reflexivity.
  - apply keqb_neq in E. destruct (bytes_eqb p o) eqn:E1; [| reflexivity]. destruct (bytes_eqb sp s) eqn:E2; [| reflexivity].
    apply bytes_eqb_eq in E1, E2. congruence.
Qed.
Lemma alw_del m o s p sp : bytes_eqb p o = false -> alw_in (om_del (o, s) m) p sp = alw_in m p sp.
Proof.
  intros H. unfold alw_in. rewrite om_get_del.
  match goal with |- context [keqb ?a ?b] => destruct (keqb a b) eqn:E end; [| reflexivity]. apply keqb_eq in E. injection E as -> _. rewrite bytes_eqb_refl in H. discriminate H.
Qed.

Lemma alw_some m o s e n : ok_or (om_get (o, s) m) e = Ok n -> alw_in m o s = n.
Proof. unfold ok_or, alw_in. intros H. destruct (om_get _ m); [now apply Ok_inj in H | discriminate H]. Qed.

Lemma cw_step A ev st st' r p : c_apply A ev st = Ok (st', r) -> is_cw20 st -> ev_sender ev <> Some p ->
  is_cw20 st' /\ cw_holding st p <= cw_holding st' p + draw p (ev, r) /\
  forall sp, cw_allowed st p sp = cw_allowed st' p sp + draw_by p sp (ev, r).
Proof.
  intros H Hk N. destruct st; try contradiction Hk. destruct ev as [e i m Q | id rr]; cbn [c_apply] in H; [| discriminate H].
  unfold c_execute, lift in H. apply bind_Ok_inv in H as (u & _ & H). apply bind_Ok_inv in H as ([x' r'] & H & E).
  apply Ok_inj, pair_equal_spec in E as [<- <-]. cbn [ev_sender] in N.
  assert (Np : bytes_eqb p (i_sender i) = false) by (apply bytes_eqb_neq; congruence). clear N.
  split; [exact I |]. rewrite !cw_query_holding. unfold draw_by, draw, cw_balance. cbn [fst ev_msg ev_sender].
  change (match om_get p (cw_balances x) with Some n => n | None => 0 end) with (bal_in (cw_balances x) p).
  change (match om_get p (cw_balances x') with Some n => n | None => 0 end) with (bal_in (cw_balances x') p).
  assert (Z : forall sp, (if bytes_eqb sp (i_sender i) then 0 else 0) = 0) by (intros sp; destruct (bytes_eqb sp (i_sender i)); reflexivity).
  destruct m; cbn [cw_execute] in H; try discriminate H.
  - apply bind_Ok_inv in H as (to' & _ & H). apply bind_Ok_inv in H as (b & M & H). apply Ok_inj, pair_equal_spec in H as [<- _].
    cbn [cw_balances]. apply (cw_move_spec _ _ _ _ _ p) in M. rewrite Np in M. split; [lia |]. intros sp. rewrite !cw_query_allowed, Z. cbn [cw_allowances]. lia.
  - apply bind_Ok_inv in H as (to' & _ & H). apply bind_Ok_inv in H as (ow & V & H). apply validate_same in V. subst ow.
    apply bind_Ok_inv in H as (al & Ha & H). apply bind_Ok_inv in H as (u' & Hn & H). apply ensure_Ok_inv, N.leb_le in Hn.
    apply bind_Ok_inv in H as (b & M & H). apply Ok_inj, pair_equal_spec in H as [<- _].
    cbn [cw_balances]. apply (cw_move_spec _ _ _ _ _ p) in M. split; [destruct (bytes_eqb p owner); lia |]. intros sp.
    rewrite !cw_query_allowed. cbn [cw_allowances]. rewrite alw_set.
    destruct (bytes_eqb p owner) eqn:E1, (bytes_eqb sp (i_sender i)) eqn:E2; cbn [andb]; try lia.
    apply bytes_eqb_eq in E1, E2. subst. apply alw_some in Ha. lia.
  - apply bind_Ok_inv in H as (b & M & H). apply bind_Ok_inv in H as (u' & _ & H). apply Ok_inj, pair_equal_spec in H as [<- _].
    cbn [cw_balances]. apply (cw_debit_spec _ _ _ _ p) in M. rewrite Np in M. split; [lia |]. intros sp. rewrite !cw_query_allowed, Z. cbn [cw_allowances]. lia.
  - apply bind_Ok_inv in H as (mt & _ & H). apply bind_Ok_inv in H as (u1 & _ & H). apply bind_Ok_inv in H as (u2 & _ & H).
    apply bind_Ok_inv in H as (to' & _ & H). apply bind_Ok_inv in H as (b & M & H). apply Ok_inj, pair_equal_spec in H as [<- _].
    cbn [cw_balances]. apply (cw_credit_spec _ _ _ _ p) in M. split; [lia |]. intros sp. rewrite !cw_query_allowed, Z. cbn [cw_allowances]. lia.
  - apply bind_Ok_inv in H as (sp' & _ & H). apply bind_Ok_inv in H as (u1 & _ & H). apply bind_Ok_inv in H as (u2 & _ & H).
    apply Ok_inj, pair_equal_spec in H as [<- _]. cbn [cw_balances]. split; [lia |]. intros sp. rewrite !cw_query_allowed, Z. cbn [cw_allowances].
    rewrite alw_set, Np. cbn [andb]. lia.
  - apply bind_Ok_inv in H as (sp' & _ & H). apply bind_Ok_inv in H as (u1 & _ & H). apply bind_Ok_inv in H as (al & _ & H).
    apply Ok_inj, pair_equal_spec in H as [<- _]. cbn [cw_balances]. split; [lia |]. intros sp. rewrite !cw_query_allowed, Z. cbn [cw_allowances].
    destruct (_ <? al); [rewrite alw_set, Np; cbn [andb]; lia | rewrite alw_del by exact Np; lia].
  - apply bind_Ok_inv in H as (ow & V & H). apply validate_same in V. subst ow.
    apply bind_Ok_inv in H as (al & Ha & H). apply bind_Ok_inv in H as (u' & Hn & H). apply ensure_Ok_inv, N.leb_le in Hn.
    apply bind_Ok_inv in H as (b & M & H). apply bind_Ok_inv in H as (u2 & _ & H). apply Ok_inj, pair_equal_spec in H as [<- _].
    cbn [cw_balances]. apply (cw_debit_spec _ _ _ _ p) in M. split; [destruct (bytes_eqb p owner); lia |]. intros sp.
    rewrite !cw_query_allowed. cbn [cw_allowances]. rewrite alw_set.
    destruct (bytes_eqb p owner) eqn:E1, (bytes_eqb sp (i_sender i)) eqn:E2; cbn [andb]; try lia.
    apply bytes_eqb_eq in E1, E2. subst. apply alw_some in Ha. lia.
  - apply bind_Ok_inv in H as (mt & _ & H). apply bind_Ok_inv in H as (u1 & _ & H). apply bind_Ok_inv in H as (new' & _ & H).
    apply Ok_inj, pair_equal_spec in H as [<- _]. cbn [cw_balances]. split; [lia |]. intros sp. rewrite !cw_query_allowed, Z. cbn [cw_allowances]. lia.
Qed.

Lemma cw_life A st h st' p : lives A st h st' -> is_cw20 st -> Forall (fun x => ev_sender (fst x) <> Some p) h ->
  is_cw20 st' /\ cw_holding st p <= cw_holding st' p + drawn p h /\
  forall sp, cw_allowed st p sp = cw_allowed st' p sp + drawn_by p sp h.
Proof.
  intros L Hk. induction L as [| h st1 ev st2 r L IH H]; intros F.
  - split; [exact Hk |]. cbn. split; [lia |]. intros sp. lia.
  - apply Forall_app in F as [F1 F2]. destruct (IH F1) as (K1 & B1 & A1). inversion F2 as [| y l' E _]. subst.
    destruct (cw_step A ev st1 st2 r p H K1 E) as (K2 & B2 & A2). split; [exact K2 |]. unfold drawn, drawn_by.
    rewrite total_app, total_one. split; [unfold drawn in B1; lia |].
    intros sp. rewrite total_app, total_one. specialize (A1 sp). specialize (A2 sp). unfold drawn_by in A1. lia.
Qed.

Lemma tokens_drawn C w l p tk tst : chain_ok C -> reachable C w -> ch_account C p = true -> contract_at w tk tst -> is_cw20 tst ->
  hands_off tk l p ->
  exists new tst', w_log (chain_run C w l) = w_log w ++ new /\ contract_at (chain_run C w l) tk tst' /\ is_cw20 tst' /\
    cw_holding tst p <= cw_holding tst' p + drawn p (answers_at tk new) /\
    (forall sp, cw_allowed tst p sp = cw_allowed tst' p sp + drawn_by p sp (answers_at tk new)) /\
    forall sp st, contract_at w sp st -> drawn_by p sp (answers_at tk new) = 0.
Proof.
  intros HC R Hp Hc Hk Hh. destruct (asteps_extends C _ _ (chain_run_steps C l w)) as [new L].
  destruct (life_between C w l tk tst new HC R Hc L) as (tst' & Hc' & V & _).
  assert (F : Forall (fun x => ev_sender (fst x) <> Some p) (answers_at tk new)).
  { apply Forall_forall. intros [ev r] Hin E. destruct ev as [e i m Q | id rr]; [| discriminate E]. cbn [fst ev_sender] in E.
    destruct (seen_call C w l p new tk e i m Q r HC R Hp L Hin) as (k & f & Hk'); [congruence |]. destruct (Hh _ _ _ _ Hk') as [X _]. now apply X. }
  destruct (cw_life _ _ _ _ p V Hk F) as (K' & B & A).
  exists new, tst'. split; [exact L |]. split; [exact Hc' |]. split; [exact K' |]. split; [exact B |]. split; [exact A |].
  intros sp st Hs. unfold drawn_by. rewrite (total_ext _ (fun _ => 0)); [apply total_zero |]. apply Forall_forall. intros [ev r] Hin.
  unfold draw_by, draw. cbn [fst]. destruct ev as [e i m Q | id rr]; [| reflexivity]. cbn [ev_sender ev_msg].
  destruct (bytes_eqb sp (i_sender i)) eqn:E; [| reflexivity]. apply bytes_eqb_eq in E.
  assert (X : exists f, In (LDo sp (CExec tk m f)) new).
  { assert (S : In (i_sender i, tk, m, i_funds i) (calls_seen new)).
    { unfold answers_at in Hin. apply in_flat_map in Hin as (y & Hy & Hin). destruct y as [| | | b ev r']; try contradiction Hin.
      destruct (bytes_eqb tk b) eqn:Eb; [| contradiction Hin]. apply bytes_eqb_eq in Eb. subst b. destruct Hin as [Hin | []].
      apply pair_equal_spec in Hin as [-> ->]. apply in_flat_map. exists (LCall tk (EvExec e i m Q) r). split; [exact Hy |]. now left. }
    rewrite <- (calls_new C w l new R L) in S. unfold calls_sent in S. apply in_flat_map in S as (y & Hy & S).
    destruct y as [c mm | | | ]; try contradiction S. destruct mm as [b m' f' | | | | | |]; try contradiction S. destruct S as [S | []].
    injection S as -> -> -> _. exists f'. rewrite E. exact Hy. }
  destruct X as [f X]. pose proof (contract_undrawn C w l p new sp st tk m f HC R Hp Hs L Hh X) as D.
  destruct m; try reflexivity; cbn [drawing] in D; rewrite D; reflexivity.
Qed.

Lemma tokens_kept C w l p tk tst : chain_ok C -> reachable C w -> ch_account C p = true -> contract_at w tk tst -> is_cw20 tst ->
  hands_off tk l p -> (forall sp, cw_allowed tst p sp <> 0 -> exists st, contract_at w sp st) ->
  exists tst', contract_at (chain_run C w l) tk tst' /\ is_cw20 tst' /\ cw_holding tst p <= cw_holding tst' p /\
    forall sp, cw_allowed tst' p sp = cw_allowed tst p sp.
Proof.
  intros HC R Hp Hc Hk Hh Ha. destruct (tokens_drawn C w l p tk tst HC R Hp Hc Hk Hh) as (new & tst' & L & Hc' & K' & B & A & D).
  exists tst'. split; [exact Hc' |]. split; [exact K' |].
  assert (Z : forall sp, drawn_by p sp (answers_at tk new) = 0).
  { intros sp. destruct (N.eq_dec (cw_allowed tst p sp) 0) as [E | E].
    - specialize (A sp). lia.
    - destruct (Ha sp E) as [st Hs]. exact (D sp st Hs). }
  split; [| intros sp; specialize (A sp); rewrite Z in A; lia].
  assert (Y : drawn p (answers_at tk new) = 0); [| lia].
  unfold drawn. rewrite (total_ext _ (fun _ => 0)); [apply total_zero |]. apply Forall_forall. intros [ev r] Hin.
  destruct ev as [e i m Q | id rr]; [| reflexivity].
  specialize (Z (i_sender i)). unfold drawn_by in Z.
  apply in_split in Hin as (h1 & h2 & E). rewrite E, total_app in Z. change ((EvExec e i m Q, r) :: h2) with ([(EvExec e i m Q, r)] ++ h2) in Z.
  rewrite total_app, total_one in Z. unfold draw_by at 2 in Z. cbn [fst ev_sender] in Z. rewrite bytes_eqb_refl in Z. lia.
Qed.

Lemma idle_hands tk l p : idle l p -> hands_off tk l p.
Proof. intros H k a m f Hin. now destruct (H _ Hin). Qed.

Lemma cw_granted A ev st st' r p sp : c_apply A ev st = Ok (st', r) -> is_cw20 st ->
  cw_allowed st' p sp <= cw_allowed st p sp + grant p sp ev.
Proof.
  intros H Hk. destruct st; try contradiction Hk. destruct ev as [e i m Q | id rr]; cbn [c_apply] in H; [| discriminate H].
  unfold c_execute, lift in H. apply bind_Ok_inv in H as (u & _ & H). apply bind_Ok_inv in H as ([x' r'] & H & E).
  apply Ok_inj, pair_equal_spec in E as [<- _]. rewrite !cw_query_allowed.
  destruct m; cbn [cw_execute] in H; try discriminate H; cbn [grant].
  - apply bind_Ok_inv in H as (to' & _ & H). apply bind_Ok_inv in H as (b & M & H). apply Ok_inj, pair_equal_spec in H as [<- _]. cbn [cw_allowances]. lia.
  - apply bind_Ok_inv in H as (to' & _ & H). apply bind_Ok_inv in H as (ow & V & H). apply validate_same in V. subst ow.
    apply bind_Ok_inv in H as (al & Ha & H). apply bind_Ok_inv in H as (u' & _ & H).
    apply bind_Ok_inv in H as (b & M & H). apply Ok_inj, pair_equal_spec in H as [<- _]. cbn [cw_allowances]. rewrite alw_set.
    destruct (bytes_eqb p owner) eqn:E1, (bytes_eqb sp (i_sender i)) eqn:E2; cbn [andb]; try lia.
    apply bytes_eqb_eq in E1, E2. subst. apply alw_some in Ha. lia.
  - apply bind_Ok_inv in H as (b & M & H). apply bind_Ok_inv in H as (u' & _ & H). apply Ok_inj, pair_equal_spec in H as [<- _]. cbn [cw_allowances]. lia.
  - apply bind_Ok_inv in H as (mt & _ & H). apply bind_Ok_inv in H as (u1 & _ & H). apply bind_Ok_inv in H as (u2 & _ & H).
    apply bind_Ok_inv in H as (to' & _ & H). apply bind_Ok_inv in H as (b & M & H). apply Ok_inj, pair_equal_spec in H as [<- _]. cbn [cw_allowances]. lia.
  - apply bind_Ok_inv in H as (sp' & V & H). apply validate_same in V. subst sp'. apply bind_Ok_inv in H as (u1 & _ & H). apply bind_Ok_inv in H as (u2 & _ & H).
    apply Ok_inj, pair_equal_spec in H as [<- _]. cbn [cw_allowances]. rewrite alw_set.
    destruct (bytes_eqb p (i_sender i)) eqn:E1, (bytes_eqb sp spender) eqn:E2; cbn [andb]; try lia.
    apply bytes_eqb_eq in E1, E2. subst. unfold alw_in. lia.
  - apply bind_Ok_inv in H as (sp' & V & H). apply validate_same in V. subst sp'. apply bind_Ok_inv in H as (u1 & _ & H). apply bind_Ok_inv in H as (al & Ha & H).
    apply alw_some in Ha. apply Ok_inj, pair_equal_spec in H as [<- _]. cbn [cw_allowances].
    destruct (_ <? al).
    + rewrite alw_set. destruct (bytes_eqb p (i_sender i)) eqn:E1, (bytes_eqb sp spender) eqn:E2; cbn [andb]; try lia.
      apply bytes_eqb_eq in E1, E2. subst. lia.
    + unfold alw_in. rewrite om_get_del. match goal with |- context [keqb ?a ?b] => destruct (keqb a b) end; lia.
  - apply bind_Ok_inv in H as (ow & V & H). apply validate_same in V. subst ow.
    apply bind_Ok_inv in H as (al & Ha & H). apply bind_Ok_inv in H as (u' & _ & H).
    apply bind_Ok_inv in H as (b & M & H). apply bind_Ok_inv in H as (u2 & _ & H). apply Ok_inj, pair_equal_spec in H as [<- _]. cbn [cw_allowances]. rewrite alw_set.
    destruct (bytes_eqb p owner) eqn:E1, (bytes_eqb sp (i_sender i)) eqn:E2; cbn [andb]; try lia.
    apply bytes_eqb_eq in E1, E2. subst. apply alw_some in Ha. lia.
  - apply bind_Ok_inv in H as (mt & _ & H). apply bind_Ok_inv in H as (u1 & _ & H). apply bind_Ok_inv in H as (new' & _ & H).
    apply Ok_inj, pair_equal_spec in H as [<- _]. cbn [cw_allowances]. lia.
Qed.
