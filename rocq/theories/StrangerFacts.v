(** * People who own nothing change no setting and stop no delivery: proofs. *)
From Coq Require Import List NArith Bool Lia Relations.Relation_Operators.
From Verif Require Import Base BaseFacts OMap Crypto Coins Hex Merkle Json Message Bech32 Chain Ownable Router Utils Mailbox Va
  Isms Hooks Igp Warp Cw20 Contracts StepFacts Spec SpecModules MailboxConfFacts World SpecWorld WorldFacts SpecBridge SpecLive WorldLive WorldRoute
  SpecStranger.
Import ListNotations.

(** ** One call *)
Lemma stranger_owner st u : ~ in_charge st u ->
  match own_of st with Some o => bytes_eqb (o_owner o) u = false /\ o_pending o <> Some u | None => True end.
Proof.
  unfold in_charge. rewrite reported_owner_own, reported_pending_own. destruct (own_of st) as [o|]; [|auto].
  cbn [option_map]. intros N. split.
  - apply bytes_eqb_neq. intros E. apply N. left. f_equal. exact E.
  - intros E. apply N. right. exact E.
Qed.
Lemma own_handle_stranger A i om o : bytes_eqb (o_owner o) (i_sender i) = false -> o_pending o <> Some (i_sender i) ->
  forall o', own_handle A i om o <> Ok o'.
Proof.
  intros N P o' H. unfold own_handle in H. destruct om.
  - apply bind_Ok_inv in H as (n & _ & H). unfold init_ownership_transfer in H. apply bind_Ok_inv in H as (u & H1 & _).
    apply ensure_Ok_inv, bytes_eqb_eq in H1. rewrite <- H1, bytes_eqb_refl in N. discriminate N.
  - unfold revoke_ownership_transfer in H. apply bind_Ok_inv in H as (u & H1 & _).
    apply ensure_Ok_inv, bytes_eqb_eq in H1. rewrite <- H1, bytes_eqb_refl in N. discriminate N.
  - unfold claim_ownership in H. apply bind_Ok_inv in H as (u & _ & H). apply bind_Ok_inv in H as (p & H1 & H).
    apply bind_Ok_inv in H as (u' & H2 & _). apply ensure_Ok_inv, bytes_eqb_eq in H2. subst p.
    destruct (o_pending o); [apply Ok_inj in H1; congruence | discriminate H1].
Qed.
Lemma only_owner_stranger o i x : bytes_eqb (o_owner o) (i_sender i) = false -> only_owner o i <> Ok x.
Proof. intros N H. unfold only_owner in H. rewrite N in H. discriminate H. Qed.

Lemma stranger_call A Q e i m st st' r : c_execute A Q e i m st = Ok (st', r) -> reported_owner st <> None ->
  ~ in_charge st (i_sender i) -> at_rest st' = at_rest st.
Proof.
  intros H O N. apply stranger_owner in N. rewrite reported_owner_own in O. unfold c_execute, lift in H.
  apply bind_Ok_inv in H as (u & _ & H).
  destruct st; cbn [own_of option_map] in *; try (now destruct O);
    destruct N as [N P]; inv_all; unfold_execs; destruct m; try discriminate; inv_all;
    try (match goal with H : own_handle _ _ _ _ = Ok _ |- _ => now apply own_handle_stranger in H end);
    try (match goal with H : only_owner _ _ = Ok _ |- _ => now apply only_owner_stranger in H end).
  all: try reflexivity.
  all: unfold_helpers; unfold pause_handle, conn_handle, router_handle in *; inv_all;
    try (match goal with H : only_owner _ _ = Ok _ |- _ => now apply only_owner_stranger in H end).
  all: try (split_matches; reflexivity).
  rewrite N in Hr0. discriminate Hr0.
Qed.

(** ** The executor does not look at who holds accounts *)
Section Accounts.
  Variables (A : api) (X : ext) (ad : N -> addr) (acc acc' : addr -> bool).
  Let C := mkChain A X ad acc.
  Let C' := mkChain A X ad acc'.

  Lemma wq_accounts k : wq C k = wq C' k.
  Proof. induction k as [|k IH]; cbn [wq]; [reflexivity|]. rewrite IH. reflexivity. Qed.
  Lemma perform_accounts k rec : perform C k rec = perform C' k rec.
  Proof.
    unfold perform, deploy, invoke. rewrite (wq_accounts k). reflexivity.
  Qed.
  Lemma deploy_accounts k rec : deploy C k rec = deploy C' k rec.
  Proof. unfold deploy. rewrite (wq_accounts k). reflexivity. Qed.
  Lemma run_sub_accounts k rec : run_sub C k rec = run_sub C' k rec.
  Proof. unfold run_sub, give_reply. rewrite (wq_accounts k), perform_accounts. reflexivity. Qed.
  Lemma exec_accounts k : exec C k = exec C' k.
  Proof. induction k as [|k IH]; cbn [exec]; [reflexivity|]. rewrite IH, run_sub_accounts. reflexivity. Qed.
End Accounts.

(** the chain on which only those who sign something in [l] hold accounts *)
Definition signers_only (C : chain) (l : list (nat * tx)) : chain :=
  mkChain (ch_api C) (ch_ext C) (ch_addr C)
    (fun u => (ch_account C u && existsb (fun t : nat * tx => match signer (snd t) with Some v => bytes_eqb u v | None => false end) l)%bool).

Lemma signed_in l (t : nat * tx) u : In t l -> signer (snd t) = Some u ->
  existsb (fun t : nat * tx => match signer (snd t) with Some v => bytes_eqb u v | None => false end) l = true.
Proof. intros H E. apply existsb_exists. exists t. split; [exact H|]. rewrite E. apply bytes_eqb_refl. Qed.

Lemma signers_account C l u : ch_account (signers_only C l) u = true ->
  ch_account C u = true /\ exists t, In t l /\ signer (snd t) = Some u.
Proof.
  cbn [signers_only ch_account]. intros H. apply andb_true_iff in H as [H H']. split; [exact H|].
  apply existsb_exists in H' as (t & H1 & H2). exists t. split; [exact H1|].
  destruct (signer (snd t)); [|discriminate H2]. apply bytes_eqb_eq in H2. congruence.
Qed.

Lemma tx_signers C l t w : In t l -> tx_run (signers_only C l) (fst t) (snd t) w = tx_run C (fst t) (snd t) w.
Proof.
  intros I. pose proof (signed_in l t) as S. destruct C as [A X ad acc]. destruct t as [k t]. cbn [fst snd] in *.
  unfold signers_only. cbn [ch_api ch_ext ch_addr ch_account].
  set (acc' := fun u => (acc u && _)%bool).
  assert (E : forall u, signer t = Some u -> acc' u = acc u).
  { intros u Hu. unfold acc'. rewrite (S u I Hu). apply andb_true_r. }
  clearbody acc'. destruct t; unfold tx_run; cbn [ch_account signer] in *; rewrite ?(E _ eq_refl); try reflexivity.
  - rewrite (exec_accounts A X ad acc' acc), (perform_accounts A X ad acc' acc). reflexivity.
  - rewrite (exec_accounts A X ad acc' acc), (deploy_accounts A X ad acc' acc). reflexivity.
Qed.
Lemma run_signers C l0 l w : incl l l0 -> chain_run (signers_only C l0) w l = chain_run C w l.
Proof.
  revert w. induction l as [|t l IH]; intros w I; [reflexivity|]. cbn [chain_run fold_left].
  assert (E : tx_step (signers_only C l0) w t = tx_step C w t).
  { unfold tx_step. rewrite tx_signers; [reflexivity|]. apply I. now left. }
  rewrite E. apply IH. intros x Hx. apply I. now right.
Qed.
Lemma run_by_signers C l w : asteps (signers_only C l) w (chain_run C w l).
Proof. rewrite <- (run_signers C l l w (incl_refl l)). apply chain_run_steps. Qed.

(** ** Histories *)
(** without the token of a warp route, which its own reply names *)
Definition tokenless (st : cstate) : cstate :=
  match st with
  | SWarpNative x => SWarpNative (wp_set_token x [])
  | SWarpCw20 x => SWarpCw20 (wp_set_token x [])
  | _ => st
  end.
Definition settled_as (st st' : cstate) : Prop := tokenless (at_rest st') = tokenless (at_rest st).

Lemma settled_owner st st' : settled_as st st' -> own_of st' = own_of st.
Proof.
  unfold settled_as. intros E. assert (F : forall x, own_of (tokenless (at_rest x)) = own_of x) by (intros []; reflexivity).
  rewrite <- (F st'), E. apply F.
Qed.
Lemma settled_charge st st' u : settled_as st st' -> in_charge st' u -> in_charge st u.
Proof.
  intros E. unfold in_charge. rewrite !reported_owner_own, !reported_pending_own, (settled_owner st st' E). auto.
Qed.
Lemma settled_reply A id rr st st' r : c_reply A id rr st = Ok (st', r) -> settled_as st st'.
Proof.
  intros H. unfold c_reply, lift in H. destruct st; try discriminate H; inv_all; unfold wn_reply, wc_reply in *; inv_all; split_matches;
    inv_all; reflexivity.
Qed.

Lemma stranger_steps C w w' a st :
  asteps C w w' -> contract_at w a st -> reported_owner st <> None ->
  (forall u, in_charge st u -> ch_account C u = false) ->
  (forall u, in_charge st u -> forall n, u <> ch_addr C n) ->
  (forall u, in_charge st u -> om_get u (w_inst w) = None) ->
  exists st', contract_at w' a st' /\ settled_as st st'.
Proof.
  intros S Hc O H1 H2 H3.
  apply (asteps_inv C (fun x => (exists st', contract_at x a st' /\ settled_as st st') /\
    (forall u, in_charge st u -> om_get u (w_inst x) = None))) in S as [S _]; [exact S | | ].
  2: { split; [exists st; split; [exact Hc | reflexivity] | exact H3]. }
  clear w w' S Hc H3. intros w w' [(st' & Hc & E) N] S.
  assert (O' : reported_owner st' <> None) by (rewrite reported_owner_own, (settled_owner _ _ E), <- reported_owner_own; exact O).
  assert (Able : forall c, able C w c -> ~ in_charge st' c).
  { intros c [Hb | Hb] Hi; apply (settled_charge _ _ _ E) in Hi.
    - rewrite (H1 c Hi) in Hb. discriminate Hb.
    - apply Hb, N, Hi. }
  assert (New : forall x n, (forall u, in_charge st u -> om_get u (w_inst x) = None) -> forall y u, in_charge st u ->
    om_get u (om_set (ch_addr C n) y (w_inst x)) = None).
  { intros x n Nx y u Hu. rewrite om_get_set. destruct (keqb u (ch_addr C n)) eqn:K; [|now apply Nx].
    apply keqb_eq in K. now apply H2 in K. }
  assert (Put : forall (x : world) (b : addr) z z', w_inst x = w_inst w -> om_get b (w_inst w) = Some z ->
    (b = a -> exists s, z' = IC s /\ settled_as st s) ->
    (exists s, om_get a (om_set b z' (w_inst x)) = Some (IC s) /\ settled_as st s) /\
    (forall u, in_charge st u -> om_get u (om_set b z' (w_inst x)) = None)).
  { intros x b z z' Ex Hb Hz. rewrite Ex. split.
    - rewrite om_get_set. destruct (keqb a b) eqn:K; [|exists st'; split; [exact Hc | exact E]].
      apply keqb_eq in K. symmetry in K. destruct (Hz K) as (s & -> & Hs). exists s. split; [reflexivity | exact Hs].
    - intros u Hu. rewrite om_get_set. destruct (keqb u b) eqn:K; [|now apply N].
      apply keqb_eq in K. subst b. rewrite (N u Hu) in Hb. discriminate Hb. }
  assert (Made : forall (x : world) n z, w_inst x = w_inst w -> om_get (ch_addr C n) (w_inst w) = None ->
    (exists s, om_get a (om_set (ch_addr C n) z (w_inst x)) = Some (IC s) /\ settled_as st s) /\
    (forall u, in_charge st u -> om_get u (om_set (ch_addr C n) z (w_inst x)) = None)).
  { intros x n z Ex Hn. split; [|apply New; rewrite Ex; exact N]. exists st'. split; [|exact E]. rewrite Ex, om_get_set.
    destruct (keqb a (ch_addr C n)) eqn:K; [|exact Hc]. apply keqb_eq in K. subst a. unfold contract_at in Hc. congruence. }
  unfold contract_at in Hc.
  destruct S; subst; unfold contract_at in *;
    repeat match goal with
    | M : move_coins _ _ _ _ = Ok _ |- _ =>
        apply move_coins_same in M as (M & _ & _); cbn [w_inst add_log bump] in M
    end; cbn [w_inst add_log bump set_inst set_admin set_bank set_height].
  - match goal with M : w_inst w1 = _, G : om_get a0 _ = _ |- _ => rename M into M1; rename G into G1 end.
    rewrite M1 in G1. eapply Put; [exact M1 | exact G1 |]. intros ->. rewrite Hc in G1. injection G1 as <-.
    eexists. split; [reflexivity|]. unfold settled_as. rewrite <- E. f_equal.
    eapply stranger_call; [eassumption | exact O' |]. cbn [i_sender]. now apply Able.
  - match goal with M : w_inst w1 = _, G : om_get a0 _ = _ |- _ => rename M into M1; rename G into G1 end.
    rewrite M1 in G1. eapply Put; [exact M1 | exact G1 |]. intros ->. rewrite Hc in G1. discriminate G1.
  - eapply Put; [reflexivity | exact H |]. intros ->. rewrite Hc in H. injection H as <-.
    eexists. split; [reflexivity|]. unfold settled_as. rewrite <- E. eapply settled_reply; eassumption.
  - eapply Put; [reflexivity | exact H |]. intros ->. rewrite Hc in H. discriminate H.
  - match goal with M : w_inst _ = _ |- _ => rewrite M end. eauto.
  - eauto.
  - eauto.
  - eauto.
  - eauto.
  - now apply Made.
  - now apply Made.
  - now apply Made.
  - eauto.
Qed.

Lemma settled_rest st st' : settled_as st st' -> (is_warp st -> reported_token st' = reported_token st) -> at_rest st' = at_rest st.
Proof.
  unfold settled_as. intros E T.
  destruct st, st'; try discriminate E; try exact E; specialize (T I); cbn [at_rest tokenless] in *; f_equal;
    match type of E with ?f ?a = ?f ?b =>
      apply (f_equal (fun y => match y with SWarpNative z | SWarpCw20 z => z | _ => a end)) in E end;
    match goal with |- ?y = ?z => destruct y as [o1 r1 c1 t1 k1 h1 m1], z as [o2 r2 c2 t2 k2 h2 m2] end;
    cbn in E; injection E; intros; subst; f_equal; cbn in T; destruct t1, t2; cbn in T; congruence.
Qed.

Lemma stranger_run C w l a st :
  chain_ok C -> reachable C w -> contract_at w a st -> left_alone C w l a ->
  exists st', contract_at (chain_run C w l) a st' /\ at_rest st' = at_rest st.
Proof.
  intros HC Hr Hc Hl. destruct (Hl st Hc) as [O Hu].
  destruct (stranger_steps (signers_only C l) w (chain_run C w l) a st (run_by_signers C l w) Hc O) as (st' & Hc' & E).
  - intros u H. destruct (ch_account (signers_only C l) u) eqn:X; [|reflexivity].
    apply signers_account in X as (_ & t & X1 & X2). destruct (Hu u H) as [_ Hi]. now destruct (Hi t X1).
  - intros u H n ->. destruct (Hu _ H) as [X _]. cbn [signers_only ch_addr] in X. rewrite HC in X. discriminate X.
  - intros u H. destruct (om_get u (w_inst w)) as [z|] eqn:X; [|reflexivity].
    destruct (inst_addr C w u Hr) as [n ->]; [congruence|]. destruct (Hu _ H) as [Y _]. rewrite HC in Y. discriminate Y.
  - exists st'. split; [exact Hc'|]. apply settled_rest; [exact E|]. intros K.
    exact (proj2 (token_stays C w l a st st' HC Hr Hc K Hc')).
Qed.

(** ** Deliveries stay possible *)
Lemma answers_weaker A (St St' : addr -> cstate -> Prop) (O O' : nat -> addr -> bytes -> bytes -> bool -> Prop) :
  (forall x st, St x st -> kind st <> 0 -> kind st <> 17 -> St' x st) -> (forall n x md raw b, O n x md raw b -> O' n x md raw b) ->
  forall n x md raw b, answers A St O n x md raw b -> answers A St' O' n x md raw b.
Proof.
  intros HS HO. induction n as [| n IH]; intros x md raw b H.
  { inversion H; subst. now apply answers_outside, HO. }
  inversion H as [n' x' st md' raw' m tree root index pre suf vs t signers Hc Hi Hd Hm He Hp Hs Hn Hl HF
                 | n' x' st md' raw' m tree root index sigs vs t Hc Hi Hd Hm He Hp Hs
                 | n' x' st md' raw' isms t ok Hc Hi Hp Hn Hn' Hin Hl HF
                 | n' x' st md' raw' y b' Hc Hi Hr Ha
                 | n' x' st md' raw' Hc Hi Hp
                 | n' x' md' raw' b' HO']; subst; [.. | now apply answers_outside, HO].
  all: apply HS in Hc; [| destruct st; try contradiction Hi; try discriminate Hi; discriminate ..].
  - eapply answers_multisig; eassumption.
  - eapply answers_multisig_any; eassumption.
  - eapply (answers_aggregate _ _ _ _ _ _ _ _ _ _ ok); try eassumption.
    intros k y Hy. destruct (HF k y Hy) as (md' & S1 & S2). exists md'. auto.
  - eapply answers_routing; [eassumption | exact Hi | eassumption | auto].
  - eapply answers_pausable; eassumption.
Qed.

Lemma rest_same st st' : kind st <> 0 -> at_rest st' = at_rest st -> st' = st.
Proof. intros K E. destruct st; try (now destruct K); destruct st'; try discriminate E; exact E. Qed.

Lemma still_deliverable C n w l mb route mbst st md raw m :
  chain_ok C -> reachable C w -> deliverable_alone C n w l mb route mbst st md raw m ->
  exists mbst', contract_at (chain_run C w l) mb mbst' /\ contract_at (chain_run C w l) route st /\
    (reported_delivered mbst' (keccak256_hash raw) = Some true \/
     deliverable C n (chain_run C w l) mb route mbst' st md raw m).
Proof.
  intros HC Hr (Hm & Hk & Hc & Hd & Hv & Hdom & (hrp & Hh & He) & Hn & L1 & L2 & x & (o & d & Ho & Hdf & Hx) & Ha).
  destruct (stranger_run C w l mb mbst HC Hr Hm L1) as (mbst' & Hm' & E1).
  destruct (stranger_run C w l route st HC Hr Hc L2) as (st' & Hc' & E2).
  assert (K2 : kind st <> 0) by (intros K; destruct st; discriminate).
  apply rest_same in E2; [|exact K2]. subst st'. exists mbst'. split; [exact Hm'|]. split; [exact Hc'|].
  destruct mbst as [y| | | | | | | | | | | | | | | | |]; try discriminate Hk.
  destruct mbst' as [y'| | | | | | | | | | | | | | | | |]; try discriminate E1.
  apply (f_equal (fun z => match z with SMailbox v => v | _ => y end)) in E1. cbn [at_rest] in E1.
  destruct (reported_delivered (SMailbox y') (keccak256_hash raw)) as [[]|] eqn:D.
  - now left.
  - right. destruct y as [o1 h1 d1 i1 k1 r1 n1 l1 v1], y' as [o2 h2 d2 i2 k2 r2 n2 l2 v2].
    cbn [mb_own mb_hrp mb_domain mb_ism mb_hook mb_required] in E1. injection E1 as -> -> -> -> -> ->.
    split; [exact Hm'|]. split; [reflexivity|]. split; [exact Hc'|]. split; [exact Hd|]. split; [exact Hv|]. split; [exact Hdom|].
    split; [exists hrp; split; [exact Hh | exact He]|]. split; [exact D|]. exists x. split; [exists o, d; split; [exact Ho|]; split; [exact Hdf | exact Hx]|].
    revert Ha. apply answers_weaker; [|contradiction]. intros z zst [Hz Hl] Kz _.
    destruct (stranger_run C w l z zst HC Hr Hz Hl) as (zst' & Hz' & E). apply rest_same in E; [|exact Kz]. now subst zst'.
  - exfalso. revert D. clear. discriminate.
Qed.

Lemma stranger_paid C n k w l mb route mbst st md raw m recipient amount relayer held :
  chain_ok C -> reachable C w -> deliverable_alone C n w l mb route mbst st md raw m -> is_warp st ->
  warp_delivery st (mkInfo mb []) (m_origin m) (m_sender m) (m_body m) recipient amount ->
  amount <> 0 -> api_valid (ch_api C) recipient = true ->
  holds (chain_run C w l) st route held -> (reported_mode st = Some Collateral -> amount <= held) ->
  can_issue (chain_run C w l) st amount ->
  ch_account C relayer = true -> (n <= k)%nat -> (4 <= k)%nat ->
  (exists mbst', contract_at (chain_run C w l) mb mbst' /\ reported_delivered mbst' (keccak256_hash raw) = Some true) \/
  exists w', tx_run C k (TExec relayer mb (MProcess md raw) []) (chain_run C w l) = Ok w' /\
    only_delivered (chain_run C w l) w' mb raw /\ paid_out (chain_run C w l) w' mb route st recipient amount.
Proof.
  intros HC Hr Hd Hk Hw H0 Hv Hh Hm Hi Ha Hn H4.
  destruct (still_deliverable C n w l mb route mbst st md raw m HC Hr Hd) as (mbst' & Hm' & Hc' & [D | D]).
  - left. exists mbst'. split; assumption.
  - right. eapply (transfer_paid C n k _ mb route mbst' st md raw m recipient amount relayer held); try eassumption.
    now apply reachable_later.
Qed.
