(** * Every warp route on a chain has its token, settled when it was deployed. *)
From Coq Require Import List NArith Bool Lia Permutation Relation_Operators.
From Verif Require Import Base BaseFacts OMap Crypto Bech32 Message CodecFacts Coins CoinsFacts Chain Ownable Router
  Mailbox Va Isms Hooks Igp Warp Cw20 Contracts Spec SpecModules StepFacts AccessFacts MailboxConfFacts MailboxFacts
  IsmFacts HookFacts WarpFacts World SpecWorld WorldFacts WorldMailbox WorldMerkle SpecBridge WorldWarp WorldToken SpecRoute.
Import ListNotations.

(** ** Steps taken by contracts alone *)
(** the same chain with no outside accounts: what contracts cause among
    themselves is the same on it *)
Definition unmanned (C : chain) : chain := mkChain (ch_api C) (ch_ext C) (ch_addr C) (fun _ => false).

Lemma wq_unmanned C k : wq (unmanned C) k = wq C k.
Proof. induction k as [| k IH]; [reflexivity |]. cbn [wq]. rewrite IH. reflexivity. Qed.
Lemma run_sub_unmanned C k rec : run_sub (unmanned C) k rec = run_sub C k rec.
Proof.
  unfold run_sub, give_reply, perform, invoke, deploy. rewrite wq_unmanned. reflexivity.
Qed.
Lemma exec_unmanned C k : exec (unmanned C) k = exec C k.
Proof. induction k as [| k IH]; [reflexivity |]. cbn [exec]. rewrite IH, run_sub_unmanned. reflexivity. Qed.

Lemma inner_steps C k caller l w w' : om_get caller (w_inst w) <> None ->
  exec C k caller l w = Ok w' -> asteps (unmanned C) w w'.
Proof. intros Hb H. rewrite <- exec_unmanned in H. exact (exec_steps (unmanned C) k caller l w w' Hb H). Qed.

(** ** The token is known *)
Definition tokened (a : addr) (w : world) : Prop :=
  forall st, contract_at w a st -> is_warp st -> reported_token st <> None.

Lemma call_token A Q e i m st st' r :
  c_execute A Q e i m st = Ok (st', r) -> is_warp st' ->
  is_warp st /\ reported_token st' = reported_token st.
Proof.
  intros H Hk.
  assert (Ha : c_apply A (EvExec e i m Q) st = Ok (st', r)) by exact H.
  assert (E : st' = c_step A st (EvExec e i m Q)) by (unfold c_step; now rewrite Ha).
  assert (Hk0 : is_warp st).
  { pose proof (step_kind A (EvExec e i m Q) st) as K. rewrite <- E in K.
    destruct st', st; try contradiction Hk; try discriminate K; exact I. }
  split; [exact Hk0 |]. rewrite E. apply (warp_fixed_step A st _ Hk0). discriminate.
Qed.

Lemma reply_token A id rr st st' r :
  c_reply A id rr st = Ok (st', r) -> is_warp st' -> reported_token st' <> None.
Proof.
  intros H Hk. assert (Ha : c_apply A (EvReply id rr) st = Ok (st', r)) by exact H.
  destruct st as [ | | | | | | | | | | | | | | |x|x|]; try discriminate H.
  - destruct (native_reply A id rr (SWarpNative x) st' r I Ha) as (d & _ & _ & _ & ->). discriminate.
  - destruct (cw_reply_inv A id rr (SWarpCw20 x) st' r I Ha) as (d & _ & ->). discriminate.
Qed.

Lemma at_same w w' a st : w_inst w' = w_inst w -> contract_at w' a st -> contract_at w a st.
Proof. unfold contract_at. now intros ->. Qed.
Lemma at_set w a b x st : contract_at (set_inst b x w) a st -> (a = b /\ x = IC st) \/ contract_at w a st.
Proof.
  unfold contract_at. cbn [w_inst set_inst]. rewrite om_get_set. destruct (keqb a b) eqn:E.
  - intros H. injection H as ->. left. split; [| reflexivity]. now apply keqb_eq.
  - now right.
Qed.

Ltac calm_inst :=
  repeat match goal with
  | M : move_coins _ _ _ _ = Ok _ |- _ =>
      apply move_coins_same in M as (M & _ & _); cbn [w_inst add_log bump] in M
  end.

Lemma step_tokened C a w w' : astep C w w' -> (forall x, ch_account C x = false) -> tokened a w -> tokened a w'.
Proof.
  intros H HA J st Hc Hk. destruct H; subst; calm_inst;
    try (match goal with X : ch_account C _ = true |- _ => rewrite HA in X; discriminate X end);
    try (apply (J st); [| exact Hk]; eapply at_same; [| exact Hc]; first [assumption | reflexivity]).
  - apply at_set in Hc as [[-> E] | Hc].
    + injection E as ->. destruct (call_token _ _ _ _ _ _ _ _ H5 Hk) as [Hk0 ->].
      apply (J st0); [| exact Hk0]. eapply at_same; [| exact H1]. now rewrite H0.
    + apply (J st); [| exact Hk]. eapply at_same; [| exact Hc]. now rewrite H0.
  - apply at_set in Hc as [[-> E] | Hc]; [discriminate E |].
    apply (J st); [| exact Hk]. eapply at_same; [| exact Hc]. now rewrite H0.
  - apply at_set in Hc as [[-> E] | Hc].
    + injection E as ->. exact (reply_token _ _ _ _ _ _ H1 Hk).
    + exact (J st Hc Hk).
  - apply at_set in Hc as [[-> E] | Hc]; [discriminate E |]. exact (J st Hc Hk).
  - apply at_set in Hc as [[-> E] | Hc].
    + injection E as ->. exfalso. unfold c_instantiate, lift in *. inv_all. contradiction Hk.
    + apply (J st); [| exact Hk]. eapply at_same; [| exact Hc]. now rewrite H3.
Qed.

Lemma steps_tokened C a w w' : asteps C w w' -> (forall x, ch_account C x = false) -> tokened a w -> tokened a w'.
Proof.
  intros H HA. refine (asteps_inv C (tokened a) _ w w' H). intros; eapply step_tokened; eauto.
Qed.

Lemma inner_tokened C a k caller l w w' : om_get caller (w_inst w) <> None ->
  exec C k caller l w = Ok w' -> tokened a w -> tokened a w'.
Proof.
  intros Hb H. apply inner_steps in H; [| exact Hb]. apply (steps_tokened _ _ _ _ H). reflexivity.
Qed.

(** ** One transaction *)
Lemma at_here w a x st : contract_at (set_inst a x w) a st -> x = IC st.
Proof. unfold contract_at. cbn [w_inst set_inst]. rewrite om_get_set_eq. intros H. now injection H. Qed.

Lemma given_tokened C k a id rr w w' :
  give_reply C k (exec C k) a id rr w = Ok w' -> tokened a w'.
Proof.
  unfold give_reply. intros H. destruct (om_get a (w_inst w)) as [[st | st] |] eqn:E; [| | discriminate H];
    apply bind_Ok_inv in H as ([st' r] & H1 & H); apply inner_tokened with (a := a) in H;
    try exact H; try apply set_inst_here; intros st1 Hc Hk; apply at_here in Hc.
  - injection Hc as <-. exact (reply_token _ _ _ _ _ _ H1 Hk).
  - discriminate Hc.
Qed.

Lemma bridged_first A q e i m st r :
  c_instantiate A q e i m = Ok (st, r) -> is_warp st -> reported_token st = None ->
  exists msg rest, r_msgs r = mkSub msg (RpSuccess REPLY_ID_CREATE_DENOM) :: rest.
Proof.
  intros H Hn T. unfold c_instantiate, lift in H. destruct m; inv_all; try contradiction Hn.
  - unfold wn_instantiate in *. inv_all. split_matches; inv_all; [cbn [r_msgs]; eauto |].
    rewrite (proj1 (wtoken_of _)) in T. discriminate T.
  - unfold wc_instantiate in *. inv_all. split_matches; inv_all; [cbn [r_msgs]; eauto |].
    rewrite (proj2 (wtoken_of _)) in T. discriminate T.
Qed.

Lemma first_tokened C k a msg id rest w w' : om_get a (w_inst w) <> None ->
  exec C k a (mkSub msg (RpSuccess id) :: rest) w = Ok w' -> tokened a w'.
Proof.
  intros Hb H. destruct k as [| k]; [discriminate H |]. cbn [exec] in H.
  apply bind_Ok_inv in H as (w1 & H1 & H).
  assert (S1 : asteps C w w1) by (eapply run_sub_steps; [apply exec_steps | exact Hb | exact H1]).
  apply inner_tokened with (a := a) in H; [exact H | exact (asteps_keeps _ _ _ _ S1 Hb) |].
  unfold run_sub in H1. cbn [sm_msg sm_reply] in H1.
  destruct (perform C k (exec C k) a msg w) as [[w2 rr] | |]; [| discriminate H1 | discriminate H1].
  exact (given_tokened _ _ _ _ _ _ _ H1).
Qed.

Lemma deploy_tokened C k a caller m f w w' b :
  deploy C k (exec C k) caller m f w = Ok (w', b) -> tokened a w -> tokened a w'.
Proof.
  intros H J. unfold deploy in H.
  destruct (om_get (ch_addr C (w_next w)) (w_inst w)) eqn:E; [discriminate H |].
  apply bind_Ok_inv in H as (w1 & M & H). apply bind_Ok_inv in H as ([st r] & I1 & H).
  apply bind_Ok_inv in H as (w2 & H1 & H). apply Ok_inj in H. injection H as <- _. calm_inst.
  assert (G : tokened a (add_log (LNew (ch_addr C (w_next w)) (mkEnv (ch_addr C (w_next w)) (w_height w))
      (mkInfo caller (norm_coins f)) (wq C k w1) m r) (set_inst (ch_addr C (w_next w)) (IC st) w1)) \/
    (a = ch_addr C (w_next w) /\ is_warp st /\ reported_token st = None)).
  { destruct (keqb a (ch_addr C (w_next w))) eqn:K.
    - apply keqb_eq in K. destruct (reported_token st) as [t |] eqn:T.
      + left. intros st1 Hc _. rewrite K in Hc. apply at_here in Hc. injection Hc as <-. rewrite T. discriminate.
      + destruct (match st with SWarpNative _ | SWarpCw20 _ => true | _ => false end) eqn:W.
        * right. split; [exact K |]. split; [| reflexivity]. destruct st; try discriminate W; exact I.
        * left. intros st1 Hc Hk. rewrite K in Hc. apply at_here in Hc. injection Hc as <-.
          destruct st; try contradiction Hk; discriminate W.
    - left. intros st1 Hc Hk. apply at_set in Hc as [[X _] | Hc].
      + apply keqb_eq in X. rewrite X in K. discriminate K.
      + apply (J st1); [| exact Hk]. eapply at_same; [| exact Hc]. now rewrite M. }
  destruct G as [G | (-> & Hk & T)].
  - eapply inner_tokened; [| exact H1 | exact G]. apply set_inst_here.
  - destruct (bridged_first _ _ _ _ _ _ _ I1 Hk T) as (msg & rest & Em). rewrite Em in H1.
    eapply first_tokened; [| exact H1]. apply set_inst_here.
Qed.

Lemma tx_tokened C k t a w w' : tx_run C k t w = Ok w' -> tokened a w -> tokened a w'.
Proof.
  destruct t; unfold tx_run; intros H J.
  - apply bind_Ok_inv in H as (u & _ & H). apply bind_Ok_inv in H as ([w1 rr] & H & X). apply Ok_inj in X as <-.
    unfold perform in H. apply bind_Ok_inv in H as (w2 & M & H). apply bind_Ok_inv in H as (w3 & H & X).
    apply Ok_inj in X. injection X as <- _. calm_inst. unfold invoke in H.
    destruct (om_get a0 (w_inst w2)) as [[st | st] |] eqn:E; [| | discriminate H];
      apply bind_Ok_inv in H as ([st' r] & H1 & H); apply inner_tokened with (a := a) in H;
      try exact H; try apply set_inst_here; intros st1 Hc Hk; apply at_set in Hc as [[X Y] | Hc];
      try discriminate Y;
      try (apply (J st1); [| exact Hk]; eapply at_same; [| exact Hc]; now rewrite M).
    injection Y as <-. destruct (call_token _ _ _ _ _ _ _ _ H1 Hk) as [Hk0 ->].
    apply (J st); [| exact Hk0]. rewrite X. eapply at_same; [| exact E]. now rewrite M.
  - apply bind_Ok_inv in H as (u & _ & H). apply bind_Ok_inv in H as ([w1 rr] & H & X). apply Ok_inj in X as <-.
    unfold perform in H. apply bind_Ok_inv in H as (u1 & _ & H). apply bind_Ok_inv in H as (u2 & _ & H).
    apply bind_Ok_inv in H as (w2 & M & H). apply Ok_inj in H. injection H as <- _. calm_inst.
    intros st1 Hc Hk. apply (J st1); [| exact Hk]. eapply at_same; [| exact Hc]. now rewrite M.
  - apply bind_Ok_inv in H as (u & _ & H). apply bind_Ok_inv in H as ([w1 rr] & H & X). apply Ok_inj in X as <-.
    exact (deploy_tokened _ _ _ _ _ _ _ _ _ H J).
  - apply bind_Ok_inv in H as (u & _ & H). unfold deploy_ext in H.
    destruct (om_get (ch_addr C (w_next w)) (w_inst w)) eqn:E; [discriminate H |].
    apply bind_Ok_inv in H as (w1 & M & H). apply Ok_inj in H as <-. calm_inst.
    intros st1 Hc Hk. apply at_set in Hc as [[_ X] | Hc]; [discriminate X |].
    apply (J st1); [| exact Hk]. eapply at_same; [| exact Hc]. now rewrite M.
  - apply bind_Ok_inv in H as (u & _ & H). apply Ok_inj in H as <-.
    intros st1 Hc Hk. exact (J st1 Hc Hk).
Qed.

Lemma token_known C w a st : reachable C w -> contract_at w a st -> is_warp st -> reported_token st <> None.
Proof.
  intros (bank & l & _ & ->) Hc Hk. revert st Hc Hk. change (tokened a (chain_run C (genesis bank) l)).
  assert (J : tokened a (genesis bank)) by (intros st Hc; discriminate Hc).
  revert J. generalize (genesis bank) as w. induction l as [| t l IH]; intros w J; [exact J |].
  cbn [chain_run fold_left]. apply IH. unfold tx_step.
  destruct (tx_run C (fst t) (snd t) w) eqn:E; try exact J. exact (tx_tokened _ _ _ _ _ _ E J).
Qed.

(** ** Which token it is *)
Lemma token_of_route C w a st :
  chain_ok C -> reachable C w -> contract_at w a st -> is_warp st ->
  exists e i q m r tk, births_at a (w_log w) = [(e, i, q, m, r)] /\ reported_token st = Some tk /\ own_token w a m tk.
Proof.
  intros HC Hr Hc Hk. destruct (reported_token st) as [tk |] eqn:Ht; [| destruct (token_known C w a st Hr Hc Hk Ht)].
  destruct (contract_known C w a st Hr Hc) as (e & i & q & m & r & st0 & B & He & Hi & L).
  exists e, i, q, m, r, tk. split; [exact B |]. split; [reflexivity |].
  pose proof (lives_kind _ _ _ _ L) as K.
  destruct st as [ | | | | | | | | | | | | | | |x|x|]; try contradiction Hk.
  - assert (Hn0 : is_warp_native st0) by (destruct st0; try discriminate K; exact I).
    assert (RR : forall id d r', In (EvReply id (Ok (RrDenom d)), r') (answers_at a (w_log w)) ->
      exists sub, In (CCreateDenom a sub) (map sm_msg (r_msgs r)) /\ d = factory_denom a sub /\ om_get d (w_admin w) = Some a).
    { intros id d r' Hin. apply reply_in_log in Hin. apply (log_true C w _ Hr) in Hin. cbn [entry_true done_reply] in Hin.
      destruct Hin as (sub & D & E1 & E2). exists sub. split; [| auto].
      exact (created_at_birth C w a _ _ e i q m r HC Hr Hc Hk B D eq_refl). }
    unfold c_instantiate, lift in Hi. destruct m; inv_all; try contradiction Hn0.
    unfold wn_instantiate in *. inv_all. split_matches; inv_all; cbn [own_token].
    + cbn [r_msgs] in RR.
      assert (RU : forall id d r', In (EvReply id (Ok (RrDenom d)), r') (answers_at (e_contract e) (w_log w)) ->
        d = factory_denom (e_contract e) subdenom /\ om_get d (w_admin w) = Some (e_contract e)).
      { intros id d r' Hin. apply RR in Hin as (sub' & Hin & E1 & E2). split; [| exact E2].
        cbn [map sm_msg] in Hin. destruct Hin as [Hin | Hin]; [injection Hin as <-; exact E1 |].
        exfalso. destruct md; [destruct Hin as [Hin | []]; discriminate Hin | contradiction Hin]. }
      destruct (lives_token_reply _ _ _ _ tk Hn0 L Ht) as [X | (id & r' & X)];
        [rewrite (proj1 (wtoken_of _)) in X; discriminate X |].
      destruct (RU _ _ _ X) as [-> X2]. auto.
    + destruct (lives_token_reply _ _ _ _ tk Hn0 L Ht) as [X | (id & r' & X)].
      * rewrite (proj1 (wtoken_of _)) in X. now injection X.
      * apply RR in X as (sub' & [] & _).
  - assert (Hn0 : is_warp_cw20 st0) by (destruct st0; try discriminate K; exact I).
    assert (RR : forall id d r', In (EvReply id (Ok (RrContract d)), r') (answers_at a (w_log w)) ->
      exists mt ini e' q' r'', In (CInstantiateCw20 mt ini) (map sm_msg (r_msgs r)) /\
        In (LNew d e' (mkInfo a []) q' (ICw20 (Some mt) ini) r'') (w_log w)).
    { intros id d r' Hin. apply reply_in_log in Hin. apply (log_true C w _ Hr) in Hin. cbn [entry_true done_reply] in Hin.
      destruct Hin as (mt & ini & e' & q' & r'' & D & E1). exists mt, ini, e', q', r''. split; [| exact E1].
      exact (created_at_birth C w a _ _ e i q m r HC Hr Hc Hk B D eq_refl). }
    unfold c_instantiate, lift in Hi. destruct m; inv_all; try contradiction Hn0.
    unfold wc_instantiate in *. inv_all. split_matches; inv_all; cbn [own_token].
    + destruct (cw_token_reply _ _ _ _ tk Hn0 L Ht) as [X | (id & r' & X)];
        [rewrite (proj2 (wtoken_of _)) in X; discriminate X |].
      apply RR in X as (mt & ini & e' & q' & r'' & [X | []] & Eln). cbn [sm_msg] in X.
      injection X as <- <-.
      assert (Bi : In (e', mkInfo (e_contract e) [], q', ICw20 (Some (e_contract e)) initial, r'')
        (births_at tk (w_log w))).
      { unfold births_at. apply in_flat_map. eexists. split; [exact Eln |]. cbn beta iota. rewrite bytes_eqb_refl. now left. }
      rewrite (births_one C w tk _ Hr Bi). eauto 10.
    + destruct (cw_token_reply _ _ _ _ tk Hn0 L Ht) as [X | (id & r' & X)].
      * rewrite (proj2 (wtoken_of _)) in X. injection X as <-.
        match goal with V : addr_validate _ address = Ok _ |- _ => apply addr_validate_iff in V as [_ V] end.
        congruence.
      * apply RR in X as (mt & ini & e' & q' & r'' & [] & _).
Qed.

Lemma births_extend C w l a x : reachable C (chain_run C w l) ->
  births_at a (w_log w) = [x] -> births_at a (w_log (chain_run C w l)) = [x].
Proof.
  intros Hr B. apply births_one with (C := C); [exact Hr |].
  destruct (asteps_extends C w _ (chain_run_steps C l w)) as (new & ->).
  unfold births_at in *. rewrite flat_map_app, B. now left.
Qed.

Lemma reachable_later C w l : reachable C w -> reachable C (chain_run C w l).
Proof.
  intros (bank & l0 & Hs & ->). exists bank, (l0 ++ l). split; [exact Hs |]. unfold chain_run. now rewrite fold_left_app.
Qed.

(** a route has at most one token contract made *)
Lemma one_token C w a st e i q ini hrp o mb r :
  chain_ok C -> reachable C w -> contract_at w a st -> is_warp st ->
  births_at a (w_log w) = [(e, i, q, IWarpCw20 (CtBridged ini) hrp o mb, r)] ->
  forall b b' e1 q1 m1 i1 r1 e2 q2 m2 i2 r2,
    births_at b (w_log w) = [(e1, mkInfo a [], q1, ICw20 (Some m1) i1, r1)] ->
    births_at b' (w_log w) = [(e2, mkInfo a [], q2, ICw20 (Some m2) i2, r2)] -> b = b'.
Proof.
  intros HC Hr Hc Hk B b b' e1 q1 m1 i1 r1 e2 q2 m2 i2 r2 B1 B2.
  assert (In1 : forall b e1 q1 m1 i1 r1, births_at b (w_log w) = [(e1, mkInfo a [], q1, ICw20 (Some m1) i1, r1)] ->
    In (b, (m1, i1)) (cw_births a (w_log w))).
  { clear. intros b e1 q1 m1 i1 r1 B. assert (X : In (e1, mkInfo a [], q1, ICw20 (Some m1) i1, r1) (births_at b (w_log w)))
      by (rewrite B; now left).
    unfold births_at in X. apply in_flat_map in X as (x & X1 & X2). destruct x as [ |y | |]; try contradiction X2.
    destruct (bytes_eqb b y) eqn:E; [| contradiction X2]. destruct X2 as [X2 | []]. injection X2 as -> -> -> -> ->.
    apply bytes_eqb_eq in E as <-. exact (cw_births_in _ _ _ _ _ _ _ _ X1). }
  apply In1 in B1. apply In1 in B2.
  pose proof (requests_at_birth C w a st _ i q _ r HC Hr Hc Hk B) as P.
  destruct (contract_known C w a st Hr Hc) as (e' & i' & q' & m' & r' & st0 & B' & _ & I' & _).
  rewrite B in B'. injection B' as <- <- <- <- <-. unfold c_instantiate, lift in I'. inv_all.
  unfold wc_instantiate in *. inv_all. cbn [r_msgs map sm_msg flat_map cw_request app] in P.
  rewrite <- (cw_births_done C w a Hr (contract_account C w a st HC Hr Hc)) in P.
  apply Permutation_sym, Permutation_length_1_inv in P.
  destruct (cw_births a (w_log w)) as [| x [| ]]; try discriminate P.
  destruct B1 as [B1 | []], B2 as [B2 | []]. congruence.
Qed.

Lemma token_stays C w l a st st' :
  chain_ok C -> reachable C w -> contract_at w a st -> is_warp st ->
  contract_at (chain_run C w l) a st' -> is_warp st' /\ reported_token st' = reported_token st.
Proof.
  intros HC Hr Hc Hk Hc'. pose proof (reachable_later C w l Hr) as Hr'.
  destruct (token_of_route C w a st HC Hr Hc Hk) as (e & i & q & m & r & tk & B & T & O).
  assert (Hk' : is_warp st').
  { destruct (contract_known C _ a st' Hr' Hc') as (e1 & i1 & q1 & m1 & r1 & st1 & B1 & _ & I1 & L1).
    rewrite (births_extend C w l a _ Hr' B) in B1. injection B1 as <- <- <- <- <-.
    pose proof (lives_kind _ _ _ _ L1) as K. unfold c_instantiate, lift in I1.
    destruct m; try contradiction O; inv_all; destruct st'; try discriminate K; exact I. }
  split; [exact Hk' |].
  destruct (token_of_route C _ a st' HC Hr' Hc' Hk') as (e' & i' & q' & m' & r' & tk' & B' & T' & O').
  rewrite (births_extend C w l a _ Hr' B) in B'. injection B' as <- <- <- <- <-.
  rewrite T, T'. f_equal. destruct m; try contradiction O; cbn [own_token] in O, O'.
  - destruct t; [| congruence]. destruct O as [-> _], O' as [-> _]. reflexivity.
  - destruct t; [| congruence]. destruct O as (e1 & q1 & r1 & B1), O' as (e2 & q2 & r2 & B2).
    apply (births_extend C w l tk _ Hr') in B1. symmetry.
    exact (one_token C _ a st' e i q _ _ _ _ r HC Hr' Hc' Hk' (births_extend C w l a _ Hr' B) _ _ _ _ _ _ _ _ _ _ _ _ B1 B2).
Qed.

Lemma tokens_apart C w a b st st' tk :
  chain_ok C -> reachable C w -> contract_at w a st -> contract_at w b st' ->
  (is_warp_native st /\ is_warp_native st') \/ (is_warp_cw20 st /\ is_warp_cw20 st') ->
  reported_mode st = Some Bridged -> reported_mode st' = Some Bridged ->
  reported_token st = Some tk -> reported_token st' = Some tk -> a = b.
Proof.
  intros HC Hr Ha Hb [[K K'] | [K K']] M M' T T'.
  - pose proof (proj2 (native_route C w a st tk HC Hr Ha K T)) as X.
    pose proof (proj2 (native_route C w b st' tk HC Hr Hb K' T')) as X'.
    rewrite M in X. rewrite M' in X'. destruct X as [X _], X' as [X' _]. rewrite X in X'. now injection X'.
  - pose proof (proj2 (cw_route C w a st tk HC Hr Ha K T)) as X.
    pose proof (proj2 (cw_route C w b st' tk HC Hr Hb K' T')) as X'.
    rewrite M in X. rewrite M' in X'. destruct X as [(e & i & q & ini & r & X) _], X' as [(e' & i' & q' & ini' & r' & X') _].
    rewrite X in X'. congruence.
Qed.

Lemma every_route_covered S st :
  side_ok S -> contract_at (sd_world S) (sd_route S) st ->
  (is_warp_cw20 st -> reported_mode st = Some Collateral ->
   exists tk tst, reported_token st = Some tk /\ contract_at (sd_world S) tk tst /\ is_cw20 tst) ->
  (exists held base, custody S held base) \/ (exists out base, issued S out base).
Proof.
  intros H Hc G.
  assert (X : chain_ok (sd_chain S) /\ reachable (sd_chain S) (sd_world S) /\ is_warp st).
  { destruct H as (HC & Hr & _ & (st1 & Hc1 & Hk1 & _) & _). split; [exact HC |]. split; [exact Hr |].
    unfold contract_at in Hc, Hc1. rewrite Hc in Hc1. injection Hc1 as <-. exact Hk1. }
  destruct X as (HC & Hr & Hk).
  destruct (token_of_route _ _ _ _ HC Hr Hc Hk) as (_ & _ & _ & _ & _ & tk & _ & T & _).
  apply (route_covered S st tk H Hc T). intros K M. destruct (G K M) as (tk' & tst & T' & G').
  rewrite T in T'. injection T' as <-. eauto.
Qed.
