(** * The chain on texts and databases does what the chain on values and records does. *)
From Coq Require Import List NArith Arith Bool.
From Verif Require Import Base BaseFacts OMap Message Coins Json Chain Utils Cw20 Contracts World SpecWorld StepFacts WorldFacts Wire WireQuery WireInit
  SpecQuery SpecWire QueryFacts WireQueryFacts WireAnswers WireWidths WireCalls WireWorld WireWorldFacts Store SpecStore StoreFacts StoreState Raw SpecRaw RawFacts RawExec RawQuery RawInit RawWorld
  SpecRawWorld RawWorldFacts TextWorld SpecTextWorld Crypto Mailbox WorldMailbox WireTexts WireStrict SpecInitText WireInitFacts.
Import ListNotations.

Lemma stored_narrow st : stored st -> narrow st.
Proof.
  assert (R : forall h (r : Router.routes), routes_held h r -> routes_narrow r).
  { intros h r [_ F]. unfold routes_narrow. eapply Forall_impl; [|exact F]. intros p [H _]. exact H. }
  destruct st; cbn [stored narrow]; try tauto; intros S; try (now apply (R _ _ S)).
  - destruct S as [_ [_ F]]. eapply Forall_impl; [|exact F]. intros p [_ H]. exact H.
  - cbn in S. apply andb_true_iff in S as [S _]. now apply Nat.eqb_eq.
  - exact (R _ _ (proj1 S)).
  - destruct S as [_ F]. eapply Forall_impl; [|exact F]. intros p [_ H]. cbn in H. rewrite andb_true_r in H. apply andb_true_iff in H. exact H.
  - destruct S as (S1 & S2 & _ & F). split; [exact (R _ _ S1)|]. split; [exact S2|]. exact F.
Qed.

(** ** One message, one query *)
Definition worded (t : bool) (m : emsg) : Prop := t = true -> sent m = true /\ emsg_ok m = true.
Lemma handed_same t st m : worded t m ->
  handed t (program_of st) m = Ok m \/ (handed t (program_of st) m = Err EParse /\ understands st m = false).
Proof.
  intros W. destruct t; [|now left]. destruct (W eq_refl) as [S O]. unfold handed. rewrite (sent_read st m S O).
  destruct (understands st m); [now left|now right].
Qed.
Lemma answered_same A q f m st : asked m = true -> qmsg_ok m = true -> narrow st -> f m = c_query A q m st ->
  answered true (program_of st) m f = c_query A q m st.
Proof.
  intros H O W F. pose proof (ask_same A q m st H O W) as E. unfold ask_json in E. unfold answered. rewrite (asked_read st m H O) in *.
  destruct (answers_to st m); [|exact E]. cbn [ok_or bind]. rewrite F. exact E.
Qed.

Section Text.
  Variable C : chain.
  Variable ver : addr -> program -> cw2.
  Hypothesis X : asks_only (ch_ext C).

  Lemma twq_same n : forall w, good w ->
    agree (twq C n true (spread ver w)) (rwq C n (spread ver w)) /\ alike (twq C n false (spread ver w)) (rwq C n (spread ver w)).
  Proof.
    induction n as [|n IH]; intros w G; (split; split; [|split; reflexivity| |split; reflexivity]); try (intros; reflexivity).
    - intros a m H O. destruct (IH w G) as [I1 I2]. cbn [twq rwq q_smart]. rewrite spread_get.
      destruct (om_get a (w_inst w)) as [[st|st]|] eqn:E; cbn [option_map]; [|cbn [spread_inst]; apply (proj2 (proj2 X)), I2|reflexivity].
      pose proof (proj1 G _ _ E) as S. destruct (repo_or_token st) as [[x ->]|N].
      + cbn [spread_inst]. change PCw20 with (program_of (SCw20 x)). apply answered_same; [exact H|exact O|exact I|]. apply query_agree, I1.
      + rewrite (spread_inst_repo _ _ _ N). cbv iota beta. rewrite (raw_query_eq _ (rwq C n (spread ver w)) _ _ _ S N).
        apply answered_same; [exact H|exact O|exact (stored_narrow _ S)|]. rewrite raw_query_eq by assumption. apply query_agree, I1.
    - intros a m. destruct (IH w G) as [I1 I2]. cbn [twq rwq q_smart answered]. rewrite spread_get.
      destruct (om_get a (w_inst w)) as [[st|st]|] eqn:E; cbn [option_map]; [|cbn [spread_inst]; apply (proj2 (proj2 X)), I2|reflexivity].
      pose proof (proj1 G _ _ E) as S. destruct (repo_or_token st) as [[x ->]|N].
      + cbn [spread_inst]. apply query_agree, I1.
      + rewrite (spread_inst_repo _ _ _ N). cbv iota beta. rewrite !raw_query_eq by assumption. apply query_agree, I1.
  Qed.

  Definition well (t : bool) (l : list submsg) : Prop :=
    t = true -> Forall (fun x => match sm_msg x with CExec _ m _ => sent m = true /\ emsg_ok m = true | _ => True end) l.

  Section Step.
    Variable k : nat.
    Variable trec : bool -> addr -> list submsg -> rworld -> res rworld.
    Variable rrec : addr -> list submsg -> rworld -> res rworld.
    Hypothesis REC : forall t a l w, good w -> well t l -> trec t a l (spread ver w) = rrec a l (spread ver w).

    Lemma tinvoke_same t caller a m f w : good w -> worded t m ->
      tinvoke C k trec t caller a m f (spread ver w) = rinvoke C k rrec caller a m f (spread ver w).
    Proof.
      intros G M. unfold tinvoke, rinvoke. rewrite spread_get. destruct (om_get a (w_inst w)) as [[st|st]|] eqn:E; cbn [option_map].
      - pose proof (proj1 G _ _ E) as S. cbv zeta. change (rw_height (spread ver w)) with (w_height w).
        destruct (repo_or_token st) as [[x ->]|N].
        + cbn [spread_inst]. change PCw20 with (program_of (SCw20 x)). destruct (handed_same t (SCw20 x) m M) as [->|[-> U]]; cbn [bind].
          * apply bind_agree; intros u O. apply ensure_Ok_inv in O. apply bind_agree; intros [x' r] H.
            change (RT x') with (spread_inst ver a (IC (SCw20 x'))). rewrite spread_set. apply REC.
            -- apply good_set; [|exact G]. intros y E'. injection E' as <-. exact I.
            -- intros _. apply (call_sends (ch_api C) (EvExec (mkEnv a (w_height w)) (mkInfo caller f) m (fun _ => wq C k w)) (SCw20 x) (SCw20 x') r).
               cbn [c_apply]. unfold c_execute. rewrite O. cbn [ensure bind]. unfold lift. rewrite H. reflexivity.
          * pose proof (not_understood (ch_api C) (fun _ => wq C k w) (mkEnv a (w_height w)) (mkInfo caller f) m (SCw20 x) U) as H.
            unfold c_execute in H. destruct (emsg_ok m); cbn [ensure bind] in *; [|reflexivity]. unfold lift in H.
            destruct (cw_execute (ch_api C) (mkInfo caller f) m x) as [[x' r]|e|]; cbn [bind] in *; congruence.
        + rewrite (spread_inst_repo _ _ _ N). cbv iota beta.
          set (Q := fun y => rwq C k (rset_inst a (RC (program_of st) y) (spread ver w))).
          rewrite (raw_execute_eq _ Q); [|exact S|exact N|exact (proj2 G)].
          destruct (handed_same t st m M) as [->|[-> U]]; cbn [bind]; [|now rewrite (not_understood _ _ _ _ _ _ U)].
          rewrite raw_execute_eq; [|exact S|exact N|exact (proj2 G)].
          rewrite (execute_alike (ch_api C) _ (fun y => Q (storage (ver a (program_of st)) y))); [|intros y Sy Py; unfold Q|exact S|exact (proj2 G)].
          2: { rewrite <- Py. rewrite <- spread_inst_repo; [rewrite spread_set; apply twq_same, good_set; [|exact G]|].
               - intros z E'. injection E' as <-. exact Sy.
               - intros z ->. cbn [program_of] in Py. destruct st; try discriminate Py. now apply (N x). }
          destruct (c_execute (ch_api C) _ (mkEnv a (w_height w)) (mkInfo caller f) m st) as [[st' r]|e|] eqn:X'; cbn [kept_as bind]; try reflexivity.
          match type of X' with c_execute _ ?q _ _ _ _ = _ => set (Q' := q) in X' end.
          pose proof (program_kept _ (EvExec (mkEnv a (w_height w)) (mkInfo caller f) m Q') _ _ _ X') as P.
          rewrite <- P, <- spread_inst_repo, spread_set.
          2: { intros z ->. cbn [program_of] in P. destruct st; try discriminate P. now apply (N x). }
          apply REC.
          * apply good_set; [|exact G]. intros z E'. injection E' as <-.
            exact (stored_step _ (EvExec (mkEnv a (w_height w)) (mkInfo caller f) m Q') _ _ _ S (proj2 G) X').
          * intros _. exact (call_sends _ (EvExec (mkEnv a (w_height w)) (mkInfo caller f) m Q') _ _ _ X').
      - cbn [spread_inst]. cbv zeta. rewrite (proj1 X _ _ _ _ _ _ (proj2 (twq_same k w G))). apply bind_agree; intros [st' r] _.
        change (RX st') with (spread_inst ver a (IX st')). rewrite spread_set. apply REC; [|discriminate]. apply good_set; [discriminate|exact G].
      - reflexivity.
    Qed.

    Lemma treply_same a id rr w : good w -> tgive_reply C k trec a id rr (spread ver w) = rgive_reply C k rrec a id rr (spread ver w).
    Proof.
      intros G. unfold tgive_reply, rgive_reply. rewrite spread_get. destruct (om_get a (w_inst w)) as [[st|st]|] eqn:E; cbn [option_map].
      - pose proof (proj1 G _ _ E) as S. destruct (repo_or_token st) as [[x ->]|N]; [reflexivity|].
        rewrite (spread_inst_repo _ _ _ N). cbv iota beta. rewrite raw_reply_eq; [|exact S|exact N].
        destruct (c_reply (ch_api C) id rr st) as [[st' r]|e|] eqn:X'; cbn [kept_as bind]; try reflexivity.
        pose proof (program_kept _ (EvReply id rr) _ _ _ X') as P. rewrite <- P, <- spread_inst_repo, spread_set.
        2: { intros z ->. cbn [program_of] in P. destruct st; try discriminate P. now apply (N x). }
        apply REC.
        + apply good_set; [|exact G]. intros z E'. injection E' as <-. exact (stored_step _ (EvReply id rr) _ _ _ S I X').
        + intros _. exact (call_sends _ (EvReply id rr) _ _ _ X').
      - cbn [spread_inst]. rewrite (proj1 (proj2 X) _ _ _ _ _ _ (proj2 (twq_same k w G))). apply bind_agree; intros [st' r] _.
        change (RX st') with (spread_inst ver a (IX st')). rewrite spread_set. apply REC; [|discriminate]. apply good_set; [discriminate|exact G].
      - reflexivity.
    Qed.

    Lemma moved from to l w x : good w -> rmove_coins from to l (spread ver w) = Ok x -> exists w1, good w1 /\ x = spread ver w1.
    Proof.
      intros G H. pose proof (move_same ver from to l w G) as R. rewrite H in R. destruct (move_coins from to l w) as [w1|e|]; cbn [rel] in R; try contradiction.
      exists w1. exact R.
    Qed.
    Lemma rborn_agree q1 q2 e m : agree q1 q2 -> rborn C ver q1 e m = rborn C ver q2 e m.
    Proof.
      intros AG. unfold rborn. destruct m; try reflexivity; rewrite !(raw_instantiate_eq _ _ _ (mkInfo [] [])) by (intros; discriminate);
        rewrite (instantiate_agree _ _ AG); reflexivity.
    Qed.
    Lemma tdeploy_same caller m f w : good w -> tdeploy C ver k trec caller m f (spread ver w) = rdeploy C ver k rrec caller m f (spread ver w).
    Proof.
      intros G. unfold tdeploy, rdeploy. destruct (om_get _ (rw_inst (spread ver w))); [reflexivity|]. cbv zeta.
      assert (GB : good (bump w)) by now apply (good_same w).
      apply bind_agree; intros x Hx. apply (moved _ _ _ (bump w) _ GB) in Hx as (w1 & G1 & ->).
      rewrite (rborn_agree _ _ _ _ (proj1 (twq_same k w1 G1))). set (e := mkEnv _ _).
      pose proof (born_same C ver _ _ e (mkInfo caller (norm_coins f)) m (alike_agree _ _ (rwq_alike C ver X k w1 G1))) as B.
      destruct (rborn C ver (rwq C k (spread ver w1)) e m) as [[y r]|z|]; cbn [bind]; try reflexivity.
      destruct (c_instantiate (ch_api C) (wq C k w1) e (mkInfo caller (norm_coins f)) m) as [[st r']|z|] eqn:H; cbn [rel fst snd] in B; try contradiction.
      destruct B as (-> & -> & S). rewrite spread_set, REC; [reflexivity| |].
      - apply good_set; [|exact G1]. intros z E'. now injection E' as <-.
      - intros _. exact (born_sends _ _ _ _ _ _ _ H).
    Qed.

    Definition worded_msg (t : bool) (m : cmsg) : Prop := match m with CExec _ em _ => worded t em | _ => True end.
    Lemma tperform_same t caller m w : good w -> worded_msg t m ->
      tperform C ver k trec t caller m (spread ver w) = rperform C ver k rrec caller m (spread ver w).
    Proof.
      intros G M. unfold tperform, rperform. destruct m; try reflexivity.
      - apply bind_agree; intros x Hx. apply (moved _ _ _ w _ G) in Hx as (w1 & G1 & ->). now rewrite (tinvoke_same _ _ _ _ _ _ G1 M).
      - now rewrite (tdeploy_same _ _ _ _ G).
    Qed.

    Variable rec : addr -> list submsg -> world -> res world.
    Hypothesis RECR : forall a l w, good w -> rel (same ver) (rrec a l (spread ver w)) (rec a l w).
    Lemma tsub_same t caller x w : good w -> worded_msg t (sm_msg x) ->
      trun_sub C ver k trec t caller x (spread ver w) = rrun_sub C ver k rrec caller x (spread ver w).
    Proof.
      intros G M. unfold trun_sub, rrun_sub. rewrite (tperform_same t caller _ w G M).
      pose proof (perform_same C ver X k rrec rec RECR caller (sm_msg x) w G) as P.
      destruct (rperform C ver k rrec caller (sm_msg x) (spread ver w)) as [[w' rr]|e|]; [|now destruct (sm_reply x); try apply treply_same..].
      destruct (perform C k rec caller (sm_msg x) w) as [[w1 rr']|e|]; cbn [rel] in P; try contradiction. destruct P as [[G1 E1] _]. cbn [fst] in *. subst w'.
      destruct (sm_reply x); try reflexivity; now apply treply_same.
    Qed.
  End Step.

  Lemma texec_same k : forall t a l w, good w -> well t l -> texec C ver k t a l (spread ver w) = rexec C ver k a l (spread ver w).
  Proof.
    induction k as [|k IH]; intros t a l w G W; [reflexivity|]. destruct l as [|x l]; [reflexivity|]. cbn [texec rexec].
    rewrite (tsub_same k (texec C ver k) (rexec C ver k) IH (exec C k) (exec_same C ver X k) t a x w G).
    2: { unfold worded_msg. destruct (sm_msg x) eqn:E; try exact I. intros T. specialize (W T). apply Forall_cons_iff in W as [W _]. now rewrite E in W. }
    apply bind_agree; intros w' H. pose proof (sub_same C ver X k (rexec C ver k) (exec C k) (exec_same C ver X k) a x w G) as R.
    rewrite H in R. destruct (run_sub C k (exec C k) a x w) as [w1|e|]; cbn [rel] in R; try contradiction. destruct R as [G1 ->].
    apply IH; [exact G1|]. intros T. specialize (W T). now apply Forall_cons_iff in W as [_ W].
  Qed.

  Lemma read_heard w a t : read_for (spread ver w) a t =
    match om_get a (w_inst w) with Some (IC st) => ok_or (read_exec (program_of st) t) EParse | _ => Err EParse end.
  Proof.
    unfold read_for. rewrite spread_get. destruct (om_get a (w_inst w)) as [[st|st]|]; cbn [option_map]; try reflexivity.
    destruct (repo_or_token st) as [[x ->]|N]; [reflexivity|]. now rewrite (spread_inst_repo _ _ _ N).
  Qed.

  (** a transaction that is heard does what it says; one that is not fails *)
  Lemma ttx_same k t w : good w ->
    match heard w t with
    | Some t' => ttx_run C ver k t (spread ver w) = rtx_run C ver k t' (spread ver w)
    | None => exists e, ttx_run C ver k t (spread ver w) = Err e
    end.
  Proof.
    intros G. pose proof (texec_same k) as TE.
    assert (P : forall c m, tperform C ver k (texec C ver k) false c m (spread ver w) = rperform C ver k (rexec C ver k) c m (spread ver w)).
    { intros c m. apply tperform_same; [exact TE|exact G|]. destruct m; try exact I. discriminate. }
    assert (D : forall c m f, tdeploy C ver k (texec C ver k) c m f (spread ver w) = rdeploy C ver k (rexec C ver k) c m f (spread ver w)).
    { intros c m f. now apply tdeploy_same. }
    destruct t as [c a t f|c p t f|t]; cbn [heard ttx_run].
    - rewrite read_heard. destruct (om_get a (w_inst w)) as [[st|st]|].
      + destruct (read_exec (program_of st) t) as [m|]; cbn [ok_or bind].
        * cbn [rtx_run]. now rewrite P.
        * destruct (ch_account C c); cbn [ensure bind]; eauto.
      + destruct (ch_account C c); cbn [ensure bind]; eauto.
      + destruct (ch_account C c); cbn [ensure bind]; eauto.
    - destruct (read_init p t) as [b|]; cbn [ok_or bind].
      + cbn [rtx_run]. now rewrite D.
      + destruct (ch_account C c); cbn [ensure bind]; eauto.
    - destruct t; cbn [ttx_run rtx_run]; rewrite ?P, ?D; reflexivity.
  Qed.

  Lemma heard_timely w k t t' : ttx_timely (k, t) -> heard w t = Some t' -> tx_timely (k, t').
  Proof.
    destruct t as [c a t f|c p t f|t]; cbn [heard]; intros T H.
    - destruct (om_get a (w_inst w)) as [[st|st]|]; try discriminate H. destruct (read_exec _ _); try discriminate H. now injection H as <-.
    - destruct (read_init p t); try discriminate H. now injection H as <-.
    - injection H as <-. exact T.
  Qed.
  Lemma trun_same l : forall w, good w -> Forall ttx_timely l ->
    tchain_run C ver (spread ver w) l = spread ver (chain_run C w (history_heard C w l)) /\ Forall tx_timely (history_heard C w l).
  Proof.
    induction l as [|[k t] l IH]; intros w G F; [split; [reflexivity|constructor]|]. apply Forall_cons_iff in F as [T F].
    unfold tchain_run. cbn [fold_left history_heard]. unfold ttx_step at 2. cbn [fst snd]. pose proof (ttx_same k t w G) as H.
    destruct (heard w t) as [t'|] eqn:E.
    - pose proof (heard_timely w k t t' T E) as T'. destruct (step_same C ver X w (k, t') G T') as [G1 E1].
      unfold rtx_step in E1. cbn [fst snd] in E1. rewrite H, E1. destruct (IH _ G1 F) as [I1 I2]. split; [exact I1|]. now constructor.
    - destruct H as [e ->]. exact (IH w G F).
  Qed.
End Text.

Lemma text_run C ver bank l : asks_only (ch_ext C) -> Forall ttx_timely l ->
  tchain_run C ver (rgenesis bank) l = spread ver (chain_run C (genesis bank) (history_heard C (genesis bank) l)).
Proof. intros X F. exact (proj1 (trun_same C ver X l _ (good_genesis bank) F)). Qed.
Lemma text_reached C ver bank l : asks_only (ch_ext C) -> Forall ttx_timely l ->
  exists w, timely_reachable C w /\ tchain_run C ver (rgenesis bank) l = spread ver w.
Proof.
  intros X F. destruct (trun_same C ver X l _ (good_genesis bank) F) as [H T].
  exists (chain_run C (genesis bank) (history_heard C (genesis bank) l)). split; [|exact H]. exists bank, (history_heard C (genesis bank) l). auto.
Qed.
Lemma text_tx C ver k t w : asks_only (ch_ext C) -> timely_reachable C w -> ttx_timely (k, t) ->
  match heard w t with
  | Some t' => ttx_run C ver k t (spread ver w) = laid ver (tx_run C k t' w)
  | None => exists e, ttx_run C ver k t (spread ver w) = Err e
  end.
Proof.
  intros X R T. pose proof (ttx_same C ver X k t w (timely_good C w X R)) as H. destruct (heard w t) as [t'|] eqn:E; [|exact H].
  rewrite H. apply laid_tx; [exact X|exact R|exact (heard_timely w k t t' T E)].
Qed.

(** ** What is written as the interface says is done *)
Lemma text_message C ver k w a st m u f : asks_only (ch_ext C) -> timely_reachable C w -> contract_at w a st ->
  understands st m = true -> emsg_ok m = true ->
  ttx_run C ver k (Write u a (message_text (hex_router st) m) f) (spread ver w) = laid ver (tx_run C k (TExec u a m f) w).
Proof.
  intros X R Hc U O. pose proof (text_tx C ver k (Write u a (message_text (hex_router st) m) f) w X R I) as H. cbn [heard] in H.
  unfold contract_at in Hc. rewrite Hc, (message_reads st m U O) in H. exact H.
Qed.
Lemma text_birth C ver k w b u f : asks_only (ch_ext C) -> timely_reachable C w -> proper b = true ->
  ttx_run C ver k (Make u (program_made (meant b)) (birth_text b) f) (spread ver w) = laid ver (tx_run C k (TDeploy u (meant b) f) w).
Proof.
  intros X R P. pose proof (text_tx C ver k (Make u (program_made (meant b)) (birth_text b) f) w X R I) as H. cbn [heard] in H.
  rewrite (birth_reads b P) in H. exact H.
Qed.
Lemma text_refused C ver k w a st t u f : asks_only (ch_ext C) -> timely_reachable C w -> contract_at w a st ->
  (forall m, understands st m = true -> read_exec (program_of st) t <> Some m) -> exists e, ttx_run C ver k (Write u a t f) (spread ver w) = Err e.
Proof.
  intros X R Hc N. pose proof (text_tx C ver k (Write u a t f) w X R I) as H. cbn [heard] in H. unfold contract_at in Hc. rewrite Hc in H.
  destruct (read_exec (program_of st) t) as [m|] eqn:E; [|exact H]. destruct (N m); [|reflexivity]. exact (proj1 (WireFacts.exec_only st t m E)).
Qed.

(** ** No message is processed twice *)
Lemma exec_logged C k u a m f w w' st : contract_at w a st -> tx_run C k (TExec u a m f) w = Ok w' ->
  exists e i Q r new, w_log w' = w_log w ++ new /\ In (LCall a (EvExec e i m Q) r) new.
Proof.
  intros Hc H. unfold tx_run in H. apply bind_Ok_inv in H as (x & _ & H). apply bind_Ok_inv in H as ([w2 rr] & P & H). apply Ok_inj in H as <-.
  unfold perform in P. cbv zeta in P. apply bind_Ok_inv in P as (w1 & M & P). apply move_coins_same in M as (M1 & M2 & _).
  cbn [w_inst w_log add_log] in M1, M2. apply bind_Ok_inv in P as (w3 & P & E). apply Ok_inj in E. injection E as -> _.
  unfold invoke in P. rewrite M1 in P. unfold contract_at in Hc. rewrite Hc in P. cbv zeta in P. apply bind_Ok_inv in P as ([st' r] & _ & P).
  apply exec_steps in P. 2: { apply set_inst_here. }
  apply asteps_extends in P as (new & L). rewrite L. cbn [w_log add_log set_inst]. rewrite M2. rewrite <- !app_assoc.
  do 4 eexists. eexists. split; [reflexivity|]. right. now left.
Qed.
Lemma processed_app a l1 l2 : processed_at a (l1 ++ l2) = processed_at a l1 ++ processed_at a l2.
Proof. unfold processed_at, answers_at. now rewrite !flat_map_app. Qed.
Lemma processed_in a e i md raw Q r l : In (LCall a (EvExec e i (MProcess md raw) Q) r) l -> In raw (processed_at a l).
Proof.
  intros H. unfold processed_at. apply in_flat_map. exists (EvExec e i (MProcess md raw) Q, r). split; [|now left].
  unfold answers_at. apply in_flat_map. eexists. split; [exact H|]. cbv beta iota. rewrite bytes_eqb_refl. now left.
Qed.
Lemma spread_mailbox ver w a d : om_get a (rw_inst (spread ver w)) = Some (RC PMailbox d) -> exists x, contract_at w a (SMailbox x).
Proof.
  rewrite spread_get. unfold contract_at. destruct (om_get a (w_inst w)) as [[st|st]|]; cbn [option_map]; intros H; try discriminate H.
  destruct (repo_or_token st) as [[x ->]|N]; [discriminate H|]. rewrite (spread_inst_repo _ _ _ N) in H. injection H as H _.
  destruct st; try discriminate H. eauto.
Qed.
Definition from (C : chain) (bank : omap (addr * str) N) (w : world) : Prop :=
  exists h, Forall tx_timely h /\ w = chain_run C (genesis bank) h.
Lemma from_tx C bank k t w w' : from C bank w -> tx_timely (k, t) -> tx_run C k t w = Ok w' -> from C bank w'.
Proof.
  intros (h & F & E) T H. exists (h ++ [(k, t)]). split; [apply Forall_app; split; [exact F|constructor; [exact T|constructor]]|].
  unfold chain_run in *. rewrite fold_left_app, <- E. cbn [fold_left]. unfold tx_step. cbn [fst snd]. rewrite H. reflexivity.
Qed.
Lemma from_run C bank w l : from C bank w -> Forall tx_timely l -> from C bank (chain_run C w l).
Proof.
  intros (h & F & E) T. exists (h ++ l). split; [exact (proj2 (Forall_app _ _ _) (conj F T))|]. rewrite E. unfold chain_run. symmetry. apply fold_left_app.
Qed.
Lemma from_timely C bank w : from C bank w -> timely_reachable C w.
Proof. intros (h & F & E). exists bank, h. auto. Qed.
Lemma from_reachable C bank w : om_sorted bank -> from C bank w -> reachable C w.
Proof. intros B (h & _ & E). exists bank, h. auto. Qed.
Lemma once_at C bank w k u a f md raw x w1 h2 k' u' f' md' raw' w3 : chain_ok C -> om_sorted bank -> from C bank w ->
  contract_at w a (SMailbox x) -> tx_run C k (TExec u a (MProcess md raw) f) w = Ok w1 -> Forall tx_timely h2 ->
  keccak256_hash raw' = keccak256_hash raw ->
  tx_run C k' (TExec u' a (MProcess md' raw') f') (chain_run C w1 h2) = Ok w3 -> False.
Proof.
  intros CK B R0 Hc T1 F2 Eq T3. unfold contract_at in Hc.
  pose proof (from_tx C bank k (TExec u a (MProcess md raw) f) w w1 R0 I T1) as R1.
  assert (S2 : asteps C w1 (chain_run C w1 h2)) by apply chain_run_steps.
  pose proof (from_run C bank w1 h2 R1 F2) as R2.
  set (w2 := chain_run C w1 h2) in *. clearbody w2.
  assert (S1 : asteps C w w1) by (eapply tx_steps; exact T1).
  destruct (asteps_kind C w w2 a _ (asteps_trans _ _ _ _ S1 S2) Hc) as ([st2|st2] & Hc2 & K); cbn [same_kind] in K; [|contradiction].
  destruct st2 as [x2| | | | | | | | | | | | | | | | | ]; try discriminate K.
  destruct (exec_logged C k u a _ f w w1 _ Hc T1) as (e1 & i1 & Q1 & r1 & n1 & L1 & I1).
  destruct (asteps_extends _ _ _ S2) as (n2 & L2).
  destruct (exec_logged C k' u' a _ f' w2 w3 _ Hc2 T3) as (e3 & i3 & Q3 & r3 & n3 & L3 & I3).
  assert (S3 : asteps C w2 w3) by (eapply tx_steps; exact T3).
  destruct (asteps_kind C w2 w3 a _ S3 Hc2) as ([st3|st3] & Hc3 & K3); cbn [same_kind] in K3; [|contradiction].
  pose proof (from_reachable C bank w3 B (from_tx C bank k' (TExec u' a (MProcess md' raw') f') w2 w3 R2 I T3)) as R3.
  destruct st3 as [x3| | | | | | | | | | | | | | | | | ]; try discriminate K3.
  destruct (chain_deliveries C w3 a (SMailbox x3) CK R3 Hc3) as (D & _); [reflexivity|].
  rewrite L3, L2, L1, !processed_app, !map_app in D. apply processed_in in I1, I3.
  apply (in_map keccak256_hash) in I1, I3. rewrite Eq in I3.
  clear - D I1 I3. revert D I1 I3. generalize (map keccak256_hash (processed_at a (w_log w))) (map keccak256_hash (processed_at a n1))
    (map keccak256_hash (processed_at a n2)) (map keccak256_hash (processed_at a n3)) (keccak256_hash raw). clear.
  intros a b c d h D I1 I3. apply in_split in I3 as (d1 & d2 & ->). rewrite app_assoc in D. apply NoDup_remove_2 in D. apply D.
  rewrite !in_app_iff. tauto.
Qed.
(** a mailbox found in a laid out world stays one *)
Lemma kept_mailbox C w w2 a x : asteps C w w2 -> contract_at w a (SMailbox x) -> exists x2, contract_at w2 a (SMailbox x2).
Proof.
  intros S Hc. destruct (asteps_kind C w w2 a _ S Hc) as ([st2|st2] & Hc2 & K); cbn [same_kind] in K; [|contradiction].
  destruct st2 as [x2| | | | | | | | | | | | | | | | | ]; try discriminate K. eauto.
Qed.
(** the text of a message for a mailbox *)
Lemma text_process C ver k u a t f md raw w x y : asks_only (ch_ext C) -> timely_reachable C w -> contract_at w a (SMailbox x) ->
  read_exec PMailbox t = Some (MProcess md raw) -> ttx_run C ver k (Write u a t f) (spread ver w) = Ok y ->
  exists w1, tx_run C k (TExec u a (MProcess md raw) f) w = Ok w1 /\ y = spread ver w1.
Proof.
  intros X R Hc Ht H. unfold contract_at in Hc. pose proof (text_tx C ver k (Write u a t f) w X R I) as T. cbn [heard] in T.
  rewrite Hc in T. cbn [program_of] in T. rewrite Ht, H in T.
  destruct (tx_run C k (TExec u a (MProcess md raw) f) w) as [w1|e|] eqn:T1; cbn [laid] in T; try discriminate T. apply Ok_inj in T. eauto.
Qed.
Lemma text_once C ver bank l k u a t f md raw d x' l' k' u' t' f' md' raw' x'' :
  asks_only (ch_ext C) -> chain_ok C -> om_sorted bank -> Forall ttx_timely l -> Forall ttx_timely l' ->
  om_get a (rw_inst (tchain_run C ver (rgenesis bank) l)) = Some (RC PMailbox d) ->
  read_exec PMailbox t = Some (MProcess md raw) -> ttx_run C ver k (Write u a t f) (tchain_run C ver (rgenesis bank) l) = Ok x' ->
  read_exec PMailbox t' = Some (MProcess md' raw') -> keccak256_hash raw' = keccak256_hash raw ->
  ttx_run C ver k' (Write u' a t' f') (tchain_run C ver x' l') <> Ok x''.
Proof.
  intros X CK B F F' Hd Ht H Ht' Eq H'. destruct (trun_same C ver X l _ (good_genesis bank) F) as [E Fh].
  assert (R0 : from C bank (chain_run C (genesis bank) (history_heard C (genesis bank) l))) by (eexists; split; [exact Fh|reflexivity]).
  change (spread ver (genesis bank)) with (rgenesis bank) in E. rewrite E in Hd, H. clear E Fh.
  revert R0 Hd H. generalize (chain_run C (genesis bank) (history_heard C (genesis bank) l)). intros w R0 Hd H. pose proof (from_timely _ _ _ R0) as R.
  apply spread_mailbox in Hd as (x & Hc). destruct (text_process C ver k u a t f md raw w x x' X R Hc Ht H) as (w1 & T1 & ->).
  pose proof (from_tx C bank k (TExec u a (MProcess md raw) f) w w1 R0 I T1) as R1.
  destruct (trun_same C ver X l' w1 (timely_good C w1 X (from_timely _ _ _ R1)) F') as [E2 F2]. rewrite E2 in H'. clear E2.
  destruct (kept_mailbox C w (chain_run C w1 (history_heard C w1 l')) a x) as (x2 & Hc2); [|exact Hc|].
  { eapply asteps_trans; [eapply tx_steps; exact T1|apply chain_run_steps]. }
  destruct (text_process C ver k' u' a t' f' md' raw' _ x2 x'' X (from_timely _ _ _ (from_run C bank w1 _ R1 F2)) Hc2 Ht' H') as (w3 & T3 & _).
  exact (once_at C bank w k u a f md raw x w1 _ k' u' f' md' raw' w3 CK B R0 Hc T1 F2 Eq T3).
Qed.
