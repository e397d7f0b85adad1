(** * The chain with raw databases does what the chain with records does. *)
From Coq Require Import List NArith Bool.
From Verif Require Import Base BaseFacts OMap Message Coins Chain Utils Cw20 Mailbox Hooks Igp Contracts World SpecWorld StepFacts WorldFacts Wire SpecWire WireWidths
  WireCalls Store StoreFacts SpecStore StoreState Raw SpecRaw RawFacts RawExec RawQuery RawInit RawWorld SpecRawWorld.
Import ListNotations.

Lemma map_om_get {K V W} {OK : OrdKey K} (f : K -> V -> W) (m : omap K V) k :
  om_get k (map (fun p => (fst p, f (fst p) (snd p))) m) = option_map (f k) (om_get k m).
Proof.
  induction m as [|[k' v] m IH]; [reflexivity|]. cbn [map fst snd om_get]. destruct (keqb k k') eqn:E; [|exact IH].
  apply keqb_eq in E. now subst k'.
Qed.
Lemma map_om_set {K V W} {OK : OrdKey K} (f : K -> V -> W) k v (m : omap K V) :
  map (fun p => (fst p, f (fst p) (snd p))) (om_set k v m) = om_set k (f k v) (map (fun p => (fst p, f (fst p) (snd p))) m).
Proof.
  induction m as [|[k' v'] m IH]; [reflexivity|]. cbn [map fst snd om_set]. destruct (klt k k'); [reflexivity|].
  destruct (klt k' k); cbn [map fst snd]; [now rewrite IH|reflexivity].
Qed.

Lemma alike_agree q1 q2 : alike q1 q2 -> agree q1 q2.
Proof. intros (H1 & H2 & H3). split; auto. Qed.

Lemma execute_alike A Q1 Q2 e i m st : (forall x, stored x -> program_of x = program_of st -> agree (Q1 x) (Q2 x)) ->
  stored st -> e_height e < 2 ^ 64 -> c_execute A Q1 e i m st = c_execute A Q2 e i m st.
Proof.
  intros AG W T. unfold c_execute. destruct (emsg_ok m) eqn:O; [|reflexivity]. cbn [ensure bind]. pose proof (AG st W eq_refl) as AS.
  destruct st; try reflexivity; destruct m; try reflexivity; unfold lift; f_equal;
    cbn [mb_execute mk_execute ah_execute fe_execute gp_execute].
  - unfold mb_dispatch. repeat (rewrite (quote_agree _ _ AS) || (apply bind_agree; intros)). reflexivity.
  - unfold mb_process. repeat (rewrite (recipient_agree _ _ AS) || (apply bind_agree; intros)).
    match goal with |- bind (ism_verify (Q1 ?z) _ _ _) _ = _ => rewrite (verify_agree (Q1 z) (Q2 z)) end; [reflexivity|]. apply AG; [|reflexivity].
    destruct W as (W1 & W2 & W3). split; [exact W1|]. split; [exact W2|]. cbn [mb_deliveries]. apply holds_set; [reflexivity| |exact W3].
    cbn. rewrite andb_true_r. now apply N.ltb_lt.
  - unfold mk_post_dispatch. rewrite (smart_agree _ _ AS) by reflexivity. reflexivity.
  - unfold ah_post_dispatch. rewrite (agg_post_agree _ _ AS). reflexivity.
  - repeat (apply bind_agree; intros). rewrite (proj2 (proj2 AS)). reflexivity.
  - unfold gp_post_dispatch. apply bind_agree; intros m0 D. apply decoded_narrow in D as [_ D]. apply bind_agree; intros [g r] _.
    apply (pay_agree _ _ AS), D.
  - apply andb_true_iff in O as [O _]. apply (pay_agree _ _ AS), O.
  - unfold gp_claim. rewrite (proj1 (proj2 AS)). reflexivity.
Qed.

(** ** Worlds whose contracts keep what fits *)
Definition good (w : world) : Prop := (forall a st, contract_at w a st -> stored st) /\ w_height w < 2 ^ 64.

Lemma good_same w w' : w_inst w' = w_inst w -> w_height w' = w_height w -> good w -> good w'.
Proof. intros I H [G T]. split; [|now rewrite H]. intros a st. unfold contract_at. rewrite I. apply G. Qed.
Lemma good_set a x w : (forall st, x = IC st -> stored st) -> good w -> good (set_inst a x w).
Proof.
  intros S [G T]. split; [|exact T]. intros b st. unfold contract_at. cbn [w_inst set_inst]. rewrite om_get_set. destruct (keqb b a).
  - intros E. apply Some_inj in E. now apply S.
  - apply G.
Qed.

Section Spread.
  Variable C : chain.
  Variable ver : addr -> program -> cw2.
  Hypothesis X : asks_only (ch_ext C).

  Lemma spread_get a w : om_get a (rw_inst (spread ver w)) = option_map (spread_inst ver a) (om_get a (w_inst w)).
  Proof. unfold spread. cbn [rw_inst]. apply map_om_get. Qed.
  Lemma spread_set a x w : rset_inst a (spread_inst ver a x) (spread ver w) = spread ver (set_inst a x w).
  Proof. unfold spread, rset_inst. cbn [rw_inst rw_bank rw_admin rw_height rw_next set_inst w_inst w_bank w_admin w_height w_next]. now rewrite map_om_set. Qed.

  Lemma spread_inst_repo a st : (forall x, st <> SCw20 x) -> spread_inst ver a (IC st) = RC (program_of st) (storage (ver a (program_of st)) st).
  Proof. intros N. destruct st; try reflexivity. now destruct (N x). Qed.
  Lemma repo_or_token st : (exists x, st = SCw20 x) \/ (forall x, st <> SCw20 x).
  Proof. destruct st; try (right; intros y E; discriminate E). left. eauto. Qed.

  Lemma rwq_alike n : forall w, good w -> alike (rwq C n (spread ver w)) (wq C n w).
  Proof.
    induction n as [|n IH]; intros w G; (split; [|split; [reflexivity|reflexivity]]); intros a m; [reflexivity|].
    cbn [rwq wq q_smart]. rewrite spread_get. specialize (IH w G). destruct (om_get a (w_inst w)) as [[st|st]|] eqn:E; cbn [option_map].
    - destruct (repo_or_token st) as [[x ->]|N].
      + cbn [spread_inst]. apply query_agree, alike_agree, IH.
      + rewrite (spread_inst_repo _ _ N). cbv iota beta. rewrite raw_query_eq; [|exact (proj1 G _ _ E)|exact N]. apply query_agree, alike_agree, IH.
    - cbn [spread_inst]. apply (proj2 (proj2 X)), IH.
    - reflexivity.
  Qed.

  (** two results alike *)
  Definition rel {U V} (R : U -> V -> Prop) (x : res U) (y : res V) : Prop :=
    match x, y with Ok a, Ok b => R a b | Err e, Err f => e = f | Panic, Panic => True | _, _ => False end.
  Definition same (x : rworld) (w : world) : Prop := good w /\ x = spread ver w.
  Definition same_with {V} (x : rworld * V) (w : world * V) : Prop := same (fst x) (fst w) /\ snd x = snd w.

  Lemma rel_bind {U V U' V'} (R : U -> V -> Prop) (S : U' -> V' -> Prop) x y f g :
    rel R x y -> (forall a b, R a b -> rel S (f a) (g b)) -> rel S (bind x f) (bind y g).
  Proof. intros H F. destruct x, y; cbn in *; try contradiction; auto. Qed.
  Lemma rel_same {U V'} {U'} (S : U' -> V' -> Prop) (x : res U) f g : (forall a, x = Ok a -> rel S (f a) (g a)) -> rel S (bind x f) (bind x g).
  Proof. intros F. destruct x; cbn; auto. Qed.

  Lemma move_same from to l w : good w -> rel same (rmove_coins from to l (spread ver w)) (move_coins from to l w).
  Proof.
    intros G. unfold rmove_coins, move_coins. apply rel_same; intros _ _. apply rel_same; intros b _. split; [|reflexivity].
    now apply (good_same w).
  Qed.

  Section Step.
    Variable k : nat.
    Variable rrec : addr -> list submsg -> rworld -> res rworld.
    Variable rec : addr -> list submsg -> world -> res world.
    Hypothesis REC : forall a l w, good w -> rel same (rrec a l (spread ver w)) (rec a l w).

    Lemma rec_log a l w x : good w -> rel same (rrec a l (spread ver w)) (rec a l (add_log x w)).
    Proof. intros G. apply (REC a l (add_log x w)). now apply (good_same w). Qed.

    Lemma invoke_same caller a m f w : good w -> rel same (rinvoke C k rrec caller a m f (spread ver w)) (invoke C k rec caller a m f w).
    Proof.
      intros G. unfold rinvoke, invoke. rewrite spread_get. destruct (om_get a (w_inst w)) as [[st|st]|] eqn:E; cbn [option_map].
      - pose proof (proj1 G _ _ E) as S. cbv zeta. change (rw_height (spread ver w)) with (w_height w).
        destruct (repo_or_token st) as [[x ->]|N].
        + cbn [spread_inst]. unfold c_execute. destruct (emsg_ok m); cbn [ensure bind]; [|reflexivity]. unfold lift.
          destruct (cw_execute (ch_api C) (mkInfo caller f) m x) as [[x' r]|e|]; cbn [bind]; [|reflexivity|exact I].
          change (RT x') with (spread_inst ver a (IC (SCw20 x'))). rewrite spread_set. apply rec_log, good_set; [|exact G].
          intros st E'. injection E' as <-. exact I.
        + rewrite (spread_inst_repo _ _ N). cbv iota beta. rewrite raw_execute_eq; [|exact S|exact N|exact (proj2 G)].
          set (Q := fun s => wq C k (set_inst a (IC s) w)).
          rewrite (execute_alike (ch_api C) _ Q); [|intros y Sy Py; apply alike_agree; unfold Q|exact S|exact (proj2 G)].
          2: { rewrite <- Py. rewrite <- spread_inst_repo; [rewrite spread_set; apply rwq_alike, good_set; [|exact G]|].
               - intros z E'. injection E' as <-. exact Sy.
               - intros z ->. cbn [program_of] in Py. destruct st; try discriminate Py. now apply (N x). }
          destruct (c_execute (ch_api C) Q (mkEnv a (w_height w)) (mkInfo caller f) m st) as [[st' r]|e|] eqn:X'; cbn [kept_as bind]; [|reflexivity|exact I].
          pose proof (program_kept _ (EvExec (mkEnv a (w_height w)) (mkInfo caller f) m Q) _ _ _ X') as P.
          rewrite <- P, <- spread_inst_repo, spread_set.
          2: { intros z ->. cbn [program_of] in P. destruct st; try discriminate P. now apply (N x). }
          apply rec_log, good_set; [|exact G]. intros z E'. injection E' as <-.
          exact (stored_step _ (EvExec (mkEnv a (w_height w)) (mkInfo caller f) m Q) _ _ _ S (proj2 G) X').
      - cbn [spread_inst]. cbv zeta. change (rw_height (spread ver w)) with (w_height w).
        rewrite (proj1 X _ _ _ _ _ _ (rwq_alike k w G)). apply rel_same; intros [st' r] _.
        change (RX st') with (spread_inst ver a (IX st')). rewrite spread_set. apply rec_log, good_set; [discriminate|exact G].
      - reflexivity.
    Qed.

    Lemma reply_same a id rr w : good w -> rel same (rgive_reply C k rrec a id rr (spread ver w)) (give_reply C k rec a id rr w).
    Proof.
      intros G. unfold rgive_reply, give_reply. rewrite spread_get. destruct (om_get a (w_inst w)) as [[st|st]|] eqn:E; cbn [option_map].
      - pose proof (proj1 G _ _ E) as S. destruct (repo_or_token st) as [[x ->]|N]; [reflexivity|].
        rewrite (spread_inst_repo _ _ N). cbv iota beta. rewrite raw_reply_eq; [|exact S|exact N].
        destruct (c_reply (ch_api C) id rr st) as [[st' r]|e|] eqn:X'; cbn [kept_as bind]; [|reflexivity|exact I].
        pose proof (program_kept _ (EvReply id rr) _ _ _ X') as P.
        rewrite <- P, <- spread_inst_repo, spread_set.
        2: { intros z ->. cbn [program_of] in P. destruct st; try discriminate P. now apply (N x). }
        apply rec_log, good_set; [|exact G]. intros z E'. injection E' as <-.
        exact (stored_step _ (EvReply id rr) _ _ _ S I X').
      - cbn [spread_inst]. change (rw_height (spread ver w)) with (w_height w).
        rewrite (proj1 (proj2 X) _ _ _ _ _ _ (rwq_alike k w G)). apply rel_same; intros [st' r] _.
        change (RX st') with (spread_inst ver a (IX st')). rewrite spread_set. apply rec_log, good_set; [discriminate|exact G].
      - reflexivity.
    Qed.

    Lemma made_program q e i m st r : c_instantiate (ch_api C) q e i m = Ok (st, r) -> program_of st = program_made m.
    Proof.
      unfold c_instantiate. intros H. apply bind_Ok_inv in H as (u & _ & H).
      destruct m; unfold lift in H; apply bind_Ok_inv in H as (y & _ & H); try destruct y; apply Ok_inj in H; now injection H as <- _.
    Qed.
    Lemma born_same q1 q2 e i m : agree q1 q2 ->
      rel (fun x y => fst x = spread_inst ver (e_contract e) (IC (fst y)) /\ snd x = snd y /\ stored (fst y)) (rborn C ver q1 e m) (c_instantiate (ch_api C) q2 e i m).
    Proof.
      intros AG. rewrite <- (instantiate_agree _ _ AG). unfold rborn.
      destruct (match m with ICw20 _ _ => true | _ => false end) eqn:K.
      - destruct m as [| | | | | | | | | | | | | | | | |c n]; try discriminate K. unfold c_instantiate. destruct (imsg_ok (ICw20 c n)); cbn [ensure bind]; [|reflexivity].
        destruct (cw_instantiate (ch_api C) c n); cbn; auto.
      - rewrite (raw_instantiate_eq (ch_api C) q1 e i m (ver (e_contract e) (program_made m))) by (intros x y ->; discriminate K).
        replace (match m with ICw20 _ _ => _ | _ => _ end)
          with (' (d, r) <- kept_as (ver (e_contract e) (program_made m)) (c_instantiate (ch_api C) q1 e i m) ;; Ok (RC (program_made m) d, r))
          by (destruct m; try reflexivity; discriminate K).
        destruct (c_instantiate (ch_api C) q1 e i m) as [[st r]|x|] eqn:H; cbn [kept_as bind rel fst snd]; auto.
        pose proof (made_program _ _ _ _ _ _ H) as P. split; [|split; [reflexivity|exact (stored_born _ _ _ _ _ _ _ H)]].
        rewrite <- P, spread_inst_repo; [reflexivity|]. intros x ->. destruct m; discriminate.
    Qed.
    Lemma deploy_same caller m f w : good w -> rel same_with (rdeploy C ver k rrec caller m f (spread ver w)) (deploy C k rec caller m f w).
    Proof.
      intros G. unfold rdeploy, deploy. rewrite spread_get. change (rw_next (spread ver w)) with (w_next w).
      change (rw_height (spread ver w)) with (w_height w). cbv zeta.
      destruct (om_get (ch_addr C (w_next w)) (w_inst w)); cbn [option_map]; [reflexivity|].
      assert (GB : good (bump w)) by now apply (good_same w).
      apply (rel_bind same); [exact (move_same caller (ch_addr C (w_next w)) f (bump w) GB)|]. intros x w1 [G1 ->].
      eapply rel_bind; [exact (born_same _ _ (mkEnv (ch_addr C (w_next w)) (w_height w)) (mkInfo caller (norm_coins f)) m (alike_agree _ _ (rwq_alike k w1 G1)))|].
      intros [y r] [st r'] (E1 & E2 & S). cbn [fst snd] in *. subst y r'. rewrite spread_set.
      apply (rel_bind same); [apply rec_log, good_set; [|exact G1]|].
      - intros z E'. now injection E' as <-.
      - intros x2 w2 H2. split; [exact H2|reflexivity].
    Qed.
    Lemma deploy_ext_same caller st f w : good w -> rel same (rdeploy_ext C caller st f (spread ver w)) (deploy_ext C caller st f w).
    Proof.
      intros G. unfold rdeploy_ext, deploy_ext. rewrite spread_get. change (rw_next (spread ver w)) with (w_next w). cbv zeta.
      destruct (om_get (ch_addr C (w_next w)) (w_inst w)); cbn [option_map]; [reflexivity|].
      assert (GB : good (bump w)) by now apply (good_same w).
      apply (rel_bind same); [exact (move_same caller (ch_addr C (w_next w)) f (bump w) GB)|]. intros x w1 [G1 ->].
      change (RX st) with (spread_inst ver (ch_addr C (w_next w)) (IX st)). rewrite spread_set. split; [|reflexivity].
      apply (good_same (set_inst (ch_addr C (w_next w)) (IX st) w1)); [reflexivity|reflexivity|]. apply good_set; [discriminate|exact G1].
    Qed.

    Lemma perform_same caller m w : good w -> rel same_with (rperform C ver k rrec caller m (spread ver w)) (perform C k rec caller m w).
    Proof.
      intros G. unfold perform. cbv zeta. set (u := add_log (LDo caller m) w). assert (GU : good u) by now apply (good_same w).
      change (spread ver w) with (spread ver u). clearbody u. clear w G. unfold rperform.
      change (rw_admin (spread ver u)) with (w_admin u). change (rw_bank (spread ver u)) with (w_bank u). cbv zeta.
      destruct m; repeat (apply rel_same; intros ? _).
      - apply (rel_bind same); [now apply move_same|]. intros x w1 [G1 ->]. apply (rel_bind same); [now apply invoke_same|].
        intros x w2 H. split; [exact H|reflexivity].
      - apply (rel_bind same); [now apply move_same|]. intros x w1 H. split; [exact H|reflexivity].
      - destruct (om_get _ (w_admin u)); [reflexivity|]. split; [|reflexivity]. split; [now apply (good_same u)|reflexivity].
      - destruct (om_get _ (w_admin u)); [|reflexivity]. apply rel_same; intros ? _. repeat split; apply GU.
      - destruct (om_get _ (w_admin u)); [|reflexivity]. apply rel_same; intros ? _. split; [|reflexivity]. split; [now apply (good_same u)|reflexivity].
      - destruct (om_get _ (w_admin u)); [|reflexivity]. apply rel_same; intros ? _. apply rel_same; intros b _. split; [|reflexivity].
        split; [now apply (good_same u)|reflexivity].
      - apply (rel_bind same_with); [now apply deploy_same|]. intros [x a] [w1 b] [H E]. cbn [fst snd] in *. subst. split; [exact H|reflexivity].
    Qed.

    Lemma sub_same caller s w : good w -> rel same (rrun_sub C ver k rrec caller s (spread ver w)) (run_sub C k rec caller s w).
    Proof.
      intros G. unfold rrun_sub, run_sub. pose proof (perform_same caller (sm_msg s) w G) as P.
      destruct (rperform C ver k rrec caller (sm_msg s) (spread ver w)) as [[x rr]|e|], (perform C k rec caller (sm_msg s) w) as [[w1 rr']|e'|];
        cbn [rel] in P; try contradiction.
      - destruct P as [[G1 E1] E2]. cbn [fst snd] in *. subst. destruct (sm_reply s); try (now apply reply_same); now split.
      - subst. destruct (sm_reply s); try (now apply reply_same); reflexivity.
      - destruct (sm_reply s); try (now apply reply_same); exact I.
    Qed.
  End Step.

  Lemma exec_same k : forall a l w, good w -> rel same (rexec C ver k a l (spread ver w)) (exec C k a l w).
  Proof.
    induction k as [|k IH]; intros a l w G; [reflexivity|]. destruct l as [|s l]; [now split|]. cbn [rexec exec].
    apply (rel_bind same); [now apply (sub_same k (rexec C ver k) (exec C k) IH)|]. intros x w1 [G1 ->]. now apply IH.
  Qed.

  Lemma tx_same k t w : good w -> tx_timely (k, t) -> rel same (rtx_run C ver k t (spread ver w)) (tx_run C k t w).
  Proof.
    intros G T. pose proof (exec_same k) as IH. unfold rtx_run, tx_run. destruct t; apply rel_same; intros ? O.
    - eapply rel_bind; [now apply perform_same|]. intros [x r] [w1 r1] [H _]. exact H.
    - eapply rel_bind; [now apply perform_same|]. intros [x r] [w1 r1] [H _]. exact H.
    - eapply rel_bind; [now apply deploy_same|]. intros [x r] [w1 r1] [H _]. exact H.
    - now apply deploy_ext_same.
    - split; [|reflexivity]. split; [exact (proj1 G)|exact T].
  Qed.
  Lemma step_same w t : good w -> tx_timely t -> same (rtx_step C ver (spread ver w) t) (tx_step C w t).
  Proof.
    intros G T. destruct t as [k t]. pose proof (tx_same k t w G T) as H. unfold rtx_step, tx_step. cbn [fst snd].
    destruct (rtx_run C ver k t (spread ver w)), (tx_run C k t w); cbn [rel] in H; try contradiction; try (now split). exact H.
  Qed.
  Lemma run_same l : forall w, good w -> Forall tx_timely l -> same (rchain_run C ver (spread ver w) l) (chain_run C w l).
  Proof.
    induction l as [|t l IH]; intros w G F; [now split|]. apply Forall_cons_iff in F as [T F].
    destruct (step_same w t G T) as [G1 E1]. unfold rchain_run, chain_run. cbn [fold_left]. rewrite E1. now apply IH.
  Qed.
  Lemma good_genesis bank : good (genesis bank).
  Proof. split; [intros a st E; discriminate E|reflexivity]. Qed.
End Spread.

Lemma timely_good C w : asks_only (ch_ext C) -> timely_reachable C w -> good w.
Proof. intros X (bank & l & F & ->). exact (proj1 (run_same C (fun _ _ => mkCw2 [] []) X l _ (good_genesis bank) F)). Qed.
Lemma laid_run C ver bank l : asks_only (ch_ext C) -> Forall tx_timely l ->
  rchain_run C ver (rgenesis bank) l = spread ver (chain_run C (genesis bank) l).
Proof. intros X F. exact (proj2 (run_same C ver X l _ (good_genesis bank) F)). Qed.
Lemma laid_tx C ver k t w : asks_only (ch_ext C) -> timely_reachable C w -> tx_timely (k, t) ->
  rtx_run C ver k t (spread ver w) = laid ver (tx_run C k t w).
Proof.
  intros X R T. pose proof (tx_same C ver X k t w (timely_good C w X R) T) as H.
  destruct (rtx_run C ver k t (spread ver w)), (tx_run C k t w); cbn [rel laid] in *; try contradiction; [|now subst|reflexivity].
  f_equal. exact (proj2 H).
Qed.
Lemma laid_queries C ver k w : asks_only (ch_ext C) -> timely_reachable C w -> alike (rwq C k (spread ver w)) (wq C k w).
Proof. intros X R. exact (rwq_alike C ver X k w (timely_good C w X R)). Qed.
