(** * Quotes and verdicts change only when somebody in charge acts: proofs. *)
From Coq Require Import List Arith NArith Bool Lia.
From Verif Require Import Base BaseFacts OMap Crypto Coins Merkle Message Bech32 Chain Ownable Router Utils Mailbox Va
  Isms Hooks Igp Warp Cw20 Contracts StepFacts Spec SpecModules MailboxConfFacts World SpecWorld WorldFacts SpecBridge SpecLive WorldLive WorldRoute
  SpecSend WorldSend SpecGas GasFacts SpecStranger StrangerFacts SpecQuote.
Import ListNotations.

(** ** Numbers of messages *)
Lemma decode_renumbered raw raw' : renumbered raw raw' ->
  match msg_decode raw with
  | Ok m => exists n, msg_decode raw' = Ok (mkMessage (m_version m) n (m_origin m) (m_sender m) (m_dest m) (m_recipient m) (m_body m))
  | Err e => msg_decode raw' = Err e
  | Panic => msg_decode raw' = Panic
  end.
Proof.
  intros (v & n & n' & rest & -> & -> & Lv & Ln & Ln').
  destruct v as [|b [|]]; try discriminate Lv.
  destruct n as [|a1 [|a2 [|a3 [|a4 [|]]]]]; try discriminate Ln.
  destruct n' as [|b1 [|b2 [|b3 [|b4 [|]]]]]; try discriminate Ln'. clear.
  cbn [app]. unfold msg_decode.
  change (slice 0 1 (b :: b1 :: b2 :: b3 :: b4 :: rest)) with (slice 0 1 (b :: a1 :: a2 :: a3 :: a4 :: rest)).
  change (slice 5 9 (b :: b1 :: b2 :: b3 :: b4 :: rest)) with (slice 5 9 (b :: a1 :: a2 :: a3 :: a4 :: rest)).
  change (slice 9 41 (b :: b1 :: b2 :: b3 :: b4 :: rest)) with (slice 9 41 (b :: a1 :: a2 :: a3 :: a4 :: rest)).
  change (slice 41 45 (b :: b1 :: b2 :: b3 :: b4 :: rest)) with (slice 41 45 (b :: a1 :: a2 :: a3 :: a4 :: rest)).
  change (slice 45 77 (b :: b1 :: b2 :: b3 :: b4 :: rest)) with (slice 45 77 (b :: a1 :: a2 :: a3 :: a4 :: rest)).
  change (slice_from 77 (b :: b1 :: b2 :: b3 :: b4 :: rest)) with (slice_from 77 (b :: a1 :: a2 :: a3 :: a4 :: rest)).
  change (slice 1 5 (b :: b1 :: b2 :: b3 :: b4 :: rest)) with (Ok [b1; b2; b3; b4]).
  change (slice 1 5 (b :: a1 :: a2 :: a3 :: a4 :: rest)) with (Ok [a1; a2; a3; a4]).
  destruct (slice 0 1 _); cbn [bind]; try reflexivity.
  destruct (slice 5 9 _); cbn [bind]; try reflexivity.
  destruct (slice 9 41 _); cbn [bind]; try reflexivity.
  destruct (slice 41 45 _); cbn [bind]; try reflexivity.
  destruct (slice 45 77 _); cbn [bind]; try reflexivity.
  destruct (slice_from 77 _); cbn [bind]; try reflexivity.
  exists (of_be [b1; b2; b3; b4]). reflexivity.
Qed.
Lemma renumbered_refl v n rest : length v = 1%nat -> length n = 4%nat -> renumbered (v ++ n ++ rest) (v ++ n ++ rest).
Proof. intros H1 H2. exists v, n, n, rest. auto. Qed.
Lemma encode_renumbered m n : renumbered (msg_encode m)
  (msg_encode (mkMessage (m_version m) n (m_origin m) (m_sender m) (m_dest m) (m_recipient m) (m_body m))).
Proof.
  exists (be 1 (m_version m)), (be4 (m_nonce m)), (be4 n), (be4 (m_origin m) ++ m_sender m ++ be4 (m_dest m) ++ m_recipient m ++ m_body m).
  split; [reflexivity|]. split; [reflexivity|]. split; [reflexivity|]. split; reflexivity.
Qed.

(** ** One query *)
Lemma set_up_cases st st' : set_up st' = set_up st ->
  st' = st \/ (exists x y, st = SMailbox x /\ st' = SMailbox y) \/ (exists x y, st = SMerkle x /\ st' = SMerkle y) \/
  (exists x y, st = SVa x /\ st' = SVa y).
Proof.
  intros E. destruct st, st'; try discriminate E; try (left; exact E); right.
  - left. eexists _, _. split; reflexivity.
  - right. right. eexists _, _. split; reflexivity.
  - right. left. eexists _, _. split; reflexivity.
Qed.

Definition nearly (q1 q2 : querier) : Prop := forall a m m', asks_alike m m' -> at_least (q_smart q1 a m) (q_smart q2 a m').

Section Nearly.
  Variables q1 q2 : querier.
  Hypothesis AG : nearly q1 q2.

  Lemma smart_near a m m' : asks_alike m m' -> at_least (smart q1 a m) (smart q2 a m').
  Proof.
    intros L v H. unfold smart in *. pose proof (AG a m m' L) as K. destruct (q_smart q1 a m) as [x|e|] eqn:E; try discriminate H.
    rewrite (K x eq_refl). exact H.
  Qed.
  Lemma same_near m : lasting m = true -> asks_alike m m.
  Proof. intros L. left. split; [reflexivity | exact L]. Qed.
  Lemma quote_near h md raw raw' : renumbered raw raw' \/ raw' = raw -> at_least (quote_dispatch q1 h md raw) (quote_dispatch q2 h md raw').
  Proof.
    intros R. unfold quote_dispatch. apply bind_least; [|intros x _; apply at_least_refl]. apply smart_near.
    destruct R as [R | ->]; [right; exists md, raw, raw'; auto | now apply same_near].
  Qed.
  Lemma recipient_near r : at_least (recipient_ism q1 r) (recipient_ism q2 r).
  Proof. unfold recipient_ism. apply bind_least; [now apply smart_near, same_near|]. intros x _. apply at_least_refl. Qed.
  Lemma verify_near a md msg : at_least (ism_verify q1 a md msg) (ism_verify q2 a md msg).
  Proof. unfold ism_verify. apply bind_least; [now apply smart_near, same_near|]. intros x _. apply at_least_refl. Qed.
  Lemma oracle_near a d : at_least (query_oracle q1 a d) (query_oracle q2 a d).
  Proof. unfold query_oracle. apply bind_least; [now apply smart_near, same_near|]. intros x _. apply at_least_refl. Qed.
  Lemma igp_near x d g : at_least (gp_quote q1 x d g) (gp_quote q2 x d g).
  Proof.
    unfold gp_quote. apply bind_least; [apply at_least_refl|]. intros a _. apply bind_least; [apply oracle_near|]. intros; apply at_least_refl.
  Qed.
  Lemma ag_loop_near msg l : forall t, at_least (ag_loop q1 msg l t) (ag_loop q2 msg l t).
  Proof.
    induction l as [|[a md] l IH]; intros t; [apply at_least_refl|]. cbn [ag_loop]. apply bind_least; [apply verify_near|].
    intros v _. apply bind_least; [apply at_least_refl|]. intros t' _. least_by ltac:(apply IH).
  Qed.

  Ltac near := least_by ltac:(first [apply recipient_near | (apply quote_near; auto; fail) | apply ag_loop_near | apply verify_near |
         (apply smart_near, same_near; reflexivity) | apply igp_near | apply oracle_near]).

  Lemma decode_near {X} raw raw' (f g : message -> res X) : renumbered raw raw' ->
    (forall m n, at_least (f m) (g (mkMessage (m_version m) n (m_origin m) (m_sender m) (m_dest m) (m_recipient m) (m_body m)))) ->
    at_least (bind (msg_decode raw) f) (bind (msg_decode raw') g).
  Proof.
    intros R H. pose proof (decode_renumbered raw raw' R) as D. destruct (msg_decode raw) as [m|e|].
    - destruct D as [n ->]. cbn [bind]. apply H.
    - rewrite D. apply at_least_refl.
    - rewrite D. apply at_least_refl.
  Qed.

  Lemma hook_quote_near A md raw raw' st st' : renumbered raw raw' -> set_up st' = set_up st ->
    at_least (c_query A q1 (QHookQuote md raw) st) (c_query A q2 (QHookQuote md raw') st').
  Proof.
    intros R E. unfold c_query. cbn [qmsg_ok ensure bind].
    pose proof (set_up_cases st st' E) as S.
    destruct S as [-> | [(x & y & -> & ->) | [(x & y & -> & ->) | (x & y & -> & ->)]]]; try apply at_least_refl.
    destruct st; try apply at_least_refl; cbn [ah_query rh_query cu_query fb_query gp_query];
      unfold ah_quote, rh_route, cu_route, fb_route, gp_quote_dispatch.
    - apply bind_least; [|intros; apply at_least_refl]. apply bind_least; [|intros; apply at_least_refl].
      apply foldM_least. intros b a. apply bind_least; [apply quote_near; auto|]. intros; apply at_least_refl.
    - apply bind_least; [apply decode_near; [exact R|]; intros; apply at_least_refl|].
      intros h _. apply bind_least; [apply quote_near; auto|]. intros; apply at_least_refl.
    - apply bind_least; [apply decode_near; [exact R|]; intros; apply at_least_refl|].
      intros h _. apply bind_least; [apply quote_near; auto|]. intros; apply at_least_refl.
    - apply bind_least; [apply decode_near; [exact R|]; intros; apply at_least_refl|].
      intros h _. apply bind_least; [apply quote_near; auto|]. intros; apply at_least_refl.
    - apply bind_least; [|intros; apply at_least_refl]. apply decode_near; [exact R|]. intros m n. cbn [m_dest].
      apply bind_least; [apply at_least_refl|]. intros g _. apply bind_least; [apply igp_near|]. intros; apply at_least_refl.
  Qed.

  Lemma mailbox_quote_near A sender d x y : set_up (SMailbox y) = set_up (SMailbox x) ->
    at_least (mb_quote_dispatch A q1 sender d x) (mb_quote_dispatch A q2 sender d y).
  Proof.
    intros E. apply (f_equal (fun z => match z with SMailbox v => v | _ => x end)) in E. cbn [set_up at_rest] in E.
    destruct x as [o1 h1 d1 i1 k1 r1 n1 l1 v1], y as [o2 h2 d2 i2 k2 r2 n2 l2 v2].
    cbn [mb_own mb_hrp mb_domain mb_ism mb_hook mb_required] in E. injection E as -> -> -> -> -> ->.
    unfold mb_quote_dispatch, to_msg. cbn [mb_nonce mb_domain]. apply bind_least; [apply at_least_refl|]. intros a _.
    destruct (bech32_to_h256 a) as [snd|e|]; cbn [bind]; try apply at_least_refl.
    apply bind_least; [apply at_least_refl|]. intros dh _. apply bind_least; [apply at_least_refl|]. intros rh _.
    apply bind_least; [apply at_least_refl|]. intros h _.
    set (m1 := mkMessage MAILBOX_VERSION n1 d1 snd (d_dest d) (d_recipient d) (d_body d)).
    assert (R : renumbered (msg_encode m1) (msg_encode (mkMessage MAILBOX_VERSION n2 d1 snd (d_dest d) (d_recipient d) (d_body d))))
      by exact (encode_renumbered m1 n2).
    apply bind_least; [apply quote_near; auto|]. intros b _. apply bind_least; [apply quote_near; auto|]. intros; apply at_least_refl.
  Qed.

  Lemma query_near A m m' st st' : asks_alike m m' -> set_up st' = set_up st ->
    at_least (c_query A q1 m st) (c_query A q2 m' st').
  Proof.
    intros [[-> L] | (md & raw & raw' & -> & -> & R)] E; [|now apply hook_quote_near].
    pose proof (set_up_cases st st' E) as S.
    unfold c_query. apply bind_least; [apply at_least_refl|]. intros _ _.
    destruct S as [-> | [(x & y & -> & ->) | [(x & y & -> & ->) | (x & y & -> & ->)]]].
    - destruct st; try apply at_least_refl; destruct m; try apply at_least_refl; try discriminate L;
      cbn [mb_query ag_query ri_query ah_query rh_query cu_query fb_query gp_query].
      all: unfold mb_recipient_ism, ag_verify, ah_quote, gp_quote_dispatch.
      all: try (apply bind_least; [apply mailbox_quote_near; reflexivity | intros; apply at_least_refl]).
      all: near.
      apply foldM_least. intros b a. near.
    - assert (F := E). apply (f_equal (fun z => match z with SMailbox v => v | _ => x end)) in F. cbn [set_up at_rest] in F.
      destruct m; try discriminate L; try apply at_least_refl; cbn [mb_query].
      all: try (apply bind_least; [now apply mailbox_quote_near | intros; apply at_least_refl]).
      all: clear E; destruct x as [o1 h1 d1 i1 k1 r1 n1 l1 v1], y as [o2 h2 d2 i2 k2 r2 n2 l2 v2];
        cbn [mb_own mb_hrp mb_domain mb_ism mb_hook mb_required] in F; injection F as -> -> -> -> -> ->.
      all: try apply at_least_refl.
      unfold mb_recipient_ism. change (get_default_ism (mkMb o1 h1 d1 i1 k1 r1 n2 l2 v2)) with (get_default_ism (mkMb o1 h1 d1 i1 k1 r1 n1 l1 v1)).
      near.
    - apply (f_equal (fun z => match z with SMerkle v => mk_mailbox v | _ => [] end)) in E. cbn [set_up mk_mailbox] in E.
      destruct m; try discriminate L; try apply at_least_refl. cbn [mk_query]. rewrite E. apply at_least_refl.
    - assert (F := E). apply (f_equal (fun z => match z with SVa v => va_mailbox v | _ => [] end)) in E.
      apply (f_equal (fun z => match z with SVa v => va_domain v | _ => 0 end)) in F. cbn [set_up va_mailbox va_domain] in E, F.
      destruct m; try discriminate L; try apply at_least_refl; cbn [va_query]; rewrite ?E, ?F; apply at_least_refl.
  Qed.
End Nearly.

(** ** The chain *)
Lemma keep_get P w (a : addr) : om_get a (w_inst (keep P w)) = if P a then om_get a (w_inst w) else None.
Proof.
  cbn [keep w_inst]. induction (w_inst w) as [|[b x] l IH]; [cbn; now destruct (P a)|].
  cbn [filter fst om_get]. destruct (P b) eqn:Pb.
  - cbn [om_get]. rewrite IH. destruct (keqb a b) eqn:K; [|reflexivity]. apply keqb_eq in K. subst b. now rewrite Pb.
  - rewrite IH. destruct (keqb a b) eqn:K; [|reflexivity]. apply keqb_eq in K. subst b. now rewrite Pb.
Qed.

(** contracts nobody can set up anew *)
Definition ownerless (st : cstate) : Prop := match st with SMerkle _ | SVa _ => True | _ => False end.
Lemma ownerless_call A ev st st' r : ownerless st -> c_apply A ev st = Ok (st', r) -> set_up st' = set_up st.
Proof.
  intros O H. destruct ev as [e i m Q|id rr]; cbn [c_apply] in H.
  - unfold c_execute, lift in H. destruct st; try contradiction O; inv_all; unfold_execs; destruct m; try discriminate; inv_all;
      unfold_helpers; unfold va_announce, mk_post_dispatch in *; inv_all; split_matches; inv_all; reflexivity.
  - unfold c_reply in H. destruct st; try contradiction O; discriminate H.
Qed.
Lemma ownerless_steps C w w' a st : asteps C w w' -> contract_at w a st -> ownerless st ->
  exists st', contract_at w' a st' /\ set_up st' = set_up st.
Proof.
  intros S Hc O. apply (asteps_inv C (fun x => exists st', contract_at x a st' /\ set_up st' = set_up st)) in S; [exact S | | exists st; auto].
  clear w w' S Hc. intros w w' (st' & Hc & E) S.
  assert (O' : ownerless st') by (destruct st; try contradiction O; destruct st'; try discriminate E; exact I).
  assert (Put : forall (x : world) (b : addr) z z', w_inst x = w_inst w -> om_get b (w_inst w) = z ->
    (b = a -> exists s, z' = IC s /\ set_up s = set_up st) ->
    exists s, om_get a (om_set b z' (w_inst x)) = Some (IC s) /\ set_up s = set_up st).
  { intros x b z z' Ex Hb Hz. rewrite Ex, om_get_set. destruct (keqb a b) eqn:K; [|exists st'; split; [exact Hc | exact E]].
    apply keqb_eq in K. symmetry in K. destruct (Hz K) as (s & -> & Hs). exists s. split; [reflexivity | exact Hs]. }
  unfold contract_at in Hc.
  destruct S; subst; unfold contract_at in *;
    repeat match goal with
    | M : move_coins _ _ _ _ = Ok _ |- _ =>
        apply move_coins_same in M as (M & _ & _); cbn [w_inst add_log bump] in M
    end; cbn [w_inst add_log bump set_inst set_admin set_bank set_height];
    try match goal with M : w_inst ?x = w_inst w, G : om_get _ (w_inst ?x) = _ |- _ => rewrite M in G end.
  - eapply Put; [eassumption | reflexivity |]. intros ->.
    match goal with G : om_get a (w_inst w) = Some (IC st0) |- _ => rewrite Hc in G; injection G as <- end.
    eexists. split; [reflexivity|]. rewrite <- E.
    match goal with X : c_execute ?A ?Q ?e ?i ?m _ = Ok _ |- _ => exact (ownerless_call A (EvExec e i m Q) _ _ _ O' X) end.
  - eapply Put; [eassumption | reflexivity |]. intros ->. congruence.
  - eapply Put; [reflexivity | reflexivity |]. intros ->. rewrite Hc in H. injection H as <-.
    eexists. split; [reflexivity|]. rewrite <- E.
    match goal with X : c_reply ?A ?id ?rr _ = Ok _ |- _ => exact (ownerless_call A (EvReply id rr) _ _ _ O' X) end.
  - eapply Put; [reflexivity | reflexivity |]. intros ->. congruence.
  - match goal with M : w_inst _ = _ |- _ => rewrite M end. eauto.
  - eauto.
  - eauto.
  - eauto.
  - eauto.
  - eapply Put; [eassumption | reflexivity |]. intros X. rewrite X in *. congruence.
  - eapply Put; [eassumption | reflexivity |]. intros X. rewrite X in *. congruence.
  - eapply Put; [eassumption | reflexivity |]. intros X. rewrite X in *. congruence.
  - eauto.
Qed.

Lemma undisturbed_run C w l a st : chain_ok C -> reachable C w -> undisturbed C w l a -> contract_at w a st ->
  exists st', contract_at (chain_run C w l) a st' /\ set_up st' = set_up st.
Proof.
  intros HC Hr U Hc. unfold undisturbed in U. assert (Hc' := Hc). unfold contract_at in Hc'. rewrite Hc' in U. clear Hc'.
  assert (S : ownerless st \/ (left_alone C w l a /\ forall x, at_rest x = at_rest st -> set_up x = set_up st)).
  { destruct st; try (left; exact I); right; (split; [exact U|]); intros z E; destruct z; try discriminate E; exact E. }
  destruct S as [S | [S T]].
  - exact (ownerless_steps C w _ a st (chain_run_steps C l w) Hc S).
  - destruct (stranger_run C w l a st HC Hr Hc S) as (st' & H1 & H2). exists st'. auto.
Qed.

Lemma answers_kept C P w l n n' : chain_ok C -> reachable C w -> (forall a, P a = true -> undisturbed C w l a) -> (n <= n')%nat ->
  nearly (wq C n (keep P w)) (wq C n' (chain_run C w l)).
Proof.
  intros HC Hr U. revert n'. induction n as [|n IH]; intros n' L a m m' AL; [apply at_least_Err|].
  destruct n' as [|n']; [lia|]. cbn [wq q_smart]. rewrite keep_get. destruct (P a) eqn:Pa; [|apply at_least_Err].
  destruct (om_get a (w_inst w)) as [[st|b]|] eqn:E; [| |apply at_least_Err].
  - destruct (undisturbed_run C w l a st HC Hr (U a Pa) E) as (st' & H1 & H2). unfold contract_at in H1. rewrite H1.
    apply query_near; [|exact AL | exact H2]. apply IH. lia.
  - specialize (U a Pa). unfold undisturbed in U. rewrite E in U. contradiction U.
Qed.

Lemma answer_stays C P w l n n' a m v :
  chain_ok C -> reachable C w -> (forall a, P a = true -> undisturbed C w l a) -> lasting m = true -> (n <= n')%nat ->
  q_smart (wq C n (keep P w)) a m = Ok v -> q_smart (wq C n' (chain_run C w l)) a m = Ok v.
Proof. intros HC Hr U L N. apply (answers_kept C P w l n n' HC Hr U N). now apply same_near. Qed.

(** ** Dispatching *)
Lemma oracle_kind st d v : reported_gas_data st d = Some v -> kind st <> 0 /\ ~ ownerless st.
Proof.
  unfold reported_gas_data, c_query. destruct (qmsg_ok (QOracle d)); cbn [ensure bind]; [|discriminate].
  intros H. destruct st; try discriminate H; split; first [discriminate | intros []].
Qed.
Section Takes.
  Variables (C : chain) (P : addr -> bool) (w : world) (l : list (nat * tx)) (mb : addr) (md raw raw' : bytes).
  Hypothesis HC : chain_ok C.
  Hypothesis Hr : reachable C w.
  Hypothesis U : forall a, P a = true -> undisturbed C w l a.
  Hypothesis R : renumbered raw raw'.

  Lemma kept_at a st : contract_at (keep P w) a st -> exists st', contract_at (chain_run C w l) a st' /\ set_up st' = set_up st.
  Proof.
    unfold contract_at at 1. rewrite keep_get. destruct (P a) eqn:Pa; [|discriminate]. intros H.
    exact (undisturbed_run C w l a st HC Hr (U a Pa) H).
  Qed.
  Lemma kept_same a st : contract_at (keep P w) a st -> kind st <> 0 -> ~ ownerless st -> contract_at (chain_run C w l) a st.
  Proof.
    intros H K O. destruct (kept_at a st H) as (st' & H1 & H2). destruct (set_up_cases st st' H2) as [-> | [(x & y & -> & ->) | [(x & y & -> & ->) | (x & y & -> & ->)]]];
      [exact H1 | now destruct K | now destruct O | now destruct O].
  Qed.

  Lemma takes_kept :
    (forall n h fees pays marks, takes C (keep P w) mb md raw n h fees pays marks -> takes C (chain_run C w l) mb md raw' n h fees pays marks) /\
    (forall n hs fees pays marks, take_all C (keep P w) mb md raw n hs fees pays marks -> take_all C (chain_run C w l) mb md raw' n hs fees pays marks).
  Proof.
    apply (takes_both C (keep P w) mb md raw
      (fun n h fees pays marks _ => takes C (chain_run C w l) mb md raw' n h fees pays marks)
      (fun n hs fees pays marks _ => take_all C (chain_run C w l) mb md raw' n hs fees pays marks)).
    - intros n h st H1 H2 H3 H4. destruct (kept_at h st H1) as (st' & H5 & H6).
      destruct st; try contradiction H2. destruct st' as [| | | | | |y| | | | | | | | | | |]; try discriminate H6.
      eapply (takes_merkle _ _ _ _ _ n h (SMerkle y)); [exact H5 | exact I | | exact H4].
      apply (f_equal (fun z => match z with SMerkle v => mk_mailbox v | _ => [] end)) in H6. cbn [set_up mk_mailbox] in H6.
      rewrite <- H3. unfold reported_hook_mailbox, c_query. cbn [qmsg_ok ensure bind mk_query]. now rewrite H6.
    - intros n h st H1 H2 H3 H4. eapply takes_pausable; [apply kept_same; [exact H1 | |] | exact H2 | exact H3 | exact H4];
        destruct st; try contradiction H2; [discriminate | intros []].
    - intros n h st fee H1 H2 H3 H4 H5. eapply takes_fee; [apply kept_same; [exact H1 | |] | exact H2 | exact H3 | exact H4 | exact H5];
        destruct st; try discriminate H2; [discriminate | intros []].
    - intros n h st m gas refund oracle ost price rate H1 H2 D G RF RT H3 H4 L1 L2 F Z LT N.
      pose proof (decode_renumbered raw raw' R) as X. rewrite D in X. destruct X as [k D'].
      eapply (takes_gas _ _ _ _ _ n h st _ gas refund oracle ost price rate).
      + apply kept_same; [exact H1 | |]; destruct st; try contradiction H2; [discriminate | intros []].
      + exact H2.
      + exact D'.
      + exact G.
      + exact RF.
      + exact RT.
      + apply kept_same; [exact H3 | |]; apply (oracle_kind ost _ _ H4).
      + exact H4.
      + exact L1.
      + exact L2.
      + exact F.
      + exact Z.
      + exact LT.
      + exact N.
    - intros n h b fees H1. exfalso. rewrite keep_get in H1. destruct (P h) eqn:Ph; [|discriminate H1].
      specialize (U h Ph). unfold undisturbed in U. rewrite H1 in U. exact U.
    - intros n n' h st m x pays marks H1 H2 H3 D S _ IH L.
      pose proof (decode_renumbered raw raw' R) as X. rewrite D in X. destruct X as [k D'].
      eapply (takes_router _ _ _ _ _ n n' h st); [| exact H2 | exact H3 | exact D' | exact S | exact IH | exact L].
      apply kept_same; [exact H1 | |]; destruct st; try contradiction H2; first [discriminate | intros []].
    - intros n n' h st m hooks fees pays marks H1 H2 D _ IH B L.
      pose proof (decode_renumbered raw raw' R) as X. rewrite D in X. destruct X as [k D'].
      eapply (takes_aggregate _ _ _ _ _ n n' h st); [| exact H2 | exact D' | exact IH | exact B | exact L].
      apply kept_same; [exact H1 | |]; destruct st; try discriminate H2; first [discriminate | intros []].
    - intros n. apply take_none.
    - intros n h f p k hooks fees pays marks _ IH1 _ IH2. now apply take_more.
  Qed.
End Takes.

Lemma still_dispatchable C P w l n mb caller d raw fees pays marks :
  chain_ok C -> reachable C w -> (forall a, P a = true -> undisturbed C w l a) ->
  dispatchable C n (keep P w) mb caller d raw fees pays marks ->
  exists mbst nonce, contract_at (chain_run C w l) mb mbst /\ reported_nonce mbst = Some nonce /\
    (nonce + 1 < 2 ^ 32 -> room (chain_run C w l) marks ->
     exists raw', renumbered raw raw' /\ dispatchable C n (chain_run C w l) mb caller d raw' fees pays marks).
Proof.
  intros HC Hr U (mbst & nonce & domain & sender & required & hook & f1 & p1 & k1 & f2 & p2 & k2 &
    H1 & H2 & H3 & H4 & H5 & H6 & H7 & H8 & -> & H10 & H11 & T1 & T2 & B & F & PP & MM & RM).
  destruct (kept_at C P w l HC Hr U mb mbst H1) as (mbst' & K1 & K2).
  assert (Kd : kind mbst = 0) by (destruct mbst; try discriminate H2; reflexivity).
  destruct mbst as [x| | | | | | | | | | | | | | | | |]; try discriminate Kd.
  destruct mbst' as [y| | | | | | | | | | | | | | | | |]; try discriminate K2.
  apply (f_equal (fun z => match z with SMailbox v => v | _ => x end)) in K2. cbn [set_up at_rest] in K2.
  destruct x as [o1 h1 d1 i1 hk1 r1 n1 l1 v1], y as [o2 h2 d2 i2 hk2 r2 n2 l2 v2].
  cbn [mb_own mb_hrp mb_domain mb_ism mb_hook mb_required] in K2. injection K2 as -> -> -> -> -> ->.
  exists (SMailbox (mkMb o1 h1 d1 i1 hk1 r1 n2 l2 v2)), n2. split; [exact K1|]. split; [reflexivity|]. intros L RM'.
  set (m0 := mkMessage 3 nonce domain sender (d_dest d) (d_recipient d) (d_body d)) in *.
  pose proof (encode_renumbered m0 n2) as R. exists (msg_encode (mkMessage 3 n2 domain sender (d_dest d) (d_recipient d) (d_body d))).
  split; [exact R|].
  exists (SMailbox (mkMb o1 h1 d1 i1 hk1 r1 n2 l2 v2)), n2, domain, sender, required, hook, f1, p1, k1, f2, p2, k2.
  split; [exact K1|]. split; [reflexivity|]. split; [exact H3|]. split; [exact L|]. split; [exact H5|]. split; [exact H6|]. split; [exact H7|].
  split; [exact H8|]. split; [reflexivity|]. split; [exact H10|]. split; [exact H11|].
  split; [exact (proj1 (takes_kept C P w l mb _ _ _ HC Hr U R) _ _ _ _ _ T1)|].
  split; [exact (proj1 (takes_kept C P w l mb _ _ _ HC Hr U R) _ _ _ _ _ T2)|].
  split; [exact B|]. split; [exact F|]. split; [exact PP|]. split; [exact MM | exact RM'].
Qed.

Lemma dispatch_still_paid C P w l n k mb caller d raw fees pays marks :
  chain_ok C -> reachable C w -> (forall a, P a = true -> undisturbed C w l a) ->
  dispatchable C n (keep P w) mb caller d raw fees pays marks ->
  (forall st nonce, contract_at (chain_run C w l) mb st -> reported_nonce st = Some nonce -> nonce + 1 < 2 ^ 32) ->
  room (chain_run C w l) marks ->
  (forall x, amount_of x fees <= balance (chain_run C w l) caller x) -> ch_account C caller = true -> (n + 3 <= k)%nat ->
  exists raw' w', renumbered raw raw' /\ tx_run C k (TExec caller mb (MDispatch d) fees) (chain_run C w l) = Ok w' /\
    dispatched_one (chain_run C w l) w' mb raw' /\ fees_paid (chain_run C w l) w' caller fees pays /\
    recorded (chain_run C w l) w' raw' marks /\ others_same (chain_run C w l) w' mb marks.
Proof.
  intros HC Hr U D Hn Rm Hb Ha Hk. destruct (still_dispatchable C P w l n mb caller d raw fees pays marks HC Hr U D) as (st & nonce & H1 & H2 & H3).
  destruct (H3 (Hn _ _ H1 H2) Rm) as (raw' & R & D').
  destruct (dispatch_paid C n k _ mb caller d raw' fees pays marks (reachable_later C w l Hr) D' Hb Ha Hk) as (w' & H).
  exists raw', w'. split; [exact R | exact H].
Qed.
