(** * Instantiation: which messages are accepted and what results. *)
From Coq Require Import List NArith Lia Bool.
From Verif Require Import Base BaseFacts OMap Coins Message Hex HexFacts Bech32 Merkle Chain Ownable Router
  Mailbox Va Isms Hooks Igp Warp Cw20 Contracts Spec SpecModules World SpecWorld SpecBridge SpecInit
  StepFacts AccessFacts AcceptFacts MailboxFacts IsmFacts HookFacts WorldToken.
Import ListNotations.

Lemma ok_is {X} (r : res X) : is_ok r = true <-> exists x, r = Ok x.
Proof. destruct r; cbn; split; intros H; try discriminate H; try (destruct H; discriminate); eauto. Qed.

Lemma lower_iff h : hrp_lowercase h = true <-> lower_case h.
Proof.
  unfold hrp_lowercase, lower_case. apply forallb_iff. intros b. unfold is_lower.
  rewrite orb_true_iff, andb_true_iff, !N.leb_le. tauto.
Qed.

Lemma smart_ok q a m r : smart q a m = Ok r <-> q_smart q a m = Ok r /\ qres_ok r = true.
Proof.
  unfold smart. destruct (q_smart q a m) as [x | |]; [| split; [discriminate | intros [H _]; discriminate H] ..].
  destruct (qres_ok x) eqn:E; split.
  - intros H. apply Ok_inj in H. subst. auto.
  - intros [H _]. exact H.
  - discriminate.
  - intros [H H1]. apply Ok_inj in H. subst. congruence.
Qed.

(** ** Opening balances *)
Lemma opening_fold A (l : list (addr * N)) : forall m : omap addr N,
  is_ok (foldM (fun (m : omap addr N) p =>
         a <- addr_validate A (fst p) ;;
         _ <- ensure (snd p <? u128_max) EParse ;;
         match om_get a m with
         | Some _ => Err EInvalidConfig
         | None => Ok (om_set a (snd p) m)
         end) l m) = true <->
  Forall (fun p => valid A (fst p) /\ snd p < 2 ^ 128) l /\ NoDup (map fst l) /\
  Forall (fun p => om_get (fst p) m = None) l.
Proof.
  induction l as [| [a n] l IH]; intros m.
  - cbn [foldM map]. rewrite ok_Ok. split; intros; [| exact I]. split; [| split]; constructor.
  - cbn [foldM map fst snd]. 
    assert (E : forall X (k : omap addr N -> res X),
      is_ok (bind (a <- addr_validate A a;; _ <- ensure (n <? u128_max) EParse;;
              match om_get a m with Some _ => Err EInvalidConfig | None => Ok (om_set a n m) end) k) = true
      <-> valid A a /\ n < 2 ^ 128 /\ om_get a m = None /\ is_ok (k (om_set a n m)) = true).
    { intros X k. unfold addr_validate, valid. destruct (api_valid A a); cbn [bind];
        [| split; [intros H; discriminate H | intros [H _]; discriminate H]].
      unfold ensure. destruct (n <? u128_max) eqn:L; cbn [bind].
      - apply N.ltb_lt in L. change u128_max with (2 ^ 128) in L. destruct (om_get a m); cbn [bind];
          [split; [intros H; discriminate H | intros (_ & _ & H & _); discriminate H] |]. tauto.
      - apply N.ltb_ge in L. change u128_max with (2 ^ 128) in L.
        split; [intros H; discriminate H | intros (_ & H & _); lia]. }
    rewrite E, IH. split.
    + intros (V & L & G & F & D & O). split; [constructor; auto |]. split.
      * constructor; [| exact D]. intros I1. apply in_map_iff in I1 as (p & <- & I1).
        rewrite Forall_forall in O. specialize (O p I1). rewrite om_get_set, keqb_bytes, bytes_eqb_refl in O. discriminate O.
      * constructor; [exact G |]. rewrite Forall_forall in *. intros p Ip. specialize (O p Ip).
        rewrite om_get_set in O. destruct (keqb (fst p) a); [discriminate O | exact O].
    + intros (F & D & O). inversion_clear F as [| ? ? [V L] F']. inversion_clear D as [| ? ? N1 D'].
      inversion_clear O as [| ? ? G O']. cbn [fst snd] in *. split; [exact V |]. split; [exact L |]. split; [exact G |].
      split; [exact F' |]. split; [exact D' |]. rewrite Forall_forall in *. intros p Ip. rewrite om_get_set, keqb_bytes.
      destruct (bytes_eqb (fst p) a) eqn:Q; [| exact (O' p Ip)]. apply bytes_eqb_eq in Q. subst a.
      destruct N1. now apply in_map.
Qed.

Lemma opening_iff A mt l : is_ok (cw_instantiate A mt l) = true <-> opening_ok A l.
Proof.
  unfold cw_instantiate, opening_ok.
  assert (T : initial_sum (ICw20 None l) = fold_right (fun p acc => snd p + acc) 0 l) by reflexivity.
  rewrite T. pose proof (opening_fold A l []) as F. revert F.
  generalize (foldM (fun (m : omap addr N) p =>
         a <- addr_validate A (fst p) ;; _ <- ensure (snd p <? u128_max) EParse ;;
         match om_get a m with Some _ => Err EInvalidConfig | None => Ok (om_set a (snd p) m) end) l []).
  intros b F. destruct b as [b | |]; cbn [bind].
  - unfold need. destruct (_ <? u128_max) eqn:L; cbn [bind is_ok].
    + apply N.ltb_lt in L. change u128_max with (2 ^ 128) in L. destruct F as [F _]. specialize (F eq_refl). tauto.
    + apply N.ltb_ge in L. change u128_max with (2 ^ 128) in L. split; [discriminate |]. intros (_ & _ & H). lia.
  - split; [discriminate |]. intros (H1 & H2 & _). apply F. split; [exact H1 |]. split; [exact H2 |].
    apply Forall_forall. reflexivity.
  - split; [discriminate |]. intros (H1 & H2 & _). apply F. split; [exact H1 |]. split; [exact H2 |].
    apply Forall_forall. reflexivity.
Qed.

(** ** Acceptance *)
Lemma modules_iff A (l : list (N * str)) m : is_ok (ri_save_all A l m) = true <-> Forall (fun p => valid A (snd p)) l.
Proof.
  unfold ri_save_all. apply ok_foldM. intros y x. rewrite ok_validate. rewrite ok_Ok. tauto.
Qed.

Lemma accepted_iff A q e i m : is_ok (c_instantiate A q e i m) = true <-> acceptable A q m.
Proof.
  unfold c_instantiate. rewrite ok_ensure.
  destruct m; cbn [imsg_ok acceptable]; rewrite ?ok_lift; cbv iota beta.
  - unfold mb_instantiate. rewrite ok_ensure, ok_validate, ok_Ok, u32_iff, lower_iff. tauto.
  - unfold va_instantiate. rewrite ok_validate. split.
    + intros (_ & V & H). split; [exact V |]. destruct (bech32_decode mailbox) as [raw | |]; [| discriminate H..].
      split; [eauto |]. cbn [bind] in H. destruct (smart q mailbox QLocalDomain) as [r | |] eqn:S; [| discriminate H..].
      apply smart_ok in S as [S S1]. cbn [bind] in H. destruct r; try discriminate H.
      apply u32_iff in S1. eauto.
    + intros (V & [raw D] & (d & S & S1)). split; [reflexivity |]. split; [exact V |]. rewrite D. cbn [bind].
      apply u32_iff in S1. rewrite (proj2 (smart_ok q mailbox QLocalDomain (RLocalDomain d)) (conj S S1)). reflexivity.
  - unfold ms_instantiate. rewrite ok_validate, ok_Ok. tauto.
  - unfold ag_instantiate. rewrite ok_validate, ok_bind_const by reflexivity. rewrite ok_mapM_validate, u8_iff. tauto.
  - unfold ri_instantiate. rewrite ok_validate, ok_bind_const by reflexivity.
    rewrite modules_iff, (forallb_iff _ (fun p => fst p < 2 ^ 32)) by (intros p; apply u32_iff).
    split; [intros (F1 & V & F2); split; [exact V | apply Forall_and; assumption]
           | intros [V F]; apply Forall_and_inv in F as [F1 F2]; auto].
  - unfold pi_instantiate. rewrite ok_validate, ok_Ok. tauto.
  - unfold mk_instantiate. rewrite ok_validate, ok_Ok. tauto.
  - unfold ah_instantiate. rewrite ok_validate, ok_bind_const by reflexivity. rewrite ok_mapM_validate. tauto.
  - unfold ph_instantiate. rewrite ok_validate, ok_Ok. tauto.
  - unfold rh_instantiate. rewrite ok_validate, ok_Ok. tauto.
  - unfold cu_instantiate. rewrite ok_validate, ok_Ok. tauto.
  - unfold fb_instantiate. rewrite ok_validate, ok_Ok. tauto.
  - unfold fe_instantiate. rewrite ok_validate, ok_Ok, u128_iff. tauto.
  - unfold or_instantiate. rewrite ok_validate, ok_Ok. tauto.
  - unfold gp_instantiate. rewrite ok_ensure, !ok_validate, ok_Ok, u128_iff, lower_iff. tauto.
  - unfold wn_instantiate. rewrite !ok_validate. destruct t as [d [md |] | d]; rewrite ok_Ok; [| tauto | tauto].
    rewrite (forallb_iff _ (fun u => du_exponent u < 2 ^ 32)) by (intros u; apply u32_iff). tauto.
  - unfold wc_instantiate. rewrite !ok_validate. destruct t; rewrite ?ok_validate, ok_Ok; [| tauto].
    rewrite (forallb_iff _ (fun p => snd p < 2 ^ 128)) by (intros p; apply u128_iff). tauto.
  - rewrite ok_bind_const by reflexivity. rewrite opening_iff.
    rewrite (forallb_iff _ (fun p => snd p < 2 ^ 128)) by (intros p; apply u128_iff).
    split; [tauto |]. intros O. split; [| exact O]. destruct O as [O _]. revert O. apply Forall_impl. tauto.
Qed.

Lemma accepted A q e i m : (exists st r, c_instantiate A q e i m = Ok (st, r)) <-> acceptable A q m.
Proof.
  rewrite <- (accepted_iff A q e i m), ok_is. split.
  - intros (st & r & H). eauto.
  - intros [[st r] H]. eauto.
Qed.

(** ** What results *)
Lemma q32 d : d < 2 ^ 32 -> qmsg_ok (QGetRoute d) = true /\ qmsg_ok (QGasForDomain [d]) = true.
Proof. intros H. apply u32_iff in H. cbn [qmsg_ok forallb]. rewrite H. auto. Qed.
Ltac unrouted_ := let d := fresh in let Hd := fresh in
  intros d Hd; apply q32 in Hd as [Hd _]; unfold reported_route, c_query; rewrite Hd; reflexivity.
Ltac vsame := repeat match goal with
  | H : addr_validate _ _ = Ok _ |- _ => apply addr_validate_iff in H as [_ ->]
  | H : mapM (addr_validate _) _ = Ok _ |- _ => apply mapM_validate in H as -> end.

Lemma starts A q e i m st r :
  c_instantiate A q e i m = Ok (st, r) -> starts_as q (e_contract e) m st r.
Proof.
  intros H. pose proof H as H0. unfold c_instantiate in H. apply bind_Ok_inv in H as (u & _ & H). clear u.
  destruct m; unfold lift in H.
  1-17: apply bind_Ok_inv in H as ([x o] & H1 & H); apply Ok_inj in H; apply pair_equal_spec in H as [<- <-].
  - unfold mb_instantiate in H1. inv_all. vsame. repeat (split; [reflexivity |]). split; [| reflexivity]. 
    repeat (split; [reflexivity |]). intros id. reflexivity.
  - unfold va_instantiate in H1. apply bind_Ok_inv in H1 as (mb' & V & H1). vsame.
    apply bind_Ok_inv in H1 as (raw & D & H1). apply bind_Ok_inv in H1 as (rr & S & H1). apply smart_ok in S as [S _].
    destruct rr; try discriminate H1. apply Ok_inj in H1. apply pair_equal_spec in H1 as [<- <-].
    repeat (split; [reflexivity |]). split; [| reflexivity]. split; [exists raw; split; [exact D |] |].
    + unfold reported_va_mailbox, c_query, va_query. change (ensure (qmsg_ok QVaMailbox) EParse) with (Ok tt). cbn [bind va_mailbox]. rewrite hex_decode_encode. reflexivity.
    + split; [exists d; split; [exact S | reflexivity] |]. split; [reflexivity |]. intros v. reflexivity.
  - unfold ms_instantiate in H1. inv_all. vsame. repeat (split; [reflexivity |]). split; [| reflexivity].
    intros d. unfold reported_enrolled, c_query, ensure. destruct (qmsg_ok _); reflexivity.
  - unfold ag_instantiate in H1. inv_all. vsame. repeat (split; [reflexivity |]). reflexivity.
  - pose proof (fun raw m => module_initial A q e i owner isms _ _ raw m H0) as M.
    unfold ri_instantiate in H1. inv_all. vsame. repeat (split; [reflexivity |]). split; [| reflexivity].
    intros raw m Hm. exact (proj2 (M raw m Hm)).
  - unfold pi_instantiate in H1. inv_all. vsame. repeat (split; [reflexivity |]). reflexivity.
  - unfold mk_instantiate in H1. inv_all. vsame. repeat (split; [reflexivity |]). split; [| reflexivity]. split; reflexivity.
  - unfold ah_instantiate in H1. inv_all. vsame. repeat (split; [reflexivity |]). reflexivity.
  - unfold ph_instantiate in H1. inv_all. vsame. repeat (split; [reflexivity |]). reflexivity.
  - unfold rh_instantiate in H1. inv_all. vsame. repeat (split; [reflexivity |]). split; [| reflexivity]. unrouted_.
  - unfold cu_instantiate in H1. inv_all. vsame. repeat (split; [reflexivity |]). split; [| reflexivity].
    split; [unrouted_ |]. intros d rcp L. unfold reported_custom, reported_hook, c_query, ensure.
    destruct (qmsg_ok _); [| reflexivity]. cbn [bind cu_query]. rewrite hex_decode_encode. reflexivity.
  - unfold fb_instantiate in H1. inv_all. vsame. repeat (split; [reflexivity |]). split; [| reflexivity].
    split; [unrouted_ | reflexivity].
  - unfold fe_instantiate in H1. inv_all. vsame. repeat (split; [reflexivity |]). reflexivity.
  - unfold or_instantiate in H1. inv_all. vsame. repeat (split; [reflexivity |]). split; [| reflexivity].
    intros d. unfold reported_gas_data, c_query, ensure. destruct (qmsg_ok _); reflexivity.
  - unfold gp_instantiate in H1. inv_all. vsame. repeat (split; [reflexivity |]). split; [| reflexivity].
    repeat (split; [reflexivity |]). split; [| unrouted_]. intros d. unfold reported_gas, c_query, ensure. destruct (qmsg_ok _); reflexivity.
  - unfold wn_instantiate in H1. apply bind_Ok_inv in H1 as (o1 & V & H1). vsame. apply bind_Ok_inv in H1 as (o2 & V & H1). vsame.
    destruct t; apply Ok_inj in H1; apply pair_equal_spec in H1 as [<- <-]; repeat (split; [reflexivity |]);
      (split; [| reflexivity]); (split; [| split; reflexivity]); (split; [unrouted_ |]); repeat split; reflexivity.
  - unfold wc_instantiate in H1. apply bind_Ok_inv in H1 as (o1 & V & H1). vsame. apply bind_Ok_inv in H1 as (o2 & V & H1). vsame.
    destruct t.
    + apply Ok_inj in H1; apply pair_equal_spec in H1 as [<- <-]; repeat (split; [reflexivity |]);
      (split; [| reflexivity]); (split; [| split; reflexivity]); (split; [unrouted_ |]); repeat split; reflexivity.
    + apply bind_Ok_inv in H1 as (o3 & V & H1). vsame. 
      apply Ok_inj in H1; apply pair_equal_spec in H1 as [<- <-]; repeat (split; [reflexivity |]);
      (split; [| reflexivity]); (split; [| split; reflexivity]); (split; [unrouted_ |]); repeat split; reflexivity.
  - apply bind_Ok_inv in H as (x & H1 & H). apply Ok_inj in H. apply pair_equal_spec in H as [<- <-].
    repeat (split; [reflexivity |]). split; [| reflexivity]. split.
    + intros a. destruct (cw_born_ledger A _ _ x a H1) as (_ & _ & B & _). rewrite <- B. unfold cw_holding, c_query, cw_query, bal_in.
      cbn [bind addr_validate no_api api_valid]. try reflexivity. 
    + destruct (cw_born_ledger A _ _ x [] H1) as (_ & _ & _ & B). exact B.
Qed.
