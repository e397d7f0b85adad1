(** * Migration guard. *)
From Coq Require Import List NArith Lia Bool Sorted.
From Verif Require Import Base BaseFacts OMap Utils.
Import ListNotations.

(** version order as a relation, spelled out *)
Definition version_before (a b : version) : Prop := klt (version_key a) (version_key b) = true.

Lemma version_before_core a b :
  version_before a b <->
  (v_major a < v_major b \/ (v_major a = v_major b /\
  (v_minor a < v_minor b \/ (v_minor a = v_minor b /\
  (v_patch a < v_patch b \/ (v_patch a = v_patch b /\
     klt (snd (snd (snd (version_key a)))) (snd (snd (snd (version_key b)))) = true)))))).
Proof.
  unfold version_before, version_key. cbn [klt OrdPair OrdN fst snd].
  unfold pair_ltb at 1. cbn [fst snd klt OrdN OrdPair].
  destruct (v_major a <? v_major b) eqn:E1; [split; [intros _; left; lia|reflexivity]|].
  destruct (v_major b <? v_major a) eqn:E2; [split; [discriminate|intros H; exfalso; lia]|].
  unfold pair_ltb at 1. cbn [fst snd klt OrdN OrdPair].
  destruct (v_minor a <? v_minor b) eqn:E3; [split; [intros _; right; lia|reflexivity]|].
  destruct (v_minor b <? v_minor a) eqn:E4; [split; [discriminate|intros H; exfalso; lia]|].
  unfold pair_ltb at 1. cbn [fst snd klt OrdN OrdPair].
  destruct (v_patch a <? v_patch b) eqn:E5; [split; [intros _; right; split; [lia|]; right; lia|reflexivity]|].
  destruct (v_patch b <? v_patch a) eqn:E6; [split; [discriminate|intros H; exfalso; lia]|].
  split.
  - intros H. right. split; [lia|]. right. split; [lia|]. right. split; [lia|exact H].
  - intros [H|[_ [H|[_ [H|[_ H]]]]]]; [lia|lia|lia|exact H].
Qed.

Lemma migrate_iff stored name ver out :
  migrate stored name ver = Ok out <->
  exists st sv v, stored = Some st /\ cv_contract st = name /\
    version_parse (cv_version st) = Some sv /\ version_parse ver = Some v /\
    version_before sv v /\ out = mkCw2 name ver.
Proof.
  unfold migrate, version_before. split.
  - intros H. inv_res. apply bytes_eqb_eq in Hr0.
    change (klt (version_key v2) (version_key v1)) with (version_ltb v2 v1).
    destruct (version_ltb v2 v1) eqn:E; [|discriminate]. inv_res.
    exists v, v2, v1. auto 10.
  - intros (st & sv & v & -> & <- & Hs & Hv & Hb & ->). cbn [ok_or bind].
    rewrite bytes_eqb_refl. cbn [ensure bind]. rewrite Hv, Hs. cbn [ok_or bind].
    unfold version_ltb. now rewrite Hb.
Qed.

(** a sequence of attempted migrations (name and version of the new code);
    failed ones leave the stored information alone *)
Fixpoint migrations (stored : option cw2) (l : list (str * str)) : list cw2 :=
  match l with
  | [] => []
  | (n, v) :: l' =>
      match migrate stored n v with
      | Ok c => c :: migrations (Some c) l'
      | _ => migrations stored l'
      end
  end.

Definition older (a b : cw2) : Prop :=
  exists va vb, version_parse (cv_version a) = Some va /\ version_parse (cv_version b) = Some vb /\
    version_before va vb.

Lemma older_trans a b c : older a b -> older b c -> older a c.
Proof.
  intros (va & vb & H1 & H2 & H3) (vb' & vc & H4 & H5 & H6).
  exists va, vc. repeat split; auto. assert (vb' = vb) as -> by congruence.
  unfold version_before in *. eapply klt_trans; eauto.
Qed.

Lemma older_irrefl a : ~ older a a.
Proof.
  intros (va & vb & H1 & H2 & H3). assert (vb = va) as -> by congruence.
  unfold version_before in H3. now rewrite klt_irrefl in H3.
Qed.

Lemma migrations_increase st l :
  StronglySorted older (st :: migrations (Some st) l) /\
  Forall (fun c => cv_contract c = cv_contract st) (migrations (Some st) l).
Proof.
  revert st. induction l as [|[n v] l IH]; intros st; cbn [migrations].
  - split; repeat constructor.
  - destruct (migrate (Some st) n v) as [c| |] eqn:E; try apply IH.
    apply migrate_iff in E as (st' & sv & v' & Es & En & H1 & H2 & H3 & Ec).
    apply Some_inj in Es as <-. subst c.
    destruct (IH (mkCw2 n v)) as [I1 I2].
    assert (Hold : older st (mkCw2 n v)) by (exists sv, v'; auto).
    split.
    + constructor; [exact I1|]. constructor; [exact Hold|].
      inversion I1 as [|? ? _ HF]; subst. eapply Forall_impl; [|exact HF].
      intros c Hc. eapply older_trans; eauto.
    + constructor; [now cbn|]. eapply Forall_impl; [|exact I2]. intros c Hc. cbn in *. congruence.
Qed.
