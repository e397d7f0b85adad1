(** * Coins. *)
From Coq Require Import List NArith Lia Bool.
From Verif Require Import Base BaseFacts OMap Coins.
Import ListNotations.

(** amount held in a [coins] map *)
Definition cget (d : str) (m : coins) : N :=
  match om_get d m with Some a => a | None => 0 end.

(** the invariant of [Coins]: sorted, no zero amounts *)
Definition coins_wf (m : coins) : Prop := om_sorted m /\ Forall (fun p => snd p <> 0) m.

Lemma coins_wf_nil : coins_wf [].
Proof. split; constructor. Qed.

Lemma coins_wf_get m d a : coins_wf m -> om_get d m = Some a -> a <> 0.
Proof.
  intros [_ Hf] Hg. apply om_get_In in Hg. rewrite Forall_forall in Hf. apply (Hf _ Hg).
Qed.

Lemma coins_ext m1 m2 :
  coins_wf m1 -> coins_wf m2 -> (forall d, cget d m1 = cget d m2) -> m1 = m2.
Proof.
  intros H1 H2 H. apply om_sorted_ext; [apply H1|apply H2|].
  intros d. specialize (H d). unfold cget in H.
  destruct (om_get d m1) as [a|] eqn:E1, (om_get d m2) as [b|] eqn:E2; auto.
  - now subst.
  - exfalso. eapply coins_wf_get in E1; eauto.
  - exfalso. eapply coins_wf_get in E2; eauto.
Qed.

Lemma str_eqb_keqb (a b : str) : keqb a b = bytes_eqb a b.
Proof.
  destruct (bytes_eqb a b) eqn:E.
  - apply bytes_eqb_eq in E. now apply keqb_eq.
  - apply bytes_eqb_neq in E. now apply keqb_neq.
Qed.

Lemma cget_set d k v m : cget d (om_set k v m) = if bytes_eqb d k then v else cget d m.
Proof.
  unfold cget. rewrite om_get_set, str_eqb_keqb. now destruct (bytes_eqb d k).
Qed.

Lemma cget_del d k m : cget d (om_del k m) = if bytes_eqb d k then 0 else cget d m.
Proof.
  unfold cget. rewrite om_get_del, str_eqb_keqb. now destruct (bytes_eqb d k).
Qed.

Lemma coins_wf_set k v m : v <> 0 -> coins_wf m -> coins_wf (om_set k v m).
Proof. intros Hv [H1 H2]. split; [now apply om_sorted_set|now apply om_set_Forall]. Qed.
Lemma coins_wf_del k m : coins_wf m -> coins_wf (om_del k m).
Proof. intros [H1 H2]. split; [now apply om_sorted_del|now apply om_del_Forall]. Qed.

Lemma amount_of_cons d c l :
  amount_of d (c :: l) = (if bytes_eqb d (c_denom c) then c_amount c else 0) + amount_of d l.
Proof. reflexivity. Qed.

Lemma amount_of_app d l1 l2 : amount_of d (l1 ++ l2) = amount_of d l1 + amount_of d l2.
Proof. induction l1 as [|c l1 IH]; cbn [app]; [reflexivity|]. rewrite !amount_of_cons, IH. lia. Qed.

(** ** [coins_add] *)
Lemma coins_add_spec m c m' :
  coins_wf m -> coins_add m c = Ok m' ->
  coins_wf m' /\
  forall d, cget d m' = cget d m + (if bytes_eqb d (c_denom c) then c_amount c else 0).
Proof.
  unfold coins_add. intros Hw H. destruct (c_amount c =? 0) eqn:E0.
  - inv_res. split; [exact Hw|]. intros d. destruct (bytes_eqb d (c_denom c)); lia.
  - destruct (om_get (c_denom c) m) as [a|] eqn:Eg.
    + destruct (a + c_amount c <? u128_max) eqn:Eo; [|discriminate]. inv_res.
      split; [apply coins_wf_set; [lia|exact Hw]|].
      intros d. rewrite cget_set. destruct (bytes_eqb d (c_denom c)) eqn:Ed; [|lia].
      apply bytes_eqb_eq in Ed as ->. unfold cget. now rewrite Eg.
    + inv_res. split; [apply coins_wf_set; [lia|exact Hw]|].
      intros d. rewrite cget_set. destruct (bytes_eqb d (c_denom c)) eqn:Ed; [|lia].
      apply bytes_eqb_eq in Ed as ->. unfold cget. now rewrite Eg.
Qed.

Lemma coins_add_all_spec l m m' :
  coins_wf m -> foldM coins_add l m = Ok m' ->
  coins_wf m' /\ forall d, cget d m' = cget d m + amount_of d l.
Proof.
  revert m. induction l as [|c l IH]; cbn [foldM]; intros m Hw H.
  - inv_res. split; [exact Hw|]. intros d. cbn. lia.
  - inv_res. destruct (coins_add_spec _ _ _ Hw Hr) as [Hw1 Hg1].
    destruct (IH _ Hw1 H) as [Hw2 Hg2]. split; [exact Hw2|].
    intros d. rewrite Hg2, Hg1, amount_of_cons. lia.
Qed.

(** ** [coins_sub] *)
Lemma coins_sub_spec m c m' :
  coins_wf m -> coins_sub m c = Ok m' ->
  coins_wf m' /\
  forall d, cget d m' + (if bytes_eqb d (c_denom c) then c_amount c else 0) = cget d m.
Proof.
  unfold coins_sub. intros Hw H.
  destruct (om_get (c_denom c) m) as [a|] eqn:Eg.
  - destruct (a <? c_amount c) eqn:E1; [discriminate|].
    destruct (a =? c_amount c) eqn:E2; inv_res.
    + split; [now apply coins_wf_del|]. intros d. rewrite cget_del.
      destruct (bytes_eqb d (c_denom c)) eqn:Ed; [|lia].
      apply bytes_eqb_eq in Ed as ->. unfold cget. rewrite Eg. lia.
    + split; [apply coins_wf_set; [lia|exact Hw]|]. intros d. rewrite cget_set.
      destruct (bytes_eqb d (c_denom c)) eqn:Ed; [|lia].
      apply bytes_eqb_eq in Ed as ->. unfold cget. rewrite Eg. lia.
  - destruct (c_amount c =? 0) eqn:E0; [|discriminate]. inv_res.
    split; [exact Hw|]. intros d. destruct (bytes_eqb d (c_denom c)); lia.
Qed.

Lemma coins_sub_ok m c :
  coins_wf m -> c_amount c <= cget (c_denom c) m -> exists m', coins_sub m c = Ok m'.
Proof.
  unfold coins_sub, cget. intros Hw H.
  destruct (om_get (c_denom c) m) as [a|] eqn:Eg.
  - destruct (a <? c_amount c) eqn:E1; [lia|]. destruct (a =? c_amount c); eauto.
  - assert (E0 : c_amount c =? 0 = true) by lia. rewrite E0. eauto.
Qed.

Lemma coins_sub_not_panic m c : coins_sub m c <> Panic.
Proof.
  unfold coins_sub. destruct (om_get (c_denom c) m) as [a|].
  - destruct (a <? c_amount c), (a =? c_amount c); discriminate.
  - destruct (c_amount c =? 0); discriminate.
Qed.

Lemma coins_sub_all_spec l m m' :
  coins_wf m -> foldM coins_sub l m = Ok m' ->
  coins_wf m' /\ forall d, cget d m' + amount_of d l = cget d m.
Proof.
  revert m. induction l as [|c l IH]; cbn [foldM]; intros m Hw H.
  - inv_res. split; [exact Hw|]. intros d. cbn. lia.
  - inv_res. destruct (coins_sub_spec _ _ _ Hw Hr) as [Hw1 Hg1].
    destruct (IH _ Hw1 H) as [Hw2 Hg2]. split; [exact Hw2|].
    intros d. specialize (Hg1 d). specialize (Hg2 d). rewrite amount_of_cons. lia.
Qed.

Lemma coins_sub_all_ok l m :
  coins_wf m -> (forall d, amount_of d l <= cget d m) ->
  exists m', foldM coins_sub l m = Ok m'.
Proof.
  revert m. induction l as [|c l IH]; cbn [foldM]; intros m Hw H; [eauto|].
  destruct (coins_sub_ok m c Hw) as [m1 E1].
  { specialize (H (c_denom c)). rewrite amount_of_cons, bytes_eqb_refl in H. lia. }
  rewrite E1. cbn [bind]. destruct (coins_sub_spec _ _ _ Hw E1) as [Hw1 Hg1].
  apply IH; [exact Hw1|]. intros d. specialize (H d). specialize (Hg1 d).
  rewrite amount_of_cons in H. lia.
Qed.

(** ** [coins_try_from] *)
(** no denomination appears twice with a non-zero amount *)
Definition no_repeats (l : list coin) : Prop :=
  NoDup (map c_denom (filter (fun c => negb (c_amount c =? 0)) l)).

Lemma try_from_gen l m m' :
  coins_wf m ->
  foldM (fun (m : coins) c =>
    if c_amount c =? 0 then Ok m
    else match om_get (c_denom c) m with
         | Some _ => Err EStd
         | None => Ok (om_set (c_denom c) (c_amount c) m)
         end) l m = Ok m' ->
  coins_wf m' /\ (forall d, cget d m' = cget d m + amount_of d l) /\
  no_repeats l /\ (forall c, In c l -> c_amount c <> 0 -> om_get (c_denom c) m = None).
Proof.
  revert m. induction l as [|c l IH]; cbn [foldM]; intros m Hw H.
  - inv_res. repeat split; [apply Hw|apply Hw|intros d; cbn; lia|constructor|intros c []].
  - destruct (c_amount c =? 0) eqn:E0; cbn [bind] in H.
    + destruct (IH m Hw H) as (I1 & I2 & I3 & I4). split; [exact I1|]. split; [|split].
      * intros d. rewrite I2, amount_of_cons. destruct (bytes_eqb d (c_denom c)); lia.
      * unfold no_repeats. cbn [filter]. rewrite E0. exact I3.
      * intros c' [<-|Hin] Hn; [apply N.eqb_eq in E0; contradiction|auto].
    + destruct (om_get (c_denom c) m) as [a|] eqn:Eg; cbn [bind] in H; [discriminate|].
      apply IH in H as (I1 & I2 & I3 & I4); [|apply coins_wf_set; [lia|exact Hw]].
      split; [exact I1|]. split; [|split].
      * intros d. rewrite I2, cget_set, amount_of_cons.
        destruct (bytes_eqb d (c_denom c)) eqn:Ed; [|lia].
        apply bytes_eqb_eq in Ed as ->. unfold cget. rewrite Eg. lia.
      * unfold no_repeats. cbn [filter]. rewrite E0. cbn [negb map]. constructor; [|exact I3].
        intros Hin. apply in_map_iff in Hin as (c' & Ec & Hin). apply filter_In in Hin as [Hin Hz].
        apply (I4 c') in Hin; [|lia]. rewrite Ec, om_get_set_eq in Hin. discriminate.
      * intros c' [<-|Hin] Hn; [exact Eg|].
        specialize (I4 c' Hin Hn). rewrite om_get_set in I4.
        destruct (keqb (c_denom c') (c_denom c)); [discriminate|exact I4].
Qed.

Lemma try_from_spec l m :
  coins_try_from l = Ok m ->
  coins_wf m /\ (forall d, cget d m = amount_of d l) /\ no_repeats l.
Proof.
  intros H. apply try_from_gen in H as (H1 & H2 & H3 & _); [|apply coins_wf_nil]. auto.
Qed.

Lemma try_from_ok l : no_repeats l -> exists m, coins_try_from l = Ok m.
Proof.
  unfold coins_try_from.
  assert (H : forall l (m : coins), no_repeats l ->
    (forall c, In c l -> c_amount c <> 0 -> om_get (c_denom c) m = None) ->
    exists m', foldM (fun (m : coins) c =>
      if c_amount c =? 0 then Ok m
      else match om_get (c_denom c) m with
           | Some _ => Err EStd
           | None => Ok (om_set (c_denom c) (c_amount c) m)
           end) l m = Ok m').
  { clear l. induction l as [|c l IH]; cbn [foldM]; intros m Hn Hg; [eauto|].
    unfold no_repeats in Hn. cbn [filter] in Hn.
    destruct (c_amount c =? 0) eqn:E0; cbn [bind negb] in *.
    - apply IH; [exact Hn|]. intros c' Hin. apply Hg. now right.
    - rewrite Hg; [|now left|lia]. cbn [bind]. inversion Hn as [|? ? H1 H2]; subst.
      apply IH; [exact H2|]. intros c' Hin Hz. rewrite om_get_set_neq; [apply Hg; [now right|exact Hz]|].
      intros E. apply H1. rewrite <- E. apply in_map. apply filter_In. split; [exact Hin|]. lia. }
  intros Hn. apply H; [exact Hn|reflexivity].
Qed.

(** ** [coins_to_vec] *)
Lemma amount_to_vec m d : om_sorted m -> amount_of d (coins_to_vec m) = cget d m.
Proof.
  induction m as [|[k v] m IH]; intros Hs; [reflexivity|].
  destruct Hs as [H1 H2]. unfold coins_to_vec. cbn [map fst snd]. rewrite amount_of_cons. cbn [c_denom c_amount].
  fold (coins_to_vec m). rewrite (IH H2). unfold cget. cbn [om_get]. rewrite str_eqb_keqb.
  destruct (bytes_eqb d k) eqn:E; [|lia].
  apply bytes_eqb_eq in E as ->.
  assert (N0 : om_get k m = None).
  { destruct (om_get k m) eqn:X; [|reflexivity]. apply om_get_In in X.
    rewrite Forall_forall in H1. apply H1 in X. cbn [fst] in X. rewrite klt_irrefl in X. discriminate. }
  rewrite N0. lia.
Qed.

Lemma to_vec_no_repeats m : om_sorted m -> no_repeats (coins_to_vec m).
Proof.
  intros Hs. unfold no_repeats. apply om_sorted_NoDup in Hs. unfold coins_to_vec.
  unfold om_keys in Hs.
  assert (H : forall l : list coin, NoDup (map c_denom l) ->
            NoDup (map c_denom (filter (fun c => negb (c_amount c =? 0)) l))).
  { induction l as [|c l IH]; cbn [map filter]; intros Hn; [constructor|].
    inversion Hn as [|? ? H1 H2]; subst.
    destruct (negb (c_amount c =? 0)); cbn [map]; auto.
    constructor; auto. intros Hin. apply H1. apply in_map_iff in Hin as (c' & E & Hin).
    apply filter_In in Hin as [Hin _]. apply in_map_iff. eauto. }
  apply H. rewrite map_map. cbn [c_denom]. exact Hs.
Qed.

Lemma try_from_to_vec m : coins_wf m -> coins_try_from (coins_to_vec m) = Ok m.
Proof.
  intros Hw. destruct (try_from_ok (coins_to_vec m)) as [m' E].
  { apply to_vec_no_repeats. apply Hw. }
  rewrite E. f_equal. apply try_from_spec in E as (H1 & H2 & _).
  apply coins_ext; auto. intros d. rewrite H2. apply amount_to_vec. apply Hw.
Qed.

(** ** [must_pay] *)
Lemma must_pay_iff l d a :
  must_pay l d = Ok a <-> l = [mkCoin d a] /\ a <> 0.
Proof.
  unfold must_pay. split.
  - destruct l as [|c [|c2 l]]; try discriminate.
    destruct (c_amount c =? 0) eqn:E0; [discriminate|].
    destruct (bytes_eqb (c_denom c) d) eqn:E; [|discriminate]. intros H. inv_res.
    apply bytes_eqb_eq in E as <-. destruct c. cbn in *. split; [reflexivity|]. lia.
  - intros [-> Hn]. cbn [c_amount c_denom]. assert (E : a =? 0 = false) by lia.
    rewrite E, bytes_eqb_refl. reflexivity.
Qed.
