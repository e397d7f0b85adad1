(** * Key-ordered maps.

    Model of [cw_storage_plus::Map] (iteration in key-byte order) and of
    [BTreeMap]: association lists kept in strictly ascending key order. *)
From Coq Require Import List NArith Lia Bool.
From Verif Require Import Base BaseFacts.
Import ListNotations.

Class OrdKey (K : Type) : Type := {
  klt : K -> K -> bool;
  klt_irrefl : forall a, klt a a = false;
  klt_trans : forall a b c, klt a b = true -> klt b c = true -> klt a c = true;
  klt_total : forall a b, klt a b = false -> klt b a = false -> a = b
}.

(** [u32] keys are stored big-endian, so key-byte order is numeric order. *)
Lemma Nltb_trans a b c : N.ltb a b = true -> N.ltb b c = true -> N.ltb a c = true.
Proof. rewrite !N.ltb_lt. lia. Qed.
Lemma Nltb_total a b : N.ltb a b = false -> N.ltb b a = false -> a = b.
Proof. rewrite !N.ltb_ge. lia. Qed.
#[export] Instance OrdN : OrdKey N := {|
  klt := N.ltb;
  klt_irrefl := N.ltb_irrefl;
  klt_trans := Nltb_trans;
  klt_total := Nltb_total
|}.

#[export] Instance OrdBytes : OrdKey bytes := {|
  klt := bytes_ltb;
  klt_irrefl := bytes_ltb_irrefl;
  klt_trans := bytes_ltb_trans;
  klt_total := bytes_ltb_total
|}.

(** Composite keys [(u32, Vec<u8>)]: the first component has fixed width, so the order
    is lexicographic: /repo/contracts/hooks/routing-custom/src/lib.rs:158 *)
Definition pair_ltb {A B} `{OrdKey A} `{OrdKey B} (x y : A * B) : bool :=
  if klt (fst x) (fst y) then true
  else if klt (fst y) (fst x) then false else klt (snd x) (snd y).

Section PairOrd.
  Context {A B} {OA : OrdKey A} {OB : OrdKey B}.
  Lemma pair_ltb_irrefl (a : A * B) : pair_ltb a a = false.
  Proof. unfold pair_ltb. rewrite klt_irrefl. apply klt_irrefl. Qed.
  Lemma pair_ltb_trans (a b c : A * B) :
    pair_ltb a b = true -> pair_ltb b c = true -> pair_ltb a c = true.
  Proof.
    destruct a as [a1 a2], b as [b1 b2], c as [c1 c2]. unfold pair_ltb; simpl.
    intros H1 H2.
    destruct (klt a1 b1) eqn:E1.
    - destruct (klt b1 c1) eqn:E2.
      + now rewrite (klt_trans _ _ _ E1 E2).
      + destruct (klt c1 b1) eqn:E3; [discriminate|].
        rewrite <- (klt_total _ _ E2 E3). now rewrite E1.
    - destruct (klt b1 a1) eqn:E1'; [discriminate|].
      pose proof (klt_total _ _ E1 E1') as ->.
      destruct (klt b1 c1) eqn:E2; [reflexivity|].
      destruct (klt c1 b1) eqn:E3; [discriminate|].
      eapply klt_trans; eauto.
  Qed.
  Lemma pair_ltb_total (a b : A * B) :
    pair_ltb a b = false -> pair_ltb b a = false -> a = b.
  Proof.
    destruct a as [a1 a2], b as [b1 b2]. unfold pair_ltb; simpl. intros H1 H2.
    destruct (klt a1 b1) eqn:E1; [discriminate|].
    destruct (klt b1 a1) eqn:E2; [discriminate|].
    f_equal; apply klt_total; auto.
  Qed.
End PairOrd.

#[export] Instance OrdPair {A B} `{OrdKey A} `{OrdKey B} : OrdKey (A * B) := {|
  klt := pair_ltb;
  klt_irrefl := pair_ltb_irrefl;
  klt_trans := pair_ltb_trans;
  klt_total := pair_ltb_total
|}.

Section OMap.
  Context {K : Type} {OK : OrdKey K}.

  (** equality of keys, e.g. /repo/contracts/core/mailbox/src/state.rs:65 *)
  Definition keqb (a b : K) : bool := negb (klt a b) && negb (klt b a).

  (** [Map] (/repo/contracts/core/mailbox/src/state.rs:65) and [BTreeMap]
      (/repo/packages/interface/src/types/metadata.rs:137) *)
  Definition omap (V : Type) : Type := list (K * V).

  (** [Map::may_load]: e.g. /repo/packages/router/src/lib.rs:152-160 *)
  Fixpoint om_get {V} (k : K) (m : omap V) : option V :=
    match m with
    | [] => None
    | (k', v) :: m' => if keqb k k' then Some v else om_get k m'
    end.

  (** [Map::save] / [BTreeMap::insert]: e.g. /repo/packages/router/src/lib.rs:66-83 *)
  Fixpoint om_set {V} (k : K) (v : V) (m : omap V) : omap V :=
    match m with
    | [] => [(k, v)]
    | (k', v') :: m' =>
        if klt k k' then (k, v) :: (k', v') :: m'
        else if klt k' k then (k', v') :: om_set k v m'
        else (k, v) :: m'
    end.

  (** [Map::remove]: e.g. /repo/contracts/isms/routing/src/contract.rs:45-100 *)
  Fixpoint om_del {V} (k : K) (m : omap V) : omap V :=
    match m with
    | [] => []
    | (k', v') :: m' => if keqb k k' then om_del k m' else (k', v') :: om_del k m'
    end.

  (** [Map::keys]: /repo/packages/router/src/lib.rs:143-150 *)
  Definition om_keys {V} (m : omap V) : list K := map fst m.

  (** strictly ascending keys (the order of [Map::range],
      /repo/packages/interface/src/lib.rs:69-82) *)
  Fixpoint om_sorted {V} (m : omap V) : Prop :=
    match m with
    | [] => True
    | (k, _) :: m' => Forall (fun p => klt k (fst p) = true) m' /\ om_sorted m'
    end.

  (** [collect::<BTreeMap<_,_>>()]: later duplicates win:
      /repo/packages/interface/src/types/metadata.rs:142-147 *)
  Definition om_of_list {V} (l : list (K * V)) : omap V :=
    fold_left (fun m p => om_set (fst p) (snd p) m) l [].

  Lemma keqb_eq a b : keqb a b = true <-> a = b.
  Proof.
    unfold keqb. split.
    - intros H. apply andb_true_iff in H as [H1 H2].
      apply negb_true_iff in H1, H2. now apply klt_total.
    - intros ->. now rewrite klt_irrefl.
  Qed.

  Lemma keqb_refl a : keqb a a = true.
  Proof. now apply keqb_eq. Qed.

  Lemma keqb_neq a b : keqb a b = false <-> a <> b.
  Proof.
    rewrite <- keqb_eq. destruct (keqb a b); split; intros; congruence.
  Qed.

  Lemma key_eq_dec (a b : K) : {a = b} + {a <> b}.
  Proof. destruct (keqb a b) eqn:E; [left; now apply keqb_eq|right; now apply keqb_neq]. Qed.

  Lemma klt_neq a b : klt a b = true -> a <> b.
  Proof. intros H ->. rewrite klt_irrefl in H. discriminate. Qed.

  Lemma klt_asym a b : klt a b = true -> klt b a = false.
  Proof.
    intros H. destruct (klt b a) eqn:E; [|reflexivity].
    pose proof (klt_trans _ _ _ H E) as C. rewrite klt_irrefl in C. discriminate.
  Qed.

  Context {V : Type}.
  Implicit Type m : omap V.

  Lemma om_get_set_eq k v m : om_get k (om_set k v m) = Some v.
  Proof.
    induction m as [|[k' v'] m IH]; simpl.
    - now rewrite keqb_refl.
    - destruct (klt k k') eqn:E1; simpl; [now rewrite keqb_refl|].
      destruct (klt k' k) eqn:E2; simpl.
      + assert (E : keqb k k' = false) by (unfold keqb; now rewrite E1, E2).
        now rewrite E.
      + now rewrite keqb_refl.
  Qed.

  Lemma om_get_set_neq k k' v m : k' <> k -> om_get k' (om_set k v m) = om_get k' m.
  Proof.
    intros Hn. induction m as [|[k0 v0] m IH]; simpl.
    - apply keqb_neq in Hn. now rewrite Hn.
    - destruct (klt k k0) eqn:E1; simpl.
      + apply keqb_neq in Hn. now rewrite Hn.
      + destruct (klt k0 k) eqn:E2; simpl.
        * now rewrite IH.
        * pose proof (klt_total _ _ E1 E2) as <-.
          apply keqb_neq in Hn. now rewrite Hn.
  Qed.

  Lemma om_get_set k k' v m :
    om_get k' (om_set k v m) = if keqb k' k then Some v else om_get k' m.
  Proof.
    destruct (keqb k' k) eqn:E.
    - apply keqb_eq in E as ->. apply om_get_set_eq.
    - apply keqb_neq in E. now apply om_get_set_neq.
  Qed.

  Lemma om_get_del k k' m :
    om_get k' (om_del k m) = if keqb k' k then None else om_get k' m.
  Proof.
    induction m as [|[k0 v0] m IH]; simpl.
    - now destruct (keqb k' k).
    - destruct (keqb k k0) eqn:E; simpl.
      + apply keqb_eq in E as <-. rewrite IH. now destruct (keqb k' k).
      + rewrite IH. destruct (keqb k' k0) eqn:E2; [|reflexivity].
        apply keqb_eq in E2 as ->. destruct (keqb k0 k) eqn:E3; [|reflexivity].
        apply keqb_eq in E3 as ->. rewrite keqb_refl in E. discriminate.
  Qed.

  Lemma om_get_In k v m : om_get k m = Some v -> In (k, v) m.
  Proof.
    induction m as [|[k0 v0] m IH]; simpl; [discriminate|].
    destruct (keqb k k0) eqn:E; intros H.
    - apply keqb_eq in E as ->. injection H as ->. now left.
    - right. auto.
  Qed.

  Lemma om_set_Forall (P : K * V -> Prop) k v m :
    P (k, v) -> Forall P m -> Forall P (om_set k v m).
  Proof.
    intros Hp. induction m as [|[k0 v0] m IH]; simpl; intros HF.
    - auto.
    - inversion HF as [|? ? H1 H2]; subst.
      destruct (klt k k0); [auto|]. destruct (klt k0 k); auto.
  Qed.

  Lemma om_del_Forall (P : K * V -> Prop) k m :
    Forall P m -> Forall P (om_del k m).
  Proof.
    induction m as [|[k0 v0] m IH]; simpl; intros HF; auto.
    inversion HF as [|? ? H1 H2]; subst. destruct (keqb k k0); auto.
  Qed.

  Lemma om_sorted_set k v m : om_sorted m -> om_sorted (om_set k v m).
  Proof.
    induction m as [|[k0 v0] m IH]; simpl; intros H.
    - auto.
    - destruct H as [H1 H2].
      destruct (klt k k0) eqn:E1; simpl.
      + split; [|auto]. constructor; [exact E1|].
        eapply Forall_impl; [|exact H1]. intros p Hp. simpl in Hp.
        eapply klt_trans; eauto.
      + destruct (klt k0 k) eqn:E2; simpl.
        * split; [|auto]. apply om_set_Forall; auto.
        * pose proof (klt_total _ _ E1 E2) as ->. auto.
  Qed.

  Lemma om_sorted_del k m : om_sorted m -> om_sorted (om_del k m).
  Proof.
    induction m as [|[k0 v0] m IH]; simpl; intros H; auto.
    destruct H as [H1 H2]. destruct (keqb k k0); simpl; auto.
    split; auto. now apply om_del_Forall.
  Qed.

  Lemma om_sorted_In_get k v m : om_sorted m -> In (k, v) m -> om_get k m = Some v.
  Proof.
    induction m as [|[k0 v0] m IH]; simpl; intros Hs Hin; [tauto|].
    destruct Hs as [H1 H2]. destruct Hin as [E|Hin].
    - injection E as -> ->. now rewrite keqb_refl.
    - assert (Hlt : klt k0 k = true).
      { rewrite Forall_forall in H1. apply (H1 _ Hin). }
      assert (E : keqb k k0 = false).
      { apply keqb_neq. intros ->. rewrite klt_irrefl in Hlt. discriminate. }
      rewrite E. auto.
  Qed.

  (** sorted maps are determined by their lookups *)
  Lemma om_sorted_ext m1 m2 :
    om_sorted m1 -> om_sorted m2 -> (forall k, om_get k m1 = om_get k m2) -> m1 = m2.
  Proof.
    revert m2. induction m1 as [|[k1 v1] m1 IH]; intros [|[k2 v2] m2] S1 S2 H.
    - reflexivity.
    - specialize (H k2). simpl in H. rewrite keqb_refl in H. discriminate.
    - specialize (H k1). simpl in H. rewrite keqb_refl in H. discriminate.
    - destruct S1 as [A1 B1], S2 as [A2 B2].
      assert (Hk : k1 = k2).
      { pose proof (H k1) as G1. simpl in G1. rewrite keqb_refl in G1.
        pose proof (H k2) as G2. simpl in G2. rewrite keqb_refl in G2.
        destruct (keqb k1 k2) eqn:E; [now apply keqb_eq|].
        symmetry in G1. apply om_get_In in G1.
        destruct (keqb k2 k1) eqn:E'; [apply keqb_eq in E' as ->; rewrite keqb_refl in E; discriminate|].
        apply om_get_In in G2.
        rewrite Forall_forall in A1, A2.
        apply A2 in G1. apply A1 in G2. simpl in *.
        apply klt_asym in G1. congruence. }
      subst k2.
      pose proof (H k1) as G. simpl in G. rewrite keqb_refl in G. injection G as ->.
      f_equal. apply IH; auto. intros k.
      destruct (keqb k k1) eqn:E.
      + apply keqb_eq in E as ->.
        assert (N1 : om_get k1 m1 = None).
        { destruct (om_get k1 m1) eqn:X; [|reflexivity]. apply om_get_In in X.
          rewrite Forall_forall in A1. apply A1 in X. simpl in X.
          rewrite klt_irrefl in X. discriminate. }
        assert (N2 : om_get k1 m2 = None).
        { destruct (om_get k1 m2) eqn:X; [|reflexivity]. apply om_get_In in X.
          rewrite Forall_forall in A2. apply A2 in X. simpl in X.
          rewrite klt_irrefl in X. discriminate. }
        congruence.
      + specialize (H k). simpl in H. now rewrite E in H.
  Qed.

  Lemma om_sorted_NoDup m : om_sorted m -> NoDup (om_keys m).
  Proof.
    induction m as [|[k v] m IH]; simpl; intros H; [constructor|].
    destruct H as [H1 H2]. constructor; auto.
    intros Hin. apply in_map_iff in Hin as [p [E Hp]].
    rewrite Forall_forall in H1. apply H1 in Hp. rewrite E, klt_irrefl in Hp. discriminate.
  Qed.

  Lemma om_of_list_sorted (l : list (K * V)) : om_sorted (om_of_list l).
  Proof.
    unfold om_of_list.
    assert (H : forall m, om_sorted m ->
      om_sorted (fold_left (fun m p => om_set (fst p) (snd p) m) l m)).
    { induction l as [|p l IH]; simpl; intros m Hm; auto.
      apply IH. now apply om_sorted_set. }
    apply H. exact I.
  Qed.

  (** appending a larger key *)
  Lemma om_set_append k v m :
    Forall (fun p => klt (fst p) k = true) m -> om_set k v m = m ++ [(k, v)].
  Proof.
    induction m as [|[k0 v0] m IH]; simpl; intros HF; [reflexivity|].
    inversion HF as [|? ? H1 H2]; subst. simpl in H1.
    rewrite (klt_asym _ _ H1), H1. now rewrite IH.
  Qed.

  Lemma om_sorted_app m1 m2 :
    om_sorted (m1 ++ m2) <->
    om_sorted m1 /\ om_sorted m2 /\
    Forall (fun p => Forall (fun q => klt (fst p) (fst q) = true) m2) m1.
  Proof.
    induction m1 as [|[k v] m1 IH]; simpl.
    - intuition.
    - rewrite Forall_app, IH. split.
      + intros [[H1 H2] (H3 & H4 & H5)]. repeat split; auto.
      + intros [[H1 H2] (H3 & H4)]. inversion H4; subst. repeat split; auto.
  Qed.

  (** a sorted list collected into a map is unchanged *)
  Lemma om_of_list_id m : om_sorted m -> om_of_list m = m.
  Proof.
    intros Hs. unfold om_of_list.
    assert (H : forall l acc, om_sorted (acc ++ l) ->
      fold_left (fun m p => om_set (fst p) (snd p) m) l acc = acc ++ l).
    { induction l as [|[k v] l IH]; intros acc Ha; simpl.
      - now rewrite app_nil_r.
      - rewrite om_set_append.
        + rewrite IH; rewrite <- app_assoc; simpl; auto.
        + apply om_sorted_app in Ha as (_ & _ & H).
          eapply Forall_impl; [|exact H]. intros p Hp. now inversion Hp. }
    now apply (H m []).
  Qed.
End OMap.
Arguments omap K V : clear implicits.
