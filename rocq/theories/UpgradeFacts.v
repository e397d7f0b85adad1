(** * The chain with migrations: proofs *)
From Coq Require Import List NArith Bool Lia.
From Verif Require Import Base BaseFacts OMap Crypto Coins Chain Utils Contracts World SpecWorld WorldFacts Wire Store SpecStore StoreFacts StoreState StorePages Raw RawFacts RawInit RawExec RawWorld
  SpecRawWorld RawWorldFacts TextWorld SpecTextWorld TextWorldFacts SpecVersion VersionFacts Upgrade SpecUpgrade.
Import ListNotations.

(** ** Contracts are kept in order *)
Lemma inst_sorted_step C w w' : om_sorted (w_inst w) -> astep C w w' -> om_sorted (w_inst w').
Proof.
  intros S H. destruct H; subst;
    repeat match goal with
    | M : move_coins _ _ _ _ = Ok _ |- _ =>
        apply move_coins_same in M as (M & _ & _); cbn [w_inst add_log bump] in M
    end; cbn [w_inst add_log bump set_inst set_admin set_bank set_height];
    try apply om_sorted_set;
    repeat match goal with M : w_inst ?x = w_inst _ |- context [w_inst ?x] => rewrite M end;
    assumption.
Qed.
Lemma inst_sorted C w w' : asteps C w w' -> om_sorted (w_inst w) -> om_sorted (w_inst w').
Proof. intros H. refine (asteps_inv C (fun w => om_sorted (w_inst w)) _ w w' H). intros; eapply inst_sorted_step; eauto. Qed.
Lemma timely_sorted C w : timely_reachable C w -> om_sorted (w_inst w).
Proof. intros (bank & l & _ & ->). eapply inst_sorted; [apply chain_run_steps|exact I]. Qed.

Lemma map_om_sorted {K V W} {OK : OrdKey K} (f : K -> V -> W) (m : omap K V) :
  om_sorted m -> om_sorted (map (fun p => (fst p, f (fst p) (snd p))) m).
Proof.
  induction m as [|[k v] m IH]; [easy|]. cbn [map fst snd om_sorted]. intros [F S]. split; [|now apply IH].
  rewrite Forall_map. cbn [fst]. exact F.
Qed.

(** ** Version records *)
Lemma program_names p q n : program_name p = Some n -> program_name q = Some n -> p = q.
Proof. destruct p, q; intros H H'; try reflexivity; rewrite <- H in H'; vm_compute in H'; congruence. Qed.
Lemma named_install a v ver : named ver -> named (install a v ver).
Proof. intros Nm b q n H. unfold install. destruct (bytes_eqb b a); [now rewrite H|exact (Nm b q n H)]. Qed.
Lemma program_of_named st : (forall x, st <> SCw20 x) -> exists n, program_name (program_of st) = Some n.
Proof. intros N. destruct st; try (eexists; reflexivity). now destruct (N x). Qed.
Lemma program_of_repo st n : program_name (program_of st) = Some n -> forall x, st <> SCw20 x.
Proof. intros H x ->. discriminate H. Qed.

(** the new record in the database is the new version in use *)
Lemma spread_install ver w a st n v : om_sorted (w_inst w) -> contract_at w a st -> program_name (program_of st) = Some n ->
  rset_inst a (RC (program_of st) (storage (mkCw2 n v) st)) (spread ver w) = spread (install a v ver) w.
Proof.
  intros S Hc Hn. unfold contract_at in Hc. unfold rset_inst, spread. cbn [rw_inst rw_bank rw_admin rw_height rw_next]. f_equal.
  apply om_sorted_ext; [apply om_sorted_set; now apply map_om_sorted|now apply map_om_sorted|].
  intros b. rewrite om_get_set, !map_om_get. destruct (keqb b a) eqn:E.
  - apply keqb_eq in E as ->. rewrite Hc. cbn [option_map]. rewrite (spread_inst_repo _ _ _ (program_of_repo st n Hn)).
    unfold install. now rewrite bytes_eqb_refl, Hn.
  - destruct (om_get b (w_inst w)) as [x|]; [|reflexivity]. cbn [option_map]. f_equal.
    rewrite keqb_bytes in E. destruct x as [st'|]; [|reflexivity].
    destruct (repo_or_token st') as [[y ->]|N]; [reflexivity|]. rewrite !(spread_inst_repo _ _ _ N). unfold install. now rewrite E.
Qed.

(** ** Migrations *)
Lemma upgrade_iff C ver w a p v x : asks_only (ch_ext C) -> timely_reachable C w -> named ver ->
  (upgrade a p v (spread ver w) = Ok x <->
   exists st n, contract_at w a st /\ program_of st = p /\ program_name p = Some n /\ supersedes (mkCw2 n v) (ver a p) /\
     x = spread (install a v ver) w).
Proof.
  intros X R Nm. unfold upgrade. rewrite spread_get. split.
  - unfold contract_at. destruct (om_get a (w_inst w)) as [[st|st]|] eqn:Hc; cbn [option_map]; intros H; try discriminate H.
    destruct (repo_or_token st) as [[y ->]|N]; [discriminate H|]. rewrite (spread_inst_repo _ _ _ N) in H.
    destruct (program_name p) as [n|] eqn:Hn; [|discriminate H]. apply bind_Ok_inv in H as (d & H & E). apply Ok_inj in E.
    rewrite (raw_migrate_eq n v _ st (proj1 (timely_good C w X R) a st Hc)) in H. apply bind_Ok_inv in H as (c & H & E'). apply Ok_inj in E'.
    apply migrate_exactly in H as (c0 & old & new & H1 & H2 & H3 & H4 & H5 & H6). apply Some_inj in H1. subst c0 c d.
    destruct (program_of_named st N) as (n' & Hn'). rewrite (Nm a (program_of st) n' Hn') in H2. subst n'.
    pose proof (program_names _ _ _ Hn Hn') as Ep. subst p.
    rewrite (spread_install ver w a st n v (timely_sorted C w R) Hc Hn) in E.
    exists st, n. split; [reflexivity|]. split; [reflexivity|]. split; [reflexivity|]. split; [|now symmetry].
    exists old, new. auto.
  - intros (st & n & Hc & Ep & Hn & (old & new & H3 & H4 & H5) & ->). pose proof Hc as Hc'. unfold contract_at in Hc. rewrite Hc. cbn [option_map]. subst p.
    rewrite (spread_inst_repo _ _ _ (program_of_repo st n Hn)). rewrite Hn.
    rewrite (raw_migrate_eq n v _ st (proj1 (timely_good C w X R) a st Hc)).
    assert (M : migrate (Some (ver a (program_of st))) n v = Ok (mkCw2 n v)).
    { apply migrate_exactly. exists (ver a (program_of st)), old, new. split; [reflexivity|]. split; [exact (Nm _ _ _ Hn)|]. auto. }
    rewrite M. cbn [bind]. f_equal. now apply spread_install with (1 := timely_sorted C w R).
Qed.
Lemma upgrade_fails C ver w a p v : asks_only (ch_ext C) -> timely_reachable C w -> upgrade a p v (spread ver w) <> Panic.
Proof.
  intros X R. unfold upgrade. rewrite spread_get. destruct (om_get a (w_inst w)) as [[st|st]|] eqn:Hc; cbn [option_map]; try discriminate.
  destruct (repo_or_token st) as [[y ->]|N]; [discriminate|]. rewrite (spread_inst_repo _ _ _ N). destruct (program_name p) as [n|]; [|discriminate].
  rewrite (raw_migrate_eq n v _ st (proj1 (timely_good C w X R) a st Hc)). unfold migrate. cbn [ok_or bind].
  destruct (bytes_eqb _ _); cbn [ensure bind]; [|discriminate]. destruct (version_parse v); cbn [ok_or bind]; [|discriminate].
  destruct (version_parse _); cbn [ok_or bind]; [|discriminate]. destruct (version_ltb _ _); cbn [bind]; discriminate.
Qed.

(** ** Histories *)
Lemma upgraded_refl c : upgraded_from c c.
Proof. now left. Qed.
Lemma upgraded_trans a b c : upgraded_from a b -> upgraded_from b c -> upgraded_from a c.
Proof.
  intros [->|[N1 S1]] [->|[N2 S2]]; [now left|now right|now right|]. right. split; [congruence|].
  exact (proj1 (supersedes_strict a b c) S1 S2).
Qed.
Lemma timely_more C w l : timely_reachable C w -> Forall tx_timely l -> timely_reachable C (chain_run C w l).
Proof.
  intros (bank & h & F & ->) T. exists bank, (h ++ l). split; [now apply Forall_app|]. unfold chain_run. now rewrite fold_left_app.
Qed.
(** at the addresses of contracts of /repo the versions in use grow *)
Definition grown (w : world) (ver ver' : addr -> program -> cw2) : Prop :=
  forall a st, contract_at w a st -> (forall x, st <> SCw20 x) -> upgraded_from (ver a (program_of st)) (ver' a (program_of st)).
Lemma kind_kept C w w' a st : asteps C w w' -> contract_at w a st -> exists st', contract_at w' a st' /\ program_of st' = program_of st.
Proof.
  intros S Hc. destruct (asteps_kind C w w' a _ S Hc) as ([st2|st2] & Hc2 & K); cbn [same_kind] in K; [|contradiction].
  exists st2. split; [exact Hc2|]. destruct st, st2; try discriminate K; reflexivity.
Qed.
Lemma repo_program st st' : program_of st' = program_of st -> (forall x, st <> SCw20 x) -> forall x, st' <> SCw20 x.
Proof. intros E N x ->. destruct st; try discriminate E. now destruct (N x0). Qed.

Lemma urun_same C l : asks_only (ch_ext C) -> forall ver w, timely_reachable C w -> named ver -> Forall utx_timely l ->
  exists ver', urun C (ver, spread ver w) l = (ver', spread ver' (chain_run C w (history_heard C w (calls l)))) /\
    Forall tx_timely (history_heard C w (calls l)) /\ named ver' /\ grown w ver ver'.
Proof.
  intros X. induction l as [|t l IH]; intros ver w R Nm F.
  { exists ver. split; [reflexivity|]. split; [constructor|]. split; [exact Nm|]. intros a st _ _. apply upgraded_refl. }
  apply Forall_cons_iff in F as [T F]. unfold urun. cbn [fold_left].
  destruct t as [k t|a p v].
  - cbn [calls flat_map app] in *. cbn [utx_timely] in T.
    destruct (trun_same C ver X [(k, t)] w (timely_good C w X R) (Forall_cons _ T (Forall_nil _))) as [E1 F1].
    cbn [ustep]. change (ttx_step C ver (spread ver w) (k, t)) with (tchain_run C ver (spread ver w) [(k, t)]). rewrite E1.
    assert (Hh : history_heard C w ((k, t) :: calls l) = history_heard C w [(k, t)] ++ history_heard C (chain_run C w (history_heard C w [(k, t)])) (calls l)).
    { cbn [history_heard]. destruct (heard w t) as [t'|]; reflexivity. }
    fold (calls l). rewrite Hh.
    destruct (IH ver (chain_run C w (history_heard C w [(k, t)])) (timely_more C w _ R F1) Nm F) as (ver' & E2 & F2 & N2 & G2).
    exists ver'. unfold urun in E2. rewrite E2. split; [f_equal; unfold chain_run; now rewrite fold_left_app|].
    split; [now apply Forall_app|]. split; [exact N2|]. intros b st Hc N.
    destruct (kind_kept C w _ b st (chain_run_steps C (history_heard C w [(k, t)]) w) Hc) as (st' & Hc' & Ep).
    specialize (G2 b st' Hc' (repo_program st st' Ep N)). now rewrite Ep in G2.
  - cbn [calls flat_map app]. fold (calls l). cbn [ustep]. destruct (upgrade a p v (spread ver w)) as [x|e|] eqn:E; [|exact (IH ver w R Nm F)..].
    apply (upgrade_iff C ver w a p v x X R Nm) in E as (st & n & Hc & Ep & Hn & S & ->).
    destruct (IH (install a v ver) w R (named_install a v ver Nm) F) as (ver' & E2 & F2 & N2 & G2).
    exists ver'. split; [exact E2|]. split; [exact F2|]. split; [exact N2|]. intros b st' Hc' N.
    refine (upgraded_trans _ _ _ _ (G2 b st' Hc' N)). unfold install. destruct (bytes_eqb b a) eqn:Eb; [|apply upgraded_refl].
    apply bytes_eqb_eq in Eb as ->. unfold contract_at in Hc, Hc'. rewrite Hc in Hc'. apply Some_inj in Hc'. injection Hc' as <-.
    rewrite Ep, Hn. right. cbn [cv_contract]. split; [symmetry; exact (Nm a p n Hn)|exact S].
Qed.

Lemma genesis_timely C bank : timely_reachable C (genesis bank).
Proof. exists bank, []. split; [constructor|reflexivity]. Qed.

Lemma upgrade_history C ver bank l : asks_only (ch_ext C) -> named ver -> Forall utx_timely l ->
  exists ver', urun C (ver, rgenesis bank) l = (ver', spread ver' (chain_run C (genesis bank) (history_heard C (genesis bank) (calls l)))) /\ named ver'.
Proof.
  intros X Nm F. destruct (urun_same C l X ver (genesis bank) (genesis_timely C bank) Nm F) as (ver' & E & _ & N' & _).
  exists ver'. split; [exact E|exact N'].
Qed.

(** databases that differ in the record only *)
Lemma storage_apart v v' st : stored st -> same_but_version (storage v st) (storage v' st).
Proof.
  intros W k Hk. pose proof (stored_wrote v st W) as W1.
  assert (W2 : wrote (info_cell v' :: cells st) (save version_c (s "contract_info") v' (storage v st))).
  { eapply save_wrote; [|exact W1]. apply in_here. apply changed_one. }
  destruct W2 as [_ E]. unfold storage at 2. rewrite <- E. unfold save. rewrite om_get_set. destruct (keqb k (s "contract_info")) eqn:Ek; [|reflexivity].
  apply keqb_eq in Ek. now destruct Hk.
Qed.
Lemma upgrade_same C ver bank l a : asks_only (ch_ext C) -> named ver -> Forall utx_timely l ->
  match om_get a (rw_inst (snd (urun C (ver, rgenesis bank) l))), om_get a (rw_inst (tchain_run C ver (rgenesis bank) (calls l))) with
  | Some (RC p d), Some (RC p' d') => p = p' /\ same_but_version d d'
  | x, y => x = y
  end.
Proof.
  intros X Nm F. destruct (urun_same C l X ver (genesis bank) (genesis_timely C bank) Nm F) as (ver' & E & Fh & N' & _).
  change (spread ver (genesis bank)) with (rgenesis bank) in E. rewrite E. cbn [snd].
  assert (Fc : Forall ttx_timely (calls l)).
  { clear - F. induction F as [|[k t|b p v] l T _ IH]; [constructor| |exact IH]. cbn [calls flat_map app]. now constructor. }
  rewrite (text_run C ver bank (calls l) X Fc). rewrite !spread_get.
  pose proof (timely_good C _ X (timely_more C _ _ (genesis_timely C bank) Fh)) as [G _].
  set (w := chain_run C (genesis bank) (history_heard C (genesis bank) (calls l))) in *. clearbody w.
  destruct (om_get a (w_inst w)) as [[st|st]|] eqn:Hc; cbn [option_map]; try reflexivity.
  destruct (repo_or_token st) as [[y ->]|N]; [reflexivity|]. rewrite !(spread_inst_repo _ _ _ N). split; [reflexivity|].
  apply storage_apart. exact (G a st Hc).
Qed.
Lemma upgrade_rest C ver bank l : asks_only (ch_ext C) -> named ver -> Forall utx_timely l ->
  let w := snd (urun C (ver, rgenesis bank) l) in let w' := tchain_run C ver (rgenesis bank) (calls l) in
  rw_bank w = rw_bank w' /\ rw_admin w = rw_admin w' /\ rw_height w = rw_height w' /\ rw_next w = rw_next w'.
Proof.
  intros X Nm F. destruct (urun_same C l X ver (genesis bank) (genesis_timely C bank) Nm F) as (ver' & E & Fh & N' & _).
  change (spread ver (genesis bank)) with (rgenesis bank) in E. rewrite E. cbn [snd].
  assert (Fc : Forall ttx_timely (calls l)).
  { clear - F. induction F as [|[k t|b p v] l T _ IH]; [constructor| |exact IH]. cbn [calls flat_map app]. now constructor. }
  rewrite (text_run C ver bank (calls l) X Fc). cbv zeta. repeat split.
Qed.

(** versions grow, programs stay *)
Lemma upgrade_grows C ver bank l l' a p d : asks_only (ch_ext C) -> named ver -> Forall utx_timely (l ++ l') ->
  om_get a (rw_inst (snd (urun C (ver, rgenesis bank) l))) = Some (RC p d) ->
  exists d' c c', om_get a (rw_inst (snd (urun C (ver, rgenesis bank) (l ++ l')))) = Some (RC p d') /\
    recorded d = Ok c /\ recorded d' = Ok c' /\ program_name p = Some (cv_contract c) /\ upgraded_from c c'.
Proof.
  intros X Nm F H. apply Forall_app in F as [F F']. destruct (urun_same C l X ver (genesis bank) (genesis_timely C bank) Nm F) as (v1 & E & Fh & N1 & _).
  change (spread ver (genesis bank)) with (rgenesis bank) in E. unfold urun at 1. rewrite fold_left_app. fold (urun C (ver, rgenesis bank) l). rewrite E in *. cbn [snd] in H.
  pose proof (timely_more C _ _ (genesis_timely C bank) Fh) as R. revert R H.
  generalize (chain_run C (genesis bank) (history_heard C (genesis bank) (calls l))). intros w R H. clear E Fh.
  destruct (urun_same C l' X v1 w R N1 F') as (v2 & E & Fh & N2 & G). unfold urun in E. rewrite E. cbn [snd]. rewrite !spread_get in *.
  destruct (om_get a (w_inst w)) as [[st|st]|] eqn:Hc; cbn [option_map] in H; try discriminate H.
  destruct (repo_or_token st) as [[y ->]|N]; [discriminate H|]. rewrite (spread_inst_repo _ _ _ N) in H. apply Some_inj in H. injection H as <- <-.
  destruct (kind_kept C w _ a st (chain_run_steps C (history_heard C w (calls l')) w) Hc) as (st' & Hc' & Ep).
  pose proof (repo_program st st' Ep N) as N'. pose proof Hc' as Hc2. unfold contract_at in Hc'. rewrite Hc'. cbn [option_map]. rewrite (spread_inst_repo _ _ _ N'). rewrite Ep.
  exists (storage (v2 a (program_of st)) st'), (v1 a (program_of st)), (v2 a (program_of st)). split; [reflexivity|].
  split; [exact (read_version _ st (proj1 (timely_good C w X R) a st Hc))|].
  split; [exact (read_version _ st' (proj1 (timely_good C _ X (timely_more C w _ R Fh)) a st' Hc2))|].
  destruct (program_of_named st N) as (n & Hn). split; [now rewrite (N1 a _ n Hn)|]. exact (G a st Hc N).
Qed.

(** ** No message is processed twice *)
Lemma upgrade_once C ver bank l ver1 w1' k u a t f md raw d x' l' ver2 w2' k' u' t' f' md' raw' x'' :
  asks_only (ch_ext C) -> chain_ok C -> om_sorted bank -> named ver -> Forall utx_timely l -> Forall utx_timely l' ->
  urun C (ver, rgenesis bank) l = (ver1, w1') -> om_get a (rw_inst w1') = Some (RC PMailbox d) ->
  read_exec PMailbox t = Some (MProcess md raw) -> ttx_run C ver1 k (Write u a t f) w1' = Ok x' ->
  urun C (ver1, x') l' = (ver2, w2') ->
  read_exec PMailbox t' = Some (MProcess md' raw') -> keccak256_hash raw' = keccak256_hash raw ->
  ttx_run C ver2 k' (Write u' a t' f') w2' <> Ok x''.
Proof.
  intros X CK B Nm F F' E0 Hd Ht H E0' Ht' Eq H'. destruct (urun_same C l X ver (genesis bank) (genesis_timely C bank) Nm F) as (v1 & E & Fh & N1 & _).
  change (spread ver (genesis bank)) with (rgenesis bank) in E.
  assert (R0 : from C bank (chain_run C (genesis bank) (history_heard C (genesis bank) (calls l)))) by (eexists; split; [exact Fh|reflexivity]).
  rewrite E in E0. injection E0 as <- <-. clear E Fh.
  revert R0 Hd H. generalize (chain_run C (genesis bank) (history_heard C (genesis bank) (calls l))). intros w R0 Hd H. pose proof (from_timely _ _ _ R0) as R.
  apply spread_mailbox in Hd as (x & Hc). destruct (text_process C v1 k u a t f md raw w x x' X R Hc Ht H) as (w1 & T1 & ->).
  pose proof (from_tx C bank k (TExec u a (MProcess md raw) f) w w1 R0 I T1) as R1.
  destruct (urun_same C l' X v1 w1 (from_timely _ _ _ R1) N1 F') as (v2 & E2 & F2 & N2 & _). rewrite E2 in E0'. injection E0' as <- <-. clear E2.
  destruct (kept_mailbox C w (chain_run C w1 (history_heard C w1 (calls l'))) a x) as (x2 & Hc2); [|exact Hc|].
  { eapply asteps_trans; [eapply tx_steps; exact T1|apply chain_run_steps]. }
  destruct (text_process C v2 k' u' a t' f' md' raw' _ x2 x'' X (from_timely _ _ _ (from_run C bank w1 _ R1 F2)) Hc2 Ht' H') as (w3 & T3 & _).
  exact (once_at C bank w k u a f md raw x w1 _ k' u' f' md' raw' w3 CK B R0 Hc T1 F2 Eq T3).
Qed.
