(** * Any number of connected warp routes: proofs. *)
From Coq Require Import List NArith Bool Lia.
From Verif Require Import Base BaseFacts OMap Crypto Bech32 Message CodecFacts Coins Chain Router Contracts Spec SpecModules MailboxConfFacts World
  SpecWorld SpecBridge SpecLive SpecSend SpecTransfer SpecArrive SpecNetwork
  WorldFacts WorldMailbox WorldWarp WorldToken WorldRoute WorldLive WorldSend WorldTransfer WorldArrive.
Import ListNotations.

(** ** Sums *)
Lemma total_cons {X} (f : X -> N) x l : total f (x :: l) = f x + total f l.
Proof. reflexivity. Qed.
Lemma total_plus {X} (f g : X -> N) l : total (fun x => f x + g x) l = total f l + total g l.
Proof. induction l as [| x l IH]; [reflexivity |]. rewrite !total_cons, IH. lia. Qed.
Lemma total_swap {X Y} (f : X -> Y -> N) l l' :
  total (fun x => total (fun y => f x y) l') l = total (fun y => total (fun x => f x y) l) l'.
Proof.
  induction l as [| x l IH].
  - symmetry. apply total_zero. rewrite Forall_forall. reflexivity.
  - rewrite total_cons, IH, <- total_plus. apply total_ext. reflexivity.
Qed.
(** one term of the sum is hit *)
Lemma total_hit {X} (key : X -> N) k v l : NoDup (map key l) -> In k (map key l) ->
  total (fun x => if k =? key x then v else 0) l = v.
Proof.
  induction l as [| x l IH]; intros ND Hin; [destruct Hin |]. cbn [map] in ND, Hin. inversion ND as [| ? ? N1 N2]; subst.
  rewrite total_cons. destruct (N.eqb_spec k (key x)) as [-> | Hne].
  - rewrite total_zero; [lia |]. rewrite Forall_forall. intros y Hy.
    destruct (N.eqb_spec (key x) (key y)) as [E | _]; [| reflexivity].
    exfalso. apply N1. rewrite E. now apply in_map.
  - destruct Hin as [E | Hin]; [congruence |]. rewrite (IH N2 Hin). reflexivity.
Qed.

(** ** What a route of the network took and gave, by domain *)
Lemma network_sums Ss S : network Ss -> In S Ss ->
  sent_all (sd_route S) (sd_log S) = total (fun T => sent_to (sd_route S) (sd_domain T) (sd_log S)) Ss /\
  received_all (sd_route S) (sd_log S) = total (fun T => received_from (sd_route S) (sd_domain T) (sd_log S)) Ss.
Proof.
  intros (H1 & H2 & _ & H4) Hin. destruct (H1 S Hin) as ((HC & Hr & _ & (st & Hc & Hk & Hm) & _) & _).
  specialize (H4 S). unfold sd_log in *.
  destruct (route_life _ _ _ _ _ Hr Hc Hk Hm) as (e & i & q & m & r & st0 & B & He & Hi & Hk0 & Hm0 & L).
  destruct (lives_transfers _ _ _ _ _ _ _ _ _ _ Hi Hk0 Hm0 L) as (_ & _ & F & G). split.
  - unfold sent_all, sent_to. rewrite total_swap. apply total_ext. intros t Ht.
    destruct (Forall2_in_left _ _ _ _ F Ht) as (p & _ & (_ & E1 & _ & _ & ru & U1 & U2 & U3)).
    symmetry. apply (total_hit sd_domain); [exact H2 |]. rewrite <- E1, <- U2. exact (H4 ru _ Hin U1 U3).
  - unfold received_all, received_from. rewrite total_swap. apply total_ext. intros [o bd] Ht. cbn [fst snd].
    symmetry. apply (total_hit sd_domain); [exact H2 |].
    unfold arrivals_at in Ht. apply in_flat_map in Ht as ([ev r'] & P1 & P2). rewrite Forall_forall in G.
    specialize (G _ P1). destruct ev as [e' i' m' Q | id rr]; [| contradiction P2].
    destruct m'; try contradiction P2. destruct P2 as [P2 | []]. injection P2 as -> ->.
    destruct G as (_ & _ & ru & U1 & U2 & U3). rewrite <- U2. exact (H4 ru _ Hin U1 U3).
Qed.

(** taken everywhere = given everywhere and travelling *)
Lemma network_flow Ss : network Ss ->
  total (fun S => sent_all (sd_route S) (sd_log S)) Ss
  = total (fun S => received_all (sd_route S) (sd_log S)) Ss + all_in_flight Ss.
Proof.
  intros HN.
  rewrite (total_ext _ (fun S => total (fun T => sent_to (sd_route S) (sd_domain T) (sd_log S)) Ss))
    by (intros S Hin; apply (network_sums Ss S HN Hin)).
  rewrite (total_ext (fun S => received_all _ _) (fun S => total (fun T => received_from (sd_route S) (sd_domain T) (sd_log S)) Ss))
    by (intros S Hin; apply (network_sums Ss S HN Hin)).
  rewrite (total_swap (fun S T => received_from (sd_route S) (sd_domain T) (sd_log S))).
  unfold all_in_flight. rewrite <- total_plus. apply total_ext. intros S HS. rewrite <- total_plus. apply total_ext. intros T HT.
  destruct HN as (H1 & _ & H3 & _). destruct (H1 S HS) as [S1 S2]. destruct (H1 T HT) as [T1 T2].
  apply bridge_amounts; auto; apply H3; auto.
Qed.

Lemma books_flow Ss held base out start : (forall S, In S Ss -> side_ok S) -> books Ss held base out start ->
  held + start + total (fun S => received_all (sd_route S) (sd_log S)) Ss
  = base + out + total (fun S => sent_all (sd_route S) (sd_log S)) Ss.
Proof.
  intros Hok HB. induction HB as [| S Ss held base h b o i Hc HB IH | S Ss out base h b o i Hc HB IH]; [reflexivity | |];
    rewrite !total_cons; (assert (IH' := IH (fun T HT => Hok T (or_intror HT)))); destruct (Hok S (or_introl eq_refl)) as (HC & Hr & _).
  - pose proof (custody_law S _ _ HC Hr Hc). lia.
  - pose proof (issued_law S _ _ HC Hr Hc). lia.
Qed.

Lemma network_backed Ss held base out start : network Ss -> books Ss held base out start ->
  held + start = base + out + all_in_flight Ss.
Proof.
  intros HN HB. pose proof (network_flow Ss HN) as F.
  assert (Hok : forall S, In S Ss -> side_ok S) by (intros S HS; apply HN; exact HS).
  pose proof (books_flow Ss held base out start Hok HB). lia.
Qed.

(** the books can always be drawn up *)
Lemma network_books Ss : (forall S, In S Ss -> side_ok S) ->
  (forall S st, In S Ss -> contract_at (sd_world S) (sd_route S) st -> is_warp_cw20 st -> reported_mode st = Some Collateral ->
     exists tk tst, reported_token st = Some tk /\ contract_at (sd_world S) tk tst /\ is_cw20 tst) ->
  exists held base out start, books Ss held base out start.
Proof.
  induction Ss as [| S Ss IH]; intros Hok Hcw; [exists 0, 0, 0, 0; constructor |].
  destruct IH as (h & b & o & i & HB).
  { intros T HT. apply Hok. now right. }
  { intros T st HT. apply Hcw. now right. }
  pose proof (Hok S (or_introl eq_refl)) as HS. pose proof HS as (_ & _ & _ & (st & Hc & _) & _).
  destruct (every_route_covered S st HS Hc (Hcw S st (or_introl eq_refl) Hc)) as [(held & base & X) | (out & base & X)].
  - exists (held + h), (base + b), o, i. now constructor.
  - exists h, b, (out + o), (base + i). now constructor.
Qed.

(** ** The only vault holds enough for all that comes *)
Lemma issued_books Ss : (forall S, In S Ss -> exists out, issued S out 0) -> exists out, books Ss 0 0 out 0.
Proof.
  induction Ss as [| S Ss IH]; intros H; [exists 0; constructor |].
  destruct IH as (o & HB); [intros T HT; apply H; now right |]. destruct (H S (or_introl eq_refl)) as (out & X).
  exists (out + o). exact (books_issues S Ss out 0 _ _ _ _ X HB).
Qed.
Lemma books_app Ss held base out start Ts h b o i : books Ss held base out start -> books Ts h b o i ->
  books (Ss ++ Ts) (held + h) (base + b) (out + o) (start + i).
Proof.
  intros H HT. induction H as [| S Ss held base h' b' o' i' Hc HB IH | S Ss out base h' b' o' i' Hc HB IH]; [exact HT | |];
    rewrite <- app_comm_cons, <- N.add_assoc, <- (N.add_assoc _ _ b) || rewrite <- app_comm_cons.
  - constructor; assumption.
  - rewrite <- (N.add_assoc out), <- (N.add_assoc base). constructor; assumption.
Qed.

Lemma vault_holds Ss T held base : network Ss -> In T Ss -> custody T held base -> sole_vault Ss T ->
  base + coming_to T Ss <= held.
Proof.
  intros HN HT Hcus Hsole. pose proof HN as (_ & ND & _).
  destruct (in_split T Ss HT) as (l1 & l2 & E).
  assert (Hother : forall S, In S (l1 ++ l2) -> exists out, issued S out 0).
  { intros S HS. apply Hsole; [rewrite E; apply in_or_app; apply in_app_or in HS as [X | X]; [left | right; right]; exact X |].
    rewrite E, map_app in ND. cbn [map] in ND. apply NoDup_remove_2 in ND. intros X. apply ND.
    rewrite <- X, <- map_app. now apply in_map. }
  destruct (issued_books l1) as (o1 & B1); [intros S HS; apply Hother; apply in_or_app; now left |].
  destruct (issued_books l2) as (o2 & B2); [intros S HS; apply Hother; apply in_or_app; now right |].
  pose proof (books_app _ _ _ _ _ _ _ _ _ _ B1 (books_locks T l2 held base _ _ _ _ Hcus B2)) as HB. rewrite <- E in HB.
  pose proof (network_backed Ss _ _ _ _ HN HB) as X.
  assert (Y : coming_to T Ss <= all_in_flight Ss).
  { unfold coming_to, all_in_flight. rewrite total_swap. exact (total_in (fun y => total (fun x => in_flight x y) Ss) T Ss HT). }
  lia.
Qed.
Lemma vault_enough Ss S T held base raw : network Ss -> In S Ss -> In T Ss -> custody T held base -> sole_vault Ss T ->
  In raw (travelling S T) -> message_amount raw <= held.
Proof.
  intros HN HS HT Hcus Hsole Hin. pose proof (vault_holds Ss T held base HN HT Hcus Hsole).
  pose proof (total_in message_amount raw _ Hin) as X. fold (in_flight S T) in X.
  pose proof (total_in (fun S => in_flight S T) S Ss HS) as Y. fold (coming_to T Ss) in Y. cbv beta in Y. lia.
Qed.

Lemma vault_pays Ss S T held base raw m n k mbst st md recipient relayer :
  network Ss -> In S Ss -> In T Ss -> custody T held base -> sole_vault Ss T ->
  In raw (dispatched_at (sd_mailbox S) (sd_log S)) -> sent_by (sd_name S) (sd_domain T) raw = true ->
  msg_decode raw = Ok m -> message_amount raw <> 0 ->
  contract_at (sd_world T) (sd_mailbox T) mbst -> reported_delivered mbst (keccak256_hash raw) = Some false ->
  contract_at (sd_world T) (sd_route T) st ->
  reported_route st (sd_domain S) = Some (Some (sd_name S)) ->
  bech32_encode (warp_hrp st) (firstn 32 (m_body m)) = Ok recipient ->
  api_valid (ch_api (sd_chain T)) recipient = true ->
  (exists x, consulted st mbst x /\
     answers (ch_api (sd_chain T)) (contract_at (sd_world T)) (others_answer (sd_chain T) (sd_world T) (sd_mailbox T))
       n x md raw true) ->
  ch_account (sd_chain T) relayer = true -> (n <= k)%nat -> (4 <= k)%nat ->
  exists w', tx_run (sd_chain T) k (TExec relayer (sd_mailbox T) (MProcess md raw) []) (sd_world T) = Ok w' /\
    only_delivered (sd_world T) w' (sd_mailbox T) raw /\
    paid_out (sd_world T) w' (sd_mailbox T) (sd_route T) st recipient (message_amount raw).
Proof.
  intros HN HS HT Hcus Hsole Hin Hsent Hdec H0 Hmc Hund Hwc Hrt Henc Hval Hmod Hacc Hnk H4.
  pose proof HN as (H1 & _ & H3 & _). destruct (H1 S HS) as [S1 S2]. destruct (H1 T HT) as [T1 _].
  apply (held_paid T S held base raw m n k mbst st md recipient relayer); auto.
  - apply H3; assumption.
  - exact (vault_enough Ss S T held base raw HN HS HT Hcus Hsole).
Qed.

Lemma transfer_arrives_network S n k st dest recipient amount hook md raw fees pays marks caller funds :
  side_ok S ->
  transferable (sd_chain S) n (sd_world S) (sd_mailbox S) (sd_route S) st dest recipient amount hook md raw fees pays marks ->
  length recipient = 32%nat ->
  pays_for st amount fees funds -> affords (sd_chain S) (sd_world S) (sd_route S) st caller amount funds ->
  ch_account (sd_chain S) caller = true -> (n + 6 <= k)%nat ->
  exists w',
    tx_run (sd_chain S) k (TExec caller (sd_route S) (MTransferRemote dest recipient amount hook md) funds) (sd_world S) = Ok w' /\
    coins_moved (sd_world S) w' (sd_route S) st caller amount fees pays /\
    tokens_moved (sd_world S) w' (sd_route S) st caller amount /\
    forall l Ss T mbst stT to n' k' md' relayer, sd_domain T = dest ->
      network Ss -> In (later S w' l) Ss -> In T Ss ->
      awaits S T n' mbst stT md' raw recipient to ->
      (reported_mode stT = Some Bridged /\ (exists held, holds (sd_world T) stT (sd_route T) held) /\
       can_issue (sd_world T) stT amount) \/
      ((exists held base, custody T held base) /\ sole_vault Ss T) ->
      no_clash T raw ->
      ch_account (sd_chain T) relayer = true -> (n' <= k')%nat -> (4 <= k')%nat ->
      In raw (processed_at (sd_mailbox T) (sd_log T)) \/
      exists wT, tx_run (sd_chain T) k' (TExec relayer (sd_mailbox T) (MProcess md' raw) []) (sd_world T) = Ok wT /\
        only_delivered (sd_world T) wT (sd_mailbox T) raw /\
        paid_out (sd_world T) wT (sd_mailbox T) (sd_route T) stT to amount.
Proof.
  intros HS HT Hlen Hpay Haf Hacc Hk.
  destruct (transfer_comes S n k st dest recipient amount hook md raw fees pays marks caller funds HS HT Hlen Hpay Haf Hacc Hk)
    as (w' & R & Cm & Tm & G).
  exists w'. split; [exact R |]. split; [exact Cm |]. split; [exact Tm |].
  intros l Ss T mbst stT to n' k' md' relayer Ed HN HS' HT' Haw Hcan Hcl Hrel Hn' H4.
  pose proof HN as (H1 & _ & H3 & _). destruct (H1 _ HS') as [S1 S2]. destruct (H1 T HT') as [T1 _].
  apply (G l T mbst stT to n' k' md' relayer); auto.
  - apply H3; assumption.
  - destruct Hcan as [Hcan | [(held & base & Hcus) Hsole]]; [left; exact Hcan | right].
    exists held, base. split; [exact Hcus |]. exact (vault_enough Ss _ T held base raw HN HS' HT' Hcus Hsole).
Qed.
