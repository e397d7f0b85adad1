(** * The merkle hook on a chain (C32, C33). *)
From Coq Require Import List NArith Bool Lia Permutation Sorted.
From Verif Require Import Base OMap Coins Crypto Message Bech32 Merkle MerkleFacts Chain Ownable Contracts Spec
  StepFacts MailboxConfFacts World SpecWorld WorldFacts WorldMailbox WorldMerkle PropsAccess PropsWorld.
Import ListNotations.

(** ** C32 *)
(** [l1] is the log up to the call: the posted message is the last one the
    mailbox had dispatched by then (same id: same message or a Keccak collision) *)
Theorem C32_leaf_is_latest C w a st b stb l1 e i md raw Q r l2 :
  reachable C w -> contract_at w a st -> is_merkle st ->
  reported_hook_mailbox st = Some b -> contract_at w b stb -> is_mailbox stb ->
  w_log w = l1 ++ LCall a (EvExec e i (MPostDispatch md raw) Q) r :: l2 ->
  exists d, nth_error (rev (dispatched_at b l1)) 0 = Some d /\ keccak256_hash raw = keccak256_hash d.
Proof. exact (chain_merkle_latest C w a st b stb l1 e i md raw Q r l2). Qed.
Print Assumptions C32_leaf_is_latest.

(** leaf by leaf: the index of a dispatched message with that id, never decreasing *)
Theorem C32_leaves_in_dispatch_order C w a st b stb :
  reachable C w -> contract_at w a st -> is_merkle st ->
  reported_hook_mailbox st = Some b -> contract_at w b stb -> is_mailbox stb ->
  exists idx, StronglySorted le idx /\
    Forall2 (fun n raw => option_map keccak256_hash (nth_error (dispatched_at b (w_log w)) n)
                          = Some (keccak256_hash raw)) idx (posted_at a (w_log w)).
Proof. exact (chain_merkle_order C w a st b stb). Qed.
Print Assumptions C32_leaves_in_dispatch_order.

(** the leaves are the ids of all posted messages; count, root and checkpoint
    are those of the padded tree over them *)
Theorem C32_reports_the_tree C w a st :
  reachable C w -> contract_at w a st -> is_merkle st ->
  let leaves := map keccak256_hash (posted_at a (w_log w)) in
  N.of_nat (length leaves) <= 2 ^ 32 - 1 /\
  reported_count st = Some (N.of_nat (length leaves)) /\
  reported_root st = Some (padded_root leaves) /\
  reported_checkpoint st = Some (padded_root leaves, N.of_nat (length leaves) - 1).
Proof. exact (chain_merkle_tree C w a st). Qed.
Print Assumptions C32_reports_the_tree.

(** the branch it reports is the proof, against the next root, of the leaf to come *)
Theorem C32_reports_the_branch C w a st :
  reachable C w -> contract_at w a st -> is_merkle st ->
  let leaves := map keccak256_hash (posted_at a (w_log w)) in
  let n := N.of_nat (length leaves) in
  exists br, reported_branch st = Some br /\ reported_tree st = Some (br, n) /\ length br = 32%nat /\
    (forall next, next_proof 0 n br = proof_of (leaves ++ [next]) n) /\
    (forall next, branch_root next (next_proof 0 n br) n = padded_root (leaves ++ [next])).
Proof. exact (chain_merkle_branch C w a st). Qed.
Print Assumptions C32_reports_the_branch.

Lemma ex_merkle_there : exists st, contract_at ex_world (at_ 1) st /\ is_merkle st /\
  reported_hook_mailbox st = Some (at_ 0) /\ reported_count st = Some 2.
Proof.
  destruct (read_at_some ex_world (at_ 1)
    (fun st => (kind st, reported_hook_mailbox st, reported_count st))
    (6, Some (at_ 0), Some 2)) as (st & Hc & H); [vm_compute; reflexivity |].
  exists st. split; [exact Hc |]. injection H as H1 H2 H3. auto.
Qed.

(** the example chain: two dispatches, two leaves; a stranger's post of an older
    message is refused *)
Example C32_example :
  reachable ex_chain ex_world /\
  (exists st, contract_at ex_world (at_ 1) st /\ is_merkle st /\
     reported_hook_mailbox st = Some (at_ 0) /\ reported_count st = Some 2) /\
  (exists st, contract_at ex_world (at_ 0) st /\ is_mailbox st) /\
  posted_at (at_ 1) (w_log ex_world) = dispatched_at (at_ 0) (w_log ex_world) /\
  match tx_run ex_chain 20 (TExec alice (at_ 1)
      (MPostDispatch [] (nth 0 (dispatched_at (at_ 0) (w_log ex_world)) [])) []) ex_world with
  | Ok _ => false | _ => true end = true.
Proof.
  split; [exact ex_reachable |]. split; [exact ex_merkle_there |]. split.
  - destruct ex_mailbox_there as (st & H1 & H2 & _). eauto.
  - vm_compute. split; reflexivity.
Qed.

(** ** C33 *)
(** at least once: when [a] is the only required hook the mailbox ever had,
    everything dispatched was posted to [a] by the mailbox *)
Theorem C33_at_least_once_partial C w a b stb :
  chain_ok C -> reachable C w -> contract_at w b stb -> is_mailbox stb ->
  only_required b a (w_log w) ->
  forall raw, In raw (dispatched_at b (w_log w)) -> In (b, raw) (posts_at a (w_log w)).
Proof. exact (chain_at_least_once C w a b stb). Qed.
Print Assumptions C33_at_least_once_partial.

(** exactly once as far as the mailbox's own posts go, if [a] is not also the
    second hook; missing: posts by others *)
Theorem C33_exactly_once_partial C w a b stb :
  chain_ok C -> reachable C w -> contract_at w b stb -> is_mailbox stb ->
  only_required b a (w_log w) -> never_chosen b a (w_log w) ->
  Permutation (map snd (filter (from b) (posts_at a (w_log w)))) (dispatched_at b (w_log w)).
Proof. exact (chain_exactly_once C w a b stb). Qed.
Print Assumptions C33_exactly_once_partial.

(** in general: one post for each of the two hooks of a dispatch that is [a] *)
Theorem C33_posts_by_the_mailbox C w a b stb :
  chain_ok C -> reachable C w -> contract_at w b stb -> is_mailbox stb ->
  Permutation (map snd (filter (from b) (posts_at a (w_log w)))) (handed_by b a (w_log w)).
Proof. exact (chain_handed C w a b stb). Qed.
Print Assumptions C33_posts_by_the_mailbox.

Definition only_required_log (b a : addr) (l : list entry) : bool :=
  forallb (fun p => match p with
                    | (EvExec _ _ (MSetRequiredHook h) _, _) => bytes_eqb h a
                    | _ => true end) (answers_at b l).
Lemma only_required_b b a l : only_required_log b a l = true -> only_required b a l.
Proof.
  unfold only_required_log.
  intros H e i h Q r Hin. rewrite forallb_forall in H.
  apply (BaseFacts.bytes_eqb_eq h a). exact (H _ Hin).
Qed.
Definition never_chosen_log (b a : addr) (l : list entry) : bool :=
  forallb (fun p => match p with
                    | (EvExec _ _ (MSetDefaultHook h) _, _) => negb (bytes_eqb h a)
                    | (EvExec _ _ (MDispatch d) _, _) =>
                        match d_hook d with Some h => negb (bytes_eqb h a) | None => true end
                    | _ => true end) (answers_at b l).
Lemma never_chosen_b b a l : never_chosen_log b a l = true -> never_chosen b a l.
Proof.
  unfold never_chosen_log. intros H. rewrite forallb_forall in H. split.
  - intros e i h Q r Hin E. specialize (H _ Hin). cbn in H. subst h.
    rewrite BaseFacts.bytes_eqb_refl in H. discriminate.
  - intros e i d Q r Hin E. specialize (H _ Hin). cbn in H. rewrite E in H.
    rewrite BaseFacts.bytes_eqb_refl in H. discriminate.
Qed.

Lemma ex_posts :
  (only_required_log (at_ 0) (at_ 1) (w_log ex_world), never_chosen_log (at_ 0) (at_ 1) (w_log ex_world)) = (true, true) /\
  map snd (filter (from (at_ 0)) (posts_at (at_ 1) (w_log ex_world))) = dispatched_at (at_ 0) (w_log ex_world) /\
  length (dispatched_at (at_ 0) (w_log ex_world)) = 2%nat.
Proof. vm_compute. repeat split. Qed.
Example C33_example :
  only_required (at_ 0) (at_ 1) (w_log ex_world) /\ never_chosen (at_ 0) (at_ 1) (w_log ex_world) /\
  map snd (filter (from (at_ 0)) (posts_at (at_ 1) (w_log ex_world)))
  = dispatched_at (at_ 0) (w_log ex_world) /\
  length (dispatched_at (at_ 0) (w_log ex_world)) = 2%nat.
Proof.
  destruct ex_posts as (H & H3 & H4). apply pair_equal_spec in H as [H1 H2].
  split; [exact (only_required_b _ _ _ H1) |]. split; [exact (never_chosen_b _ _ _ H2) |]. split; [exact H3 | exact H4].
Qed.

(** anybody may post the latest message again: one dispatch, two leaves *)
Definition ex_once : list (nat * tx) := ex_deploy ++ [ex_send "one" 4].
Definition ex_twice : list (nat * tx) :=
  ex_once ++ [(20%nat, TExec relayer (at_ 1) (MPostDispatch []
    (nth 0 (dispatched_at (at_ 0) (w_log (chain_run ex_chain (genesis ex_bank) ex_once))) [])) [])].
Definition ex_repost : world := chain_run ex_chain (genesis ex_bank) ex_twice.

Lemma ex_repost_reads :
  (read_at ex_repost (at_ 1) (fun st => (kind st, reported_hook_mailbox st, reported_count st)), read_at ex_repost (at_ 0) kind,
   only_required_log (at_ 0) (at_ 1) (w_log ex_repost), never_chosen_log (at_ 0) (at_ 1) (w_log ex_repost))
  = (Some (6, Some (at_ 0), Some 2), Some 0, true, true) /\
  dispatched_at (at_ 0) (w_log ex_repost) = [nth 0 (dispatched_at (at_ 0) (w_log ex_repost)) []] /\
  posted_at (at_ 1) (w_log ex_repost) = [nth 0 (dispatched_at (at_ 0) (w_log ex_repost)) [];
                                         nth 0 (dispatched_at (at_ 0) (w_log ex_repost)) []].
Proof. vm_compute. repeat split. Qed.
Theorem C33_refuted :
  exists C w a b st stb raw,
    chain_ok C /\ reachable C w /\ contract_at w a st /\ is_merkle st /\
    reported_hook_mailbox st = Some b /\ contract_at w b stb /\ is_mailbox stb /\
    only_required b a (w_log w) /\ never_chosen b a (w_log w) /\
    dispatched_at b (w_log w) = [raw] /\ posted_at a (w_log w) = [raw; raw] /\
    reported_count st = Some 2.
Proof.
  destruct ex_repost_reads as (H & D & P). apply pair_equal_spec in H as [H N]. apply pair_equal_spec in H as [H O].
  apply pair_equal_spec in H as [H H']. apply read_at_some in H as (st & Hc & H). apply read_at_some in H' as (stb & Hcb & Hb).
  injection H as H1 H2 H3.
  exists ex_chain, ex_repost, (at_ 1), (at_ 0), st, stb,
    (nth 0 (dispatched_at (at_ 0) (w_log ex_repost)) []).
  split; [exact ex_chain_ok |]. split.
  { exists ex_bank, ex_twice. split; [exact ex_bank_sorted | reflexivity]. }
  split; [exact Hc |]. split; [exact H1 |]. split; [exact H2 |]. split; [exact Hcb |].
  split; [exact Hb |]. split; [exact (only_required_b _ _ _ O) |].
  split; [exact (never_chosen_b _ _ _ N) |]. split; [exact D |]. split; [exact P | exact H3].
Qed.
Print Assumptions C33_refuted.
