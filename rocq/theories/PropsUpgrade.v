(** * The chain with migrations: C90 *)
From Coq Require Import List NArith Bool.
From Verif Require Import Base OMap Crypto Hex Coins Chain Utils Contracts World SpecWorld Wire SpecWire WireInit SpecInitText Store Raw RawWorld SpecRawWorld
  TextWorld SpecTextWorld SpecVersion Upgrade SpecUpgrade UpgradeFacts PropsWorld PropsRawWorld PropsText.
Import ListNotations.

(** ** C90: migrations change version records and nothing else *)
Theorem C90_histories C ver bank l : asks_only (ch_ext C) -> named ver -> Forall utx_timely l ->
  exists ver', urun C (ver, rgenesis bank) l = (ver', spread ver' (chain_run C (genesis bank) (history_heard C (genesis bank) (calls l)))) /\ named ver'.
Proof. exact (upgrade_history C ver bank l). Qed.
Print Assumptions C90_histories.

(** the same history without its migrations leaves the same contracts with the same entries but for the version records *)
Theorem C90_databases C ver bank l a : asks_only (ch_ext C) -> named ver -> Forall utx_timely l ->
  match om_get a (rw_inst (snd (urun C (ver, rgenesis bank) l))), om_get a (rw_inst (tchain_run C ver (rgenesis bank) (calls l))) with
  | Some (RC p d), Some (RC p' d') => p = p' /\ same_but_version d d'
  | x, y => x = y
  end.
Proof. exact (upgrade_same C ver bank l a). Qed.
Print Assumptions C90_databases.

(** and the same money, token admins, height and count of contracts *)
Theorem C90_rest C ver bank l : asks_only (ch_ext C) -> named ver -> Forall utx_timely l ->
  let w := snd (urun C (ver, rgenesis bank) l) in let w' := tchain_run C ver (rgenesis bank) (calls l) in
  rw_bank w = rw_bank w' /\ rw_admin w = rw_admin w' /\ rw_height w = rw_height w' /\ rw_next w = rw_next w'.
Proof. exact (upgrade_rest C ver bank l). Qed.
Print Assumptions C90_rest.

(** code is replaced exactly by a later version of the same program *)
Theorem C90_accepted C ver w a p v x : asks_only (ch_ext C) -> timely_reachable C w -> named ver ->
  (upgrade a p v (spread ver w) = Ok x <->
   exists st n, contract_at w a st /\ program_of st = p /\ program_name p = Some n /\ supersedes (mkCw2 n v) (ver a p) /\
     x = spread (install a v ver) w).
Proof. exact (upgrade_iff C ver w a p v x). Qed.
Print Assumptions C90_accepted.

Theorem C90_no_panic C ver w a p v : asks_only (ch_ext C) -> timely_reachable C w -> upgrade a p v (spread ver w) <> Panic.
Proof. exact (upgrade_fails C ver w a p v). Qed.
Print Assumptions C90_no_panic.

(** so a contract runs one program for ever, records its name, and the versions it records only grow *)
Theorem C90_versions C ver bank l l' a p d : asks_only (ch_ext C) -> named ver -> Forall utx_timely (l ++ l') ->
  om_get a (rw_inst (snd (urun C (ver, rgenesis bank) l))) = Some (RC p d) ->
  exists d' c c', om_get a (rw_inst (snd (urun C (ver, rgenesis bank) (l ++ l')))) = Some (RC p d') /\
    recorded d = Ok c /\ recorded d' = Ok c' /\ program_name p = Some (cv_contract c) /\ upgraded_from c c'.
Proof. exact (upgrade_grows C ver bank l l' a p d). Qed.
Print Assumptions C90_versions.

(** no migration makes a mailbox accept a message a second time *)
Theorem C90_processed_once C ver bank l ver1 w1 k u a t f md raw d x' l' ver2 w2 k' u' t' f' md' raw' x'' :
  asks_only (ch_ext C) -> chain_ok C -> om_sorted bank -> named ver -> Forall utx_timely l -> Forall utx_timely l' ->
  urun C (ver, rgenesis bank) l = (ver1, w1) -> om_get a (rw_inst w1) = Some (RC PMailbox d) ->
  read_exec PMailbox t = Some (MProcess md raw) -> ttx_run C ver1 k (Write u a t f) w1 = Ok x' ->
  urun C (ver1, x') l' = (ver2, w2) ->
  read_exec PMailbox t' = Some (MProcess md' raw') -> keccak256_hash raw' = keccak256_hash raw ->
  ttx_run C ver2 k' (Write u' a t' f') w2 <> Ok x''.
Proof. exact (upgrade_once C ver bank l ver1 w1 k u a t f md raw d x' l' ver2 w2 k' u' t' f' md' raw' x''). Qed.
Print Assumptions C90_processed_once.

(** The history of PropsText.v by programs of version 0.0.6-rc8: the mailbox is migrated to 0.0.7, not to another program; a message is
    processed; the mailbox is not migrated to 0.0.7 again but to 0.1.0; the message is refused. *)
Definition ex_named (a : addr) (p : program) : cw2 :=
  mkCw2 (match program_name p with Some n => n | None => s "cw20" end) (s "0.0.6-rc8").
Definition ex_upgrades : list utx :=
  (map (fun t => UTx (fst t) (snd t)) ex_text_setup ++
   [UUpgrade (at_ 0) POracle (s "0.0.7"); UUpgrade (at_ 0) PMailbox (s "0.0.7"); UUpgrade (at_ 99) PMailbox (s "0.0.7")])%list.
Definition ex_later : list utx := [UUpgrade (at_ 0) PMailbox (s "0.0.7"); UUpgrade (at_ 0) PMailbox (s "0.1.0")].
Definition ex_recorded (w : rworld) (a : addr) : option cw2 :=
  match om_get a (rw_inst w) with Some (RC _ d) => match recorded d with Ok c => Some c | _ => None end | _ => None end.
Definition ex_again (x : (addr -> program -> cw2) * rworld) : option (bool * option cw2 * option bytes) :=
  let '(ver1, w1) := x in
  match ttx_run ex_chain ver1 20 (Write relayer (at_ 0) ex_arrival []) w1 with
  | Ok y =>
      let '(ver2, w2) := urun ex_chain (ver1, y) ex_later in
      Some (is_ok (ttx_run ex_chain ver2 20 (Write relayer (at_ 0) ex_arrival []) w2), ex_recorded w2 (at_ 0), ex_entry w2 (at_ 0) (s "nonce"))
  | _ => None
  end.
Definition ex_upgraded : (addr -> program -> cw2) * rworld := urun ex_chain (ex_named, rgenesis ex_bank) ex_upgrades.
Example C90_example :
  asks_only (ch_ext ex_chain) /\ chain_ok ex_chain /\ om_sorted ex_bank /\ named ex_named /\ Forall utx_timely (ex_upgrades ++ ex_later) /\
  ex_runs (snd ex_upgraded) (at_ 0) = Some PMailbox /\
  ex_recorded (snd ex_upgraded) (at_ 0) = Some (mkCw2 (s "hpl-mailbox") (s "0.0.7")) /\
  ex_recorded (snd ex_upgraded) (at_ 3) = Some (mkCw2 (s "hpl-ism-pausable") (s "0.0.6-rc8")) /\
  length (calls ex_upgrades) = length ex_text_setup /\
  ex_again ex_upgraded = Some (false, Some (mkCw2 (s "hpl-mailbox") (s "0.1.0")), Some (s "2")).
Proof.
  split; [exact ex_asks_only|]. split; [exact ex_chain_ok|]. split; [repeat apply om_sorted_set; exact I|].
  split; [intros a p n H; unfold ex_named; now rewrite H|].
  split; [repeat (constructor; [exact I|]); constructor|].
  repeat (split; [vm_compute; reflexivity|]). vm_compute; reflexivity.
Qed.
