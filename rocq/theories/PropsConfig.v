(** * Configuration (C52). *)
From Coq Require Import List NArith Bool Lia.
From Verif Require Import Base OMap Coins Message Hex Chain Ownable Router Mailbox Va Isms Hooks Igp Warp Cw20
  Contracts Spec SpecModules AccessFacts AcceptFacts PropsAccess.
Import ListNotations.

(** ** C52 *)
(** [setting A st m] lists every setting of every contract with the condition
    its value must meet. *)
Theorem C52_the_owners_valid_settings_are_accepted A e i m Q st P :
  setting A st m = Some P ->
  (accepted A st (EvExec e i m Q) = true <-> Some (i_sender i) = reported_owner st /\ P).
Proof. exact (setting_accepted A e i m Q st P). Qed.
Print Assumptions C52_the_owners_valid_settings_are_accepted.

Theorem C52_nothing_else_changes_a_setting A st e i m Q :
  ~ keeps_records st -> setting A st m = None ->
  own_request (EvExec e i m Q) <> Some ClaimOwnership ->
  c_step A st (EvExec e i m Q) = st.
Proof. exact (others_change_nothing A st e i m Q). Qed.
Print Assumptions C52_nothing_else_changes_a_setting.

Example C52_example :
  let ms := born (IMultisig (s "alice")) in
  let v := repeat x0a 20 in
  let oracle := born (IOracle (s "alice")) in
  let good := mkGasConfig 5 7 9 in let none := mkGasConfig 5 0 9 in
  setting ex_api ms (MSetValidators 5 2 [v; v])
    = Some (5 < 2 ^ 32 /\ 0 < 2 < 2 ^ 8 /\ 2 <= N.of_nat (length [v; v]) /\
            Forall (fun v => length v = 20%nat) [v; v]) /\
  map (accepted ex_api ms)
    [call "alice" (MSetValidators 5 2 [v; v]); call "bob" (MSetValidators 5 2 [v; v]);
     call "alice" (MSetValidators 5 3 [v; v]); call "alice" (MSetValidators 5 1 [v; s "short"])]
    = [true; false; false; false] /\
  (** the exchange rate 0 is refused in a list of settings, but not alone *)
  map (accepted ex_api oracle)
    [call "alice" (MSetRemoteGasDataConfigs [good]); call "alice" (MSetRemoteGasDataConfigs [good; none]);
     call "alice" (MSetRemoteGasData none)]
    = [true; false; true] /\
  (** not settings of this contract *)
  setting ex_api ms (MSetFee (mkCoin (s "uosmo") 1)) = None /\
  c_step ex_api ms (call "alice" (MSetFee (mkCoin (s "uosmo") 1))) = ms.
Proof. split; [reflexivity|]. vm_compute. auto. Qed.
