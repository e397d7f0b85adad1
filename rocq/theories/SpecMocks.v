(** * Vocabulary for chains with mock contracts. *)
From Coq Require Import List NArith Bool.
From Verif Require Import Base OMap Message Coins Chain Contracts Spec World SpecWorld Mocks.
Import ListNotations.

(** the programs of the chain include the mocks *)
Definition hosts_mocks (C : chain) : Prop :=
  forall k e q,
    (forall i m, x_exec (ch_ext C) e i m q (mock_bytes k) = x_exec mock_ext e i m q (mock_bytes k)) /\
    (forall m, x_query (ch_ext C) e m q (mock_bytes k) = x_query mock_ext e m q (mock_bytes k)).

(** the program at [a] is the mock [k] *)
Definition mock_at (w : world) (a : addr) (k : mock) : Prop :=
  om_get a (w_inst w) = Some (IX (mock_bytes k)).

(** the price of a mock hook is a [Uint256] *)
Definition mock_fits (k : mock) : Prop :=
  match k with MockHook (Some g) _ => g < 2 ^ 256 | _ => True end.

(** the mailbox in state [st] consults the mock module at [ism] *)
Definition trusting (w : world) (mb : addr) (st : cstate) (ism : addr) : Prop :=
  contract_at w mb st /\ reported_default_ism st = Some ism /\ mock_at w ism MockIsm.

(** the texts that set the price of a mock hook *)
Definition set_gas_text (g : option N) : str :=
  s "{""set_gas_amount"":{""gas"":" ++ match g with Some n => s """" ++ dec n ++ s """" | None => s "null" end ++ s "}}".
