(** * Warp routes (C04, C45, C46). *)
From Coq Require Import List NArith Bool Lia.
From Verif Require Import Base BaseFacts OMap Hex Coins Crypto Message Bech32 Metadata Chain Contracts
  Spec SpecModules Mailbox Va Isms Hooks Igp Warp Cw20 WarpFacts AccessFacts PropsAccess PropsHooks PropsIgp.
Import ListNotations.

Definition ex_router : bytes := repeat x52 32.
Definition ex_enroll : list event := [call "owner" (MRouter (SetRoute (mkRouteSet 7 (Some ex_router))))].
Definition ex_native : cstate :=
  c_run ex_api (born (IWarpNative (NtCollateral (s "uosmo")) (s "osmo") (s "owner") (s "mailbox"))) ex_enroll.
Definition ex_bridged : cstate :=
  c_run ex_api (born (IWarpNative (NtBridged (s "sub") None) (s "osmo") (s "owner") (s "mailbox")))
    (EvReply 0 (Ok (RrDenom (s "factory/contract/sub"))) :: ex_enroll).
Definition ex_cw20 (bridged : bool) : cstate :=
  c_run ex_api (born (IWarpCw20 (if bridged then CtBridged [] else CtCollateral (s "token")) (s "osmo") (s "owner") (s "mailbox")))
    (EvReply 0 (Ok (RrContract (s "token"))) :: ex_enroll).
Definition transfer (who : string) (funds : list coin) (rcp : bytes) (n : N) : event :=
  EvExec ex_env (mkInfo (s who) funds) (MTransferRemote 7 rcp n None None) (fun _ => no_querier).
Definition deliver (who : string) (from : bytes) (rcp : bytes) (n : N) : event :=
  EvExec ex_env (mkInfo (s who) []) (MHandle 7 from (rcp ++ be 32 n)) (fun _ => no_querier).
Definition messages_of (st : cstate) (ev : event) : option (list cmsg) :=
  match c_apply ex_api ev st with Ok (_, r) => Some (map sm_msg (r_msgs r)) | _ => None end.

(** ** C45 *)
Theorem C45_native_delivery A Q e i origin sender body st st' r :
  is_warp_native st ->
  (c_execute A Q e i (MHandle origin sender body) st = Ok (st', r) <->
   exists recipient amount token, warp_delivery st i origin sender body recipient amount /\
     reported_token st = Some token /\ st' = st /\
     r = plain ((if mode_eqb (reported_mode st) Bridged then [CMint (e_contract e) amount token] else [])
                ++ [CBankSend recipient [mkCoin token amount]])).
Proof. exact (native_delivery A Q e i origin sender body st st' r). Qed.
Print Assumptions C45_native_delivery.

Theorem C45_cw20_delivery A Q e i origin sender body st st' r :
  is_warp_cw20 st ->
  (c_execute A Q e i (MHandle origin sender body) st = Ok (st', r) <->
   exists recipient amount token, warp_delivery st i origin sender body recipient amount /\
     reported_token st = Some token /\ st' = st /\
     r = plain [CExec token (if mode_eqb (reported_mode st) Bridged then MCw20Mint recipient amount
                             else MCw20Transfer recipient amount) []]).
Proof. exact (cw20_delivery A Q e i origin sender body st st' r). Qed.
Print Assumptions C45_cw20_delivery.

(** no other call or reply gives out tokens *)
Theorem C45_only_deliveries A st ev st' r sm :
  is_warp st -> c_apply A ev st = Ok (st', r) -> In sm (r_msgs r) -> gives_tokens (sm_msg sm) = true ->
  exists e i origin sender body Q, ev = EvExec e i (MHandle origin sender body) Q.
Proof. exact (gives_only_delivery A st ev st' r sm). Qed.
Print Assumptions C45_only_deliveries.

(** the mailbox, prefix and mode never change, and no call changes the token;
    routers: C14 *)
Theorem C45_fixed A st h :
  is_warp st ->
  warp_mailbox (c_run A st h) = warp_mailbox st /\ warp_hrp (c_run A st h) = warp_hrp st /\
  reported_mode (c_run A st h) = reported_mode st.
Proof. exact (warp_fixed A st h). Qed.
Print Assumptions C45_fixed.

Theorem C45_token_fixed A st ev :
  is_warp st -> ev_msg ev <> None -> reported_token (c_step A st ev) = reported_token st.
Proof. intros Hk. exact (proj2 (proj2 (proj2 (warp_fixed_step A st ev Hk)))). Qed.
Print Assumptions C45_token_fixed.

(** the token is named by the answer to the route's own creation request and by
    nothing else; no other setting changes with it *)
Theorem C45_reply_exactly A id ans st st' r :
  is_warp st ->
  (c_reply A id ans st = Ok (st', r) <->
   id = 0 /\
   (exists token, reply_names A st ans token /\ reported_token st' = Some token) /\
   same_but_token st st' /\ r = plain []).
Proof. exact (reply_exactly A id ans st st' r). Qed.
Print Assumptions C45_reply_exactly.

Example C45_reply_example :
  let unnamed := born (IWarpNative (NtBridged (s "sub") None) (s "osmo") (s "owner") (s "mailbox")) in
  is_ok (c_reply ex_api 0 (Ok (RrDenom (s "factory/contract/sub"))) unnamed) = true /\
  is_ok (c_reply ex_api 1 (Ok (RrDenom (s "factory/contract/sub"))) unnamed) = false /\
  is_ok (c_reply ex_api 0 (Ok (RrContract (s "token"))) unnamed) = false.
Proof. vm_compute. auto. Qed.

Example C45_example :
  let rcp := repeat x0c 32 in
  messages_of ex_native (deliver "mailbox" ex_router rcp 5)
    = Some [CBankSend (encoded rcp) [mkCoin (s "uosmo") 5]] /\
  messages_of ex_bridged (deliver "mailbox" ex_router rcp 5)
    = Some [CMint (s "contract") 5 (s "factory/contract/sub");
            CBankSend (encoded rcp) [mkCoin (s "factory/contract/sub") 5]] /\
  messages_of (ex_cw20 true) (deliver "mailbox" ex_router rcp 5)
    = Some [CExec (s "token") (MCw20Mint (encoded rcp) 5) []] /\
  messages_of (ex_cw20 false) (deliver "mailbox" ex_router rcp 5)
    = Some [CExec (s "token") (MCw20Transfer (encoded rcp) 5) []] /\
  messages_of ex_native (deliver "mallory" ex_router rcp 5) = None /\
  messages_of ex_native (deliver "mailbox" (repeat x53 32) rcp 5) = None.
Proof. repeat split; vm_compute; reflexivity. Qed.

(** The mailbox a route listens to is the one of its instantiation: setting the
    connection's mailbox, which the route then reports, changes nothing. *)
Theorem C45_set_mailbox_no_effect :
  exists A st ev mb, is_warp st /\ accepted A st ev = true /\ ev_msg ev = Some (MConnection (SetMailbox mb)) /\
    reported_conn (c_step A st ev) QConnMailbox = Some (Some mb) /\ warp_mailbox (c_step A st ev) <> Some mb.
Proof.
  exists ex_api, ex_native, (call "owner" (MConnection (SetMailbox (s "new")))), (s "new").
  split; [exact I|]. split; [reflexivity|]. split; [reflexivity|]. split; [reflexivity|].
  intros H. vm_compute in H. discriminate H.
Qed.
Print Assumptions C45_set_mailbox_no_effect.

(** ** C46 *)
Theorem C46_native_transfer A Q e i d rcp amount hook md st st' r :
  is_warp_native st ->
  (c_execute A Q e i (MTransferRemote d rcp amount hook md) st = Ok (st', r) <->
   d < 2 ^ 32 /\ amount < 2 ^ 128 /\ (forall h, hook = Some h -> api_valid A h = true) /\ st' = st /\
   exists token router mailbox rest,
     reported_token st = Some token /\ reported_route st d = Some (Some router) /\ warp_mailbox st = Some mailbox /\
     taken token amount (i_funds i) rest /\
     r = plain ((if mode_eqb (reported_mode st) Bridged then [CBurn (e_contract e) amount token] else [])
                ++ [transfer_dispatch st mailbox d router rcp amount hook md rest])).
Proof. exact (native_transfer A Q e i d rcp amount hook md st st' r). Qed.
Print Assumptions C46_native_transfer.

(** what is forwarded with the dispatch is what was attached less the amount *)
Theorem C46_forwards_the_rest token amount funds rest x :
  taken token amount funds rest ->
  amount_of x funds = (if bytes_eqb x token then amount else 0) + amount_of x rest.
Proof. exact (taken_amounts token amount funds rest x). Qed.
Print Assumptions C46_forwards_the_rest.

Theorem C46_cw20_transfer A Q e i d rcp amount hook md st st' r :
  is_warp_cw20 st ->
  (c_execute A Q e i (MTransferRemote d rcp amount hook md) st = Ok (st', r) <->
   d < 2 ^ 32 /\ amount < 2 ^ 128 /\ (forall h, hook = Some h -> api_valid A h = true) /\ st' = st /\
   exists token router mailbox,
     reported_token st = Some token /\ reported_route st d = Some (Some router) /\ warp_mailbox st = Some mailbox /\
     r = plain (CExec token (MCw20TransferFrom (i_sender i) (e_contract e) amount) []
                :: (if mode_eqb (reported_mode st) Bridged then [CExec token (MCw20Burn amount) []] else [])
                ++ [transfer_dispatch st mailbox d router rcp amount hook md (i_funds i)])).
Proof. exact (cw20_transfer A Q e i d rcp amount hook md st st' r). Qed.
Print Assumptions C46_cw20_transfer.

Definition ex_disp (rcp : bytes) (n : N) (f : list coin) : cmsg :=
  CExec (s "mailbox") (MDispatch (mkDispatch 7 ex_router (rcp ++ be 32 n) None None)) f.
Example C46_example :
  let rcp := repeat x0c 32 in
  messages_of ex_native (transfer "bob" [mkCoin (s "uatom") 3; mkCoin (s "uosmo") 9] rcp 5)
    = Some [ex_disp rcp 5 [mkCoin (s "uatom") 3; mkCoin (s "uosmo") 4]] /\
  messages_of ex_bridged (transfer "bob" [mkCoin (s "factory/contract/sub") 5; mkCoin (s "uosmo") 9] rcp 5)
    = Some [CBurn (s "contract") 5 (s "factory/contract/sub");
            ex_disp rcp 5 [mkCoin (s "factory/contract/sub") 0; mkCoin (s "uosmo") 9]] /\
  messages_of (ex_cw20 true) (transfer "bob" [mkCoin (s "uosmo") 9] rcp 5)
    = Some [CExec (s "token") (MCw20TransferFrom (s "bob") (s "contract") 5) [];
            CExec (s "token") (MCw20Burn 5) []; ex_disp rcp 5 [mkCoin (s "uosmo") 9]] /\
  messages_of ex_native (transfer "bob" [mkCoin (s "uosmo") 4] rcp 5) = None /\
  messages_of ex_native (transfer "bob" [mkCoin (s "uatom") 9] rcp 5) = None /\
  messages_of (c_step ex_api ex_native (call "owner" (MRouter (SetRoute (mkRouteSet 7 None)))))
    (transfer "bob" [mkCoin (s "uosmo") 9] rcp 5) = None.
Proof. repeat split; vm_compute; reflexivity. Qed.

(** ** C04 *)
(** Full statement: for every recipient the dispatched payload is read as
    (recipient, amount).  Proved for 32-byte recipients, for both kinds of
    routes; false for others. *)
Theorem C04_payload_partial A Q e i d rcp amount hook md st st' r :
  is_warp st -> length rcp = 32%nat ->
  c_execute A Q e i (MTransferRemote d rcp amount hook md) st = Ok (st', r) ->
  exists sm mailbox dm funds, In sm (r_msgs r) /\ sm_msg sm = CExec mailbox (MDispatch dm) funds /\
    warp_mailbox st = Some mailbox /\ d_dest dm = d /\ reported_route st d = Some (Some (d_recipient dm)) /\
    warp_decode (d_body dm) = Ok (mkWarp rcp amount []).
Proof. exact (payload_correct A Q e i d rcp amount hook md st st' r). Qed.
Print Assumptions C04_payload_partial.

Example C04_example :
  option_map (map (fun m => match m with CExec _ (MDispatch dm) _ => warp_decode (d_body dm) | _ => Panic end))
    (messages_of ex_native (transfer "bob" [mkCoin (s "uosmo") 9] (repeat x0c 32) 5))
  = Some [Ok (mkWarp (repeat x0c 32) 5 [])].
Proof. vm_compute. reflexivity. Qed.

(** With a 64-byte "recipient" anyone turns a transfer of [amount] (one unit,
    say) into a payload for any [forged] amount to any account: *)
Theorem C04_forged_amount A Q e i d rcp forged amount hook md st st' r :
  is_warp st -> length rcp = 32%nat -> forged < 2 ^ 256 ->
  c_execute A Q e i (MTransferRemote d (rcp ++ be 32 forged) amount hook md) st = Ok (st', r) ->
  exists sm mailbox dm funds, In sm (r_msgs r) /\ sm_msg sm = CExec mailbox (MDispatch dm) funds /\
    warp_mailbox st = Some mailbox /\ reported_route st d = Some (Some (d_recipient dm)) /\
    warp_decode (d_body dm) = Ok (mkWarp rcp forged (be 32 amount)).
Proof. exact (payload_forgeable A Q e i d rcp forged amount hook md st st' r). Qed.
Print Assumptions C04_forged_amount.

(** ... from one unit to a million, accepted and released by the other route: *)
Theorem C04_mint_from_nothing_refuted :
  exists A st st2 i rcp,
    is_warp st /\ is_warp st2 /\
    exists r sm mailbox dm funds,
      c_execute A (fun _ => no_querier) ex_env i (MTransferRemote 7 rcp 1 None None) st = Ok (st, r) /\
      In sm (r_msgs r) /\ sm_msg sm = CExec mailbox (MDispatch dm) funds /\
      c_execute A (fun _ => no_querier) ex_env (mkInfo (s "mailbox") []) (MHandle 7 ex_router (d_body dm)) st2
      = Ok (st2, plain [CMint (s "contract") 1000000 (s "factory/contract/sub");
                        CBankSend (encoded (repeat x0c 32)) [mkCoin (s "factory/contract/sub") 1000000]]).
Proof.
  exists ex_api, ex_native, ex_bridged, (mkInfo (s "bob") [mkCoin (s "uosmo") 1]), (repeat x0c 32 ++ be 32 1000000).
  split; [exact I|]. split; [exact I|].
  exists (plain [ex_disp (repeat x0c 32 ++ be 32 1000000) 1 [mkCoin (s "uosmo") 0]]). eexists _, _, _, _.
  split; [vm_compute; reflexivity|]. split; [left; reflexivity|]. split; [reflexivity|]. vm_compute. reflexivity.
Qed.
Print Assumptions C04_mint_from_nothing_refuted.

(** ... and with a shorter recipient the tokens are taken although nobody can
    read the payload. *)
Theorem C04_short_recipient A Q e i d rcp amount hook md st st' r :
  is_warp st -> (length rcp < 32)%nat ->
  c_execute A Q e i (MTransferRemote d rcp amount hook md) st = Ok (st', r) ->
  exists sm mailbox dm funds, In sm (r_msgs r) /\ sm_msg sm = CExec mailbox (MDispatch dm) funds /\
    warp_mailbox st = Some mailbox /\ warp_decode (d_body dm) = Panic.
Proof. exact (payload_unreadable A Q e i d rcp amount hook md st st' r). Qed.
Print Assumptions C04_short_recipient.

Example C04_short_example :
  accepted ex_api ex_native (transfer "bob" [mkCoin (s "uosmo") 9] (repeat x0c 20) 5) = true /\
  accepted ex_api ex_native (transfer "bob" [mkCoin (s "uosmo") 9] (repeat x0c 32 ++ be 32 1000000) 1) = true.
Proof. split; vm_compute; reflexivity. Qed.
