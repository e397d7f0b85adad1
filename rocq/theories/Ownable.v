(** * /repo/packages/ownable/src/lib.rs and /repo/packages/pausable/src/lib.rs,
      /repo/packages/connection/src/lib.rs *)
From Coq Require Import List NArith Bool.
From Verif Require Import Base OMap Coins Chain.
Import ListNotations.

(** Storage: OWNER (11-12) and PENDING_OWNER (14-15). OWNER is always present: every
    contract that uses the package initialises it:
    /repo/packages/ownable/src/lib.rs:11-15 *)
Record own : Type := mkOwn { o_owner : addr; o_pending : option addr }.

(** packages/ownable/src/lib.rs:25-29 *)
Definition own_init (owner : addr) : own := mkOwn owner None.

(** packages/ownable/src/lib.rs:62-83 *)
Definition init_ownership_transfer (o : own) (sender next_owner : addr) : res own :=
  _ <- ensure (bytes_eqb sender (o_owner o)) EUnauthorized ;;
  _ <- ensure (match o_pending o with Some _ => false | None => true end)
         EOwnershipTransferring ;;
  Ok (mkOwn (o_owner o) (Some next_owner)).

(** packages/ownable/src/lib.rs:85-100 *)
Definition revoke_ownership_transfer (o : own) (sender : addr) : res own :=
  _ <- ensure (bytes_eqb sender (o_owner o)) EUnauthorized ;;
  _ <- ensure (match o_pending o with Some _ => true | None => false end)
         EOwnershipNotTransferring ;;
  Ok (mkOwn (o_owner o) None).

(** packages/ownable/src/lib.rs:102-118 *)
Definition claim_ownership (o : own) (sender : addr) : res own :=
  _ <- ensure (match o_pending o with Some _ => true | None => false end)
         EOwnershipNotTransferring ;;
  p <- ok_or (o_pending o) EStd ;;
  _ <- ensure (bytes_eqb sender p) EUnauthorized ;;
  Ok (mkOwn sender None).

(** packages/ownable/src/lib.rs:31-60; [addr_validate] runs before the checks *)
Definition own_handle (A : api) (i : info) (m : ownable_msg) (o : own) : res own :=
  match m with
  | InitOwnershipTransfer n =>
      n' <- addr_validate A n ;; init_ownership_transfer o (i_sender i) n'
  | RevokeOwnershipTransfer => revoke_ownership_transfer o (i_sender i)
  | ClaimOwnership => claim_ownership o (i_sender i)
  end.

(** packages/ownable/src/lib.rs:120-145 *)
Definition own_query (q : qmsg) (o : own) : res qres :=
  match q with
  | QOwner => Ok (ROwner (o_owner o))
  | QPendingOwner => Ok (RPendingOwner (o_pending o))
  | _ => Err EParse
  end.

(** [ensure_eq!(get_owner(deps.storage)?, info.sender, unauthorized)], the guard used
    all over the contracts: e.g. /repo/contracts/core/mailbox/src/execute.rs:26-47 *)
Definition only_owner (o : own) (i : info) : res unit :=
  ensure (bytes_eqb (o_owner o) (i_sender i)) EUnauthorized.

(** ** Pausable.  packages/pausable/src/lib.rs:46-54 *)
Definition do_pause (paused : bool) : res bool :=
  _ <- ensure (negb paused) EAlreadyPaused ;; Ok true.
(** packages/pausable/src/lib.rs:56-64 *)
Definition do_release (paused : bool) : res bool :=
  _ <- ensure paused ENotPaused ;; Ok false.
(** packages/pausable/src/lib.rs:28-44 *)
Definition pause_handle (o : own) (i : info) (m : pausable_msg) (paused : bool) : res bool :=
  _ <- only_owner o i ;;
  match m with Pause => do_pause paused | Release => do_release paused end.
(** packages/pausable/src/lib.rs:66-80 *)
Definition pause_query (q : qmsg) (paused : bool) : res qres :=
  match q with QPauseInfo => Ok (RPaused paused) | _ => Err EParse end.

(** ** Connection.  packages/connection/src/lib.rs:10-17: three optional items *)
Record conn : Type := mkConn {
  cn_mailbox : option addr; cn_ism : option addr; cn_hook : option addr }.

(** packages/connection/src/lib.rs:27-70 *)
Definition conn_handle (A : api) (o : own) (i : info) (m : connection_msg) (c : conn)
  : res conn :=
  _ <- only_owner o i ;;
  match m with
  | SetMailbox a => a' <- addr_validate A a ;; Ok (mkConn (Some a') (cn_ism c) (cn_hook c))
  | SetIsm a => a' <- addr_validate A a ;; Ok (mkConn (cn_mailbox c) (Some a') (cn_hook c))
  | SetHook a => a' <- addr_validate A a ;; Ok (mkConn (cn_mailbox c) (cn_ism c) (Some a'))
  end.

(** packages/connection/src/lib.rs:72-100 *)
Definition conn_query (q : qmsg) (c : conn) : res qres :=
  match q with
  | QConnMailbox => Ok (RConn (cn_mailbox c))
  | QConnHook => Ok (RConn (cn_hook c))
  | QConnIsm => Ok (RConn (cn_ism c))
  | _ => Err EParse
  end.
