(** * /repo/packages/router/src/lib.rs

    [set_route] saves an [Option<T>] (the type parameter of [get_route_map] is
    inferred from the argument), so clearing a route stores [null] and the key
    stays.  Reading it back as [T] fails on [null]. *)
From Coq Require Import List NArith Bool.
From Verif Require Import Base OMap Coins Chain Ownable.
Import ListNotations.

(** Map "routes" (18, 28-33): /repo/packages/router/src/lib.rs:18-33 *)
Definition routes : Type := omap N (option bytes).

(** router/src/lib.rs:66-83 *)
Definition set_route (r : routes) (st : route_set) : routes :=
  om_set (rs_domain st) (rs_route st) r.

(** router/src/lib.rs:85-108 *)
Definition set_routes (r : routes) (l : list route_set) : routes :=
  fold_left set_route l r.

(** router/src/lib.rs:35-64 *)
Definition router_handle (o : own) (i : info) (m : router_msg) (r : routes) : res routes :=
  _ <- only_owner o i ;;
  match m with
  | SetRoute st => Ok (set_route r st)
  | SetRoutes l => Ok (set_routes r l)
  end.

(** [get_route_map::<T>().load(storage, domain)]:
    /repo/packages/router/src/lib.rs:136-141 *)
Definition load_route (r : routes) (d : N) : res bytes :=
  match om_get d r with Some (Some v) => Ok v | _ => Err EStd end.

(** router/src/lib.rs:136-141 *)
Definition is_router (r : routes) (d : N) (router : bytes) : res bool :=
  v <- load_route r d ;; Ok (bytes_eqb router v).

(** router/src/lib.rs:143-150 *)
Definition get_domains (r : routes) : list N := om_keys r.

(** router/src/lib.rs:152-160 *)
Definition get_route (r : routes) (d : N) : route_set :=
  mkRouteSet d (match load_route r d with Ok v => Some v | _ => None end).

(** router/src/lib.rs:162-184 *)
Definition get_routes (r : routes) (offset limit : option N) (o : option order)
  : res (list route_set) :=
  l <- range_page r offset limit o ;;
  Ok (map (fun p => mkRouteSet (fst p) (snd p)) l).

(** router/src/lib.rs:110-134 *)
Definition router_query (q : qmsg) (r : routes) : res qres :=
  match q with
  | QDomains => Ok (RDomains (get_domains r))
  | QGetRoute d => Ok (RRoute (get_route r d))
  | QListRoutes off lim o => l <- get_routes r off lim o ;; Ok (RRoutes l)
  | _ => Err EParse
  end.
