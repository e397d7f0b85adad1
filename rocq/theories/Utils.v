(** * /repo/packages/utils/src/lib.rs (migration guard) and the part of the
      [semver] 1.0.23 crate it relies on: version parsing and ordering. *)
From Coq Require Import List NArith Bool Lia.
From Verif Require Import Base BaseFacts OMap.
Import ListNotations.

(** ** Lists of keys in lexicographic order (a strict prefix is smaller). *)
(** crate semver 1.0.23 (/repo/Cargo.toml:58) behind
    /repo/packages/utils/src/lib.rs:33-36 *)
Fixpoint list_ltb {A} `{OrdKey A} (x y : list A) : bool :=
  match x, y with
  | _, [] => false
  | [], _ :: _ => true
  | a :: x', b :: y' =>
      if klt a b then true else if klt b a then false else list_ltb x' y'
  end.

Section ListOrd.
  Context {A} {OA : OrdKey A}.
  Lemma list_ltb_irrefl (a : list A) : list_ltb a a = false.
  Proof. induction a as [|x a IH]; cbn [list_ltb]; [reflexivity|]. now rewrite klt_irrefl. Qed.
  Lemma list_ltb_trans (a b c : list A) :
    list_ltb a b = true -> list_ltb b c = true -> list_ltb a c = true.
  Proof.
    revert b c. induction a as [|x a IH]; intros [|y b] [|z c]; cbn [list_ltb];
      try discriminate; auto.
    intros H1 H2.
    destruct (klt x y) eqn:E1.
    - destruct (klt y z) eqn:E2.
      + now rewrite (klt_trans _ _ _ E1 E2).
      + destruct (klt z y) eqn:E3; [discriminate|].
        rewrite <- (klt_total _ _ E2 E3). now rewrite E1.
    - destruct (klt y x) eqn:E1'; [discriminate|].
      pose proof (klt_total _ _ E1 E1') as ->.
      destruct (klt y z) eqn:E2; [reflexivity|].
      destruct (klt z y) eqn:E3; [discriminate|]. eauto.
  Qed.
  Lemma list_ltb_total (a b : list A) :
    list_ltb a b = false -> list_ltb b a = false -> a = b.
  Proof.
    revert b. induction a as [|x a IH]; intros [|y b]; cbn [list_ltb];
      try discriminate; auto.
    intros H1 H2.
    destruct (klt x y) eqn:E1; [discriminate|].
    destruct (klt y x) eqn:E2; [discriminate|].
    f_equal; [now apply klt_total|auto].
  Qed.
End ListOrd.

#[export] Instance OrdList {A} `{OrdKey A} : OrdKey (list A) | 10 := {|
  klt := list_ltb;
  klt_irrefl := list_ltb_irrefl;
  klt_trans := list_ltb_trans;
  klt_total := list_ltb_total
|}.

(** ** Versions.  [v_pre] and [v_build] are the dot-separated identifiers;
    the empty list is the absent component. *)
(** crate semver 1.0.23 (/repo/Cargo.toml:58) behind
    /repo/packages/utils/src/lib.rs:33-36 *)
Record version : Type := mkVersion {
  v_major : N; v_minor : N; v_patch : N;
  v_pre : list str; v_build : list str }.

(** crate semver 1.0.23 (/repo/Cargo.toml:58) behind
    /repo/packages/utils/src/lib.rs:33-36 *)
Definition is_digit (b : byte) : bool := ((48 <=? bN b) && (bN b <=? 57))%bool.
(** crate semver 1.0.23 (/repo/Cargo.toml:58) behind
    /repo/packages/utils/src/lib.rs:33-36 *)
Definition is_alpha_dash (b : byte) : bool :=
  ((65 <=? bN b) && (bN b <=? 90) || (97 <=? bN b) && (bN b <=? 122) || (bN b =? 45))%bool.

(** longest prefix satisfying [p]: crate semver 1.0.23 (/repo/Cargo.toml:58) behind
    /repo/packages/utils/src/lib.rs:33-36 *)
Fixpoint span (p : byte -> bool) (l : bytes) : bytes * bytes :=
  match l with
  | [] => ([], [])
  | b :: l' => if p b then let '(x, y) := span p l' in (b :: x, y) else ([], l)
  end.

(** crate semver 1.0.23 (/repo/Cargo.toml:58) behind
    /repo/packages/utils/src/lib.rs:33-36 *)
Definition dec_value (l : bytes) : N := fold_left (fun a b => a * 10 + (bN b - 48)) l 0.

(** semver parse.rs [numeric_identifier]: non-empty digits, no leading zero,
    below 2^64 *)
Definition numeric_identifier (l : bytes) : option (N * bytes) :=
  let '(d, rest) := span is_digit l in
  match d with
  | [] => None
  | b :: d' =>
      if (byte_eqb b x30 && negb (match d' with [] => true | _ => false end))%bool then None
      else if dec_value d <? u64_max then Some (dec_value d, rest) else None
  end.

(** crate semver 1.0.23 (/repo/Cargo.toml:58) behind
    /repo/packages/utils/src/lib.rs:33-36 *)
Definition strip_dot (l : bytes) : option bytes :=
  match l with b :: l' => if byte_eqb b x2e then Some l' else None | [] => None end.

(** semver parse.rs [identifier]; [pre] is [Position::Pre].  Fuel: one per
    segment. *)
Fixpoint identifiers (fuel : nat) (pre : bool) (l : bytes) : option (list str * bytes) :=
  match fuel with
  | O => None
  | S f =>
      let '(seg, rest) := span (fun b => (is_digit b || is_alpha_dash b)%bool) l in
      match seg with
      | [] => None
      | b :: seg' =>
          if (pre && forallb is_digit seg && byte_eqb b x30
              && negb (match seg' with [] => true | _ => false end))%bool then None
          else match strip_dot rest with
               | Some rest' =>
                   match identifiers f pre rest' with
                   | Some (ids, r) => Some (seg :: ids, r)
                   | None => None
                   end
               | None => Some ([seg], rest)
               end
      end
  end.

(** [Version::from_str]; an empty identifier list after '-' or '+' is an error: crate
    semver 1.0.23 (/repo/Cargo.toml:58) behind /repo/packages/utils/src/lib.rs:33-36 *)
Definition version_parse (l : str) : option version :=
  match numeric_identifier l with None => None | Some (ma, l1) =>
  match strip_dot l1 with None => None | Some l1' =>
  match numeric_identifier l1' with None => None | Some (mi, l2) =>
  match strip_dot l2 with None => None | Some l2' =>
  match numeric_identifier l2' with None => None | Some (pa, l3) =>
  let after_pre :=
    match l3 with
    | b :: l3' => if byte_eqb b x2d then identifiers (S (length l3')) true l3'
                  else Some ([], l3)
    | [] => Some ([], []) end in
  match after_pre with None => None | Some (pre, l4) =>
  let after_build :=
    match l4 with
    | b :: l4' => if byte_eqb b x2b then identifiers (S (length l4')) false l4'
                  else Some ([], l4)
    | [] => Some ([], []) end in
  match after_build with
  | Some (build, []) => Some (mkVersion ma mi pa pre build)
  | _ => None
  end end end end end end end.

(** crate semver 1.0.23 (/repo/Cargo.toml:58) behind
    /repo/packages/utils/src/lib.rs:33-36 *)
Fixpoint trim_zeros (l : bytes) : bytes :=
  match l with b :: l' => if byte_eqb b x30 then trim_zeros l' else l | [] => [] end.

(** Ordering of one pre-release identifier: numeric before alphanumeric;
    numeric ones by length then text, others by text (semver impls.rs) *)
Definition pre_key (id : str) : N * (N * bytes) :=
  if forallb is_digit id then (0, (N.of_nat (length id), id)) else (1, (0, id)).

(** One build identifier: numeric ones by value, then by number of leading zeros:
    crate semver 1.0.23 (/repo/Cargo.toml:58) behind
    /repo/packages/utils/src/lib.rs:33-36 *)
Definition build_key (id : str) : N * (N * (bytes * N)) :=
  if forallb is_digit id
  then (0, (N.of_nat (length (trim_zeros id)), (trim_zeros id, N.of_nat (length id))))
  else (1, (0, (id, 0))).

(** derived [Ord] of [Version]: major, minor, patch, pre (absent = largest), build (an
    absent one is the single empty identifier): crate semver 1.0.23
    (/repo/Cargo.toml:58) behind /repo/packages/utils/src/lib.rs:33-36 *)
Definition version_key (v : version) :=
  (v_major v, (v_minor v, (v_patch v,
    ((if match v_pre v with [] => true | _ => false end then 1 else 0, map pre_key (v_pre v)),
     map build_key (match v_build v with [] => [[]] | l => l end))))).

(** crate semver 1.0.23 (/repo/Cargo.toml:58) behind
    /repo/packages/utils/src/lib.rs:33-36 *)
Definition version_ltb (a b : version) : bool := klt (version_key a) (version_key b).

(** ** cw2 [ContractVersion] and /repo/packages/utils/src/lib.rs:20-45 *)
Record cw2 : Type := mkCw2 { cv_contract : str; cv_version : str }.

(** /repo/packages/utils/src/lib.rs:20-45 *)
Definition migrate (stored : option cw2) (name ver : str) : res cw2 :=
  st <- ok_or stored EStd ;;
  _ <- ensure (bytes_eqb (cv_contract st) name) EMigration ;;
  v <- ok_or (version_parse ver) EMigration ;;
  sv <- ok_or (version_parse (cv_version st)) EMigration ;;
  if version_ltb sv v then Ok (mkCw2 name ver) else Err EMigration.
