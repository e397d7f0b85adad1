(** * Version numbers (semver.org 2.0.0, and the order the semver crate adds to
      build identifiers).  Specification side: nothing here uses the parser. *)
From Coq Require Import List NArith.
From Verif Require Import Base Utils.
Import ListNotations.

(** decimal numbers as text *)
Definition digit (b : byte) : Prop := 48 <= bN b <= 57.
Definition numeric (l : str) : Prop := l <> [] /\ Forall digit l.
Fixpoint decimal (l : str) : N :=
  match l with
  | [] => 0
  | b :: l' => (bN b - 48) * 10 ^ N.of_nat (length l') + decimal l'
  end.
Definition no_leading_zero (l : str) : Prop := l = [x30] \/ (forall l', l <> x30 :: l').
Definition number_text (l : str) (n : N) : Prop :=
  numeric l /\ no_leading_zero l /\ decimal l = n /\ n < 2 ^ 64.

(** identifiers: letters, digits and hyphens *)
Definition ident_char (b : byte) : Prop :=
  digit b \/ 65 <= bN b <= 90 \/ 97 <= bN b <= 122 \/ bN b = 45.
Definition ident (l : str) : Prop := l <> [] /\ Forall ident_char l.
Definition pre_ident (l : str) : Prop := ident l /\ (numeric l -> no_leading_zero l).
Fixpoint dotted (l : list str) : str :=
  match l with
  | [] => []
  | [x] => x
  | x :: l' => x ++ [x2e] ++ dotted l'
  end.
(** an optional part after its sign *)
Definition part (sign : byte) (l : list str) : str :=
  match l with [] => [] | _ => sign :: dotted l end.

(** [text] spells [v]: MAJOR.MINOR.PATCH[-pre][+build] *)
Definition spells (v : version) (text : str) : Prop :=
  exists a b c,
    number_text a (v_major v) /\ number_text b (v_minor v) /\ number_text c (v_patch v) /\
    Forall pre_ident (v_pre v) /\ Forall ident (v_build v) /\
    text = a ++ [x2e] ++ b ++ [x2e] ++ c ++ part x2d (v_pre v) ++ part x2b (v_build v).

(** ** Order *)
(** lexicographic order of lists: the first difference decides, a prefix is
    smaller *)
Inductive lex {X} (before : X -> X -> Prop) : list X -> list X -> Prop :=
| lex_prefix x l : lex before [] (x :: l)
| lex_first x y l l' : before x y -> lex before (x :: l) (y :: l')
| lex_later x l l' : lex before l l' -> lex before (x :: l) (x :: l').

Definition char_before (a b : byte) : Prop := bN a < bN b.
(** numeric identifiers by value and before the others, which go by text *)
Definition ident_before (a b : str) : Prop :=
  (numeric a /\ numeric b /\ decimal a < decimal b) \/
  (numeric a /\ ~ numeric b) \/
  (~ numeric a /\ ~ numeric b /\ lex char_before a b).
(** a pre-release comes before its release *)
Definition pre_before (p q : list str) : Prop :=
  p <> [] /\ (q = [] \/ lex ident_before p q).
(** build identifiers of equal value: by the number of leading zeros; no build
    comes before any *)
Definition build_ident_before (a b : str) : Prop :=
  ident_before a b \/
  (numeric a /\ numeric b /\ decimal a = decimal b /\ (length a < length b)%nat).
Definition build_before (p q : list str) : Prop :=
  q <> [] /\ (p = [] \/ lex build_ident_before p q).

Definition newer (b a : version) : Prop :=
  v_major a < v_major b \/ v_major a = v_major b /\
  (v_minor a < v_minor b \/ v_minor a = v_minor b /\
  (v_patch a < v_patch b \/ v_patch a = v_patch b /\
  (pre_before (v_pre a) (v_pre b) \/ v_pre a = v_pre b /\
   build_before (v_build a) (v_build b)))).

(** of two stored contract versions *)
Definition supersedes (b a : cw2) : Prop :=
  exists va vb, spells va (cv_version a) /\ spells vb (cv_version b) /\ newer vb va.
