(** * What a JSON text is.

    The grammar of RFC 8259, read without the reader of Json.v: characters of
    strings with their escapes, numbers without sign, fraction or exponent, blanks
    wherever the grammar has them, nothing after the value. *)
From Coq Require Import List NArith Bool.
From Verif Require Import Base Json SpecVersion SpecCodec SpecEvents.
Import ListNotations.

(** space, tab, line feed and carriage return *)
Definition blank (t : str) : Prop := Forall (fun c => In c [x20; x09; x0a; x0d]) t.

(** a character outside the surrogates in UTF-8 (RFC 3629) *)
Definition encodes (n : N) (u : bytes) : Prop :=
  match map bN u with
  | [a] => a < 128 /\ n = a
  | [a; b] => 192 <= a < 224 /\ 128 <= b < 192 /\ n = (a - 192) * 64 + (b - 128) /\ 128 <= n
  | [a; b; c] =>
      224 <= a < 240 /\ 128 <= b < 192 /\ 128 <= c < 192 /\
      n = (a - 224) * 4096 + (b - 128) * 64 + (c - 128) /\ 2048 <= n /\ ~ 55296 <= n < 57344
  | [a; b; c; d] =>
      240 <= a < 248 /\ 128 <= b < 192 /\ 128 <= c < 192 /\ 128 <= d < 192 /\
      n = (a - 240) * 262144 + (b - 128) * 4096 + (c - 128) * 64 + (d - 128) /\ 65536 <= n < 1114112
  | _ => False
  end.
(** the escapes of one letter and what they stand for *)
Definition escapes : list (byte * byte) :=
  [(x22, x22); (x5c, x5c); (x2f, x2f); (x62, x08); (x66, x0c); (x6e, x0a); (x72, x0d); (x74, x09)].

(** a high and a low surrogate for a character beyond U+FFFF (RFC 8259, section 7) *)
Definition surrogates (n m c : N) : Prop :=
  55296 <= n < 56320 /\ 56320 <= m < 57344 /\ c = 65536 + (n - 55296) * 1024 + (m - 56320).

(** the characters [x] may be written [t] between quotes *)
Inductive chars : str -> str -> Prop :=
| chars_end : chars [] []
| chars_plain c x t : c <> x22 -> c <> x5c -> chars x t -> chars (c :: x) (c :: t)
| chars_escape e c x t : In (e, c) escapes -> chars x t -> chars (c :: x) (x5c :: e :: t)
| chars_unicode h l d u x t :
    Forall2 lowers d (hex_of [h; l]) -> encodes (256 * bN h + bN l) u -> chars x t -> chars (u ++ x) (x5c :: x75 :: d ++ t)
| chars_pair h l d h' l' d' c u x t :
    Forall2 lowers d (hex_of [h; l]) -> Forall2 lowers d' (hex_of [h'; l']) ->
    surrogates (256 * bN h + bN l) (256 * bN h' + bN l') c -> encodes c u -> chars x t ->
    chars (u ++ x) (x5c :: x75 :: d ++ x5c :: x75 :: d' ++ t).

(** the value may be written so *)
Inductive spells : json -> str -> Prop :=
| spells_null : spells JNull (s "null")
| spells_true : spells (JBool true) (s "true")
| spells_false : spells (JBool false) (s "false")
| spells_number n t : numeric t -> no_leading_zero t -> decimal t = n -> spells (JNum n) t
| spells_string x t : chars x t -> spells (JStr x) (x22 :: t ++ [x22])
| spells_no_entry w : blank w -> spells (JArr []) (x5b :: w ++ [x5d])
| spells_array l t : entries l t -> spells (JArr l) (x5b :: t ++ [x5d])
| spells_no_pair w : blank w -> spells (JObj []) (x7b :: w ++ [x7d])
| spells_object l t : pairs l t -> spells (JObj l) (x7b :: t ++ [x7d])
(** values with commas between them *)
with entries : list json -> str -> Prop :=
| entries_last j t w w' : blank w -> blank w' -> spells j t -> entries [j] (w ++ t ++ w')
| entries_more j t w w' l u : blank w -> blank w' -> spells j t -> entries l u -> entries (j :: l) (w ++ t ++ w' ++ x2c :: u)
(** names and values with commas between them *)
with pairs : list (str * json) -> str -> Prop :=
| pairs_last k j n t w1 w2 w3 w4 :
    blank w1 -> blank w2 -> blank w3 -> blank w4 -> chars k n -> spells j t ->
    pairs [(k, j)] (w1 ++ x22 :: n ++ x22 :: w2 ++ x3a :: w3 ++ t ++ w4)
| pairs_more k j n t w1 w2 w3 w4 l u :
    blank w1 -> blank w2 -> blank w3 -> blank w4 -> chars k n -> spells j t -> pairs l u ->
    pairs ((k, j) :: l) (w1 ++ x22 :: n ++ x22 :: w2 ++ x3a :: w3 ++ t ++ w4 ++ x2c :: u).

(** a whole text *)
Definition document (j : json) (t : str) : Prop :=
  exists w u w', blank w /\ blank w' /\ spells j u /\ t = w ++ u ++ w'.

(** the same members in any order, at any depth; members that are [null] may be
    left away *)
Inductive alike : json -> json -> Prop :=
| alike_leaf j : match j with JObj _ | JArr _ => False | _ => True end -> alike j j
| alike_list l l' : Forall2 alike l l' -> alike (JArr l) (JArr l')
| alike_object l l' :
    NoDup (map fst l) ->
    (forall k j, In (k, j) l -> exists j', In (k, j') l' /\ alike j j') ->
    (forall k j', In (k, j') l' -> In k (map fst l) \/ j' = JNull) -> alike (JObj l) (JObj l').

(** a number in a string, as [str::parse] takes it: a plus sign and zeros may come first *)
Definition quantity (t : str) (n : N) : Prop := exists u, (t = u \/ t = x2b :: u) /\ numeric u /\ decimal u = n.
(** [j] has the members of [j'] that are not [null], each once, and no others, at
    any depth, and the same values up to the letter case of hexadecimal digits and
    the zeros before a number; only a coin may carry other members *)
Inductive within : json -> json -> Prop :=
| within_object l l' :
    NoDup (map fst l) ->
    (forall k j, In (k, j) l -> exists j', In (k, j') l' /\ within j j') ->
    (forall k j', In (k, j') l' -> In k (map fst l) \/ j' = JNull) -> within (JObj l) (JObj l')
| within_list l l' : Forall2 within l l' -> within (JArr l) (JArr l')
| within_coin l d a jd ja :
    In (s "denom", jd) l -> (forall j, In (s "denom", j) l -> j = jd) -> within jd (JStr d) ->
    In (s "amount", ja) l -> (forall j, In (s "amount", j) l -> j = ja) -> within ja (JStr a) ->
    within (JObj l) (JObj [(s "denom", JStr d); (s "amount", JStr a)])
| within_same j : match j with JObj _ | JArr _ => False | _ => True end -> within j j
| within_hexadecimal t b : Forall2 lowers t (hex_of b) -> within (JStr t) (JStr (hex_of b))
| within_quantity n t t' : quantity t n -> quantity t' n -> within (JStr t) (JStr t').
