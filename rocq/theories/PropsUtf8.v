(** * C87: JSON texts and UTF-8. *)
From Coq Require Import List NArith Bool Lia.
From Verif Require Import Base BaseFacts Hex Events MailboxConfFacts SpecModules SpecQuery SpecEvents SpecCodec Json SpecJson JsonFacts JsonGrammar Chain Contracts Wire WireWorld SpecWire
  WireFacts WireTexts Proto SpecProto Utf8 SpecUtf8 Utf8Facts.
Import ListNotations.

(** ** C87 *)
(** a text is UTF-8 exactly when every string read from it is, whatever escapes it
    is written with *)
Theorem C87_strings t j : parse t = Some j -> (utf8 t <-> strings_utf8 j).
Proof. exact (parse_utf8 t j). Qed.
Print Assumptions C87_strings.

(** hence the check of each string, which Json.v leaves out, is a check of the
    whole text, and makes no difference for texts that are UTF-8 *)
Theorem C87_check t j : parse_checked t = Some j <-> utf8 t /\ parse t = Some j.
Proof. exact (checked_reader t j). Qed.
Print Assumptions C87_check.

(** what is written for a contract passes the check when its strings do *)
Theorem C87_written st m :
  understands st m = true -> emsg_ok m = true ->
  exists j, document j (message_text (hex_router st) m) /\
    (parse_checked (message_text (hex_router st) m) = Some j <-> strings_utf8 j).
Proof.
  intros U K. pose proof (message_reads st m U K) as R. unfold read_exec in R.
  destruct (parse (message_text (hex_router st) m)) as [j|] eqn:P; [|discriminate R].
  exists j. split; [now apply grammar|]. rewrite checked_reader, (parse_utf8 _ _ P). tauto.
Qed.
Print Assumptions C87_written.

(** a euro sign as bytes and escaped, a key beyond the basic plane as a surrogate
    pair; a lone surrogate, a lone byte *)
Definition euro_text : str := s "{""a"":""" ++ hx "e282ac" ++ s """,""\ud83d\udd11"":[""\u20ac""]}".
Definition euro_json : json := JObj [(s "a", JStr (hx "e282ac")); (hx "f09f9491", JArr [JStr (hx "e282ac")])].
Example C87_example :
  parse euro_text = Some euro_json /\ parse_checked euro_text = Some euro_json /\
  parse (s """\ud83d""") = None /\ parse (s """\ud83d\u20ac""") = None /\
  parse (s """" ++ hx "c3" ++ s """") = Some (JStr (hx "c3")) /\ parse_checked (s """" ++ hx "c3" ++ s """") = None.
Proof. repeat (split; [vm_compute; reflexivity|]). vm_compute. reflexivity. Qed.
