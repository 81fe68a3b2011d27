(* What a well-formed XML document is, as far as the track files need it: elements with attributes,
   text without markup characters, an XML declaration in front.  Not here: comments, CDATA, entities,
   processing instructions, empty-element tags, DTDs. *)
From Verif Require Import PyBase.
Local Open Scope N_scope.

(* "<", "&", the double quote *)
Definition is_lt (c : N) : Prop := c = 60.
Definition is_amp (c : N) : Prop := c = 38.
Definition is_dquote (c : N) : Prop := c = 34.

(* a name: letters and colons *)
Definition xml_name (s : pystr) : Prop :=
  s <> [] /\ Forall (fun c => 65 <= c <= 90 \/ 97 <= c <= 122 \/ c = 58) s.
(* attributes:  name="value" name="value" ... *)
Inductive xml_attributes : pystr -> Prop :=
| xa_none : xml_attributes []
| xa_one n v r : xml_name n -> Forall (fun c => ~ is_lt c /\ ~ is_amp c /\ ~ is_dquote c) v -> xml_attributes r ->
    xml_attributes (u " " ++ n ++ u "=""" ++ v ++ u """" ++ r).
(* text and elements *)
Inductive xml_content : pystr -> Prop :=
| xc_end : xml_content []
| xc_char c r : ~ is_lt c -> ~ is_amp c -> xml_content r -> xml_content (c :: r)
| xc_element n a b r : xml_name n -> xml_attributes a -> xml_content b -> xml_content r ->
    xml_content (u "<" ++ n ++ a ++ u ">" ++ b ++ u "</" ++ n ++ u ">" ++ r).
(* the declaration and one element *)
Definition xml_document (s : pystr) : Prop :=
  exists n a b, xml_name n /\ xml_attributes a /\ xml_content b /\
    s = u "<?xml version=""1.0"" encoding=""UTF-8"" standalone=""yes""?>" ++ u "<" ++ n ++ a ++ u ">" ++ b ++ u "</" ++ n ++ u ">".
