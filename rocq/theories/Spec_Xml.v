(** Vocabulary for CLIXML strings (C44): what XML text can hold. *)
From Coq Require Import String.
From Verif Require Import Base Model_Scalars Model_Object Model_Clixml Model_Xml Spec_Strings Spec_Scalars Spec_Clixml.

(** XML 1.0, production 2. *)
Definition valid_char (c : N) : Prop :=
  (c = 9 \/ c = 10 \/ c = 13 \/ 0x20 <= c <= 0xD7FF \/ 0xE000 <= c <= 0xFFFD \/ 0x10000 <= c <= 0x10FFFF)%N.
Definition attr_ok (s : list N) : Prop := Forall valid_char s.
(** In text a carriage return would come back as a line feed. *)
Definition text_ok (s : list N) : Prop := Forall (fun c => valid_char c /\ c <> 13%N) s.
Definition letter (c : N) : Prop := (65 <= c <= 90 \/ 97 <= c <= 122 \/ c = 95 \/ 0xC0 <= c)%N.
Definition name_ok (n : list N) : Prop :=
  exists c r, n = c :: r /\ letter c /\ Forall (fun d => letter d \/ 48 <= d <= 57 \/ d = 45 \/ d = 46)%N r.
Fixpoint printable (x : node) : Prop :=
  let 'Node n a t k := x in
  name_ok n /\ NoDup (map fst a) /\ Forall (fun p => name_ok (fst p) /\ fst p <> tx "xmlns" /\ attr_ok (snd p)) a
  /\ text_ok t /\ fold_right (fun y P => printable y /\ P) True k.

(** XML 1.0, section 2.11: every line end is read as one line feed. *)
Fixpoint lines (s : list N) : list N :=
  match s with
  | [] => []
  | c :: t => if (c =? 13)%N then 10%N :: match t with [] => [] | d :: u => if (d =? 10)%N then lines u else lines t end
              else c :: lines t
  end.
(** Like [printable], with carriage returns in the text. *)
Fixpoint line_printable (x : node) : Prop :=
  let 'Node n a t k := x in
  name_ok n /\ NoDup (map fst a) /\ Forall (fun p => name_ok (fst p) /\ fst p <> tx "xmlns" /\ attr_ok (snd p)) a
  /\ attr_ok t /\ fold_right (fun y P => line_printable y /\ P) True k.
Fixpoint lined (x : node) : node := let 'Node n a t k := x in Node n a (lines t) (map lined k).

(** Strings, primitives and objects whose text can stand in an XML document: no surrogates, U+FFFE or U+FFFF in
    strings, and nothing raw (type names, ToString, names of enumeration members) that XML cannot hold. *)
Definition safe_str (s : list N) : Prop :=
  Forall (fun c => c < 0x110000 /\ ~ 0xD800 <= c <= 0xDFFF /\ c <> 0xFFFE /\ c <> 0xFFFF)%N s.
Definition safe_value (v : value) : Prop :=
  match v with
  | VPrim (PStr _ s) => safe_str s
  | VPrim (PBytes l) => bytes_ok l
  | VPrim (PFloat _ s | PSecure s) => text_ok s
  | VEnum e => Forall text_ok (e_names e) /\ text_ok (e_text e)
  | _ => True
  end.
Definition safe_object (o : gobj) : Prop :=
  Forall text_ok (g_names o)
  /\ match g_string o with Some s => text_ok s | None => True end
  /\ Forall (fun p => safe_str (fst p)) (g_adapted o ++ g_extended o)
  /\ (forall p, g_body o = BPrim p -> safe_value (VPrim p))
  /\ (forall c l n b v, g_body o = BPy c l -> In (n, b, v) l -> safe_str n)
  /\ (forall v, mentions o v -> safe_value v).
Definition safe_graph (h : heap) : Prop := forall a o, aget a h = Some o -> safe_object o.
(** The same with carriage returns in ToString, and the objects as they come out of the document. *)
Definition legible_object (o : gobj) : Prop :=
  Forall text_ok (g_names o)
  /\ match g_string o with Some s => attr_ok s | None => True end
  /\ Forall (fun p => safe_str (fst p)) (g_adapted o ++ g_extended o)
  /\ (forall p, g_body o = BPrim p -> safe_value (VPrim p))
  /\ (forall c l n b v, g_body o = BPy c l -> In (n, b, v) l -> safe_str n)
  /\ (forall v, mentions o v -> safe_value v).
Definition legible_graph (h : heap) : Prop := forall a o, aget a h = Some o -> legible_object o.
Definition with_lines (o : gobj) : gobj :=
  mkG (g_body o) (g_names o) (option_map lines (g_string o)) (g_adapted o) (g_extended o).
Definition heap_lines (h : heap) : heap := map (fun p => (fst p, with_lines (snd p))) h.
(** A value without a label comes back as output. *)
Definition stream_of (l : option stream) : stream := match l with Some s => s | None => SOutput end.
(** Line ends, with or without the marker line before them. *)
Definition header (p : list N) : Prop :=
  exists nl, Forall (fun c => c = 13 \/ c = 10)%N nl /\ (p = nl \/ p = tx "#< CLIXML" ++ nl)%list.
