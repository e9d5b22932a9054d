(** Plain values in an object graph (C65): what the parts of a host call look like once they are objects the serializer
    knows.  Nothing here runs the serializer or the host code. *)
From Coq Require Import String.
From Verif Require Import Base Model_Scalars Model_Object Model_Clixml Model_Host Spec_Strings Spec_Scalars Spec_Clixml Spec_Xml.
Local Open Scope list_scope.

(** A whole number: a Python int, one of the eight integer types, or a member of an enumeration. *)
Definition numeral (v : value) (z : Z) : Prop :=
  v = VPrim (PPlainInt z) \/ (exists t, v = VPrim (PInt t z)) \/ (exists e, v = VEnum e /\ e_val e = z).
(** [looks h x v]: the value [v] of heap [h] is the plain value [x].  Objects have their properties as extended properties and
    nothing else; type names do not matter. *)
Fixpoint looks (h : heap) (x : hv) (v : value) {struct x} : Prop :=
  match x with
  | HNull => v = VNull
  | HInt z => numeral v z
  | HStr s => v = VPrim (PStr KString s)
  | HBool b => v = VBool b
  | HChar c => v = VPrim (PChar c)
  | HList l => exists a o k vs, v = VRef a /\ aget a h = Some o /\ g_body o = BList k vs
      /\ (fix all (l : list hv) (vs : list value) : Prop :=
            match l, vs with [], [] => True | y :: l', w :: vs' => looks h y w /\ all l' vs' | _, _ => False end) l vs
  | HObj ps => exists a o, v = VRef a /\ aget a h = Some o /\ g_body o = BPlain /\ g_adapted o = []
      /\ (fix all (l : list (string * hv)) (vs : list (name * value)) : Prop :=
            match l, vs with
            | [], [] => True | (n, y) :: l', (m, w) :: vs' => (m = tx n /\ looks h y w) /\ all l' vs' | _, _ => False
            end) ps (g_extended o)
  | HDict l => exists a o es, v = VRef a /\ aget a h = Some o /\ g_body o = BDict es
      /\ (fix all (l : list (Z * hv)) (es : list (value * value)) : Prop :=
            match l, es with
            | [], [] => True | (z, y) :: l', (k, w) :: es' => (numeral k z /\ looks h y w) /\ all l' es' | _, _ => False
            end) l es
  | HOpaque _ => False
  end.

(** What can be sent: texts that survive (C13, C44), numbers a Python int can be sent as, characters of 16 bits, each
    property or key once. *)
Fixpoint sendable (x : hv) : Prop :=
  match x with
  | HNull | HBool _ => True
  | HInt z => (- 2 ^ 31 <= z < 2 ^ 63)%Z
  | HStr s => good_str s /\ safe_str s
  | HChar c => (c < 65536)%N
  | HList l => fold_right (fun y P => sendable y /\ P) True l
  | HObj ps => NoDup (map fst ps) /\ fold_right (fun p P => (good_str (tx (fst p)) /\ safe_str (tx (fst p)) /\ sendable (snd p)) /\ P) True ps
  | HDict l => NoDup (map fst l) /\ fold_right (fun p P => ((- 2 ^ 31 <= fst p < 2 ^ 63)%Z /\ sendable (snd p)) /\ P) True l
  | HOpaque _ => False
  end.

(** The registry and the type names of lists and dictionaries: registered as such or not at all. *)
Definition list_names : list name := [tx "System.Collections.ArrayList"; tx "System.Object"].
Definition dict_names : list name := [tx "System.Collections.Hashtable"; tx "System.Object"].
Record usual (reg : registry) (lx : lexicon) : Prop := {
  us_custom : reg (tx "System.Management.Automation.PSCustomObject") = Some (mkC CPlain py_names [] []);
  us_list : full lx (tx "System.Collections.ArrayList") = list_names
            /\ forall c, reg (tx "System.Collections.ArrayList") = Some c -> c = mkC (CList LList) list_names [] [];
  us_dict : full lx (tx "System.Collections.Hashtable") = dict_names
            /\ forall c, reg (tx "System.Collections.Hashtable") = Some c -> c = mkC CDict dict_names [] [] }.

(** The texts, characters and unchecked numbers of a request or response. *)
Definition opt_text (s : option (list N)) : list (list N) := match s with Some s => [s] | None => [] end.
Definition field_texts (f : field) : list (list N) :=
  opt_text (fd_name f) ++ opt_text (fd_type f) ++ opt_text (fd_full f) ++ opt_text (fd_assembly f) ++ opt_text (fd_label f) ++ opt_text (fd_help f).
Definition choice_texts (c : choice) : list (list N) := opt_text (ch_label c) ++ opt_text (ch_help c).
Definition texts (r : request) : list (list N) :=
  match r with
  | RWrite s _ _ | RWriteErrorLine s | RWriteDebugLine s | RWriteVerboseLine s | RWriteWarningLine s | RSetWindowTitle s => [s]
  | RWriteLine s _ _ => opt_text s
  | RWriteProgress _ p => opt_text (pr_activity p) ++ opt_text (pr_status p) ++ opt_text (pr_operation p)
  | RPrompt c m fs => c :: m :: flat_map field_texts fs
  | RPromptForCredential c m u t _ _ => c :: m :: opt_text u ++ opt_text t
  | RPromptForChoice c m cs _ | RPromptForMultipleChoice c m cs _ => c :: m :: flat_map choice_texts cs
  | _ => []
  end.
Definition chars (r : request) : list N :=
  match r with
  | RSetBufferCells _ _ _ _ ch _ _ | RScrollBufferContents _ _ _ _ _ _ _ _ _ _ ch _ _ => [ch]
  | RSetBufferContents _ _ g => map ce_char (concat g)
  | _ => []
  end.
Definition opt_int (z : option Z) : list Z := match z with Some z => [z] | None => [] end.
Definition ints (r : request) : list Z :=
  match r with
  | RSetShouldExit z | RWriteProgress z _ | RPromptForChoice _ _ _ z | RSetCursorSize z | RReadKey z => [z]
  | RPromptForCredential _ _ _ _ t o => opt_int t ++ opt_int o
  | RPromptForMultipleChoice _ _ _ (Some l) => l
  | RSetBufferContents _ _ g => map ce_type (concat g) ++ [Z.of_nat (length g); Z.of_nat (length (concat g))]
  | _ => []
  end.
Definition can_travel (texts : list (list N)) (chars : list N) (ints : list Z) : Prop :=
  Forall (fun s => good_str s /\ safe_str s) texts /\ Forall (fun c => c < 65536)%N chars /\ Forall (fun z => - 2 ^ 31 <= z < 2 ^ 63)%Z ints.
Definition resp_chars (r : response) : list N :=
  match r with PKey _ c _ _ => [c] | PCells g => map ce_char (concat g) | _ => [] end.
Definition resp_ints (r : response) : list Z :=
  match r with
  | PKey _ _ z _ => [z] | PMultiChoice l => l
  | PCells g => map ce_type (concat g) ++ [Z.of_nat (length g); Z.of_nat (length (concat g))]
  | _ => []
  end.
