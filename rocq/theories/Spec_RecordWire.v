(** Records that reach the peer through bytes (C78). *)
From Coq Require Import String.
From Verif Require Import Base Model_Scalars Model_Object Model_Clixml Model_Messages Model_Records Spec_Strings Spec_Scalars Spec_Clixml Spec_Xml Spec_Messages.
From Verif Require Import Spec_Pipeline Spec_Records Model_RecordWire.
Local Open Scope list_scope.

(** The integers of a record that are members of enumerations, and of which ([MS-PSRP] 2.2.3.15.1). *)
Definition enumerations : list (string * string) :=
  [("InvocationInfo_CommandOrigin", "System.Management.Automation.CommandOrigin");
   ("CommandInfo_CommandType", "System.Management.Automation.CommandTypes");
   ("CommandInfo_Visibility", "System.Management.Automation.SessionStateEntryVisibility")]%string.
Inductive int_type_of (k : string) : option string -> Prop :=
| IsMember t : In (k, t) enumerations -> int_type_of k (Some t)
| IsNumber : ~ (exists t, In (k, t) enumerations) -> int_type_of k None.
Definition long (k : string) : Prop := k = "InvocationInfo_HistoryId"%string.
(** A list made for the occasion. *)
Definition fresh_list (k : string) : Prop := k = "InvocationInfo_PipelineIterationInfo"%string.
Definition opaque (x : rv) : Prop := match x with RNull | RText _ | RInt _ | RBool _ => False | _ => True end.

Section Told.
  Variable obj : rv -> value.
  Variable show : string -> Z -> list N.
  (** What can be told: texts that survive, integers of their type, members of known enumerations, sound objects. *)
  Definition can_tell (reg : registry) (lx : lexicon) (h : heap) (k : string) (x : rv) : Prop :=
    (forall s, x = RText s -> can_say s)
    /\ (forall z, x = RInt z -> (long k -> fits TInt64 z) /\ (~ long k -> int_type_of k None -> fits TInt32 z)
          /\ forall t, int_type_of k (Some t) ->
             can_send reg lx h (VEnum (mkE [tx t; tx "System.Enum"; tx "System.ValueType"; tx "System.Object"] TInt32 z (show t z))))
    /\ (opaque x -> ~ fresh_list k -> can_send reg lx h (obj x)).
  (** What the peer finds under the name [k]; a category is sent as a plain Python int. *)
  Inductive told (R : N -> N -> Prop) (h' : heap) (k : string) : rv -> value -> Prop :=
  | ToldNull : told R h' k RNull VNull
  | ToldText s : told R h' k (RText s) (a_text s)
  | ToldBool b : told R h' k (RBool b) (VBool b)
  | ToldLong z : long k -> told R h' k (RInt z) (VPrim (PInt TInt64 z))
  | ToldInt z : ~ long k -> k <> "ErrorCategory_Category"%string -> int_type_of k None -> told R h' k (RInt z) (VPrim (PInt TInt32 z))
  | ToldPlain z t : k = "ErrorCategory_Category"%string -> t = TInt32 \/ t = TInt64 -> told R h' k (RInt z) (VPrim (PInt t z))
  | ToldMember z t e : int_type_of k (Some t) -> e_val e = z -> hd_error (e_names e) = Some (tx t) -> told R h' k (RInt z) (VEnum e)
  | ToldFresh x v : opaque x -> fresh_list k -> listed h' (fun (_ : unit) _ => False) [] v -> told R h' k x v
  | ToldObject x v : opaque x -> ~ fresh_list k -> same_value R (obj x) v -> told R h' k x v.
  (** The object has exactly the properties [ps], in order, and these type names. *)
  Definition record_seen (reg : registry) (R : N -> N -> Prop) (h' : heap) (names : list name) (s : list N) (ps : props) (v : value) : Prop :=
    exists a o, v = VRef a /\ aget a h' = Some o /\ g_body o = BPlain /\ g_names o = names_back reg names /\ g_adapted o = []
    /\ (s = [] -> g_string o = None) /\ (s <> [] -> raw_str (lines s) -> g_string o = Some (lines s))
    /\ Forall2 (fun p q => fst q = tx (fst p) /\ told R h' (fst p) (snd p) (snd q)) ps (g_extended o).
End Told.
(** The types of the records ([MS-PSRP] 2.2.3.15, 2.2.3.16). *)
Definition record_type (k : rec_kind) : list name :=
  map (fun s => tx (String.append "System." s)) ((match k with
    | RecError => ["Management.Automation.ErrorRecord"]
    | RecDebug => ["Management.Automation.DebugRecord"; "Management.Automation.InformationalRecord"]
    | RecVerbose => ["Management.Automation.VerboseRecord"; "Management.Automation.InformationalRecord"]
    | RecWarning => ["Management.Automation.WarningRecord"; "Management.Automation.InformationalRecord"]
    end)%string ++ ["Object"%string]).
(** The type of the record is known to the writer by these names; a reader that has a class of the name has this one. *)
Definition type_known (reg : registry) (lx : lexicon) (names : list name) : Prop :=
  full lx (hd [] names) = names /\ forall c, registered reg names = Some c -> c = mkC CPlain names [] [].
Definition letter_ok (reg : registry) (lx : lexicon) (h : heap) (l : letter) : Prop :=
  match l with
  | LRecord _ => True
  | LPipelineState z => (0 <= z <= 6)%Z
  | LPoolState z => (0 <= z <= 8)%Z
  | LResponse _ ci mi => fits TInt64 ci /\ can_send reg lx h (VEnum mi)
  end.
(** A text that can be written as it is. *)
Definition showable (s : list N) : Prop := pystr s /\ no_surrogates s /\ attr_ok s.
