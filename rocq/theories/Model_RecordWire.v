(** Records as CLIXML objects: what the serializer makes of the properties that ErrorRecord and InformationalRecord are
    flattened to (Model_Records.v; src/psrpcore/types/_complex.py:861-893, 949-965, _serializer.py:683-692), and the messages
    records travel in.

    The dictionaries, lists, exceptions and invocations that Model_Records.v leaves opaque are objects of the caller; [obj] says
    which.  An attribute CommandType or Visibility of MyCommand is taken to be a member of its enumeration.  The properties the
    classes declare are not put on the object that is read: they are all None and [declared] stands for them in
    Model_Records.v. *)
From Coq Require Import String.
From Verif Require Import Base Model_Scalars Model_Object Model_Clixml Model_Xml Model_Messages Model_Records Model_Pipeline.
Local Open Scope list_scope.

Section Wire.
  Variable obj : rv -> value.
  (** The text of a member, _serializer.py:571. *)
  Variable show : string -> Z -> list N.
  (** CommandOrigin, CommandTypes and SessionStateEntryVisibility, types/_complex.py:87-118, 355-382. *)
  Definition enum_member (t : string) (z : Z) : value :=
    VEnum (mkE [tx t; tx "System.Enum"; tx "System.ValueType"; tx "System.Object"] TInt32 z (show t z)).
  (** The types of the integer properties, types/_complex.py:423-425, 538-560; Category.value (line 872) is a plain int. *)
  Definition int_prop (k : string) (z : Z) : value :=
    if String.eqb k "InvocationInfo_HistoryId" then VPrim (PInt TInt64 z)
    else if String.eqb k "ErrorCategory_Category" then VPrim (PPlainInt z)
    else if String.eqb k "InvocationInfo_CommandOrigin" then enum_member "System.Management.Automation.CommandOrigin" z
    else if String.eqb k "CommandInfo_CommandType" then enum_member "System.Management.Automation.CommandTypes" z
    else if String.eqb k "CommandInfo_Visibility" then enum_member "System.Management.Automation.SessionStateEntryVisibility" z
    else VPrim (PInt TInt32 z).
  (** InvocationInfo_PipelineIterationInfo is a new list, line 661. *)
  Definition prop_tree (p : string * rv) : tree :=
    match snd p with
    | RNull => TVal VNull
    | RText s => t_text s
    | RBool b => TVal (VBool b)
    | RInt z => TVal (int_prop (fst p) z)
    | x => if String.eqb (fst p) "InvocationInfo_PipelineIterationInfo" then TList [] else TVal (obj x)
    end.
  (** The properties one after the other, children first. *)
  Fixpoint place_props (ps : props) (n : N) : N * heap * list (name * value) :=
    match ps with
    | [] => (n, [], [])
    | p :: t => let '(n1, h, v) := place (prop_tree p) n in let '(n2, h', vs) := place_props t n1 in (n2, h ++ h', (tx (fst p), v) :: vs)
    end.
  (** The object ToPSObjectForRemoting returns with the type names and the text of the record, _serializer.py:686-688. *)
  Definition record_object (names : list name) (s : list N) (ps : list (name * value)) : gobj :=
    mkG BPlain names (match s with [] => None | _ => Some s end) [] ps.
  (** The type names of the records, types/_complex.py:767, 898, 968-1005. *)
  Definition error_type : list name := [tx "System.Management.Automation.ErrorRecord"; tx "System.Object"].
  Definition informational_type (k : rec_kind) : list name :=
    match k with
    | RecError => error_type
    | RecDebug => [tx "System.Management.Automation.DebugRecord"; tx "System.Management.Automation.InformationalRecord"; tx "System.Object"]
    | RecVerbose => [tx "System.Management.Automation.VerboseRecord"; tx "System.Management.Automation.InformationalRecord"; tx "System.Object"]
    | RecWarning => [tx "System.Management.Automation.WarningRecord"; tx "System.Management.Automation.InformationalRecord"; tx "System.Object"]
    end.
  (** The messages a record can be in: one of its own (_server.py:545-643), the state of a pipeline or of the pool
      (types/_psrp.py:601-632, 266-309), the answer to a host call (types/_psrp.py:519-558). *)
  Inductive letter := LRecord (k : rec_kind) | LPipelineState (z : Z) | LPoolState (z : Z) | LResponse (pipeline : bool) (ci : Z) (mi : member).
  Definition in_letter (l : letter) (v : value) : message :=
    match l with
    | LRecord k => WRecord k v
    | LPipelineState z => WPipelineState z v
    | LPoolState z => WRunspacePoolState z v
    | LResponse p ci mi => WHostResponse p ci mi VNull v
    end.
  Definition record_data (fuel : nat) (h : heap) (n : N) (l : letter) (names : list name) (s : list N) (ps : props) : result (list N) :=
    let '(n1, k, qs) := place_props ps n in
    message_data fuel (h ++ k ++ [(n1, record_object names s qs)]) (n1 + 1) (in_letter l (VRef n1)).
  Definition error_data (fuel : nat) (h : heap) (n : N) (l : letter) (r : error) : result (list N) :=
    let! w := write_error r in record_data fuel h n l error_type (fst w) (snd w).
  Definition informational_data (fuel : nat) (h : heap) (n : N) (k : rec_kind) (r : informational) : result (list N) :=
    let! w := write_informational r in
    record_data fuel h n (LRecord k) (informational_type k) (match fst w with Some s => s | None => [] end) (snd w).
End Wire.
(** The record of a message, _events.py:404-406, 474, 672-690, 727-731, 1003-1010. *)
Definition record_of (m : message) : option value :=
  match m with
  | WRecord _ v | WPipelineState _ v | WRunspacePoolState _ v | WHostResponse _ _ _ _ v => Some v
  | _ => None
  end.
