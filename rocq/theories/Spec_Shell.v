(** Vocabulary for CLIXML shells and outputs (C43, C49). *)
From Coq Require Import String.
From Verif Require Import Base Model_Scalars Model_Object Model_Clixml Model_Xml Model_Shell Spec_Clixml Spec_Xml.
Local Open Scope list_scope.

(** What a call adds to the queue. *)
Definition written (c : call) : list (value * stream) :=
  match c with
  | WriteOutput v => [(v, SOutput)] | WriteError v => [(v, SError)] | WriteDebug v => [(v, SDebug)]
  | WriteVerbose v => [(v, SVerbose)] | WriteWarning v => [(v, SWarning)] | WriteProgress a _ _ => [(VRef a, SProgress)]
  | WriteInformation v => [(v, SInformation)] | Send => []
  end.
(** The values written before each Send and since the one before; [q] is what is waiting at the start. *)
Fixpoint batches (q : list (value * stream)) (cs : list call) : list (list (value * stream)) :=
  match cs with
  | [] => []
  | Send :: t => q :: batches [] t
  | c :: t => batches (q ++ written c) t
  end.
Definition nonempty {A} (l : list A) : bool := match l with [] => false | _ => true end.
(** A document for a batch, from some state of the caller's objects. *)
Definition document (fuel : nat) (b : list (value * stream)) (d : list N) : Prop :=
  exists h st, serialize_clixml fuel h (map (fun i => (fst i, Some (snd i))) b) = Ok (d, st).
(** The marker line once and first, the documents in order, one line end between two. *)
Definition framed (docs : list (list N)) : list N :=
  match docs with [] => [] | d :: ds => tx "#< CLIXML" ++ [10]%N ++ d ++ flat_map (fun d => 10%N :: d) ds end.

(** The values of one stream, in order. *)
Fixpoint select (s : stream) (l : list (value * stream)) : list value :=
  match l with
  | [] => []
  | (v, t) :: r => match s, t with
                   | SOutput, SOutput | SError, SError | SDebug, SDebug | SVerbose, SVerbose | SWarning, SWarning
                   | SProgress, SProgress | SInformation, SInformation => v :: select s r
                   | _, _ => select s r
                   end
  end.
(** An entry made from a value like [v]: the value itself, or a record with its text. *)
Definition kept (R : N -> N -> Prop) (h : heap) (v : value) (e : entry) : Prop :=
  exists v', same_value R v v' /\ e = Kept h v'.
Definition message (R : N -> N -> Prop) (h : heap) (v : value) (e : entry) : Prop :=
  exists v', same_value R v v' /\ e = Message h v'.
Definition error_entry (is_error : heap -> value -> bool) (R : N -> N -> Prop) (h : heap) (v : value) (e : entry) : Prop :=
  exists v', same_value R v v' /\ e = (if is_error h v' then Kept h v' else ErrorText h v').
(** The record of a progress value: its note property. *)
Definition progress_of (h : heap) (v r : value) : Prop :=
  exists a o, v = VRef a /\ aget a h = Some o /\ g_body o = BPlain /\ ~ In (tx "Record") (map fst (g_adapted o))
    /\ NoDup (map fst (g_extended o)) /\ In (tx "Record", r) (g_extended o).
Definition progress_entry (R : N -> N -> Prop) (g h : heap) (v : value) (e : entry) : Prop :=
  exists r r', progress_of g v r /\ same_value R r r' /\ e = Kept h r'.
