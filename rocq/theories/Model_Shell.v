(** ClixmlShell, ClixmlOutput and LocalCryptoProvider, src/psrpcore/_clixml_shell.py.  The Windows-only DPAPI calls are
    not modelled: crypt_protect_data is None. *)
From Coq Require Import String.
From Verif Require Import Base Model_Scalars Model_Strings Model_Text Model_Crypto Model_Object Model_Clixml Model_Xml.
Local Open Scope list_scope.

(** ** LocalCryptoProvider, lines 121-143 *)
(** base64.b16encode *)
Definition b16_encode (l : list N) : list N := flat_map (fun b => [hexdig (b / 16); hexdig (b mod 16)]) l.
(** str.upper(), ASCII letters only, then base64.b16decode: pairs of 0-9A-F. *)
Definition upper (s : list N) : list N := map (fun c => if (97 <=? c)%N && (c <=? 122)%N then (c - 32)%N else c) s.
Definition upper_hex (c : N) : option N :=
  if (48 <=? c)%N && (c <=? 57)%N then Some (c - 48)%N
  else if (65 <=? c)%N && (c <=? 70)%N then Some (c - 55)%N else None.
Fixpoint b16_decode (s : list N) : result (list N) :=
  match s with
  | [] => Ok []
  | a :: r => match r with
              | b :: t => match upper_hex a, upper_hex b with
                          | Some x, Some y => let! l := b16_decode t in Ok ((x * 16 + y)%N :: l)
                          | _, _ => Err ValueError
                          end
              | [] => Err ValueError
              end
  end.
Definition local_encrypt (s : list N) : list N := b16_encode (utf16le_encode s).
Definition local_decrypt (s : list N) : result (list N) := let! b := b16_decode (upper s) in utf16le_decode b.

(** ** ClixmlShell, lines 262-443 *)
(** The heap belongs to the caller; [sh_items] and [sh_marked] are _stdout and _written_marker. *)
Record shell := mkShell { sh_heap : heap; sh_items : list (value * stream); sh_marked : bool }.
(** __init__, lines 306-309 *)
Definition new_shell (h : heap) : shell := mkShell h [] false.
Inductive call :=
| WriteOutput (v : value) | WriteError (v : value) | WriteDebug (v : value) | WriteVerbose (v : value)
| WriteWarning (v : value) | WriteProgress (a : N) (id : Z) (v : value) | WriteInformation (v : value) | Send.
Definition push (w : shell) (v : value) (s : stream) : shell := mkShell (sh_heap w) (sh_items w ++ [(v, s)]) (sh_marked w).
Definition marker : list N := tx "#< CLIXML" ++ [10]%N.
(** data_to_send, lines 311-332.  A queue that is written is emptied even when a later value cannot be written; that
    change of the caller's heap is left out. *)
Definition data_to_send (fuel : nat) (w : shell) : result (list N) * shell :=
  let prefix := if sh_marked w then [10]%N else marker in
  match sh_items w with
  | [] => (Ok [], mkShell (sh_heap w) [] true)
  | items => match serialize_clixml fuel (sh_heap w) (map (fun i => (fst i, Some (snd i))) items) with
             | Ok (s, st) => (Ok (prefix ++ s), mkShell (s_heap st) [] true)
             | Err e => (Err e, mkShell (sh_heap w) items true)
             end
  end.
(** One call; write_progress (lines 408-427) makes a new object at the unused address [a]. *)
Definition shell_step (fuel : nat) (w : shell) (c : call) : result (list N) * shell :=
  match c with
  | WriteOutput v => (Ok [], push w v SOutput)
  | WriteError v => (Ok [], push w v SError)
  | WriteDebug v => (Ok [], push w v SDebug)
  | WriteVerbose v => (Ok [], push w v SVerbose)
  | WriteWarning v => (Ok [], push w v SWarning)
  | WriteProgress a id v =>
    match new_int TInt64 (AInt id) with
    | Err e => (Err e, w)
    | Ok z => (Ok [], push (mkShell (aset a (mkG BPlain [tx "System.Object"] None []
                                               [(tx "SourceId", VPrim (PInt TInt64 z)); (tx "Record", v)]) (sh_heap w))
                                    (sh_items w) (sh_marked w)) (VRef a) SProgress)
    end
  | WriteInformation v => (Ok [], push w v SInformation)
  | Send => data_to_send fuel w
  end.
Fixpoint shell_run (fuel : nat) (w : shell) (cs : list call) : list (result (list N)) * shell :=
  match cs with
  | [] => ([], w)
  | c :: t => let (r, w1) := shell_step fuel w c in let (rs, w2) := shell_run fuel w1 t in (r :: rs, w2)
  end.

(** ** ClixmlOutput, lines 147-259 *)
(** What is kept of a value: itself, an ErrorRecord made from its str(), or a message record made from its str(). *)
Inductive entry := Kept (h : heap) (v : value) | ErrorText (h : heap) (v : value) | Message (h : heap) (v : value).
Record outputs := mkOut {
  o_output : list entry; o_error : list entry; o_debug : list entry; o_verbose : list entry; o_warning : list entry;
  o_progress : list entry; o_information : list entry }.
Definition no_output : outputs := mkOut [] [] [] [] [] [] [].
(** obj.Record: extended properties win over adapted ones, later ones over earlier ones (_base.py:663-692). *)
Fixpoint last_prop (n : name) (l : list (name * value)) : option value :=
  match l with
  | [] => None
  | (m, v) :: t => match last_prop n t with Some w => Some w | None => if name_eqb m n then Some v else None end
  end.
Definition get_record (h : heap) (v : value) : result value :=
  match v with
  | VRef a => match aget a h with
              | Some o => match last_prop (tx "Record") (g_adapted o ++ g_extended o) with Some w => Ok w | None => Err AttributeError end
              | None => Err AttributeError
              end
  | _ => Err AttributeError
  end.
Section Output.
  (** isinstance(obj, ErrorRecord). *)
  Variable is_error : heap -> value -> bool.
  (** The loop body, lines 223-257. *)
  Definition add_output (h : heap) (out : outputs) (i : value * stream) : result outputs :=
    let '(mkOut o e d vb w p inf) := out in
    let v := fst i in
    match snd i with
    | SError => Ok (mkOut o (e ++ [if is_error h v then Kept h v else ErrorText h v]) d vb w p inf)
    | SDebug => Ok (mkOut o e (d ++ [Message h v]) vb w p inf)
    | SVerbose => Ok (mkOut o e d (vb ++ [Message h v]) w p inf)
    | SWarning => Ok (mkOut o e d vb (w ++ [Message h v]) p inf)
    | SProgress => let! r := get_record h v in Ok (mkOut o e d vb w (p ++ [Kept h r]) inf)
    | SInformation => Ok (mkOut o e d vb w p (inf ++ [Kept h v]))
    | SOutput => Ok (mkOut (o ++ [Kept h v]) e d vb w p inf)
    end.
  Fixpoint add_outputs (h : heap) (out : outputs) (l : list (value * stream)) : result outputs :=
    match l with [] => Ok out | i :: t => let! out1 := add_output h out i in add_outputs h out1 t end.
  (** from_clixml, lines 195-259; one document is a list of one. *)
  Fixpoint from_texts (reg : registry) (out : outputs) (texts : list (list N)) : result outputs :=
    match texts with
    | [] => Ok out
    | [] :: t => from_texts reg out t
    | s :: t => let! r := deserialize_clixml reg s in
                let! out1 := add_outputs (d_heap (snd r)) out (fst r) in from_texts reg out1 t
    end.
  Definition from_clixml (reg : registry) (texts : list (list N)) : result outputs := from_texts reg no_output texts.
End Output.
