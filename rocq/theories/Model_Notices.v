(** User events and information records from the server's call to the bytes and back: send_event (_server.py:120-165) with the
    message UserEvent (types/_psrp.py:394-446) and its event (_events.py:1294-1314); write_information (_server.py:695-762) with
    InformationRecord.create (types/_complex.py:1085-1128), the message (types/_psrp.py:700-737) and its event
    (_events.py:545-570).

    The states and protocol versions these calls ask for are in Model_Pool.v.  Objects made for the message are placed in the
    heap beforehand, as in Model_Pipeline.v.  Sources and identifiers that are no text or number are not modelled, nor what the
    casts make of numbers given as texts.  getpass.getuser's ModuleNotFoundError ("Unknown", lines 1109-1111) is a value of
    [sr_user]. *)
From Coq Require Import String.
From Verif Require Import Base Model_Scalars Model_Object Model_Clixml Model_Xml Model_Messages Model_Pipeline Model_Metadata.
Local Open Scope list_scope.

(** What the calls find out for themselves: PSDateTime.now(), getpass.getuser(), platform.node(), os.getpid(),
    threading.get_native_id(). *)
Record surroundings := mkSR { sr_now : datetime; sr_user : text; sr_node : text; sr_process : Z; sr_thread : Z }.
Definition if_none {A} (x : option A) (d : A) : A := match x with Some a => a | None => d end.
(** bool(argument): None, an empty str and an empty list are false. *)
Definition is_filled (h : heap) (g : given) : bool :=
  match g with
  | GNone | GText [] | GItems [] => false
  | GText _ | GItems _ => true
  | GKept a => match items h (VRef a) with Ok [] => false | _ => true end
  end.

(** ** send_event, _server.py:120-165 *)
Record user_event := mkUE {
  ue_id : Z; ue_source : text; ue_sender : value; ue_args : given; ue_data : value; ue_time : option datetime; ue_computer : option text }.
(** [source_args or []], line 160: the property has no type, so a str stays one. *)
Definition event_args (h : heap) (g : given) : tree :=
  if is_filled h g then match g with GText s => t_text s | _ => cast_list g end else TList [].
(** UserEvent.ToPSObjectForRemoting, types/_psrp.py:429-446, is Model_Messages.message_object. *)
Definition event_data (fuel : nat) (h : heap) (n : N) (pool_id : N) (s : surroundings) (e : user_event) : result (list N) :=
  let '(n1, k, args) := place (event_args h (ue_args e)) n in
  message_data fuel (h ++ k) n1
    (WUserEvent (Some (ue_id e)) (Some (ue_source e)) (Some (if_none (ue_time e) (sr_now s))) (ue_sender e) args (ue_data e)
       (Some (if_none (ue_computer e) (sr_node s))) (Some pool_id)).
(** UserEventEvent.event, _events.py:1311-1314, UserEvent.FromPSObjectForRemoting, types/_psrp.py:411-427. *)
Definition read_event (reg : registry) (data : list N) : result (message * heap) := read_message reg KUserEvent data.

(** ** write_information, _server.py:695-762 *)
Record notice := mkNT {
  nt_data : value; nt_source : text; nt_time : option datetime; nt_tags : given; nt_user : option text; nt_computer : option text;
  nt_process : option Z; nt_native : option Z; nt_managed : option Z }.
(** InformationRecord.create, types/_complex.py:1100-1128: tags that are false become an empty PSList, and the property
    Tags makes a PSList of any other; the message takes that list as it is. *)
Definition notice_tags (h : heap) (g : given) : tree := if is_filled h g then cast_list g else TList [].
Definition notice_data (fuel : nat) (h : heap) (n : N) (s : surroundings) (r : notice) : result (list N) :=
  let '(n1, k, tags) := place (notice_tags h (nt_tags r)) n in
  message_data fuel (h ++ k) n1
    (WInformationRecord (nt_data r) (Some (nt_source r)) (Some (if_none (nt_time r) (sr_now s))) tags
       (Some (if_none (nt_user r) (sr_user s))) (Some (if_none (nt_computer r) (sr_node s)))
       (Some (if_none (nt_process r) (sr_process s))) (Some (if_none (nt_native r) (sr_thread s))) (Some (if_none (nt_managed r) 0%Z))).
(** InformationRecordEvent.record, _events.py:561-570: the properties of the message as they are. *)
Definition read_notice (reg : registry) (data : list N) : result (message * heap) := read_message reg KInformationRecord data.
