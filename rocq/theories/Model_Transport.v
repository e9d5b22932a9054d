(** Sending and receiving: RunspacePool.data_to_send, receive_data, next_event and prepare_message of
    src/psrpcore/_base.py, PSRPMessage of src/psrpcore/_payload.py. *)
From Verif Require Import Base Model_Payload.

(** class StreamType, _payload.py:85-94. *)
Inductive stream := SDefault | SPrompt.
Definition stream_eqb (a b : stream) : bool :=
  match a, b with SDefault, SDefault | SPrompt, SPrompt => true | _, _ => false end.

(** class PSRPMessage, _payload.py:97-128: a queued message.  [q_data] is what is still to be sent, [q_fc] the
    fragment counter.  message_type and runspace_pool_id are not read by the sending code and are left out. *)
Record QMsg := mkQ {
  q_oid : N; q_pid : option N; q_stream : stream; q_data : list N; q_fc : N }.

(** PSRPMessage.fragment, _payload.py:138-157. *)
Definition q_fragment (m : QMsg) (len : nat) : Fragment * QMsg :=
  let data := firstn len (q_data m) in
  let rest := skipn len (q_data m) in
  (mkFragment (q_oid m) (q_fc m) (q_fc m =? 0)%N (match rest with [] => true | _ => false end) data,
   mkQ (q_oid m) (q_pid m) (q_stream m) rest (q_fc m + 1)).

(** The sending half of RunspacePool: [_fragment_count] (starts at 1) and [_send_buffer], _base.py:134,139. *)
Record Sender := mkS { s_next : N; s_queue : list QMsg }.
Definition sender_init : Sender := mkS 1 [].

(** The tail of prepare_message, _base.py:401-417: the next object id is taken and the message is appended.
    [bytes] is the result of create_message. *)
Definition enqueue (s : Sender) (bytes : list N) (pid : option N) (st : stream) : Sender :=
  mkS (s_next s + 1) (s_queue s ++ [mkQ (s_next s) pid st bytes 0]).

(** class PSRPPayload, _payload.py:35-42. *)
Record Payload := mkP { p_data : list N; p_stream : stream; p_pid : option N }.

Definition pid_eqb : option N -> option N -> bool := opt_eqb N.eqb.

(** The for loop of data_to_send, _base.py:255-286, from one message on.  [cur], [st] and [pid] are
    current_buffer, stream_type and pipeline_id.  Returns the remaining queue; when create_fragment raises, the
    message that was cut stays in the queue in its cut form. *)
Fixpoint send_loop (msgs : list QMsg) (amount : option Z) (cur : list N) (st : stream) (pid : option N)
  : list QMsg * result (list N * stream * option N) :=
  match msgs with
  | [] => ([], Ok (cur, st, pid))
  | m :: rest =>
    if (match amount with Some a => (a <? 21)%Z | None => false end) then (msgs, Ok (cur, st, pid)) else
    let '(st', pid') := match cur with [] => (q_stream m, q_pid m) | _ => (st, pid) end in
    if negb (pid_eqb pid' (q_pid m)) then (msgs, Ok (cur, st', pid')) else
    let '(allowed, amount') :=
      match amount with
      | None => (length (q_data m), None)
      | Some a => (Z.to_nat (a - 21), Some (a - (21 + Z.of_nat (length (q_data m))))%Z)
      end in
    let '(f, m') := q_fragment m allowed in
    match create_fragment (f_oid f) (f_fid f) (f_data f) (f_end f) with
    | Err e => (m' :: rest, Err e)
    | Ok b =>
      let '(q', r) := send_loop rest amount' (cur ++ b) st' pid' in
      (match q_data m' with [] => q' | _ => m' :: q' end, r)
    end
  end.

(** RunspacePool.data_to_send, _base.py:227-288. *)
Definition data_to_send (s : Sender) (amount : option Z) : Sender * result (option Payload) :=
  if (match amount with Some a => (a <? 22)%Z | None => false end) then (s, Err ValueError) else
  let '(q', r) := send_loop (s_queue s) amount [] SDefault None in
  (mkS (s_next s) q',
   match r with
   | Err e => Err e
   | Ok (cur, st, pid) => Ok (match cur with [] => None | _ => Some (mkP cur st pid) end)
   end).

(** A message built by next_event, _base.py:339-341 (a PSRPMessage made from the unpacked Message; the
    destination is dropped). *)
Record RMsg := mkR { r_type : N; r_data : list N; r_rpid : N; r_pid : option N }.
Definition rmsg_of (m : Message) : RMsg := mkR (m_type m) (m_data m) (m_rpid m) (m_pid m).

(** The receiving half of RunspacePool: _receive_buffer, _incoming_fragments, _incoming_messages,
    _base.py:141-148. *)
Record Receiver := mkRx {
  rx_buf : list N; rx_frags : list (N * list (list N)); rx_msgs : list (N * RMsg) }.
Definition receiver_init : Receiver := mkRx [] [] [].

(** RunspacePool.receive_data, _base.py:290-302. *)
Definition receive_data (r : Receiver) (data : list N) : Receiver :=
  mkRx (rx_buf r ++ data) (rx_frags r) (rx_msgs r).

(** The body of the while loop of next_event after the buffer has been cut, _base.py:330-343. *)
Definition accept_fragment (r : Receiver) (f : Fragment) : Receiver * result unit :=
  let old := match aget (f_oid f) (rx_frags r) with Some b => b | None => [] end in
  let frags := match aget (f_oid f) (rx_frags r) with
               | Some _ => rx_frags r
               | None => aset (f_oid f) [] (rx_frags r)     (* setdefault *)
               end in
  if negb (f_fid f =? N.of_nat (length old))%N then (mkRx (rx_buf r) frags (rx_msgs r), Err PSRPCoreError) else
  let new := old ++ [f_data f] in
  let frags' := aset (f_oid f) new frags in
  if f_end f then
    match unpack_message (concat new) with
    | Err e => (mkRx (rx_buf r) frags' (rx_msgs r), Err e)
    | Ok m => (mkRx (rx_buf r) (adel (f_oid f) frags') (aset (f_oid f) (rmsg_of m) (rx_msgs r)), Ok tt)
    end
  else (mkRx (rx_buf r) frags' (rx_msgs r), Ok tt).

(** The while loop of next_event, _base.py:318-343.  Every turn removes at least 21 bytes, so [length buf] turns
    are enough (theorem); running out of turns is the error value OutOfFuel. *)
Fixpoint pump (fuel : nat) (r : Receiver) : Receiver * result unit :=
  match rx_buf r with
  | [] => (r, Ok tt)
  | _ =>
    match fuel with
    | O => (r, Err OutOfFuel)
    | S k =>
      match unpack_fragment (rx_buf r) with
      | Err e => (r, Err e)
      | Ok f =>
        let r1 := mkRx (skipn (21 + length (f_data f)) (rx_buf r)) (rx_frags r) (rx_msgs r) in
        match accept_fragment r1 f with
        | (r2, Err e) => (r2, Err e)
        | (r2, Ok _) => pump k r2
        end
      end
    end
  end.

(** RunspacePool.next_event, _base.py:304-355, up to the call of _process_message: the message handed to it, with
    its object id.  [None] is "need more data". *)
Definition next_message (r : Receiver) : Receiver * result (option (N * RMsg)) :=
  match pump (length (rx_buf r)) r with
  | (r', Err e) => (r', Err e)
  | (r', Ok _) =>
    match rx_msgs r' with
    | [] => (r', Ok None)
    | x :: t => (mkRx (rx_buf r') (rx_frags r') t, Ok (Some x))
    end
  end.
