(** The PSRP wire formats: src/psrpcore/_payload.py. *)
From Verif Require Import Base.

(** PSRPMessageType values: types/_psrp.py:53-83. *)
Definition message_types : list N :=
  [ 0x00010002; 0x00010004; 0x00010005; 0x00010006; 0x00010007; 0x00010008;
    0x00021002; 0x00021003; 0x00021004; 0x00021005; 0x00021006; 0x00021007; 0x00021008;
    0x00021009; 0x0002100A; 0x0002100B; 0x0002100C; 0x00021100; 0x00021101;
    0x00041002; 0x00041003; 0x00041004; 0x00041005; 0x00041006; 0x00041007; 0x00041008;
    0x00041009; 0x00041010; 0x00041011; 0x00041100; 0x00041101 ]%N.
(** [PSRPMessageType(value)] succeeds exactly for these (enum lookup, _payload.py:255). *)
Definition known_type (t : N) : bool := existsb (N.eqb t) message_types.

(** uuid.UUID as its 128-bit integer.  [UUID.bytes] is the 16-byte big-endian form (CPython uuid.py). *)
Definition uuid_bytes (u : N) : list N := be_bytes 16 u.
(** The permutation [bytes[4-1::-1] + bytes[6-1:4-1:-1] + bytes[8-1:6-1:-1] + bytes[8:]] of CPython uuid.py. *)
Definition guid_swap (b : list N) : list N :=
  rev (slice 0 4 b) ++ rev (slice 4 6 b) ++ rev (slice 6 8 b) ++ skipn 8 b.
(** [UUID.bytes_le], used by create_message, _payload.py:191-192. *)
Definition uuid_bytes_le (u : N) : list N := guid_swap (uuid_bytes u).
(** [uuid.UUID(bytes_le=b)], used by unpack_message, _payload.py:256-257: 16 bytes or ValueError. *)
Definition uuid_of_bytes_le (b : list N) : result N :=
  if Nat.eqb (length b) 16 then Ok (be_val (guid_swap b)) else Err ValueError.

(** class Fragment, _payload.py:15-22. *)
Record Fragment := mkFragment {
  f_oid : N; f_fid : N; f_start : bool; f_end : bool; f_data : list N }.
(** class Message, _payload.py:25-32. *)
Record Message := mkMessage {
  m_dest : N; m_type : N; m_rpid : N; m_pid : option N; m_data : list N }.

(** create_message, _payload.py:160-195.  [struct.pack("<i", destination)] of 1 or 2 has the same bytes as "<I".
    The type argument is an enum member, so its value always fits "<I". *)
Definition create_message (client : bool) (mt : N) (data : list N) (rpid : N) (pid : option N) : list N :=
  le_bytes 4 (if client then 2 else 1) ++ le_bytes 4 mt ++ uuid_bytes_le rpid
  ++ uuid_bytes_le (match pid with Some p => p | None => 0%N end) ++ data.

(** create_fragment, _payload.py:198-238. *)
Definition create_fragment (oid fid : N) (data : list N) (end_ : bool) : result (list N) :=
  let flags := ((if (fid =? 0)%N then 1 else 0) + (if end_ then 2 else 0))%N in
  let! b_oid := pack_be 8 oid in
  let! b_fid := pack_be 8 fid in
  let! b_flags := pack_be 1 flags in
  let! b_len := pack_be 4 (N.of_nat (length data)) in
  Ok (b_oid ++ b_fid ++ b_flags ++ b_len ++ data).

(** [data.startswith(b"\xEF\xBB\xBF")] / strip, _payload.py:262-264. *)
Definition strip_bom (data : list N) : list N :=
  match data with
  | b0 :: b1 :: b2 :: t => if ((b0 =? 0xEF) && (b1 =? 0xBB) && (b2 =? 0xBF))%N then t else data
  | _ => data
  end.

(** unpack_message, _payload.py:241-266. *)
Definition unpack_message (data : list N) : result Message :=
  let! dest := unpack_le 4 (slice 0 4 data) in
  let! mt := unpack_le 4 (slice 4 8 data) in
  if negb (known_type mt) then Err ValueError else
  let! rpid := uuid_of_bytes_le (slice 8 24 data) in
  let! pid := uuid_of_bytes_le (slice 24 40 data) in
  let pid' := if (pid =? 0)%N then None else Some pid in
  Ok (mkMessage dest mt rpid pid' (strip_bom (skipn 40 data))).

(** unpack_fragment, _payload.py:269-289.  [data[21:length+21]] may be shorter than [length]. The slice bound is
    an N because the length field may be up to 2^32-1. *)
Definition unpack_fragment (data : list N) : result Fragment :=
  let! oid := unpack_be 8 (slice 0 8 data) in
  let! fid := unpack_be 8 (slice 8 16 data) in
  let! fl := unpack_be 1 (slice 16 17 data) in
  let! len := unpack_be 4 (slice 17 21 data) in
  let body := skipn 21 data in
  let taken := if (N.of_nat (length body) <=? len)%N then body else firstn (N.to_nat len) body in
  Ok (mkFragment oid fid (N.testbit fl 0) (N.testbit fl 1) taken).
