(** Independent vocabulary for the wire and transport properties: what the bytes on the wire mean and what a
    history of queueing, sending and receiving is.  Nothing here is used by the model files. *)
From Verif Require Import Base Model_Payload Model_Transport.

(** MS-PSRP 2.2.4 layout of one fragment: object id, fragment id (8 bytes each, big endian), flags, length, blob. *)
Definition frag_bytes (oid fid : N) (data : list N) (end_ : bool) : list N :=
  be_bytes 8 oid ++ be_bytes 8 fid
  ++ be_bytes 1 ((if (fid =? 0)%N then 1 else 0) + (if end_ then 2 else 0))
  ++ be_bytes 4 (N.of_nat (length data)) ++ data.

(** The bytes of a list of fragments laid out one after the other. *)
Definition wire (fs : list Fragment) : list N :=
  flat_map (fun f => frag_bytes (f_oid f) (f_fid f) (f_data f) (f_end f)) fs.

(** A fragment the wire format can carry. *)
Definition frag_fits (f : Fragment) : Prop :=
  (f_oid f < 2 ^ 64)%N /\ (f_fid f < 2 ^ 64)%N /\ (N.of_nat (length (f_data f)) < 2 ^ 32)%N
  /\ f_start f = (f_fid f =? 0)%N.

(** The fragments of one object in a list of fragments. *)
Definition frags_of (oid : N) (fs : list Fragment) : list Fragment :=
  filter (fun f => (f_oid f =? oid)%N) fs.

(** [fs] is a correctly numbered beginning of the transmission of an object: ids 0,1,2,.. ; start on the first
    only; end on the last only, and only if [complete]. *)
Definition numbered (fs : list Fragment) (complete : bool) : Prop :=
  map f_fid fs = map N.of_nat (seq 0 (length fs))
  /\ map f_start fs = map (fun i => Nat.eqb i 0) (seq 0 (length fs))
  /\ map f_end fs = map (fun i => Nat.eqb (S i) (length fs) && complete) (seq 0 (length fs)).

(** Bytes still waiting in a send queue. *)
Definition pending (q : list QMsg) : nat := list_sum (map (fun m => length (q_data m)) q).

(** ** Sender histories *)
Inductive sop :=
| SQueue (bytes : list N) (pid : option N) (st : stream)
| SSend (amount : option Z).

(** One queued message as the caller sees it. *)
Record item := mkItem { i_oid : N; i_bytes : list N; i_pid : option N; i_stream : stream }.

Record shist := mkH {
  h_s : Sender;
  h_items : list item;               (* messages queued, in order *)
  h_out : list Payload;              (* payloads produced, in order *)
  h_errs : list err }.

Definition shist_init : shist := mkH sender_init [] [] [].

Definition sstep (h : shist) (o : sop) : shist :=
  match o with
  | SQueue b p t =>
    mkH (enqueue (h_s h) b p t) (h_items h ++ [mkItem (s_next (h_s h)) b p t]) (h_out h) (h_errs h)
  | SSend a =>
    match data_to_send (h_s h) a with
    | (s', Ok None) => mkH s' (h_items h) (h_out h) (h_errs h)
    | (s', Ok (Some p)) => mkH s' (h_items h) (h_out h ++ [p]) (h_errs h)
    | (s', Err e) => mkH s' (h_items h) (h_out h) (h_errs h ++ [e])
    end
  end.
Definition srun (ops : list sop) : shist := fold_left sstep ops shist_init.

(** What the format can carry: a message of at least one byte (every real one has 40) and below 4 GiB, an amount
    that is absent or at least 22. *)
Definition sop_ok (o : sop) : Prop :=
  match o with
  | SQueue b _ _ => (0 < N.of_nat (length b) < 2 ^ 32)%N
  | SSend (Some a) => (22 <= a)%Z
  | SSend None => True
  end.

(** ** Connection histories: one sender, one receiver, payloads carried in order *)
(** [c_rpid] is the id of the pool at the time of queueing: a server's first message still has the empty one. *)
Record cmsg := mkCM { c_type : N; c_data : list N; c_rpid : N; c_pid : option N; c_stream : stream }.

Inductive cop :=
| CQueue (m : cmsg)            (* sender.prepare_message *)
| CSend (amount : option Z)    (* sender.data_to_send, the payload goes on the wire *)
| CDeliver                     (* the oldest payload on the wire is given to receive_data *)
| CNext.                       (* receiver.next_event *)

Record conn := mkC {
  cn_s : Sender; cn_wire : list Payload; cn_r : Receiver;
  cn_sent : list cmsg;                (* everything queued, in order *)
  cn_got : list RMsg;                 (* everything next_event produced, in order *)
  cn_errs : list err }.
Definition conn_init : conn := mkC sender_init [] receiver_init [] [] [].

Definition cstep (client : bool) (c : conn) (o : cop) : conn :=
  match o with
  | CQueue m =>
    mkC (enqueue (cn_s c) (create_message client (c_type m) (c_data m) (c_rpid m) (c_pid m)) (c_pid m) (c_stream m))
        (cn_wire c) (cn_r c) (cn_sent c ++ [m]) (cn_got c) (cn_errs c)
  | CSend a =>
    match data_to_send (cn_s c) a with
    | (s', Ok (Some p)) => mkC s' (cn_wire c ++ [p]) (cn_r c) (cn_sent c) (cn_got c) (cn_errs c)
    | (s', Ok None) => mkC s' (cn_wire c) (cn_r c) (cn_sent c) (cn_got c) (cn_errs c)
    | (s', Err e) => mkC s' (cn_wire c) (cn_r c) (cn_sent c) (cn_got c) (cn_errs c ++ [e])
    end
  | CDeliver =>
    match cn_wire c with
    | [] => c
    | p :: t => mkC (cn_s c) t (receive_data (cn_r c) (p_data p)) (cn_sent c) (cn_got c) (cn_errs c)
    end
  | CNext =>
    match next_message (cn_r c) with
    | (r', Ok None) => mkC (cn_s c) (cn_wire c) r' (cn_sent c) (cn_got c) (cn_errs c)
    | (r', Ok (Some (_, m))) => mkC (cn_s c) (cn_wire c) r' (cn_sent c) (cn_got c ++ [m]) (cn_errs c)
    | (r', Err e) => mkC (cn_s c) (cn_wire c) r' (cn_sent c) (cn_got c) (cn_errs c ++ [e])
    end
  end.
Definition crun (client : bool) (ops : list cop) : conn := fold_left (cstep client) ops conn_init.

(** A message prepare_message can produce: known type, 128-bit pool id, 128-bit pipeline id, below 4 GiB. *)
Definition cop_ok (o : cop) : Prop :=
  match o with
  | CQueue m => known_type (c_type m) = true /\ (c_rpid m < 2 ^ 128)%N
                /\ match c_pid m with Some p => (p < 2 ^ 128)%N | None => True end
                /\ (N.of_nat (length (c_data m)) < 2 ^ 32 - 40)%N
  | CSend (Some a) => (22 <= a)%Z
  | _ => True
  end.

(** What the receiver should see for a queued message: the documented normalisation drops one leading UTF-8
    byte order mark, and the empty id stands for no pipeline. *)
Definition without_bom (d : list N) : list N :=
  if list_eqb N.eqb (firstn 3 d) [0xEF; 0xBB; 0xBF]%N then skipn 3 d else d.
Definition expected (m : cmsg) : RMsg :=
  mkR (c_type m) (without_bom (c_data m)) (c_rpid m) (match c_pid m with Some 0%N => None | p => p end).

(** Repeating next_event until it has nothing more to report. *)
Fixpoint drain (fuel : nat) (r : Receiver) : Receiver * list RMsg * result unit :=
  match fuel with
  | O => (r, [], Err OutOfFuel)
  | S k =>
    match next_message r with
    | (r', Err e) => (r', [], Err e)
    | (r', Ok None) => (r', [], Ok tt)
    | (r', Ok (Some (_, m))) => let '(r2, l, x) := drain k r' in (r2, m :: l, x)
    end
  end.

(** ** Receiver-only histories: fragments arriving in any interleaving *)
Inductive rop :=
| RFeed (fs : list Fragment)     (* a payload made of whole fragments is given to receive_data *)
| RNext.                         (* next_event *)
Record rhist := mkRH { rh_r : Receiver; rh_fed : list Fragment; rh_got : list (N * RMsg); rh_errs : list err }.
Definition rhist_init : rhist := mkRH receiver_init [] [] [].
Definition rstep (h : rhist) (o : rop) : rhist :=
  match o with
  | RFeed fs => mkRH (receive_data (rh_r h) (wire fs)) (rh_fed h ++ fs) (rh_got h) (rh_errs h)
  | RNext =>
    match next_message (rh_r h) with
    | (r', Ok None) => mkRH r' (rh_fed h) (rh_got h) (rh_errs h)
    | (r', Ok (Some x)) => mkRH r' (rh_fed h) (rh_got h ++ [x]) (rh_errs h)
    | (r', Err e) => mkRH r' (rh_fed h) (rh_got h) (rh_errs h ++ [e])
    end
  end.
Definition rrun (ops : list rop) : rhist := fold_left rstep ops rhist_init.

(** All fragments fed by a history, in arrival order. *)
Definition fed (ops : list rop) : list Fragment :=
  flat_map (fun o => match o with RFeed fs => fs | RNext => [] end) ops.

(** A fragment sequence in which every object on its own arrives in sequence (objects may interleave freely), and
    every finished object is a readable message. *)
Definition well_sequenced (fs : list Fragment) : Prop :=
  Forall frag_fits fs /\
  forall oid, exists complete, numbered (frags_of oid fs) complete
    /\ (complete = true -> frags_of oid fs <> [] -> is_ok (unpack_message (concat (map f_data (frags_of oid fs)))) = true).

(** What a finished object reads as. *)
Definition object_message (fs : list Fragment) (oid : N) : option (N * RMsg) :=
  match unpack_message (concat (map f_data (frags_of oid fs))) with
  | Ok m => Some (oid, rmsg_of m)
  | Err _ => None
  end.
(** Object ids in the order in which their last fragments arrived. *)
Definition finished (fs : list Fragment) : list N := map f_oid (filter f_end fs).

Definition prefix {A} (a b : list A) : Prop := exists c, b = a ++ c.

(** ** Byte-level receiver histories: payload bytes handed over in arbitrary pieces *)
Inductive bop :=
| BFeed (bytes : list N)         (* receive_data *)
| BNext.                         (* next_event *)
Record bhist := mkBH { bh_r : Receiver; bh_got : list (N * RMsg); bh_errs : list err }.
Definition bhist_init : bhist := mkBH receiver_init [] [].
Definition bstep (h : bhist) (o : bop) : bhist :=
  match o with
  | BFeed b => mkBH (receive_data (bh_r h) b) (bh_got h) (bh_errs h)
  | BNext =>
    match next_message (bh_r h) with
    | (r', Ok None) => mkBH r' (bh_got h) (bh_errs h)
    | (r', Ok (Some x)) => mkBH r' (bh_got h ++ [x]) (bh_errs h)
    | (r', Err e) => mkBH r' (bh_got h) (bh_errs h ++ [e])
    end
  end.
Definition brun (ops : list bop) : bhist := fold_left bstep ops bhist_init.
Definition bytes_fed (ops : list bop) : list N :=
  flat_map (fun o => match o with BFeed b => b | BNext => [] end) ops.

(** [b] is the wire form of a beginning of [fs] followed by less than one fragment header. *)
Definition ends_in_header (fs : list Fragment) (b : list N) : Prop :=
  exists F F' h, fs = F ++ F' /\ b = wire F ++ h /\ length h < 21.

(** ** Wire layout of a message (MS-PSRP 2.2.1) and the message types (MS-PSRP 2.2.1, plus none) *)
Definition guid_layout (u : N) : list N :=
  le_bytes 4 (u / 2 ^ 96) ++ le_bytes 2 ((u / 2 ^ 80) mod 2 ^ 16) ++ le_bytes 2 ((u / 2 ^ 64) mod 2 ^ 16)
  ++ be_bytes 8 (u mod 2 ^ 64).
Definition message_layout (dest mt : N) (rpid pid : N) (data : list N) : list N :=
  le_bytes 4 dest ++ le_bytes 4 mt ++ guid_layout rpid ++ guid_layout pid ++ data.
Definition psrp_types : list N :=
  [ 0x00010002; 0x00010004; 0x00010005; 0x00010006; 0x00010007; 0x00010008; 0x00021002; 0x00021003; 0x00021004;
    0x00021005; 0x00021006; 0x00021007; 0x00021008; 0x00021009; 0x0002100A; 0x0002100B; 0x0002100C; 0x00021100;
    0x00021101; 0x00041002; 0x00041003; 0x00041004; 0x00041005; 0x00041006; 0x00041007; 0x00041008; 0x00041009;
    0x00041010; 0x00041011; 0x00041100; 0x00041101 ]%N.

(** What the receiver has collected for an object. *)
Definition collected (r : Receiver) (oid : N) : list (list N) :=
  match aget oid (rx_frags r) with Some l => l | None => [] end.

(** [m] was completed by an end fragment found in [buf]. *)
Definition completed_in (buf : list N) (oid : N) (m : RMsg) : Prop :=
  exists pre post f data x,
    buf = pre ++ post /\ unpack_fragment post = Ok f /\ f_end f = true /\ f_oid f = oid
    /\ unpack_message (data ++ f_data f) = Ok x /\ m = rmsg_of x.

(** The fragments of an object that is not finished yet. *)
Definition in_progress (fs : list Fragment) (oid : N) : list Fragment :=
  if existsb f_end (frags_of oid fs) then [] else frags_of oid fs.
