(** The pipeline of a client from its constructor on: ClientPowerShell.__init__ of src/psrpcore/_client.py:543-566 and
    PowerShell.__init__ of _pipeline.py:42-61.  What the calls make of it is Model_Builder.v, what is sent Model_Pipeline.v. *)
From Verif Require Import Base Model_Scalars Model_Object Model_Clixml Model_Command Model_Pipeline.

(** The arguments of the constructor, without the pool and the identifier. *)
Record options := mkOptions {
  o_history_add : bool; o_apartment : option member; o_history : option (list N); o_host : option value; o_nested : bool;
  o_no_input : bool; o_streams : member; o_redirect : bool }.
(** bool(member): members are ints (PSIntegerBase, types/_primitive.py:94, under PSEnumBase, types/_enum.py:74), and no
    class in between has a __bool__. *)
Definition truthy (e : member) : bool := negb (e_val e =? 0)%Z.
(** "apartment_state or runspace_pool.apartment_state", _client.py:558. *)
Definition chosen (pool : member) (asked : option member) : member :=
  match asked with Some e => if truthy e then e else pool | None => pool end.
(** [nobody] is the value HostInfo() is sent as, for "host or HostInfo()", _pipeline.py:56; a HostInfo is never false. *)
Definition client_pipeline (pool : member) (nobody : value) (o : options) (cs : list (command value)) : pipeline :=
  mkPS (o_history_add o) (Some (chosen pool (o_apartment o))) cs (o_history o)
       (match o_host o with Some v => v | None => nobody end) (o_nested o) (o_no_input o) (o_streams o) (o_redirect o).
