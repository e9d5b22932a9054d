(** A request for command metadata from its constructor to the bytes and back: src/psrpcore/_pipeline.py:145-204, the client
    around it (_client.py:696-729), the message (types/_psrp.py:470-494) and the event (_events.py:513-535).

    As in Model_Pipeline.v the objects made for the message are placed in the heap beforehand, at addresses from [n] on.  A
    command type given as a number is not modelled (the cast makes the member of it).  Nor is what [PSList] makes of other
    iterables (a dictionary, a queue) and its TypeError for what cannot be iterated. *)
From Coq Require Import String.
From Verif Require Import Base Model_Scalars Model_Object Model_Clixml Model_Xml Model_Messages Model_Pipeline.
Local Open Scope list_scope.

(** An argument: None, a str, a list that is no PSList, or a PSList. *)
Inductive given := GNone | GText (s : list N) | GItems (l : list value) | GKept (a : N).
Record metadata := mkMD { md_name : given; md_type : member; md_namespace : given; md_args : given }.
(** GetMetadata.__init__, _pipeline.py:160-172; ClientGetCommandMetadata.__init__ hands its arguments on, _client.py:713-728. *)
Definition new_metadata (name : given) (type : member) (namespace args : given) : metadata :=
  mkMD (match name with
        | GNone => GItems [VNull]
        | GText s => GItems [VPrim (PStr KString s)]
        | GItems _ | GKept _ => name
        end) type namespace args.
(** What PSPropertyInfo._cast makes of it for a property of type PSList, types/_base.py:361-367: iterating a str gives its
    characters. *)
Definition cast_list (g : given) : tree :=
  match g with
  | GNone => TVal VNull
  | GText s => TList (map (fun c => t_text [c]) s)
  | GItems l => TList (map TVal l)
  | GKept a => TVal (VRef a)
  end.
(** GetMetadata.ToPSObjectForRemoting, _pipeline.py:193-204, and the message with its data. *)
Definition metadata_data (fuel : nat) (h : heap) (n : N) (m : metadata) : result (list N) :=
  let '(n1, k1, name) := place (cast_list (md_name m)) n in
  let '(n2, k2, namespace) := place (cast_list (md_namespace m)) n1 in
  let '(n3, k3, args) := place (cast_list (md_args m)) n2 in
  message_data fuel (h ++ k1 ++ k2 ++ k3) n3 (WGetCommandMetadata name (md_type m) namespace args).

(** The request as the server holds it (_server.py:357-364): the elements of name, and the other properties. *)
Record received := mkRM { rm_name : list value; rm_type : member; rm_namespace : value; rm_args : value }.
(** isinstance(name, list): lists, stacks and enumerables are, types/_collection.py:94,150,238; a queue is not. *)
Definition name_list (h : heap) (v : value) : list value :=
  match items h v with Ok l => l | Err _ => [v] end.
(** GetMetadata.FromPSObjectForRemoting, _pipeline.py:180-191. *)
Definition read_metadata (reg : registry) (data : list N) : result (received * heap) :=
  let! r := read_message reg KGetCommandMetadata data in
  match fst r with
  | WGetCommandMetadata name type namespace args => Ok (mkRM (name_list (snd r) name) type namespace args, snd r)
  | _ => Err TypeError
  end.
