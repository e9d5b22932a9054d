(** From the calls of a client to the pipeline of the server (C70).  What the server has to hold is told from the calls that
    were made on the client (Spec_Builder.v), newest first; nothing here builds, places, writes or reads. *)
From Verif Require Import Base Model_Scalars Model_Object Model_Clixml Model_Command Model_Builder Model_Journey.
From Verif Require Import Spec_Strings Spec_Scalars Spec_Clixml Spec_Xml Spec_Command Spec_Messages Spec_Builder Spec_Pipeline.

(** ** Calls inside the claim: texts and values that can be sent (C66) *)
Definition call_sendable (reg : registry) (lx : lexicon) (g : heap) (o : op value) : Prop :=
  match o with
  | CNew t _ _ | PCommand _ t _ | PScript _ t _ => good_str t /\ attr_ok t
  | CParameter _ n v | PParameter _ n v => opt_all can_say n /\ opt_all (can_send reg lx g) v
  | CArgument _ v | PArgument _ v => can_send reg lx g v
  | CParameters _ l | PParameters _ l => Forall (fun x => can_say (fst x) /\ can_send reg lx g (snd x)) l
  | _ => True
  end.
Record options_sendable (reg : registry) (lx : lexicon) (g : heap) (pool : member) (nobody : value) (o : options) : Prop := {
  os_history : opt_all can_say (o_history o);
  os_host : opt_all (can_send reg lx g) (o_host o);
  os_nobody : can_send reg lx g nobody;
  os_pool : can_send reg lx g (VEnum pool);
  os_apartment : opt_all (fun e => can_send reg lx g (VEnum e)) (o_apartment o);
  os_streams : can_send reg lx g (VEnum (o_streams o)) }.

(** ** What the server has to hold *)
(** MergeMyResult and MergeToResult, the only words on redirection before 2.2: Error to Output when the last accepted call
    about errors that does not send them to Null sends them there, otherwise nothing. *)
Definition to_somewhere (x : call) : Prop := accepted SError x /\ Spec_Command.target x <> 8%N.
Definition old_error (xs : list call) (my to : N) : Prop :=
  (exists x, last_of to_somewhere xs x /\ Spec_Command.target x = 1%N /\ my = 2%N /\ to = 1%N)
  \/ ((Forall (fun x => ~ to_somewhere x) xs \/ exists x, last_of to_somewhere xs x /\ Spec_Command.target x = 0%N) /\ my = 0%N /\ to = 0%N).
(** A command that was made as [w] says and had [cs] done to it, as a peer of version [pv] holds it. *)
Definition reached (R : N -> N -> Prop) (pv : version) (w : list N * bool * option bool) (cs : list (change (V := value)))
    (is_last : bool) (c : command value) : Prop :=
  c_text c = fst (fst w) /\ c_script c = snd (fst w) /\ c_local c = snd w
  /\ Forall2 (same_param R) (given cs) (c_params c)
  /\ (if is_last then c_eos c = true else finally ended cs (c_eos c))
  /\ finally claimed cs (c_unclaimed c)
  /\ (forall s, carried pv s -> goes_to s (sent cs) (setting s c))
  /\ (forall s, ~ carried pv s -> setting s c = 0%N)
  /\ old_error (sent cs) (c_my c) (c_to c).
(** Command number [a] of the history, as the server holds it. *)
Definition command_reached (R : N -> N -> Prop) (pv : version) (h : list (op value)) (is_last : bool) (a : nat) (c : command value) : Prop :=
  exists w cs, nth_error (creations h) a = Some w /\ story (VBool true) h a cs /\ reached R pv w cs is_last c.
(** The whole pipeline number [p] of the client; [asked] is the apartment state it is to run in. *)
Definition journey (R : N -> N -> Prop) (pv : version) (h : list (op value)) (p : nat) (asked : member) (nobody : value) (o : options)
    (q : powershell value value member member) : Prop :=
  (exists front last before final, added h p = front ++ [last] /\ ps_commands q = before ++ [final]
     /\ Forall2 (command_reached R pv h false) front before /\ command_reached R pv h true last final)
  /\ ps_history_add q = o_history_add o /\ ps_apartment q = Some asked /\ ps_history q = o_history o
  /\ same_value R (match o_host o with Some v => v | None => nobody end) (ps_host q)
  /\ ps_nested q = o_nested o /\ ps_no_input q = o_no_input o /\ ps_streams q = o_streams o /\ ps_redirect q = o_redirect o.
(** The apartment state the caller means: the one they gave, the pool's when they gave none. *)
Definition meant (pool : member) (o : options) : member := match o_apartment o with Some e => e | None => pool end.
