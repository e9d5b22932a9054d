(** What a pipeline built call by call has to hold.  A history is read with the newest call first; nothing here keeps a
    store: what a command or a pipeline holds is told from the calls that were made. *)
From Verif Require Import Base Model_Scalars Model_Command Model_Builder Spec_Command.

Section History.
  Context {V : Type} (vtrue : V).
  Notation history := (list (op V)).
  (** The commands that were made, oldest first. *)
  Fixpoint creations (h : history) : list (list N * bool * option bool) :=
    match h with
    | [] => []
    | o :: past =>
      creations past ++
      match o with
      | CNew t s l => [(t, s, l)] | PCommand _ t l => [(t, false, l)] | PScript _ t l => [(t, true, l)] | _ => []
      end
    end.
  (** The commands added to a pipeline, by when they were made. *)
  Fixpoint added (h : history) (p : nat) : list nat :=
    match h with
    | [] => []
    | o :: past =>
      added past p ++
      match o with
      | PCommand q _ _ | PScript q _ _ => if q =? p then [length (creations past)] else []
      | PObject q a None => if q =? p then [a] else []
      | _ => []
      end
    end.
  (** What can be done to a command. *)
  Inductive change := Given (n : option (list N)) (v : V) | Sent (x : call) | Ended (b : bool) | Claimed (b : bool).
  Definition stream_of (m : method) : stream :=
    match m with MError => SError | MWarning => SWarning | MVerbose => SVerbose | MDebug => SDebug | MInformation => SInformation end.
  Definition valued (v : option V) : V := match v with Some x => x | None => vtrue end.
  Definition changes (o : op V) : list change :=
    match o with
    | CParameter _ n v | PParameter _ n v => [Given n (valued v)]
    | CArgument _ v | PArgument _ v => [Given None v]
    | CParameters _ l | PParameters _ l => map (fun x => Given (Some (fst x)) (snd x)) l
    | CRedirect _ m t => [Sent (One (stream_of m) t)]
    | CRedirectAll _ t => [Sent (All t)]
    | CEnd _ b => [Ended b]
    | CUnclaimed _ b => [Claimed b]
    | PStatement _ => [Ended true]
    | _ => []
    end.
  (** The command a call is about: its own, or the newest of the pipeline. *)
  Definition about (past : history) (o : op V) (a : nat) : Prop :=
    match o with
    | CParameter b _ _ | CArgument b _ | CParameters b _ | CRedirect b _ _ | CRedirectAll b _ | CEnd b _ | CUnclaimed b _ => b = a
    | PParameter p _ _ | PArgument p _ | PParameters p _ | PStatement p => exists l, added past p = l ++ [a]
    | _ => False
    end.
  (** [story h a cs]: [cs] is everything done to command [a], in order. *)
  Inductive story : history -> nat -> list change -> Prop :=
  | story_none a : story [] a []
  | story_this o past a cs : story past a cs -> about past o a -> story (o :: past) a (cs ++ changes o)
  | story_other o past a cs : story past a cs -> ~ about past o a -> story (o :: past) a cs.
  (** The command such a story makes. *)
  Definition given (cs : list change) : list (option (list N) * V) :=
    flat_map (fun x => match x with Given n v => [(n, v)] | _ => [] end) cs.
  Definition sent (cs : list change) : list call := flat_map (fun x => match x with Sent x => [x] | _ => [] end) cs.
  Definition finally (f : change -> option bool) (cs : list change) (b : bool) : Prop :=
    (exists x, last_of (fun x => f x <> None) cs x /\ f x = Some b) \/ (Forall (fun x => f x = None) cs /\ b = false).
  Definition ended (x : change) : option bool := match x with Ended b => Some b | _ => None end.
  Definition claimed (x : change) : option bool := match x with Claimed b => Some b | _ => None end.
  Definition made_by (w : list N * bool * option bool) (cs : list change) (c : command V) : Prop :=
    c_text c = fst (fst w) /\ c_script c = snd (fst w) /\ c_local c = snd w
    /\ c_params c = given cs /\ finally ended cs (c_eos c) /\ finally claimed cs (c_unclaimed c)
    /\ (forall s, goes_to s (sent cs) (setting s c))
    /\ (let e := fold_left do_call (sent cs) (@new_command V [] false None) in c_my c = c_my e /\ c_to c = c_to e).
  (** Only commands that were made are spoken to: no Python program can do otherwise. *)
  Definition speaks_of (o : op V) : option nat :=
    match o with
    | CParameter b _ _ | CArgument b _ | CParameters b _ | CRedirect b _ _ | CRedirectAll b _ | CEnd b _ | CUnclaimed b _
    | PObject _ b _ => Some b
    | _ => None
    end.
  Fixpoint program (h : history) : Prop :=
    match h with
    | [] => True
    | o :: past => program past /\ (forall a, speaks_of o = Some a -> a < length (creations past))
    end.
  (** The pipelines a call is made on. *)
  Definition on_pipeline (o : op V) : option nat :=
    match o with
    | PCommand p _ _ | PObject p _ _ | PScript p _ _ | PParameter p _ _ | PArgument p _ | PParameters p _ | PStatement p => Some p
    | _ => None
    end.
End History.

(** A pipeline written in the usual way: one command after the other, each followed by its parameters and possibly the end
    of the statement. *)
Record block V := mkBlock {
  k_text : list N; k_script : bool; k_local : option bool; k_params : list (option (list N) * V); k_ends : nat }.
Arguments mkBlock {V}. Arguments k_text {V}. Arguments k_script {V}. Arguments k_local {V}. Arguments k_params {V}. Arguments k_ends {V}.
Definition written {V} (p : nat) (k : block V) : list (op V) :=
  (if k_script k then PScript p (k_text k) (k_local k) else PCommand p (k_text k) (k_local k))
  :: map (fun x => PParameter p (fst x) (Some (snd x))) (k_params k) ++ repeat (PStatement p) (k_ends k).
Definition plain {V} (k : block V) (c : command V) : Prop :=
  c = mkCmd (k_text k) (k_script k) (k_local k) (k_params k) (0 <? k_ends k) false 0 0 0 0 0 0 0%N.

(** The calls that are refused, and how. *)
Inductive refused {V} : list (op V) -> op V -> err -> Prop :=
| refused_scope h p a b : refused h (PObject p a (Some b)) TypeError
| refused_parameter h p n v : added h p = [] -> refused h (PParameter p n v) ValueError
| refused_argument h p v : added h p = [] -> refused h (PArgument p v) ValueError
| refused_parameters h p l : added h p = [] -> l <> [] -> refused h (PParameters p l) ValueError
| refused_target h a m t : ~ target_ok t -> refused h (CRedirect a m t) ValueError
| refused_target_all h a t : ~ target_ok t -> refused h (CRedirectAll a t) ValueError.
(** What the server has to see of a command, apart from redirections. *)
Definition same_work {V} (c c' : command V) : Prop :=
  c_text c' = c_text c /\ c_script c' = c_script c /\ c_local c' = c_local c /\ c_params c' = c_params c
  /\ c_unclaimed c' = c_unclaimed c.
(** A caller that only passes names and scripts, never Command objects. *)
Definition texts_only {V} (h : list (op V)) : Prop := Forall (fun o => match o with PObject _ _ _ => False | _ => True end) h.
