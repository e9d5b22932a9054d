(** What commands and redirections have to satisfy. *)
From Verif Require Import Base Model_Scalars Model_Command.

(** The same command, now ending its statement. *)
Definition ends_here {V} (c c' : command V) : Prop :=
  c_eos c' = true /\ c_text c' = c_text c /\ c_script c' = c_script c /\ c_local c' = c_local c /\ c_params c' = c_params c
  /\ c_unclaimed c' = c_unclaimed c /\ c_my c' = c_my c /\ c_to c' = c_to c /\ c_err c' = c_err c /\ c_warn c' = c_warn c
  /\ c_verb c' = c_verb c /\ c_dbg c' = c_dbg c /\ c_info c' = c_info c.
(** What a peer of a given version sees of a command: a stream it does not know counts as not redirected. *)
Definition seen_by {V} (pv : version) (c : command V) : command V :=
  let keep (b : bool) (x : N) := if b then x else 0%N in
  mkCmd (c_text c) (c_script c) (c_local c) (c_params c) (c_eos c) (c_unclaimed c) (c_my c) (c_to c)
    (keep (version_ge pv pv22) (c_err c)) (keep (version_ge pv pv22) (c_warn c)) (keep (version_ge pv pv22) (c_verb c))
    (keep (version_ge pv pv22) (c_dbg c)) (keep (version_ge pv pv23) (c_info c)).

(** Redirect calls on one command. *)
Inductive stream := SError | SWarning | SVerbose | SDebug | SInformation.
Inductive call := One (s : stream) (target : N) | All (target : N).
Definition do_call {V} (c : command V) (x : call) : command V :=
  match (match x with
         | One SError t => redirect_error c t
         | One SWarning t => redirect_warning c t
         | One SVerbose t => redirect_verbose c t
         | One SDebug t => redirect_debug c t
         | One SInformation t => redirect_information c t
         | All t => redirect_all c t
         end) with Ok c' => c' | Err _ => c end.
Definition target_ok (t : N) : Prop := t = 0%N \/ t = 1%N \/ t = 8%N.
Definition target (x : call) : N := match x with One _ t => t | All t => t end.
Definition concerns (s : stream) (x : call) : Prop := match x with One s' _ => s' = s | All _ => True end.
(** [last_of P l x]: [x] is the last element of [l] with [P]. *)
Definition last_of {X} (P : X -> Prop) (l : list X) (x : X) : Prop :=
  exists a b, l = a ++ x :: b /\ P x /\ Forall (fun y => ~ P y) b.
Definition accepted (s : stream) (x : call) : Prop := concerns s x /\ target_ok (target x).
(** Where a stream goes after some calls: the target of the last accepted call about it. *)
Definition goes_to (s : stream) (xs : list call) (t : N) : Prop :=
  (exists x, last_of (accepted s) xs x /\ target x = t) \/ (Forall (fun x => ~ accepted s x) xs /\ t = 0%N).
Definition setting {V} (s : stream) (c : command V) : N :=
  match s with SError => c_err c | SWarning => c_warn c | SVerbose => c_verb c | SDebug => c_dbg c | SInformation => c_info c end.
(** The oldest protocol that has a field for each stream. *)
Definition carried (pv : version) (s : stream) : Prop :=
  match s with SInformation => version_ge pv pv23 = true | _ => version_ge pv pv22 = true end.
(** Commands as a caller makes them: constructor, parameters, redirections. *)
Inductive built {V} : command V -> Prop :=
| built_new text script local : built (new_command text script local)
| built_parameter c n v : built c -> built (add_parameter c n v)
| built_redirected c x : built c -> built (do_call c x).
