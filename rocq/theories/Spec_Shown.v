(** When an element is the CLIXML of a given value (C51): the grammar of Spec_Wire with the value it stands for. *)
From Coq Require Import String.
From Verif Require Import Base Model_Scalars Model_Object Model_Clixml Model_Xml Spec_Clixml Spec_Wire.
Local Open Scope list_scope.

(** Type names: none, all of them, or the number of a list given before. *)
Inductive names_shown : list name -> list node -> Prop :=
| NamesNone : names_shown [] []
| NamesNew i r ns : numeral i r -> ns <> [] ->
    names_shown ns [element "TN" [(chars "RefId", r)] [] (map (fun n => element "T" [] n []) ns)]
| NamesOld i r ns : numeral i r -> ns <> [] -> names_shown ns [element "TNRef" [(chars "RefId", r)] [] []].
Definition string_shown (s : option (list N)) : list node :=
  match s with Some (c :: t) => [element "ToString" [] (c :: t) []] | _ => [] end.
Definition numbered_obj (r : list N) (lab : option (list N)) (kids : list node) : node :=
  element "Obj" ((chars "RefId", r) :: labelled lab) [] kids.
(** [h]: the objects; [lab]: the text of the N attribute.  Which objects are written as Ref, and with what number, is
    C22 and C23. *)
Inductive shows (h : heap) : value -> option (list N) -> node -> Prop :=
| ShowNull lab : shows h VNull lab (element "Nil" (labelled lab) [] [])
| ShowBool lab b : shows h (VBool b) lab (element "B" (labelled lab) (chars (if (b : bool) then "true" else "false")) [])
| ShowPrim lab p s : prim_form p s -> shows h (VPrim p) lab (element (prim_element p) (labelled lab) s [])
| ShowBare lab a o p s : aget a h = Some o -> g_body o = BPrim p -> g_adapted o = [] -> g_extended o = [] -> prim_form p s ->
    shows h (VRef a) lab (element (prim_element p) (labelled lab) s [])
| ShowAgain lab v i r : numeral i r -> (exists a o, v = VRef a /\ aget a h = Some o) \/ (exists e, v = VEnum e) ->
    shows h v lab (element "Ref" ((chars "RefId", r) :: labelled lab) [] [])
| ShowMember lab e i r s tn : numeral i r -> prim_form (PInt (e_type e) (e_val e)) s -> names_shown (e_names e) tn ->
    shows h (VEnum e) lab
      (numbered_obj r lab (element (prim_element (PInt (e_type e) (e_val e))) [] s [] :: tn ++ string_shown (Some (e_text e))))
| ShowObject lab a o i r tn ps ms : numeral i r -> aget a h = Some o -> g_body o = BPlain \/ g_body o = BMade ->
    names_shown (g_names o) tn -> group_shown h "Props" (g_adapted o) ps -> group_shown h "MS" (g_extended o) ms ->
    shows h (VRef a) lab (numbered_obj r lab (tn ++ ps ++ ms ++ string_shown (g_string o)))
| ShowNoted lab a o p i r s ps ms : numeral i r -> aget a h = Some o -> g_body o = BPrim p -> prim_form p s ->
    group_shown h "Props" (g_adapted o) ps -> group_shown h "MS" (g_extended o) ms ->
    shows h (VRef a) lab (numbered_obj r lab (element (prim_element p) [] s [] :: ps ++ ms))
| ShowContainer lab a o i r tn ps ms x : numeral i r -> aget a h = Some o ->
    names_shown (g_names o) tn -> group_shown h "Props" (g_adapted o) ps -> group_shown h "MS" (g_extended o) ms ->
    body_shown h (g_body o) x ->
    shows h (VRef a) lab (numbered_obj r lab (tn ++ ps ++ ms ++ [x]))
| ShowInstance lab a o cls attrs l i r tn ms : numeral i r -> aget a h = Some o -> g_body o = BPy cls attrs ->
    publics cls attrs l -> names_shown py_names tn -> group_shown h "MS" l ms ->
    shows h (VRef a) lab (numbered_obj r lab (tn ++ ms))
with group_shown (h : heap) : string -> list (name * value) -> list node -> Prop :=
| GroupNone n : group_shown h n [] []
| GroupSome n l xs : l <> [] -> props_shown h l xs -> group_shown h n l [element n [] [] xs]
with props_shown (h : heap) : list (name * value) -> list node -> Prop :=
| PropsEnd : props_shown h [] []
| PropsNext n s v x l xs : string_form n s -> shows h v (Some s) x -> props_shown h l xs -> props_shown h ((n, v) :: l) (x :: xs)
with body_shown (h : heap) : body -> node -> Prop :=
| ListShown k l xs : items_shown h l xs -> body_shown h (BList k l) (element (list_element k) [] [] xs)
| QueueShown l xs : items_shown h l xs -> body_shown h (BQueue l) (element "QUE" [] [] xs)
| DictShown l xs : entries_shown h l xs -> body_shown h (BDict l) (element "DCT" [] [] xs)
with items_shown (h : heap) : list value -> list node -> Prop :=
| ItemsEnd : items_shown h [] []
| ItemsNext v x l xs : shows h v None x -> items_shown h l xs -> items_shown h (v :: l) (x :: xs)
with entries_shown (h : heap) : list (value * value) -> list node -> Prop :=
| EntriesEnd : entries_shown h [] []
| EntriesNext k v x y l xs : shows h k (Some (chars "Key")) x -> shows h v (Some (chars "Value")) y -> entries_shown h l xs ->
    entries_shown h ((k, v) :: l) (element "En" [] [] [x; y] :: xs).

(** One value of a document, with its stream as the last attribute. *)
Definition item_shown (h : heap) (it : value * option stream) (x : node) : Prop :=
  match snd it with
  | None => shows h (fst it) None x
  | Some s => exists n a t k, shows h (fst it) None (Node n a t k) /\ x = Node n (a ++ [(chars "S", chars (stream_name s))]) t k
  end.
Definition document_shown (h : heap) (its : list (value * option stream)) (s : list N) : Prop :=
  exists xs ps, Forall2 (item_shown h) its xs /\ written_all xs ps /\
  let open := chars "<Objs Version=" ++ [34%N] ++ chars "1.1.0.1" ++ [34%N] ++ chars " xmlns=" ++ [34%N]
              ++ chars "http://schemas.microsoft.com/powershell/2004/04" ++ [34%N] in
  s = match xs with [] => open ++ chars " />" | _ => open ++ chars ">" ++ concat ps ++ chars "</Objs>" end.
