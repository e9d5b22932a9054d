(** Classes, instances and the type registry: src/psrpcore/types/_base.py.  A world holds every property object, list,
    PSObjectMeta, class and instance under an address, so that sharing between them is visible. *)
From Coq Require Import String.
From Verif Require Import Base Model_Object.

Definition text (s : string) : name := map Ascii.N_of_ascii (list_ascii_of_string s).
Definition deserialized : name := text "Deserialized.".

(** ** Callables *)
(** inspect.Parameter: its kind and whether it has a default. *)
Inductive param_kind := PositionalOnly | PositionalOrKeyword | VarPositional | KeywordOnly | VarKeyword.
Record param := mkParam { pa_kind : param_kind; pa_default : bool }.
(** The loop of _validate_callable, lines 394-405: required and total counts; *args ends it. *)
Fixpoint count_params (expected : nat) (ps : list param) (required total : nat) : nat * nat :=
  match ps with
  | [] => (required, total)
  | p :: t => match pa_kind p with
              | PositionalOnly | PositionalOrKeyword =>
                count_params expected t (if pa_default p then required else S required) (S total)
              | VarPositional => (required, expected)
              | KeywordOnly | VarKeyword => count_params expected t required total
              end
  end.
(** _validate_callable, lines 377-419.  [is_function]: isinstance(func, types.FunctionType). *)
Definition validate_callable (is_function : bool) (ps : list param) (expected : nat) : result unit :=
  if negb is_function then Err TypeError
  else let '(required, total) := count_params expected ps 0 0 in
       if Nat.ltb expected required then Err TypeError
       else if Nat.ltb total expected then Err TypeError else Ok tt.
(** Python: whether a call with [n] positional arguments and no keyword binds every parameter. *)
Fixpoint binds (n : nat) (ps : list param) : bool :=
  match ps with
  | [] => Nat.eqb n 0
  | p :: t => match pa_kind p with
              | PositionalOnly | PositionalOrKeyword =>
                match n with O => pa_default p && binds 0 t | S m => binds m t end
              | VarPositional => binds 0 t
              | KeywordOnly => pa_default p && binds n t
              | VarKeyword => binds n t
              end
  end.

Fixpoint map_ok {A B} (f : A -> result B) (l : list A) : result (list B) :=
  match l with [] => Ok [] | a :: t => let! b := f a in let! bs := map_ok f t in Ok (b :: bs) end.
Definition update_at {A} (i : nat) (f : A -> A) (l : list A) : list A :=
  firstn i l ++ match skipn i l with [] => [] | x :: t => f x :: t end.

Section Class.
  Variable V : Type.                        (* values *)
  Variable T : Type.                        (* ps_type classes *)
  Variable cast : T -> V -> result V.       (* value if isinstance(value, t) else t(value) *)
  Variable none : V.
  Variable is_none : V -> bool.
  Let cast_opt := cast_opt V T cast is_none.

  (** What a getter does: read attributes of its object and compute; what a setter does: also write attributes of its
      object.  Each may go on after an exception.  Other side effects are not modelled. *)
  Inductive reading := RDone (r : result V) | RAsk (k : name) (next : result V -> reading).
  Inductive script :=
  | SDone (r : result unit) | SAsk (k : name) (next : result V -> script)
  | SPut (k : name) (v : V) (next : result unit -> script).
  Record getter := mkGetter { g_function : bool; g_params : list param; g_run : reading }.
  Record setter := mkSetter { s_function : bool; s_params : list param; s_run : V -> script }.
  (** The three classes of property, lines 422-544. *)
  Inductive info_class := INote | IAlias (target : name) | IScript.
  (** The fields of PSPropertyInfo, lines 235-264; no value stands for _UnsetValue. *)
  Record info := mkInfo {
    i_class : info_class; i_name : name; i_type : option T; i_mandatory : bool;
    i_value : option V; i_getter : option getter; i_setter : option setter }.

  (** PSNoteProperty(...), lines 480-487, 258-264. *)
  Definition note_property (k : name) (v : option V) (mandatory : bool) (ty : option T) : result info :=
    match v with
    | None => Ok (mkInfo INote k ty mandatory None None None)
    | Some x => let! y := cast_opt ty x in Ok (mkInfo INote k ty mandatory (Some y) None None)
    end.
  (** PSAliasProperty(...), lines 448-455: the getter is lambda s: s[alias]. *)
  Definition alias_getter (t : name) : getter :=
    mkGetter true [mkParam PositionalOrKeyword false] (RAsk t RDone).
  Definition alias_property (k t : name) (ty : option T) : info :=
    mkInfo (IAlias t) k ty false None (Some (alias_getter t)) None.
  (** PSScriptProperty(...), lines 519-535, 251-256, 271-308. *)
  Definition script_property (k : name) (g : option getter) (s : option setter) (mandatory : bool) (ty : option T)
    : result info :=
    match g with
    | None => Err TypeError
    | Some h =>
      if mandatory && match s with None => true | Some _ => false end then Err TypeError
      else let! _ := validate_callable (g_function h) (g_params h) 1 in
           match s with
           | None => Ok (mkInfo IScript k ty mandatory None (Some h) None)
           | Some w => let! _ := validate_callable (s_function w) (s_params w) 2 in
                       Ok (mkInfo IScript k ty mandatory None (Some h) (Some w))
           end
    end.
  (** prop.getter = g and prop.setter = s on a property that exists, lines 276-308. *)
  Definition assign_getter (p : info) (g : option getter) : result info :=
    match i_value p, g with
    | Some _, _ => Err ValueError
    | None, None => Err ValueError
    | None, Some h => let! _ := validate_callable (g_function h) (g_params h) 1 in
                      Ok (mkInfo (i_class p) (i_name p) (i_type p) (i_mandatory p) None (Some h) (i_setter p))
    end.
  Definition assign_setter (p : info) (s : option setter) : result info :=
    match i_getter p, s with
    | None, _ => Err ValueError
    | Some _, None => Ok (mkInfo (i_class p) (i_name p) (i_type p) (i_mandatory p) (i_value p) (i_getter p) None)
    | Some _, Some w => let! _ := validate_callable (s_function w) (s_params w) 2 in
                        Ok (mkInfo (i_class p) (i_name p) (i_type p) (i_mandatory p) (i_value p) (i_getter p) (Some w))
    end.
  (** copy, lines 457-458, 489-490, 537-544. *)
  Definition copy_info (p : info) : result info :=
    match i_class p with
    | INote => note_property (i_name p) (i_value p) (i_mandatory p) (i_type p)
    | IAlias t => Ok (alias_property (i_name p) t (i_type p))
    | IScript => script_property (i_name p) (i_getter p) (i_setter p) (i_mandatory p) (i_type p)
    end.

  (** ** The world *)
  (** PSObjectMeta, lines 122-136: addresses of its three lists.  to_string and rehydrate are left out. *)
  Record meta := mkMeta { m_names : nat; m_adapted : nat; m_extended : nat }.
  (** A class: itself and its ancestors in the order Python searches them, the PSObjectMeta set on it, the attributes
      it answers. *)
  Record class := mkClass { c_mro : list nat; c_meta : option nat; c_attrs : name -> option V }.
  (** An instance: its class, the address of its own PSObjectMeta, the rest of its raw __dict__. *)
  Record object := mkObject { ob_class : nat; ob_meta : nat; ob_dict : list (name * V) }.
  Record world := mkWorld {
    w_infos : list info; w_names : list (list name); w_lists : list (list nat); w_metas : list meta;
    w_classes : list class; w_objects : list object;
    w_types : list (name * nat);            (* type_registry, line 57 *)
    w_tags : list (name * nat) }.           (* element_registry, line 58 *)

  Definition names_at (w : world) (a : nat) : list name := nth a (w_names w) [].
  Definition list_at (w : world) (a : nat) : list nat := nth a (w_lists w) [].
  Definition set_infos (w : world) (x : list info) : world :=
    mkWorld x (w_names w) (w_lists w) (w_metas w) (w_classes w) (w_objects w) (w_types w) (w_tags w).
  Definition set_names (w : world) (x : list (list name)) : world :=
    mkWorld (w_infos w) x (w_lists w) (w_metas w) (w_classes w) (w_objects w) (w_types w) (w_tags w).
  Definition set_lists (w : world) (x : list (list nat)) : world :=
    mkWorld (w_infos w) (w_names w) x (w_metas w) (w_classes w) (w_objects w) (w_types w) (w_tags w).
  Definition set_objects (w : world) (x : list object) : world :=
    mkWorld (w_infos w) (w_names w) (w_lists w) (w_metas w) (w_classes w) x (w_types w) (w_tags w).

  (** The property objects of a list. *)
  Fixpoint fetch (infos : list info) (l : list nat) : list info :=
    match l with
    | [] => []
    | a :: t => match nth_error infos a with Some i => i :: fetch infos t | None => fetch infos t end
    end.
  (** cls.PSObject and other class attributes: the first ancestor that has it. *)
  Fixpoint first_some {A} (l : list (option A)) : option A :=
    match l with [] => None | Some x :: _ => Some x | None :: t => first_some t end.
  Definition ancestors (w : world) (c : nat) : list class :=
    match nth_error (w_classes w) c with
    | None => []
    | Some k => flat_map (fun a => match nth_error (w_classes w) a with Some x => [x] | None => [] end) (c_mro k)
    end.
  Definition class_meta (w : world) (c : nat) : option nat := first_some (map c_meta (ancestors w c)).
  Definition class_attr (w : world) (c : nat) (k : name) : option V :=
    first_some (map (fun x => c_attrs x k) (ancestors w c)).

  (** ** Attributes of an instance *)
  (** The last property of a name (read side, lines 669-673), the address of the first (write side, lines 652-657). *)
  Fixpoint info_last (k : name) (ps : list info) : option info :=
    match ps with
    | [] => None
    | p :: t => match info_last k t with
                | Some q => Some q
                | None => if name_eqb (i_name p) k then Some p else None
                end
    end.
  Fixpoint addr_first (infos : list info) (k : name) (l : list nat) : option nat :=
    match l with
    | [] => None
    | a :: t => match nth_error infos a with
                | Some p => if name_eqb (i_name p) k then Some a else addr_first infos k t
                | None => addr_first infos k t
                end
    end.
  Fixpoint answer (ask : name -> result V) (x : reading) : result V :=
    match x with RDone r => r | RAsk k next => answer ask (next (ask k)) end.
  (** get_value, lines 310-340, inside __getattribute__, lines 663-692 (not for __dict__).  [fuel] bounds the calls of
      getters from getters: Python raises RecursionError. *)
  Fixpoint read (fuel : nat) (w : world) (o : nat) (k : name) : result V :=
    match fuel with
    | O => Err RuntimeError
    | S f =>
      match nth_error (w_objects w) o with
      | None => Err KeyError
      | Some ob =>
        match dict_get (ob_dict ob) k with
        | Some v => Ok v
        | None =>
          match class_attr w (ob_class ob) k with
          | Some v => Ok v
          | None =>
            match nth_error (w_metas w) (ob_meta ob) with
            | None => Err KeyError
            | Some m =>
              let found := match info_last k (fetch (w_infos w) (list_at w (m_extended m))) with
                           | Some p => Some p
                           | None => info_last k (fetch (w_infos w) (list_at w (m_adapted m)))
                           end in
              match found with
              | None => Err AttributeError
              | Some p => match i_getter p with
                          | Some g => if binds 1 (g_params g)
                                      then let! v := answer (read f w o) (g_run g) in cast_opt (i_type p) v
                                      else Err TypeError
                          | None => match i_value p with Some v => Ok v | None => Ok none end
                          end
              end
            end
          end
        end
      end
    end.
  Definition set_dict (w : world) (o : nat) (k : name) (v : V) : world :=
    set_objects w (update_at o (fun ob => mkObject (ob_class ob) (ob_meta ob) (dict_set (ob_dict ob) k v)) (w_objects w)).
  Definition put_value (p : info) (v : V) : info :=
    mkInfo (i_class p) (i_name p) (i_type p) (i_mandatory p) (Some v) (i_getter p) (i_setter p).
  (** Python statements one after the other, until one raises. *)
  Fixpoint in_turn (one : world -> name -> V -> world * result unit) (w : world) (l : list (name * V))
    : world * result unit :=
    match l with
    | [] => (w, Ok tt)
    | (k, v) :: t => match one w k v with
                     | (w', Ok _) => in_turn one w' t
                     | (w', Err e) => (w', Err e)
                     end
    end.
  Fixpoint perform (ask : world -> name -> result V) (put : world -> name -> V -> world * result unit) (w : world)
      (x : script) : world * result unit :=
    match x with
    | SDone r => (w, r)
    | SAsk k next => perform ask put w (next (ask w k))
    | SPut k v next => let '(w', r) := put w k v in perform ask put w' (next r)
    end.
  (** set_value, lines 342-367, inside __setattr__, lines 639-661.  Assigning to the name PSObject itself and data
      descriptors of the class are not modelled. *)
  Fixpoint write (fuel : nat) (w : world) (o : nat) (k : name) (v : V) : world * result unit :=
    match fuel with
    | O => (w, Err RuntimeError)
    | S f =>
      match nth_error (w_objects w) o with
      | None => (w, Err KeyError)
      | Some ob =>
        match dict_get (ob_dict ob) k with
        | Some _ => (set_dict w o k v, Ok tt)
        | None =>
          match nth_error (w_metas w) (ob_meta ob) with
          | None => (w, Err KeyError)
          | Some m =>
            let found := match addr_first (w_infos w) k (list_at w (m_extended m)) with
                         | Some a => Some a
                         | None => addr_first (w_infos w) k (list_at w (m_adapted m))
                         end in
            match found with
            | None => (set_dict w o k v, Ok tt)
            | Some a =>
              match nth_error (w_infos w) a with
              | None => (w, Err KeyError)
              | Some p =>
                match i_setter p with
                | Some s => if binds 2 (s_params s)
                            then perform (fun w' k' => read f w' o k') (fun w' k' v' => write f w' o k' v') w (s_run s v)
                            else (w, Err TypeError)
                | None =>
                  match i_getter p with
                  | Some _ => (w, Err ValueError)
                  | None => match cast_opt (i_type p) v with
                            | Err e => (w, Err e)
                            | Ok x => (set_infos w (update_at a (fun q => put_value q x) (w_infos w)), Ok tt)
                            end
                  end
                end
              end
            end
          end
        end
      end
    end.

  (** ** Making instances *)
  Definition copy_all (w : world) (l : list nat) : result (list info) :=
    map_ok (fun a => match nth_error (w_infos w) a with Some p => copy_info p | None => Err KeyError end) l.
  (** __new__, lines 565-579, with set_instance, lines 169-190: every list and property object is copied. *)
  Definition new_object (w : world) (c : nat) : result (world * nat) :=
    match class_meta w c with
    | None => Err AttributeError
    | Some a =>
      match nth_error (w_metas w) a with
      | None => Err KeyError
      | Some m =>
        let! ads := copy_all w (list_at w (m_adapted m)) in
        let! exs := copy_all w (list_at w (m_extended m)) in
        let i0 := length (w_infos w) in
        let l0 := length (w_lists w) in
        Ok (mkWorld (w_infos w ++ ads ++ exs) (w_names w ++ [names_at w (m_names m)])
              (w_lists w ++ [seq i0 (length ads); seq (i0 + length ads) (length exs)])
              (w_metas w ++ [mkMeta (length (w_names w)) l0 (S l0)]) (w_classes w)
              (w_objects w ++ [mkObject c (length (w_metas w)) []]) (w_types w) (w_tags w),
            length (w_objects w))
      end
    end.
  (** The dict of lines 587-588: the adapted properties by name, then the extended ones over them. *)
  Definition by_name (ps : list info) (d : list (name * info)) : list (name * info) :=
    fold_left (fun d p => dict_set d (i_name p) p) ps d.
  Definition has_key {A} (k : name) (d : list (name * A)) : bool := existsb (fun x => name_eqb (fst x) k) d.
  (** The checks of lines 590-615 and the values to set; [kw] has each name once. *)
  Definition bind_args (entries : list (name * info)) (args : list V) (kw : list (name * V)) : result (list (name * V)) :=
    if Nat.ltb (length entries) (length args) then Err TypeError
    else let given := combine (map fst entries) args in
         if existsb (fun x => has_key (fst x) kw) given then Err TypeError
         else let all := given ++ kw in
              if existsb (fun e => i_mandatory (snd e) && negb (has_key (fst e) all)) entries then Err TypeError
              else Ok all.
  (** __init__, lines 581-617. *)
  Definition init (fuel : nat) (w : world) (o : nat) (args : list V) (kw : list (name * V)) : world * result unit :=
    match nth_error (w_objects w) o with
    | None => (w, Err KeyError)
    | Some ob =>
      match nth_error (w_metas w) (ob_meta ob) with
      | None => (w, Err KeyError)
      | Some m =>
        let entries := by_name (fetch (w_infos w) (list_at w (m_extended m)))
                         (by_name (fetch (w_infos w) (list_at w (m_adapted m))) []) in
        match bind_args entries args kw with
        | Err e => (w, Err e)
        | Ok all => in_turn (fun w' k v => if has_key k entries then write fuel w' o k v else (w', Err TypeError)) w all
        end
      end
    end.
  (** cls( *args, **kw): an object whose __init__ raises is dropped; what it changed was its own. *)
  Definition make (fuel : nat) (w : world) (c : nat) (args : list V) (kw : list (name * V)) : result (world * nat) :=
    let! x := new_object w c in
    match init fuel (fst x) (snd x) args kw with (w', Ok _) => Ok (w', snd x) | (_, Err e) => Err e end.

  (** ** Declaring classes *)
  (** PSType(...), lines 757-772: the lists given, by address. *)
  Record decl := mkDecl {
    d_names : option nat; d_adapted : option nat; d_extended : option nat;
    d_skip : bool; d_rehydrate : bool; d_tag : option name }.
  (** x or [] for the two kinds of list, lines 767-769 and 131-132. *)
  Definition names_or_new (w : world) (a : option nat) : world * nat :=
    match a with
    | Some i => match names_at w i with
                | [] => (set_names w (w_names w ++ [[]]), length (w_names w))
                | _ :: _ => (w, i)
                end
    | None => (set_names w (w_names w ++ [[]]), length (w_names w))
    end.
  Definition list_or_new (w : world) (a : option nat) : world * nat :=
    match a with
    | Some i => match list_at w i with
                | [] => (set_lists w (w_lists w ++ [[]]), length (w_lists w))
                | _ :: _ => (w, i)
                end
    | None => (set_lists w (w_lists w ++ [[]]), length (w_lists w))
    end.
  Definition extend_names (w : world) (a : nat) (l : list name) : world :=
    set_names w (update_at a (fun x => x ++ l) (w_names w)).
  Definition extend_list (w : world) (a : nat) (l : list nat) : world :=
    set_lists w (update_at a (fun x => x ++ l) (w_lists w)).
  Fixpoint reg_get (k : name) (d : list (name * nat)) : option nat :=
    match d with [] => None | (n, c) :: t => if name_eqb n k then Some c else reg_get k t end.
  Definition reg_add (k : name) (c : nat) (d : list (name * nat)) : list (name * nat) :=
    match reg_get k d with Some _ => d | None => d ++ [(k, c)] end.
  (** PSType.__call__, lines 774-796: the lists given are themselves extended with those of the base class. *)
  Definition decorate (w : world) (d : decl) (c : nat) : result world :=
    let '(w1, na) := names_or_new w (d_names d) in
    let '(w2, ad) := list_or_new w1 (d_adapted d) in
    let '(w3, ex) := list_or_new w2 (d_extended d) in
    let! w4 := if d_skip d then Ok w3
               else match class_meta w3 c with
                    | None => Err AttributeError
                    | Some a =>
                      match nth_error (w_metas w3) a with
                      | None => Err KeyError
                      | Some m =>
                        let x := extend_names w3 na (names_at w3 (m_names m)) in
                        let y := extend_list x ad (list_at x (m_adapted m)) in
                        Ok (extend_list y ex (list_at y (m_extended m)))
                      end
                    end in
    let '(w5, ad') := list_or_new w4 (Some ad) in
    let '(w6, ex') := list_or_new w5 (Some ex) in
    Ok (mkWorld (w_infos w6) (w_names w6) (w_lists w6) (w_metas w6 ++ [mkMeta na ad' ex'])
          (update_at c (fun k => mkClass (c_mro k) (Some (length (w_metas w6))) (c_attrs k)) (w_classes w6)) (w_objects w6)
          (match d_rehydrate d, names_at w6 na with true, n :: _ => reg_add n c (w_types w6) | _, _ => w_types w6 end)
          (match d_tag d with Some t => reg_add t c (w_tags w6) | None => w_tags w6 end)).
  (** A class statement with these ancestors (in Python's order), with or without @PSType. *)
  Definition declare (w : world) (bases : list nat) (attrs : name -> option V) (d : option decl) : result (world * nat) :=
    let c := length (w_classes w) in
    let w1 := mkWorld (w_infos w) (w_names w) (w_lists w) (w_metas w)
                (w_classes w ++ [mkClass (c :: bases) None attrs]) (w_objects w) (w_types w) (w_tags w) in
    match d with
    | None => Ok (w1, c)
    | Some x => let! w2 := decorate w1 x c in Ok (w2, c)
    end.

  (** ** Adding members *)
  Inductive target := TObject (o : nat) | TClass (c : nat).
  Definition target_meta (w : world) (t : target) : option meta :=
    match t with
    | TObject o => match nth_error (w_objects w) o with Some ob => nth_error (w_metas w) (ob_meta ob) | None => None end
    | TClass c => match class_meta w c with Some a => nth_error (w_metas w) a | None => None end
    end.
  Fixpoint info_index (k : name) (ps : list info) (i : nat) : option nat :=
    match ps with
    | [] => None
    | p :: t => match info_index k t (S i) with
                | Some j => Some j
                | None => if name_eqb (i_name p) k then Some i else None
                end
    end.
  Definition info_named (k : name) (ps : list info) : bool := existsb (fun p => name_eqb (i_name p) k) ps.
  (** add_member, lines 836-879: the property object itself goes into the list. *)
  Definition attach (w : world) (t : target) (a : nat) (force : bool) : result world :=
    match target_meta w t, nth_error (w_infos w) a with
    | Some m, Some p =>
      let k := i_name p in
      let ads := fetch (w_infos w) (list_at w (m_adapted m)) in
      let exs := fetch (w_infos w) (list_at w (m_extended m)) in
      let put l := Ok (set_lists w (update_at (m_extended m) (fun _ => l) (w_lists w))) in
      let old := list_at w (m_extended m) in
      if info_named k ads || info_named k exs then
        if negb force then Err RuntimeError
        else match info_index k exs 0 with
             | Some i => put (insert_at i a (pop_at i old))
             | None => put (insert_at (length old) a old)
             end
      else put (insert_at (length old) a old)
    | _, _ => Err ValueError
    end.

  (** ** Type names *)
  (** obj.PSObject.type_names = l *)
  Definition rename (w : world) (o : nat) (l : list name) : world :=
    match nth_error (w_objects w) o with
    | None => w
    | Some ob =>
      mkWorld (w_infos w) (w_names w ++ [l]) (w_lists w)
        (update_at (ob_meta ob) (fun m => mkMeta (length (w_names w)) (m_adapted m) (m_extended m)) (w_metas w))
        (w_classes w) (w_objects w) (w_types w) (w_tags w)
    end.
  (** TypeRegistry.rehydrate, lines 60-84, for classes that are not enums.  Class 0 is PSObject. *)
  Definition rehydrate (fuel : nat) (w : world) (names : list name) : result (world * nat) :=
    match match names with (_ :: _) as n :: _ => reg_get n (w_types w) | _ => None end with
    | Some c => new_object w c
    | None => let! x := make fuel w 0 [] [] in
              Ok (rename (fst x) (snd x) (map (fun n => deserialized ++ n) names), snd x)
    end.
  (** strip_deserialized, lines 982-993. *)
  Fixpoint starts (p s : name) : bool :=
    match p, s with [], _ => true | c :: p', d :: s' => (c =? d)%N && starts p' s' | _ :: _, [] => false end.
  Definition strip (ignore : bool) (n : name) : name :=
    if ignore && starts deserialized n then skipn 13 n else n.
  (** What ps_isinstance is asked about: a string, a class, an instance, anything without PSObject. *)
  Inductive wanted := WName (n : name) | WTarget (t : target) | WOther.
  Fixpoint wanted_names (w : world) (l : list wanted) : result (list name) :=
    match l with
    | [] => Ok []
    | WName n :: t => let! r := wanted_names w t in Ok (n :: r)
    | WTarget x :: t =>
      match target_meta w x with
      | None => Err KeyError
      | Some m => match names_at w (m_names m) with
                  | [] => Err IndexError
                  | n :: _ => let! r := wanted_names w t in Ok (n :: r)
                  end
      end
    | WOther :: t => wanted_names w t
    end.
  (** ps_isinstance, lines 953-1007. *)
  Definition isinstance (w : world) (o : nat) (l : list wanted) (ignore : bool) : result bool :=
    let! ws := wanted_names w l in
    match target_meta w (TObject o) with
    | None => Err KeyError
    | Some m => Ok (existsb (fun n => existsb (fun x => name_eqb (strip ignore n) (strip ignore x)) ws)
                      (names_at w (m_names m)))
    end.

  (** ** Programs *)
  (** What a program can do with properties, classes and instances. *)
  Inductive op :=
  | PNames (l : list name)                                  (* a list of type names *)
  | PList (l : list nat)                                    (* a list of property objects *)
  | PNote (k : name) (v : option V) (mandatory : bool) (ty : option T)
  | PAlias (k t : name) (ty : option T)
  | PScript (k : name) (g : option getter) (s : option setter) (mandatory : bool) (ty : option T)
  | PGetter (a : nat) (g : option getter)
  | PSetter (a : nat) (s : option setter)
  | PClass (bases : list nat) (attrs : name -> option V) (d : option decl)
  | PMake (c : nat) (args : list V) (kw : list (name * V))
  | PRehydrate (names : list name)
  | PWrite (o : nat) (k : name) (v : V)
  | PAttach (t : target) (a : nat) (force : bool)
  | PRename (o : nat) (l : list name).
  Definition add_info (w : world) (r : result info) : world * result unit :=
    match r with Ok p => (set_infos w (w_infos w ++ [p]), Ok tt) | Err e => (w, Err e) end.
  Definition change_info (w : world) (a : nat) (f : info -> result info) : world * result unit :=
    match nth_error (w_infos w) a with
    | None => (w, Err KeyError)
    | Some p => match f p with
                | Err e => (w, Err e)
                | Ok q => (set_infos w (update_at a (fun _ => q) (w_infos w)), Ok tt)
                end
    end.
  Definition keep {A} (w : world) (f : A -> world) (r : result A) : world * result unit :=
    match r with Ok x => (f x, Ok tt) | Err e => (w, Err e) end.
  Definition step (fuel : nat) (w : world) (x : op) : world * result unit :=
    match x with
    | PNames l => (set_names w (w_names w ++ [l]), Ok tt)
    | PList l => (set_lists w (w_lists w ++ [l]), Ok tt)
    | PNote k v mandatory ty => add_info w (note_property k v mandatory ty)
    | PAlias k t ty => add_info w (Ok (alias_property k t ty))
    | PScript k g s mandatory ty => add_info w (script_property k g s mandatory ty)
    | PGetter a g => change_info w a (fun p => assign_getter p g)
    | PSetter a s => change_info w a (fun p => assign_setter p s)
    | PClass bases attrs d => keep w fst (declare w bases attrs d)
    | PMake c args kw => keep w fst (make fuel w c args kw)
    | PRehydrate names => keep w fst (rehydrate fuel w names)
    | PWrite o k v => write fuel w o k v
    | PAttach t a force => keep w (fun x => x) (attach w t a force)
    | PRename o l => (rename w o l, Ok tt)
    end.
  Fixpoint run (fuel : nat) (w : world) (xs : list op) : world :=
    match xs with [] => w | x :: t => run fuel (fst (step fuel w x)) t end.

  (** Lines 559-563: PSObject, class 0. *)
  Definition base_world (attrs : name -> option V) : world :=
    mkWorld [] [[text "System.Object"]] [[]; []] [mkMeta 0 0 1] [mkClass [0] (Some 0) attrs] [] [] [].
End Class.
Arguments g_function {V}. Arguments g_params {V}. Arguments g_run {V}. Arguments mkGetter {V}.
Arguments s_function {V}. Arguments s_params {V}. Arguments s_run {V}. Arguments mkSetter {V}.
Arguments mkInfo {V T}. Arguments i_class {V T}. Arguments i_name {V T}. Arguments i_type {V T}. Arguments i_mandatory {V T}.
Arguments i_value {V T}. Arguments i_getter {V T}. Arguments i_setter {V T}. Arguments alias_getter {V}. Arguments alias_property {V T}.
Arguments mkClass {V}. Arguments c_mro {V}. Arguments c_meta {V}. Arguments c_attrs {V}.
Arguments mkObject {V}. Arguments ob_class {V}. Arguments ob_meta {V}. Arguments ob_dict {V}.
Arguments mkWorld {V T}. Arguments w_infos {V T}. Arguments w_names {V T}. Arguments w_lists {V T}. Arguments w_metas {V T}.
Arguments w_classes {V T}. Arguments w_objects {V T}. Arguments w_types {V T}. Arguments w_tags {V T}.
Arguments names_at {V T}. Arguments list_at {V T}. Arguments fetch {V T}. Arguments ancestors {V T}. Arguments class_meta {V T}.
Arguments class_attr {V T}. Arguments info_last {V T}. Arguments addr_first {V T}. Arguments set_dict {V T}. Arguments put_value {V T}.
Arguments set_infos {V T}. Arguments set_names {V T}. Arguments set_lists {V T}. Arguments set_objects {V T}.
Arguments in_turn {V T}. Arguments perform {V T}. Arguments answer {V}. Arguments RDone {V}. Arguments RAsk {V}.
Arguments SDone {V}. Arguments SAsk {V}. Arguments SPut {V}. Arguments by_name {V T}. Arguments bind_args {V T}. Arguments names_or_new {V T}. Arguments list_or_new {V T}.
Arguments extend_names {V T}. Arguments extend_list {V T}. Arguments decorate {V T}. Arguments declare {V T}. Arguments target_meta {V T}.
Arguments info_index {V T}. Arguments info_named {V T}. Arguments attach {V T}. Arguments rename {V T}. Arguments wanted_names {V T}.
Arguments isinstance {V T}. Arguments keep {V T A}. Arguments add_info {V T}. Arguments change_info {V T}. Arguments base_world {V T}.
Arguments script_property {V T}. Arguments assign_getter {V T}. Arguments assign_setter {V T}.
Arguments PNames {V T}. Arguments PList {V T}. Arguments PNote {V T}. Arguments PAlias {V T}. Arguments PScript {V T}.
Arguments PGetter {V T}. Arguments PSetter {V T}. Arguments PClass {V T}. Arguments PMake {V T}. Arguments PRehydrate {V T}.
Arguments PWrite {V T}. Arguments PAttach {V T}. Arguments PRename {V T}.
