(** Indexing: obj[key] and obj[key] = value for objects, lists, dictionaries, queues, strings and byte arrays:
    src/psrpcore/types/_base.py:694-717, _collection.py:43-86, _primitive.py:216-223 and 861-871.  Attributes and properties are
    those of Model_Object. *)
From Verif Require Import Base Model_Object.
Local Open Scope Z_scope.

(** A key: a str, an int (a bool is one), a slice, any other hashable value that equals no int or str, and the rest. *)
Inductive index := IName (k : name) | IInt (z : Z) | ISlice (a b c : option Z) | IOther (n : N) | IUnhashable (n : N).

(** ** Python's sequences *)
Definition zlen {A} (l : list A) : Z := Z.of_nat (length l).
(** list.__getitem__ with an int (as of str and bytes): a negative index counts from the end. *)
Definition at_index {A} (l : list A) (z : Z) : result A :=
  let i := if z <? 0 then z + zlen l else z in
  if i <? 0 then Err IndexError
  else match nth_error l (Z.to_nat i) with Some x => Ok x | None => Err IndexError end.
(** list.__setitem__ with an int. *)
Fixpoint replace {A} (l : list A) (i : nat) (v : A) : list A :=
  match l, i with [], _ => [] | _ :: t, O => v :: t | x :: t, S j => x :: replace t j v end.
Definition set_index {A} (l : list A) (z : Z) (v : A) : result (list A) :=
  let i := if z <? 0 then z + zlen l else z in
  if (i <? 0) || (zlen l <=? i) then Err IndexError else Ok (replace l (Z.to_nat i) v).
(** PySlice_Unpack and PySlice_AdjustIndices: first index, step and number of elements. *)
Definition adjust (n step x : Z) : Z :=
  if x <? 0 then let y := x + n in if y <? 0 then (if step <? 0 then -1 else 0) else y
  else if n <=? x then (if step <? 0 then n - 1 else n) else x.
Definition slice_indices (n : Z) (a b c : option Z) : result (Z * Z * Z) :=
  let step := match c with Some s => s | None => 1 end in
  if step =? 0 then Err ValueError
  else
    let start := match a with Some x => adjust n step x | None => if step <? 0 then n - 1 else 0 end in
    let stop := match b with Some x => adjust n step x | None => if step <? 0 then -1 else n end in
    let count := if step <? 0 then (if stop <? start then (start - stop - 1) / (- step) + 1 else 0)
                 else (if start <? stop then (stop - start - 1) / step + 1 else 0) in
    Ok (start, step, count).
Fixpoint pick {A} (l : list A) (start step : Z) (count : nat) : list A :=
  match count with
  | O => []
  | S k => match nth_error l (Z.to_nat start) with
           | Some x => x :: pick l (start + step) step k
           | None => pick l (start + step) step k
           end
  end.
Definition slice {A} (l : list A) (a b c : option Z) : result (list A) :=
  let! p := slice_indices (zlen l) a b c in
  let '(start, step, count) := p in Ok (pick l start step (Z.to_nat count)).

Section Index.
  Variable V : Type.
  Variable T : Type.
  Variable cast : T -> V -> result V.
  Variable none : V.
  Variable is_none : V -> bool.
  Variable fuel : nat.                      (* depth of alias chains, as in Model_Object *)
  Notation obj := (obj V T).

  (** PSObject.__getitem__ and __setitem__, _base.py:694-717: getattr and setattr, which want a str.  Queues inherit these. *)
  Definition object_get (o : obj) (i : index) : result V :=
    match i with IName k => getattr V T cast none is_none fuel o k | _ => Err TypeError end.
  Definition object_set (o : obj) (i : index) (v : V) : result obj :=
    match i with IName k => setattr V T cast is_none o k v | _ => Err TypeError end.

  (** Lists and stacks, _collection.py:60-92. *)
  Record listobj := mkList { l_items : list V; l_obj : obj }.
  (** What an index of a sequence gives: an element, or for a slice a plain Python list. *)
  Inductive got := One (v : V) | Many (l : list V).
  (** list.__getitem__ *)
  Definition py_list_get (l : list V) (i : index) : result got :=
    match i with
    | IInt z => let! v := at_index l z in Ok (One v)
    | ISlice a b c => let! r := slice l a b c in Ok (Many r)
    | _ => Err TypeError
    end.
  (** _PSListBase.__getitem__, lines 74-79. *)
  Definition list_get (x : listobj) (i : index) : result got :=
    match py_list_get (l_items x) i with
    | Err TypeError => let! v := object_get (l_obj x) i in Ok (One v)
    | r => r
    end.
  (** _PSListBase.__setitem__, lines 81-85.  Assignment to slices is not modelled (here: TypeError). *)
  Definition list_set (x : listobj) (i : index) (v : V) : result listobj :=
    match i with
    | IName _ => let! o := object_set (l_obj x) i v in Ok (mkList (l_items x) o)
    | IInt z => let! l := set_index (l_items x) z v in Ok (mkList l (l_obj x))
    | _ => Err TypeError
    end.

  (** Dictionaries, _collection.py:18-57. *)
  Record dictobj := mkDict { d_items : list (index * V); d_obj : obj }.
  Definition hashable (i : index) : bool := match i with ISlice _ _ _ | IUnhashable _ => false | _ => true end.
  Definition key_eqb (i j : index) : bool :=
    match i, j with
    | IName a, IName b => name_eqb a b
    | IInt a, IInt b => a =? b
    | IOther a, IOther b => N.eqb a b
    | _, _ => false
    end.
  Fixpoint entry (d : list (index * V)) (i : index) : option V :=
    match d with [] => None | (k, v) :: t => if key_eqb k i then Some v else entry t i end.
  Fixpoint put (d : list (index * V)) (i : index) (v : V) : list (index * V) :=
    match d with [] => [(i, v)] | (k, w) :: t => if key_eqb k i then (k, v) :: t else (k, w) :: put t i v end.
  (** dict.__getitem__ *)
  Definition py_dict_get (d : list (index * V)) (i : index) : result V :=
    if negb (hashable i) then Err TypeError
    else match entry d i with Some v => Ok v | None => Err KeyError end.
  (** PSDictBase.__getitem__, lines 43-48. *)
  Definition dict_get_item (x : dictobj) (i : index) : result V :=
    match py_dict_get (d_items x) i with
    | Err KeyError => object_get (d_obj x) i
    | r => r
    end.
  (** PSDictBase.__setitem__, lines 50-51. *)
  Definition dict_set_item (x : dictobj) (i : index) (v : V) : result dictobj :=
    if negb (hashable i) then Err TypeError else Ok (mkDict (put (d_items x) i v) (d_obj x)).
  (** key in d: dict.__contains__, not overridden. *)
  Definition dict_has (x : dictobj) (i : index) : result bool :=
    if negb (hashable i) then Err TypeError else Ok (match entry (d_items x) i with Some _ => true | None => false end).

  (** Strings (PSString, PSXml, PSScriptBlock) and byte arrays: the class, the contents, the attributes and properties;
      [fresh] is what a new instance of a class has. *)
  Variable C : Type.
  Variable fresh : C -> obj.
  Record textobj := mkText { t_class : C; t_text : list N; t_obj : obj }.
  Inductive part := PValue (v : V) | PText (x : textobj).
  Definition new_text (c : C) (s : list N) : textobj := mkText c s (fresh c).
  (** PSStringBase.__getitem__, _primitive.py:216-223; str.__getitem__ with an int gives a string of one character. *)
  Definition string_get (x : textobj) (i : index) : result part :=
    match i with
    | IName _ => let! v := object_get (t_obj x) i in Ok (PValue v)
    | IInt z => let! ch := at_index (t_text x) z in Ok (PText (new_text (t_class x) [ch]))
    | ISlice a b c => let! s := slice (t_text x) a b c in Ok (PText (new_text (t_class x) s))
    | _ => Err TypeError
    end.
  (** PSByteArray.__getitem__, _primitive.py:861-871: bytes.__getitem__ with an int gives a number, and PSByteArray of a
      number n is n zero bytes. *)
  Definition bytes_get (x : textobj) (i : index) : result part :=
    match i with
    | IName _ => let! v := object_get (t_obj x) i in Ok (PValue v)
    | IInt z => let! n := at_index (t_text x) z in Ok (PText (new_text (t_class x) (repeat 0%N (N.to_nat n))))
    | ISlice a b c => let! s := slice (t_text x) a b c in Ok (PText (new_text (t_class x) s))
    | _ => Err TypeError
    end.
End Index.
Arguments One {V}. Arguments Many {V}. Arguments mkList {V T}. Arguments l_items {V T}. Arguments l_obj {V T}.
Arguments mkDict {V T}. Arguments d_items {V T}. Arguments d_obj {V T}.
Arguments mkText {V T C}. Arguments t_class {V T C}. Arguments t_text {V T C}. Arguments t_obj {V T C}.
Arguments PValue {V T C}. Arguments PText {V T C}. Arguments entry {V}. Arguments put {V}.
