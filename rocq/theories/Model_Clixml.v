(** CLIXML: _Serializer of src/psrpcore/types/_serializer.py:633-1210, between Python object graphs and XML trees.
    Objects live in a heap, so that sharing and cycles are visible.  Not modelled here: ProgressRecord elements
    (lines 794-815, 406-448), classes with ToPSObjectForRemoting / FromPSObjectForRemoting overrides, secure strings
    that still have to be encrypted (Model_Crypto.v), and the XML text itself (Model_Xml.v). *)
From Coq Require Import String Ascii.
From Verif Require Import Base Model_Scalars Model_Strings Model_Text Model_Object.
Local Open Scope list_scope.
Local Open Scope nat_scope.

(** A literal as code points. *)
Definition tx (s : string) : list N := map N_of_ascii (list_ascii_of_string s).

(** ** XML trees *)
Inductive str_kind := KString | KUri | KXml | KScript.
Inductive float_kind := KSingle | KDouble | KDecimal.
Inductive list_kind := LIE | LStack | LList.
(** Element names: the tags of the type registry (the [tag=] arguments of PSType in _primitive.py and
    _collection.py) and those written out in the serializer. *)
Inductive tag :=
| TgObj | TgRef | TgNil | TgB | TgTN | TgT | TgTNRef | TgProps | TgMS | TgToString
| TgList (k : list_kind) | TgQUE | TgDCT | TgEn
| TgInt (t : int_type) | TgStr (k : str_kind) | TgC | TgBA | TgDT | TgTS | TgG | TgVersion
| TgFloat (k : float_kind) | TgSS | TgOther (n : list N).
Inductive attr := AtN | AtRefId | AtS | AtOther (n : list N).
(** An element; text None and "" are not told apart, as after parsing. *)
Inductive xml := Elem (t : tag) (attrs : list (attr * list N)) (text : list N) (kids : list xml).
Definition x_tag (x : xml) : tag := let 'Elem t _ _ _ := x in t.
Definition x_attrs (x : xml) : list (attr * list N) := let 'Elem _ a _ _ := x in a.
Definition x_text (x : xml) : list N := let 'Elem _ _ s _ := x in s.
Definition x_kids (x : xml) : list xml := let 'Elem _ _ _ l := x in l.
Definition attr_eqb (a b : attr) : bool :=
  match a, b with
  | AtN, AtN | AtRefId, AtRefId | AtS, AtS => true
  | AtOther x, AtOther y => name_eqb x y
  | _, _ => false
  end.
Fixpoint attr_get (k : attr) (l : list (attr * list N)) : option (list N) :=
  match l with [] => None | (a, v) :: t => if attr_eqb a k then Some v else attr_get k t end.
(** element.attrib[k] = v *)
Fixpoint attr_put (k : attr) (v : list N) (l : list (attr * list N)) : list (attr * list N) :=
  match l with [] => [(k, v)] | (a, w) :: t => if attr_eqb a k then (a, v) :: t else (a, w) :: attr_put k v t end.
Definition set_attr (k : attr) (v : list N) (x : xml) : xml :=
  let 'Elem t a s l := x in Elem t (attr_put k v a) s l.

(** ** Values *)
(** Primitive values.  [PPlainInt] is a bare Python int; other bare values (str, bytes, datetime, timedelta, UUID,
    float, Decimal) are written like their PS type and share its constructor.  Floats and decimals are given by their
    upper-cased str(), which float() and Decimal() invert.  [PSecure] holds cipher text. *)
Inductive prim :=
| PInt (t : int_type) (z : Z) | PPlainInt (z : Z) | PChar (c : N) | PStr (k : str_kind) (s : list N)
| PBytes (l : list N) | PDate (d : datetime) | PDur (ns : Z) | PGuid (n : N) | PVer (v : version)
| PFloat (k : float_kind) (s : list N) | PSecure (s : list N).
(** A member of an enumeration: its type names, its value, and _serialize_enum_to_string of it (Model_Enum.v). *)
Record member := mkE { e_names : list name; e_type : int_type; e_val : Z; e_text : list N }.
Inductive value := VNull | VBool (b : bool) | VPrim (p : prim) | VEnum (e : member) | VRef (a : N).
(** [BPlain]: any other PSObject.  [BPrim]: a primitive with its own identity and properties.  Bare lists, queues and
    dicts have the type names of PSList, PSQueue and PSDict (lines 842-851) and no properties.  [BPy]: an instance of
    a class without PSObject: its class name and dir() with, per attribute, whether it is callable.
    [BMade]: an object whose class has ToPSObjectForRemoting; it stands here as the object that method returns, with the
    type names and the text of the original (lines 683-692).  The method returns a new one each time. *)
Inductive body :=
| BPlain | BPrim (p : prim) | BList (k : list_kind) (l : list value) | BQueue (l : list value)
| BDict (l : list (value * value)) | BPy (cls : name) (attrs : list (name * bool * value)) | BMade.
(** Properties are (name, get_value()). *)
Record gobj := mkG {
  g_body : body; g_names : list name; g_string : option (list N);
  g_adapted : list (name * value); g_extended : list (name * value) }.
Definition heap := list (N * gobj).

(** ** Writing *)
(** The element of a primitive, lines 701-792. *)
Definition prim_elem (p : prim) : xml :=
  match p with
  | PInt t z => Elem (TgInt t) [] (write_int z) []
  | PPlainInt z => Elem (TgInt (plain_int_type z)) [] (write_int z) []
  | PChar c => Elem TgC [] (write_char c) []
  | PStr k s => Elem (TgStr k) [] (serialize_string s) []
  | PBytes l => Elem TgBA [] (b64_encode l) []
  | PDate d => Elem TgDT [] (write_datetime d) []
  | PDur ns => Elem TgTS [] (write_duration ns) []
  | PGuid n => Elem TgG [] (write_guid n) []
  | PVer v => Elem TgVersion [] (write_version v) []
  | PFloat k s => Elem (TgFloat k) [] s []
  | PSecure s => Elem TgSS [] s []
  end.

(** What the WeakKeyDictionary (line 656) tells apart.  Objects without __eq__ are compared by identity.  Strings,
    numbers, dates and GUIDs are compared by value; a date is compared by its instant when it has a time zone, and
    without its nanoseconds. *)
Inductive key := KAddr (a : N) | KMember (names : list name) (z : Z) | KText (s : list N) | KNumber (s : list N)
| KDate (aware : bool) (t : Z) | KGuid (n : N).
Definition key_eqb (a b : key) : bool :=
  match a, b with
  | KAddr x, KAddr y | KGuid x, KGuid y => (x =? y)%N
  | KMember n x, KMember m y => list_eqb name_eqb n m && (x =? y)%Z
  | KText x, KText y | KNumber x, KNumber y => name_eqb x y
  | KDate a x, KDate b y => Bool.eqb a b && (x =? y)%Z
  | _, _ => false
  end.
(** datetime equality: microseconds since year 1, less the offset. *)
Definition instant (d : datetime) : Z :=
  let y := Z.of_N (dt_year d - 1) in
  let days := (365 * y + y / 4 - y / 100 + y / 400
    + Z.of_N (fold_left N.add (map (fun m => days_in_month (dt_year d) (N.of_nat m)) (seq 1 (N.to_nat (dt_month d) - 1))) 0%N)
    + Z.of_N (dt_day d))%Z in
  ((((days * 24 + Z.of_N (dt_hour d)) * 60 + Z.of_N (dt_minute d) - match dt_tz d with Some m => m | None => 0 end) * 60
    + Z.of_N (dt_second d)) * 1000000 + Z.of_N (dt_micro d))%Z.
(** int and bytes subclasses cannot be weakly referenced; PSVersion and PSDuration define __eq__ and so cannot be
    hashed: TypeError, lines 1186-1192. *)
Definition prim_key (a : N) (p : prim) : option key :=
  match p with
  | PInt _ _ | PPlainInt _ | PChar _ | PBytes _ | PDur _ | PVer _ => None
  | PStr _ s => Some (KText s)
  | PDate d => Some (KDate (match dt_tz d with Some _ => true | None => false end) (instant d))
  | PGuid n => Some (KGuid n)
  | PFloat _ s => Some (KNumber s)
  | PSecure _ => Some (KAddr a)
  end.
(** Lists and dicts cannot be hashed either; queues, plain objects and Python instances go by identity, which an object just
    made shares with no other. *)
Definition ref_key (a : N) (b : body) : option key :=
  match b with
  | BPrim p => prim_key a p
  | BList _ _ | BDict _ | BMade => None
  | BPlain | BQueue _ | BPy _ _ => Some (KAddr a)
  end.

(** The state of a serializer while writing (lines 655-659), and the heap, because queues are emptied. *)
Record sst := mkS { s_refs : list (key * N); s_next : N; s_tns : list name; s_heap : heap }.
Definition s_init (h : heap) : sst := mkS [] 0 [] h.
Fixpoint key_get (k : key) (l : list (key * N)) : option N :=
  match l with [] => None | (k', i) :: t => if key_eqb k k' then Some i else key_get k t end.
(** _get_ref_id, lines 1177-1199. *)
Definition get_ref_id (st : sst) (k : option key) : N * bool * sst :=
  let fresh r := (s_next st, false, mkS r (s_next st + 1) (s_tns st) (s_heap st)) in
  match k with
  | None => fresh (s_refs st)
  | Some k => match key_get k (s_refs st) with
              | Some i => (i, true, st)
              | None => fresh ((k, s_next st) :: s_refs st)
              end
  end.
Fixpoint index_of (n : name) (l : list name) : option nat :=
  match l with [] => None | m :: t => if name_eqb m n then Some 0 else option_map S (index_of n t) end.
(** TN and TNRef, lines 863-878: the table holds first names only. *)
Definition write_names (st : sst) (names : list name) : list xml * sst :=
  match names with
  | [] => ([], st)
  | n :: _ =>
    match index_of n (s_tns st) with
    | Some i => ([Elem TgTNRef [(AtRefId, dec (N.of_nat i))] [] []], st)
    | None => ([Elem TgTN [(AtRefId, dec (N.of_nat (length (s_tns st))))] [] (map (fun t => Elem TgT [] t []) names)],
               mkS (s_refs st) (s_next st) (s_tns st ++ [n]) (s_heap st))
    end
  end.
Definition set_heap (st : sst) (h : heap) : sst := mkS (s_refs st) (s_next st) (s_tns st) h.
Definition custom_names : list name := [tx "System.Management.Automation.PSCustomObject"; tx "System.Object"].
Fixpoint starts_with (p s : list N) : bool :=
  match p, s with [], _ => true | c :: p', d :: s' => (c =? d)%N && starts_with p' s' | _ :: _, [] => false end.
(** Lines 950-959. *)
Definition public_attrs (cls : name) (attrs : list (name * bool * value)) : list (name * value) :=
  map (fun x => (fst (fst x), snd x))
    (filter (fun x => negb (name_eqb (fst (fst x)) (tx "PSObject") || starts_with (tx "__") (fst (fst x))
                            || starts_with (tx "_" ++ cls ++ tx "__") (fst (fst x)) || snd (fst x))) attrs).
Definition has_props (o : gobj) : bool :=
  match g_adapted o, g_extended o with [], [] => false | _, _ => true end.
Definition group (t : tag) (l : list xml) : list xml := match l with [] => [] | _ => [Elem t [] [] l] end.
Definition string_elem (s : option (list N)) : list xml :=
  match s with None | Some [] => [] | Some t => [Elem TgToString [] t []] end.
Section Writing.
  Variable go : sst -> value -> result (xml * sst).
  Fixpoint ser_list (st : sst) (l : list value) : result (list xml * sst) :=
    match l with
    | [] => Ok ([], st)
    | v :: t => let! r := go st v in let! r' := ser_list (snd r) t in Ok (fst r :: fst r', snd r')
    end.
  (** Lines 888-893 and 964-966. *)
  Fixpoint ser_props (st : sst) (l : list (name * value)) : result (list xml * sst) :=
    match l with
    | [] => Ok ([], st)
    | (n, v) :: t =>
      let! r := go st v in let! r' := ser_props (snd r) t in
      Ok (set_attr AtN (serialize_string n) (fst r) :: fst r', snd r')
    end.
  (** Lines 923-932. *)
  Fixpoint ser_dict (st : sst) (l : list (value * value)) : result (list xml * sst) :=
    match l with
    | [] => Ok ([], st)
    | (k, v) :: t =>
      let! rk := go st k in let! rv := go (snd rk) v in let! r' := ser_dict (snd rv) t in
      Ok (Elem TgEn [] [] [set_attr AtN (tx "Key") (fst rk); set_attr AtN (tx "Value") (fst rv)] :: fst r', snd r')
    end.
  (** Lines 912-918: get() takes each entry out of the queue; [n] counts the entries it had. *)
  Fixpoint ser_queue (n : nat) (st : sst) (a : N) : result (list xml * sst) :=
    match n with
    | 0 => Ok ([], st)
    | S n =>
      match aget a (s_heap st) with
      | Some (mkG (BQueue (v :: t)) ns s ad ex) =>
        let! r := go (set_heap st (aset a (mkG (BQueue t) ns s ad ex) (s_heap st))) v in
        let! r' := ser_queue n (snd r) a in Ok (fst r :: fst r', snd r')
      | _ => Ok ([], st)
      end
    end.
  (** The part after the properties, lines 895-966. *)
  Definition ser_body (st : sst) (a : N) (o : gobj) : result (list xml * sst) :=
    match g_body o with
    | BPlain | BMade => Ok (string_elem (g_string o), st)
    | BPrim _ => Ok ([], st)
    | BList k l => let! r := ser_list st l in Ok ([Elem (TgList k) [] [] (fst r)], snd r)
    | BQueue l => let! r := ser_queue (length l) st a in Ok ([Elem TgQUE [] [] (fst r)], snd r)
    | BDict l => let! r := ser_dict st l in Ok ([Elem TgDCT [] [] (fst r)], snd r)
    | BPy cls attrs => let! r := ser_props st (public_attrs cls attrs) in Ok (group TgMS (fst r), snd r)
    end.
  (** Lines 832-968, for an object that gets its own element. *)
  Definition ser_object (st : sst) (id : N) (a : N) (o : gobj) : result (xml * sst) :=
    let sub := match g_body o with BPrim p => [prim_elem p] | _ => [] end in
    let names := match g_body o with BPrim _ => [] | BPy _ _ => custom_names | _ => g_names o end in
    let props := match g_body o with BPy _ _ => ([], []) | _ => (g_adapted o, g_extended o) end in
    let (tn, st1) := write_names st names in
    let! ra := ser_props st1 (fst props) in
    let! re := ser_props (snd ra) (snd props) in
    let! rb := ser_body (snd re) a o in
    Ok (Elem TgObj [(AtRefId, dec id)] []
          (sub ++ tn ++ group TgProps (fst ra) ++ group TgMS (fst re) ++ fst rb), snd rb).
End Writing.
(** serialize, lines 670-968.  [fuel] is the recursion depth. *)
Fixpoint ser (fuel : nat) (st : sst) (v : value) : result (xml * sst) :=
  match fuel with
  | 0 => Err OutOfFuel
  | S f =>
    match v with
    | VNull => Ok (Elem TgNil [] [] [], st)
    | VBool b => Ok (Elem TgB [] (write_bool b) [], st)
    | VPrim p => Ok (prim_elem p, st)
    | VEnum e =>
      let '(id, used, st1) := get_ref_id st (Some (KMember (e_names e) (e_val e))) in
      if used then Ok (Elem TgRef [(AtRefId, dec id)] [] [], st1)
      else let (tn, st2) := write_names st1 (e_names e) in
           Ok (Elem TgObj [(AtRefId, dec id)] []
                 (prim_elem (PInt (e_type e) (e_val e)) :: tn ++ string_elem (Some (e_text e))), st2)
    | VRef a =>
      match aget a (s_heap st) with
      | None => Err KeyError                          (* a dangling address: not a Python value *)
      | Some o =>
        let go_on := let '(id, used, st1) := get_ref_id st (ref_key a (g_body o)) in
                     if used then Ok (Elem TgRef [(AtRefId, dec id)] [] [], st1) else ser_object (ser f) st1 id a o in
        match g_body o with
        | BPrim p => if has_props o then go_on else Ok (prim_elem p, st)
        | _ => go_on
        end
      end
    end
  end.

(** ** Reading *)
(** Registered classes: what rehydrate (types/_base.py:60-84) needs to know.  [CPrim p]: the value of [cls.__new__];
    [CEnum t flag vals]: an enumeration over integer type [t] with member values [vals]. *)
Inductive ckind := CPlain | CPrim (p : prim) | CList (k : list_kind) | CQueue | CDict | CEnum (t : int_type) (flag : bool) (vals : list Z).
Record cls := mkC { c_kind : ckind; c_names : list name; c_adapted : list name; c_extended : list name }.
Definition registry := name -> option cls.

(** The state while reading (lines 661-663) and the objects made so far. *)
Record dst := mkD { d_heap : heap; d_next : N; d_refs : list (list N * value); d_tns : list (list N * list name) }.
Definition d_init : dst := mkD [] 0 [] [].
Fixpoint sget {A} (k : list N) (l : list (list N * A)) : option A :=
  match l with [] => None | (k', v) :: t => if name_eqb k k' then Some v else sget k t end.
Fixpoint sset {A} (k : list N) (v : A) (l : list (list N * A)) : list (list N * A) :=
  match l with [] => [(k, v)] | (k', w) :: t => if name_eqb k k' then (k', v) :: t else (k', w) :: sset k v t end.
Definition alloc (d : dst) (o : gobj) : N * dst :=
  (d_next d, mkD (aset (d_next d) o (d_heap d)) (d_next d + 1) (d_refs d) (d_tns d)).
Definition put (d : dst) (a : N) (o : gobj) : dst := mkD (aset a o (d_heap d)) (d_next d) (d_refs d) (d_tns d).
(** _update_value_ref, lines 1201-1210. *)
Definition update_ref (d : dst) (rid : option (list N)) (v : value) : dst :=
  match rid, v with
  | None, _ | _, VNull => d
  | Some r, _ => mkD (d_heap d) (d_next d) (sset r v (d_refs d)) (d_tns d)
  end.

(** The elements of primitive types, lines 992-1035; None for other elements.  [ps_type(None)] for empty text: 0 for
    the integer types, an error otherwise. *)
Definition read_prim (t : tag) (s : list N) : option (result prim) :=
  match t with
  | TgInt ty => Some (let! z := (match s with [] => new_int ty ANone | _ => read_int ty s end) in Ok (PInt ty z))
  | TgC => Some (let! c := read_char s in Ok (PChar c))
  | TgStr k => Some (let! u := deserialize_string s in Ok (PStr k u))
  | TgBA => Some (let! l := b64_decode s in Ok (PBytes l))
  | TgDT => Some (let! d := read_datetime s in Ok (PDate d))
  | TgTS => Some (let! n := read_duration s in Ok (PDur n))
  | TgG => Some (match s with [] => Err TypeError | _ => let! n := read_guid s in Ok (PGuid n) end)
  | TgVersion => Some (match s with [] => Err ValueError | _ => let! v := read_version s in Ok (PVer v) end)
  | TgFloat k => Some (match s with [] => Err TypeError | _ => Ok (PFloat k s) end)
  | TgSS => Some (Ok (PSecure s))
  | _ => None
  end.
(** The type names of the primitive classes, the PSType decorators of _primitive.py. *)
Definition prim_names (p : prim) : list name :=
  let vt n := [tx n; tx "System.ValueType"; tx "System.Object"] in
  match p with
  | PInt t _ => vt (match t with TByte => "System.Byte" | TSByte => "System.SByte" | TUInt16 => "System.UInt16"
                    | TInt16 => "System.Int16" | TUInt32 => "System.UInt32" | TInt32 => "System.Int32"
                    | TUInt64 => "System.UInt64" | TInt64 => "System.Int64" end)%string
  | PPlainInt _ => []
  | PChar _ => vt "System.Char"%string
  | PStr KString _ => [tx "System.String"; tx "System.Object"]
  | PStr KUri _ => [tx "System.Uri"; tx "System.Object"]
  | PStr KXml _ => [tx "System.Xml.XmlDocument"; tx "System.Xml.XmlNode"; tx "System.Object"]
  | PStr KScript _ => [tx "System.Management.Automation.ScriptBlock"; tx "System.Object"]
  | PBytes _ => [tx "System.Byte[]"; tx "System.Array"; tx "System.Object"]
  | PDate _ => vt "System.DateTime"%string
  | PDur _ => vt "System.TimeSpan"%string
  | PGuid _ => vt "System.Guid"%string
  | PVer _ => [tx "System.Version"; tx "System.Object"]
  | PFloat k _ => vt (match k with KSingle => "System.Single" | KDouble => "System.Double" | KDecimal => "System.Decimal" end)%string
  | PSecure _ => [tx "System.Security.SecureString"; tx "System.Object"]
  end.
(** The container classes of _collection.py:168-250. *)
Definition cls_list (k : list_kind) : cls :=
  mkC (CList k) [tx (match k with LIE => "System.Collections.IEnumerable" | LStack => "System.Collections.Stack"
                     | LList => "System.Collections.ArrayList" end); tx "System.Object"] [] [].
Definition cls_dict : cls := mkC CDict [tx "System.Collections.Hashtable"; tx "System.Object"] [] [].
Definition cls_queue : cls := mkC CQueue [tx "System.Collections.Queue"; tx "System.Object"] [] [].

Definition blank_body (k : ckind) : body :=
  match k with
  | CPlain | CEnum _ _ _ => BPlain | CPrim p => BPrim p | CList k => BList k [] | CQueue => BQueue [] | CDict => BDict []
  end.
(** cls.__new__(cls), _base.py:565-579: a copy of the class's type names and declared properties. *)
Definition blank (c : cls) : gobj :=
  mkG (blank_body (c_kind c)) (c_names c) None (map (fun n => (n, VNull)) (c_adapted c)) (map (fun n => (n, VNull)) (c_extended c)).
(** "Deserialized.<TN>", _base.py:80-82. *)
Definition deserialized (n : name) : name := tx "Deserialized." ++ n.

(** Python dict keys: equal numbers are one key; None for unhashable keys.  Members of enumerations are ints here;
    floats are compared by their text only.  [HOwn]: an object just made, unlike any other. *)
Inductive hkey := HNone | HNum (z : Z) | HText (s : list N) | HBytes (l : list N) | HDate (aware : bool) (t : Z)
| HGuid (n : N) | HFloat (s : list N) | HAddr (a : N) | HOwn.
Definition hkey_eqb (a b : hkey) : bool :=
  match a, b with
  | HNone, HNone => true
  | HNum x, HNum y => (x =? y)%Z
  | HText x, HText y | HBytes x, HBytes y | HFloat x, HFloat y => name_eqb x y
  | HDate a x, HDate b y => Bool.eqb a b && (x =? y)%Z
  | HGuid x, HGuid y | HAddr x, HAddr y => (x =? y)%N
  | _, _ => false
  end.
Definition prim_hash (own : hkey) (p : prim) : option hkey :=
  match p with
  | PInt _ z | PPlainInt z => Some (HNum z) | PChar c => Some (HNum (Z.of_N c)) | PStr _ s => Some (HText s)
  | PBytes l => Some (HBytes l) | PDate d => Some (HDate (match dt_tz d with Some _ => true | None => false end) (instant d))
  | PGuid n => Some (HGuid n) | PFloat _ s => Some (HFloat s) | PSecure _ => Some own
  | PDur _ | PVer _ => None
  end.
Definition hash (h : heap) (v : value) : option hkey :=
  match v with
  | VNull => Some HNone | VBool b => Some (HNum (if b then 1 else 0)%Z) | VPrim p => prim_hash HOwn p
  | VEnum e => Some (HNum (e_val e))
  | VRef a => match aget a h with
              | Some o => match g_body o with BPrim p => prim_hash (HAddr a) p | BList _ _ | BDict _ => None | _ => Some (HAddr a) end
              | None => None
              end
  end.
Fixpoint dict_put (h : heap) (hk : hkey) (k v : value) (l : list (value * value)) : list (value * value) :=
  match l with
  | [] => [(k, v)]
  | (k', v') :: t => if match hash h k' with Some x => hkey_eqb x hk | None => false end then (k', v) :: t
                     else (k', v') :: dict_put h hk k v t
  end.
(** add_note_property(..., force=True) on a property list, _base.py:836-879: same name, same place. *)
Fixpoint prop_put (n : name) (v : value) (l : list (name * value)) : list (name * value) :=
  match l with [] => [(n, v)] | (m, w) :: t => if name_eqb m n then (n, v) :: t else (m, w) :: prop_put n v t end.

Definition with_body (o : gobj) (b : body) : gobj := mkG b (g_names o) (g_string o) (g_adapted o) (g_extended o).
Definition with_names (o : gobj) (n : list name) : gobj := mkG (g_body o) n (g_string o) (g_adapted o) (g_extended o).
Definition with_string (o : gobj) (s : list N) : gobj := mkG (g_body o) (g_names o) (Some s) (g_adapted o) (g_extended o).
Definition add_adapted (n : name) (v : value) (o : gobj) : gobj :=
  mkG (g_body o) (g_names o) (g_string o) (prop_put n v (g_adapted o)) (g_extended o).
Definition add_extended (n : name) (v : value) (o : gobj) : gobj :=
  mkG (g_body o) (g_names o) (g_string o) (g_adapted o) (prop_put n v (g_extended o)).
Definition modify (d : dst) (a : N) (f : gobj -> gobj) : dst :=
  match aget a (d_heap d) with Some o => put d a (f o) | None => d end.
Definition append_item (v : value) (o : gobj) : gobj :=
  match g_body o with
  | BList k l => with_body o (BList k (l ++ [v])) | BQueue l => with_body o (BQueue (l ++ [v])) | _ => o
  end.

Fixpoint find_tag (f : tag -> bool) (l : list xml) : option xml :=
  match l with [] => None | x :: t => if f (x_tag x) then Some x else find_tag f t end.
Fixpoint find_n (n : list N) (l : list xml) : option xml :=
  match l with
  | [] => None
  | x :: t => if match attr_get AtN (x_attrs x) with Some m => name_eqb m n | None => false end then Some x else find_n n t
  end.
Definition is_tn (t : tag) : bool := match t with TgTN => true | _ => false end.
Definition is_tnref (t : tag) : bool := match t with TgTNRef => true | _ => false end.
Definition is_t (t : tag) : bool := match t with TgT => true | _ => false end.
(** element.findall("TN/T"), line 1044. *)
Definition tn_texts (kids : list xml) : list name :=
  flat_map (fun x => map x_text (filter (fun y => is_t (x_tag y)) (x_kids x))) (filter (fun x => is_tn (x_tag x)) kids).

(** Lines 1044-1055. *)
Definition read_names (d : dst) (kids : list xml) : result (list name * dst) :=
  match tn_texts kids with
  | [] => match find_tag is_tnref kids with
          | None => Ok ([], d)
          | Some x => match attr_get AtRefId (x_attrs x) with
                      | None => Err KeyError
                      | Some r => match sget r (d_tns d) with Some l => Ok (l, d) | None => Err KeyError end
                      end
          end
  | names => match find_tag is_tn kids with
             | None => Ok (names, d)
             | Some x => match attr_get AtRefId (x_attrs x) with
                         | None => Err KeyError
                         | Some r => Ok (names, mkD (d_heap d) (d_next d) (d_refs d) (sset r names (d_tns d)))
                         end
             end
  end.

(** The local variables of deserialize: [l_val] is unbound (None) until a value exists, [l_cls] is the class of the
    value while it is a fresh instance. *)
Record loc := mkL {
  l_d : dst; l_val : option value; l_cls : option cls; l_props : option (list xml); l_ms : option (list xml);
  l_str : option (list N) }.

Section Reading.
  Variable reg : registry.
  Variable go : dst -> xml -> result (value * dst).

  (** rehydrate and lines 1059-1069: the value, its class, original_type_names. *)
  Definition rehydrate (d : dst) (names : list name) (rid : option (list N)) : option value * option cls * option cls * list name * dst :=
    let found := match names with n :: _ => match n with [] => None | _ => reg n end | [] => None end in
    match found with
    | Some c =>
      match c_kind c with
      | CEnum _ _ _ => (None, None, Some c, c_names c, d)
      | _ => let (a, d1) := alloc d (blank c) in (Some (VRef a), Some c, None, c_names c, update_ref d1 rid (VRef a))
      end
    | None =>
      let dn := map deserialized names in
      let (a, d1) := alloc d (mkG BPlain dn None [] []) in
      (Some (VRef a), None, None, dn, update_ref d1 rid (VRef a))
    end.

  Fixpoint read_items (d : dst) (a : N) (l : list xml) : result dst :=
    match l with
    | [] => Ok d
    | x :: t => let! r := go d x in read_items (modify (snd r) a (append_item (fst r))) a t
    end.
  (** Lines 1093-1102.  Python evaluates the right hand side of [value[key] = value] first. *)
  Fixpoint read_entries (d : dst) (a : N) (l : list xml) : result dst :=
    match l with
    | [] => Ok d
    | x :: t =>
      match find_n (tx "Key") (x_kids x), find_n (tx "Value") (x_kids x) with
      | Some xk, Some xv =>
        let! rv := go d xv in
        let! rk := go (snd rv) xk in
        match hash (d_heap (snd rk)) (fst rk) with
        | None => Err TypeError
        | Some hk =>
          let d' := modify (snd rk) a (fun o => match g_body o with
                                                | BDict e => with_body o (BDict (dict_put (d_heap (snd rk)) hk (fst rk) (fst rv) e))
                                                | _ => o end) in
          read_entries d' a t
        end
      | _, _ => Err ValueError
      end
    end.
  (** Lines 1162-1167. *)
  Fixpoint read_props (put1 : name -> value -> gobj -> gobj) (d : dst) (a : N) (l : list xml) : result dst :=
    match l with
    | [] => Ok d
    | x :: t =>
      match attr_get AtN (x_attrs x) with
      | None => Err KeyError
      | Some s => let! n := deserialize_string s in let! r := go d x in
                  read_props put1 (modify (snd r) a (put1 n (fst r))) a t
      end
    end.
  (** The same on a member of an enumeration: the properties of members are not modelled. *)
  Fixpoint read_dropped (d : dst) (l : list xml) : result dst :=
    match l with
    | [] => Ok d
    | x :: t =>
      match attr_get AtN (x_attrs x) with
      | None => Err KeyError
      | Some s => let! n := deserialize_string s in let! r := go d x in read_dropped (snd r) t
      end
    end.

  (** cls(value) of an enumeration. *)
  Definition make_member (c : cls) (v : value) : result member :=
    match c_kind c with
    | CEnum t flag vals =>
      let pick z := if flag || existsb (Z.eqb z) vals then Ok (mkE (c_names c) t z []) else Err ValueError in
      match v with
      | VPrim (PInt _ z) => pick z
      | VPrim (PChar n) => pick (Z.of_N n)
      | VBool b => pick (if b then 1 else 0)%Z
      | VEnum e => pick (e_val e)
      | _ => Err ValueError
      end
    | _ => Err TypeError
    end.

  (** One child of an Obj element, lines 1076-1146. *)
  Definition read_child (rid : option (list N)) (en : option cls) (l : loc) (x : xml) : result loc :=
    let container (keep : bool) (c : cls) (fill : dst -> N -> result dst) : result loc :=
      match l_val l with
      | None => Err RuntimeError              (* UnboundLocalError *)
      | Some v =>
        if keep then match v with VRef a => let! d := fill (l_d l) a in
                       Ok (mkL d (l_val l) (l_cls l) (l_props l) (l_ms l) (l_str l)) | _ => Err AttributeError end
        else let (a, d1) := alloc (l_d l) (blank c) in
             let! d := fill (update_ref d1 rid (VRef a)) a in
             Ok (mkL d (Some (VRef a)) (Some c) (l_props l) (l_ms l) (l_str l))
      end in
    match x_tag x with
    | TgProps => Ok (mkL (l_d l) (l_val l) (l_cls l) (Some (x_kids x)) (l_ms l) (l_str l))
    | TgMS => Ok (mkL (l_d l) (l_val l) (l_cls l) (l_props l) (Some (x_kids x)) (l_str l))
    | TgToString => let! s := deserialize_string (x_text x) in
                    Ok (mkL (l_d l) (l_val l) (l_cls l) (l_props l) (l_ms l) (Some s))
    | TgDCT =>
      let c := match l_cls l with Some c => match c_kind c with CDict => c | _ => cls_dict end | None => cls_dict end in
      container false c (fun d a => read_entries d a (x_kids x))
    | TgQUE =>
      let keep := match l_cls l with Some c => match c_kind c with CQueue => true | _ => false end | None => false end in
      container keep cls_queue (fun d a => read_items d a (x_kids x))
    | TgList k =>
      let c := match l_cls l with Some c => match c_kind c with CList _ => c | _ => cls_list k end | None => cls_list k end in
      container false c (fun d a => read_items d a (x_kids x))
    | TgTN | TgTNRef => Ok l
    | _ =>
      let! r := go (l_d l) x in
      match en with
      | Some c => let! e := make_member c (fst r) in
                  Ok (mkL (update_ref (snd r) rid (VEnum e)) (Some (VEnum e)) None (l_props l) (l_ms l) (l_str l))
      | None =>
        let names := match l_val l with
                     | Some (VRef a) => match aget a (d_heap (l_d l)) with Some o => g_names o | None => [] end
                     | Some (VEnum e) => e_names e
                     | _ => []
                     end in
        let fin d v := Ok (mkL (update_ref d rid v) (Some v) None (l_props l) (l_ms l) (l_str l)) in
        match fst r with
        | VPrim p => let (a, d1) := alloc (snd r) (mkG (BPrim p) (match names with [] => prim_names p | _ => names end) None [] []) in
                     fin d1 (VRef a)
        | VRef a => fin (match names with [] => snd r | _ => modify (snd r) a (fun o => with_names o names) end) (VRef a)
        | VEnum e => fin (snd r) (VEnum e)
        | v => match names with [] => fin (snd r) v | _ => Err AttributeError end
        end
      end
    end.
  Fixpoint read_children (rid : option (list N)) (en : option cls) (l : loc) (kids : list xml) : result loc :=
    match kids with [] => Ok l | x :: t => let! l' := read_child rid en l x in read_children rid en l' t end.

  (** Lines 1044-1175, for an Obj element. *)
  Definition read_object (d : dst) (attrs : list (attr * list N)) (kids : list xml) : result (value * dst) :=
    let rid := attr_get AtRefId attrs in
    let! rn := read_names d kids in
    let '(v0, c0, en, original, d1) := rehydrate (snd rn) (fst rn) rid in
    let! l := read_children rid en (mkL d1 v0 c0 None None None) kids in
    match l_val l with
    | None => Err RuntimeError                (* UnboundLocalError *)
    | Some (VRef a) =>
      let d2 := match l_str l with Some s => modify (l_d l) a (fun o => with_string o s) | None => l_d l end in
      let d3 := match original with [] => d2 | _ => modify d2 a (fun o => with_names o original) end in
      let! d4 := match l_props l with Some ps => read_props add_adapted d3 a ps | None => Ok d3 end in
      let! d5 := match l_ms l with Some ps => read_props add_extended d4 a ps | None => Ok d4 end in
      Ok (VRef a, d5)
    | Some (VEnum e) =>
      let e' := match l_str l with Some s => mkE (e_names e) (e_type e) (e_val e) s | None => e end in
      let! d4 := match l_props l with Some ps => read_dropped (l_d l) ps | None => Ok (l_d l) end in
      let! d5 := match l_ms l with Some ps => read_dropped d4 ps | None => Ok d4 end in
      Ok (VEnum e', update_ref d5 rid (VEnum e'))
    | Some v => match l_str l with Some _ => Err AttributeError | None => Ok (v, l_d l) end
    end.
End Reading.

(** deserialize, lines 970-1175. *)
Fixpoint deser (reg : registry) (fuel : nat) (d : dst) (x : xml) : result (value * dst) :=
  match fuel with
  | 0 => Err OutOfFuel
  | S f =>
    let 'Elem t attrs text kids := x in
    match t with
    | TgRef => match attr_get AtRefId attrs with
               | None => Err KeyError
               | Some r => match sget r (d_refs d) with Some v => Ok (v, d) | None => Err KeyError end
               end
    | TgNil => Ok (VNull, d)
    | TgB => Ok (VBool (read_bool text), d)
    | TgToString => let! s := deserialize_string text in Ok (VPrim (PStr KString s), d)
    | TgObj => read_object reg (deser reg f) d attrs kids
    | _ => match read_prim t text with
           | Some r => let! p := r in Ok (VPrim p, d)
           | None => Err ValueError
           end
    end
  end.
(** The nesting depth of an element bounds the recursion. *)
Fixpoint height (x : xml) : nat :=
  let 'Elem _ _ _ kids := x in S (fold_right (fun y n => Nat.max (height y) n) 0 kids).
Definition deserialize (reg : registry) (d : dst) (x : xml) : result (value * dst) := deser reg (height x) d x.
(** One deserializer over several elements in turn: the loop of deserialize_clixml, lines 187-190. *)
Fixpoint read_values (reg : registry) (d : dst) (xs : list xml) : result (list value * dst) :=
  match xs with
  | [] => Ok ([], d)
  | x :: t => let! r := deserialize reg d x in let! r' := read_values reg (snd r) t in Ok (fst r :: fst r', snd r')
  end.
