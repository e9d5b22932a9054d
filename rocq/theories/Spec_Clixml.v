(** Vocabulary for the CLIXML properties (C21-C24, C46): what a good object graph is, when two graphs are the same,
    and what a well-numbered document is.  Nothing here runs the serializer. *)
From Coq Require Import String.
From Verif Require Import Base Model_Scalars Model_Object Model_Clixml Spec_Strings Spec_Scalars.

(** ** The same value in two heaps *)
(** [R a a']: object [a] of the first heap corresponds to [a'] of the second. *)
Definition same_prim (p q : prim) : Prop :=
  match p with
  | PPlainInt z => exists t, (t = TInt32 \/ t = TInt64) /\ fits t z /\ q = PInt t z
  | _ => q = p
  end.
Inductive same_value (R : N -> N -> Prop) : value -> value -> Prop :=
| SameNull : same_value R VNull VNull
| SameBool b : same_value R (VBool b) (VBool b)
| SamePrim p q : same_prim p q -> same_value R (VPrim p) (VPrim q)
| SameEnum e : same_value R (VEnum e) (VEnum e)
| SameRef a b : R a b -> same_value R (VRef a) (VRef b).
Definition same_props (R : N -> N -> Prop) (l m : list (name * value)) : Prop :=
  Forall2 (fun x y => fst x = fst y /\ same_value R (snd x) (snd y)) l m.
Definition same_entries (R : N -> N -> Prop) (l m : list (value * value)) : Prop :=
  Forall2 (fun x y => same_value R (fst x) (fst y) /\ same_value R (snd x) (snd y)) l m.
(** Registered type names come back as they are, others with the usual prefix. *)
Definition registered (reg : registry) (names : list name) : option cls :=
  match names with (c :: n) :: _ => reg (c :: n) | _ => None end.
Definition names_back (reg : registry) (names : list name) : list name :=
  match registered reg names with Some _ => names | None => map (fun n => tx "Deserialized." ++ n)%list names end.
(** Strings that survive escaping (C13), and strings that survive being written as they are. *)
Definition good_str (s : list N) : Prop := pystr s /\ no_surrogates s /\ ~ misread_run s.
Definition hex_char (c : N) : Prop := (48 <= c <= 57 \/ 65 <= c <= 70 \/ 97 <= c <= 102)%N.
Definition looks_escaped (s : list N) : Prop :=
  exists pre a b c d post, s = (pre ++ [0x5F; 0x78; a; b; c; d; 0x5F] ++ post)%N%list
    /\ hex_char a /\ hex_char b /\ hex_char c /\ hex_char d.
Definition raw_str (s : list N) : Prop :=
  pystr s /\ no_surrogates s /\ ~ misread_run s /\ ~ looks_escaped s.
(** The ToString text of an object is written as it is: one that survives that comes back. *)
Definition same_string (s s' : option (list N)) : Prop :=
  match s, s' with None, None => True | Some t, Some t' => raw_str t -> t' = t | _, _ => False end.
(** Attributes of a Python instance that count as its properties. *)
Definition public (cls : name) (x : name * bool * value) : Prop :=
  let n := fst (fst x) in
  snd (fst x) = false /\ n <> tx "PSObject" /\ ~ (exists r, n = tx "__" ++ r)%list
  /\ ~ (exists r, n = tx "_" ++ cls ++ tx "__" ++ r)%list.
Inductive publics (cls : name) : list (name * bool * value) -> list (name * value) -> Prop :=
| PubNil : publics cls [] []
| PubKeep x l m : public cls x -> publics cls l m -> publics cls (x :: l) ((fst (fst x), snd x) :: m)
| PubSkip x l m : ~ public cls x -> publics cls l m -> publics cls (x :: l) m.
Definition py_names : list name := [tx "System.Management.Automation.PSCustomObject"; tx "System.Object"].

Definition same_object (reg : registry) (R : N -> N -> Prop) (o o' : gobj) : Prop :=
  match g_body o with
  | BPlain | BMade => g_body o' = BPlain /\ same_string (g_string o) (g_string o') /\ g_names o' = names_back reg (g_names o)
              /\ same_props R (g_adapted o) (g_adapted o') /\ same_props R (g_extended o) (g_extended o')
  | BPrim p => g_body o' = BPrim p /\ g_names o' = g_names o
               /\ same_props R (g_adapted o) (g_adapted o') /\ same_props R (g_extended o) (g_extended o')
  | BList k l => (exists l', g_body o' = BList k l' /\ Forall2 (same_value R) l l') /\ g_names o' = names_back reg (g_names o)
                 /\ same_props R (g_adapted o) (g_adapted o') /\ same_props R (g_extended o) (g_extended o')
  | BQueue l => (exists l', g_body o' = BQueue l' /\ Forall2 (same_value R) l l') /\ g_names o' = names_back reg (g_names o)
                /\ same_props R (g_adapted o) (g_adapted o') /\ same_props R (g_extended o) (g_extended o')
  | BDict l => (exists l', g_body o' = BDict l' /\ same_entries R l l') /\ g_names o' = names_back reg (g_names o)
               /\ same_props R (g_adapted o) (g_adapted o') /\ same_props R (g_extended o) (g_extended o')
  | BPy cls attrs => g_body o' = BPlain /\ g_string o' = None /\ g_names o' = py_names /\ g_adapted o' = []
                     /\ exists ps, publics cls attrs ps /\ same_props R ps (g_extended o')
  end.
(** [R] matches every object it mentions with one of the same content. *)
Definition same_graph (reg : registry) (h h' : heap) (R : N -> N -> Prop) : Prop :=
  forall a a', R a a' -> exists o o', aget a h = Some o /\ aget a' h' = Some o' /\ same_object reg R o o'.

(** ** Graphs inside the claim *)
Definition good_prim (p : prim) : Prop :=
  match p with
  | PInt t z => fits t z
  | PPlainInt z => (- 2 ^ 31 <= z < 2 ^ 63)%Z
  | PChar c => (c < 65536)%N
  | PStr _ s => good_str s
  | PBytes l => bytes_ok l
  | PDate d => valid_datetime d
  | PDur ns => duration_ok ns = true /\ (ns mod 100 = 0)%Z
               /\ (ns / 100 mod 100000000 <> 0 \/ ns / 100 mod 600000000 = 0)%Z
  | PGuid n => (n < 2 ^ 128)%N
  | PVer v => version_wf v
  | PFloat _ s => s <> []
  | PSecure _ => True
  end.
(** [full n]: the type names of the objects whose first type name is [n]; [text ns z]: the text of a member. *)
Record lexicon := mkLex { full : name -> list name; text : list name -> Z -> list N }.
Definition good_member (reg : registry) (lx : lexicon) (e : member) : Prop :=
  exists n r c flag vals, e_names e = n :: r /\ full lx n = n :: r /\ registered reg (n :: r) = Some c
    /\ c_kind c = CEnum (e_type e) flag vals /\ c_names c = n :: r
    /\ (flag = true \/ In (e_val e) vals) /\ fits (e_type e) (e_val e)
    /\ e_text e = text lx (e_names e) (e_val e) /\ raw_str (e_text e).
Definition good_value (reg : registry) (lx : lexicon) (v : value) : Prop :=
  match v with VPrim p => good_prim p | VEnum e => good_member reg lx e | _ => True end.
Definition plain (v : value) : Prop := match v with VNull | VBool _ | VPrim _ => True | _ => False end.
Definition good_props (reg : registry) (lx : lexicon) (l : list (name * value)) : Prop :=
  NoDup (map fst l) /\ Forall (fun x => good_str (fst x) /\ good_value reg lx (snd x)) l.
Definition kind_of (b : body) : ckind :=
  match b with BPlain | BMade | BPy _ _ => CPlain | BPrim p => CPrim p | BList k _ => CList k | BQueue _ => CQueue | BDict _ => CDict end.
(** Type names: objects that agree on the first name agree on all; a registered first name means an instance of that
    class, with the class's type names and declared properties first. *)
Definition good_names (reg : registry) (lx : lexicon) (o : gobj) : Prop :=
  match g_names o with
  | [] => g_body o = BPlain \/ g_body o = BMade
  | n :: r => full lx n = n :: r
  end
  /\ forall c, registered reg (g_names o) = Some c ->
       c_kind c = kind_of (g_body o) /\ c_names c = g_names o
       /\ (exists r, map fst (g_adapted o) = c_adapted c ++ r)%list
       /\ (exists r, map fst (g_extended o) = c_extended c ++ r)%list.
(** The .NET type names of the primitive types. *)
Definition net_names (p : prim) : list name :=
  map tx match p with
  | PInt TByte _ => ["System.Byte"; "System.ValueType"; "System.Object"]
  | PInt TSByte _ => ["System.SByte"; "System.ValueType"; "System.Object"]
  | PInt TUInt16 _ => ["System.UInt16"; "System.ValueType"; "System.Object"]
  | PInt TInt16 _ => ["System.Int16"; "System.ValueType"; "System.Object"]
  | PInt TUInt32 _ => ["System.UInt32"; "System.ValueType"; "System.Object"]
  | PInt TInt32 _ => ["System.Int32"; "System.ValueType"; "System.Object"]
  | PInt TUInt64 _ => ["System.UInt64"; "System.ValueType"; "System.Object"]
  | PInt TInt64 _ => ["System.Int64"; "System.ValueType"; "System.Object"]
  | PPlainInt _ => []
  | PChar _ => ["System.Char"; "System.ValueType"; "System.Object"]
  | PStr KString _ => ["System.String"; "System.Object"]
  | PStr KUri _ => ["System.Uri"; "System.Object"]
  | PStr KXml _ => ["System.Xml.XmlDocument"; "System.Xml.XmlNode"; "System.Object"]
  | PStr KScript _ => ["System.Management.Automation.ScriptBlock"; "System.Object"]
  | PBytes _ => ["System.Byte[]"; "System.Array"; "System.Object"]
  | PDate _ => ["System.DateTime"; "System.ValueType"; "System.Object"]
  | PDur _ => ["System.TimeSpan"; "System.ValueType"; "System.Object"]
  | PGuid _ => ["System.Guid"; "System.ValueType"; "System.Object"]
  | PVer _ => ["System.Version"; "System.Object"]
  | PFloat KSingle _ => ["System.Single"; "System.ValueType"; "System.Object"]
  | PFloat KDouble _ => ["System.Double"; "System.ValueType"; "System.Object"]
  | PFloat KDecimal _ => ["System.Decimal"; "System.ValueType"; "System.Object"]
  | PSecure _ => ["System.Security.SecureString"; "System.Object"]
  end%string.
(** The Gregorian calendar: the microseconds from the start of the year 1 (UTC where there is a zone) to a moment. *)
Definition leap (y : N) : bool := (if y mod 400 =? 0 then true else if y mod 100 =? 0 then false else y mod 4 =? 0)%N.
Definition year_days (y : N) : Z := if leap y then 366 else 365.
Definition month_days (y : N) (m : nat) : Z :=
  nth m [0; 31; if leap y then 29 else 28; 31; 30; 31; 30; 31; 31; 30; 31; 30; 31]%Z 31%Z.
Definition sum_over (f : nat -> Z) (n : nat) : Z := fold_right (fun i z => (f i + z)%Z) 0%Z (seq 1 n).
Definition moment (d : datetime) : Z :=
  ((sum_over (fun y => year_days (N.of_nat y)) (N.to_nat (dt_year d) - 1)
    + sum_over (month_days (dt_year d)) (N.to_nat (dt_month d) - 1) + Z.of_N (dt_day d)) * 86400000000
   + Z.of_N (dt_hour d) * 3600000000 + Z.of_N (dt_minute d) * 60000000 + Z.of_N (dt_second d) * 1000000
   + Z.of_N (dt_micro d) - match dt_tz d with Some m => m * 60000000 | None => 0 end)%Z.
(** Dictionary keys: plain, hashable after reading, different as Python compares them. *)
Definition good_key (k : value) : Prop :=
  match k with VNull | VBool _ => True | VPrim (PDur _ | PVer _ | PSecure _) => False | VPrim _ => True | _ => False end.
Definition number (v : value) : option Z :=
  match v with
  | VBool b => Some (if b then 1 else 0)%Z | VPrim (PInt _ z | PPlainInt z) => Some z | VPrim (PChar c) => Some (Z.of_N c)
  | _ => None
  end.
Inductive equal_keys : value -> value -> Prop :=
| EqSame k : equal_keys k k
| EqNumber k l z : number k = Some z -> number l = Some z -> equal_keys k l
| EqText x y s : equal_keys (VPrim (PStr x s)) (VPrim (PStr y s))
| EqFloat x y s : equal_keys (VPrim (PFloat x s)) (VPrim (PFloat y s))
| EqDate d e : (dt_tz d = None <-> dt_tz e = None) -> moment d = moment e -> equal_keys (VPrim (PDate d)) (VPrim (PDate e)).
Definition good_body (reg : registry) (lx : lexicon) (o : gobj) : Prop :=
  match g_body o with
  | BPlain | BMade => match g_string o with Some s => s <> [] /\ pystr s /\ no_surrogates s | None => True end
  | BPrim p => good_prim p /\ (forall z, p <> PPlainInt z) /\ g_names o = net_names p
               /\ (g_adapted o <> [] \/ g_extended o <> [])
  | BList _ l | BQueue l => Forall (good_value reg lx) l
  | BDict l => Forall (fun e => good_value reg lx (fst e) /\ good_value reg lx (snd e) /\ good_key (fst e)) l
               /\ ForallOrdPairs (fun e f => ~ equal_keys (fst e) (fst f)) l
  | BPy cls attrs => exists ps, publics cls attrs ps /\ good_props reg lx ps
  end.
Definition container (b : body) : Prop := match b with BList _ _ | BQueue _ | BDict _ => True | _ => False end.
Definition good_object (reg : registry) (lx : lexicon) (o : gobj) : Prop :=
  good_body reg lx o
  /\ match g_body o with
     | BPy _ _ => full lx (hd [] py_names) = py_names
     | b => match b with BPrim _ => True | _ => good_names reg lx o end
            /\ good_props reg lx (g_adapted o) /\ good_props reg lx (g_extended o)
            /\ (container b -> Forall (fun x => plain (snd x)) (g_adapted o ++ g_extended o))
     end.
(** Different extended primitives that compare equal are taken for one object. *)
Definition twins (p q : prim) : Prop :=
  match p, q with
  | PStr _ s, PStr _ t => s = t
  | PDate d, PDate e => (dt_tz d = None <-> dt_tz e = None) /\ moment d = moment e
  | PGuid m, PGuid n => m = n
  | PFloat _ _, PFloat _ _ => True
  | _, _ => False
  end.
Definition no_twins (h : heap) : Prop :=
  forall a b o o' p q, aget a h = Some o -> aget b h = Some o' -> g_body o = BPrim p -> g_body o' = BPrim q ->
    twins p q -> a = b.
Record good_graph (reg : registry) (lx : lexicon) (h : heap) : Prop := {
  gg_objects : forall a o, aget a h = Some o -> good_object reg lx o;
  gg_twins : no_twins h;
  gg_custom : reg (tx "System.Management.Automation.PSCustomObject") = Some (mkC CPlain py_names [] []) }.
(** Objects that CLIXML can refer back to; the others are written out again at each occurrence. *)
Definition by_identity (o : gobj) : Prop :=
  match g_body o with
  | BPlain | BQueue _ | BPy _ _ | BPrim (PStr _ _ | PDate _ | PGuid _ | PFloat _ _ | PSecure _) => True
  | _ => False
  end.
Definition no_queues (h : heap) : Prop := forall a o l, aget a h = Some o -> g_body o <> BQueue l.
(** Values that can be written in full: no dangling reference, and every cycle passes through an object CLIXML can
    refer back to: [rank] goes down along the references out of all other objects. *)
Inductive mentions (o : gobj) : value -> Prop :=
| MenAdapted n v : In (n, v) (g_adapted o) -> mentions o v
| MenExtended n v : In (n, v) (g_extended o) -> mentions o v
| MenItem k l v : g_body o = BList k l -> In v l -> mentions o v
| MenEntry l v : g_body o = BQueue l -> In v l -> mentions o v
| MenKey l k v : g_body o = BDict l -> In (k, v) l -> mentions o k
| MenValue l k v : g_body o = BDict l -> In (k, v) l -> mentions o v
| MenAttr c l n b v : g_body o = BPy c l -> In (n, b, v) l -> mentions o v.
Definition closed (h : heap) : Prop :=
  forall a o b, aget a h = Some o -> mentions o (VRef b) -> exists o', aget b h = Some o'.
Definition ranked (h : heap) (rank : N -> nat) : Prop :=
  forall a o b, aget a h = Some o -> ~ by_identity o -> mentions o (VRef b) -> (rank b < rank a)%nat.

(** ** Well-numbered documents (C22) *)
Inductive mark := MObj (id : list N) | MRef (id : list N) | MTN (id : list N) | MTNRef (id : list N).
Definition own_marks (x : xml) : list mark :=
  match attr_get AtRefId (x_attrs x) with
  | None => []
  | Some r => match x_tag x with TgObj => [MObj r] | TgRef => [MRef r] | TgTN => [MTN r] | TgTNRef => [MTNRef r] | _ => [] end
  end.
(** The numbered elements in document order. *)
Fixpoint marks (x : xml) : list mark :=
  let 'Elem t a s kids := x in own_marks x ++ flat_map marks kids.
(** Every Obj, Ref, TN and TNRef element carries a number. *)
Fixpoint numbered (x : xml) : Prop :=
  let 'Elem t a s kids := x in
  (match t with TgObj | TgRef | TgTN | TgTNRef => attr_get AtRefId a <> None | _ => True end)
  /\ fold_right (fun y P => numbered y /\ P) True kids.
Definition well_numbered (l : list mark) : Prop :=
  (forall pre i post, l = pre ++ MObj i :: post -> ~ In (MObj i) post)
  /\ (forall pre i post, l = pre ++ MRef i :: post -> In (MObj i) pre)
  /\ (forall pre i post, l = pre ++ MTN i :: post -> ~ In (MTN i) post)
  /\ (forall pre i post, l = pre ++ MTNRef i :: post -> In (MTN i) pre).
