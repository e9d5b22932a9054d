(** XML text: what ElementTree writes, the part of XML it has to read back, and CLIXML strings
    (types/_serializer.py serialize_clixml, deserialize_clixml; _clixml_shell.py).
    ElementTree and expat are Python's, not in /repo: [print] follows ElementTree._serialize_xml; [parse] covers
    elements, attributes, character data and references.  Declarations, comments, CDATA, doctypes and namespaces are
    refused (the code under study writes none; it removes the namespace itself before parsing). *)
From Coq Require Import String Ascii.
From Verif Require Import Base Model_Scalars Model_Strings Model_Text Model_Object Model_Clixml.
Local Open Scope list_scope.

Inductive node := Node (nm : list N) (attrs : list (list N * list N)) (text : list N) (kids : list node).

(** ** Writing *)
(** ElementTree._escape_cdata *)
Definition esc_text (c : N) : list N :=
  if (c =? 38)%N then tx "&amp;" else if (c =? 60)%N then tx "&lt;" else if (c =? 62)%N then tx "&gt;" else [c].
(** ElementTree._escape_attrib *)
Definition esc_attr (c : N) : list N :=
  if (c =? 38)%N then tx "&amp;" else if (c =? 60)%N then tx "&lt;" else if (c =? 62)%N then tx "&gt;"
  else if (c =? 34)%N then tx "&quot;" else if (c =? 13)%N then tx "&#13;" else if (c =? 10)%N then tx "&#10;"
  else if (c =? 9)%N then tx "&#09;" else [c].
Definition print_attr (a : list N * list N) : list N :=
  tx " " ++ fst a ++ [61; 34]%N ++ flat_map esc_attr (snd a) ++ [34]%N.
(** ElementTree._serialize_xml with short_empty_elements *)
Fixpoint print (x : node) : list N :=
  let 'Node n a t k := x in
  tx "<" ++ n ++ flat_map print_attr a
  ++ match t, k with
     | [], [] => tx " />"
     | _, _ => tx ">" ++ flat_map esc_text t ++ flat_map print k ++ tx "</" ++ n ++ tx ">"
     end.

(** ** Reading *)
(** XML's Char production. *)
Definition xml_char (c : N) : bool :=
  ((c =? 9) || (c =? 10) || (c =? 13) || ((32 <=? c) && (c <=? 0xD7FF)) || ((0xE000 <=? c) && (c <=? 0xFFFD))
   || ((0x10000 <=? c) && (c <=? 0x10FFFF)))%N.
Definition is_ws (c : N) : bool := ((c =? 32) || (c =? 9) || (c =? 10) || (c =? 13))%N.
(** Names: ASCII letters, digits and - . _ (a colon would need a namespace); anything from U+00C0 is let through. *)
Definition name_start (c : N) : bool :=
  (((65 <=? c) && (c <=? 90)) || ((97 <=? c) && (c <=? 122)) || (c =? 95) || (0xC0 <=? c))%N.
Definition name_char (c : N) : bool := (name_start c || ((48 <=? c) && (c <=? 57)) || (c =? 45) || (c =? 46))%N.
(** The longest prefix of characters with [p]. *)
Fixpoint span (p : N -> bool) (s : list N) : list N * list N :=
  match s with
  | [] => ([], [])
  | c :: t => if p c then let (a, b) := span p t in (c :: a, b) else ([], s)
  end.
Definition skip_ws (s : list N) : list N := snd (span is_ws s).
Definition read_name (s : list N) : result (list N * list N) :=
  match s with
  | c :: _ => if name_start c then Ok (span name_char s) else Err ParseError
  | [] => Err ParseError
  end.
(** If [s] starts with [p], what follows. *)
Fixpoint strip (p s : list N) : option (list N) :=
  match p, s with
  | [], _ => Some s
  | c :: p', d :: s' => if (c =? d)%N then strip p' s' else None
  | _ :: _, [] => None
  end.
Definition digit_value (base : N) (c : N) : option N :=
  let v := if (48 <=? c)%N && (c <=? 57)%N then Some (c - 48)%N
           else if (97 <=? c)%N && (c <=? 102)%N then Some (c - 87)%N
           else if (65 <=? c)%N && (c <=? 70)%N then Some (c - 55)%N else None in
  match v with Some d => if (d <? base)%N then Some d else None | None => None end.
Fixpoint read_digits (base acc : N) (some : bool) (s : list N) : option (N * list N) :=
  match s with
  | [] => None
  | c :: t => if (c =? 59)%N then (if some then Some (acc, t) else None)
              else match digit_value base c with Some d => read_digits base (acc * base + d) true t | None => None end
  end.
Definition named : list (list N * N) :=
  [(tx "amp;", 38%N); (tx "lt;", 60%N); (tx "gt;", 62%N); (tx "quot;", 34%N); (tx "apos;", 39%N)].
Fixpoint read_named (l : list (list N * N)) (s : list N) : option (N * list N) :=
  match l with
  | [] => None
  | (p, c) :: t => match strip p s with Some r => Some (c, r) | None => read_named t s end
  end.
(** A reference, after the ampersand. *)
Definition read_ref (s : list N) : result (N * list N) :=
  match strip (tx "#x") s with
  | Some r => match read_digits 16 0 false r with
              | Some (c, r') => if xml_char c then Ok (c, r') else Err ParseError
              | None => Err ParseError
              end
  | None =>
    match strip (tx "#") s with
    | Some r => match read_digits 10 0 false r with
                | Some (c, r') => if xml_char c then Ok (c, r') else Err ParseError
                | None => Err ParseError
                end
    | None => match read_named named s with Some x => Ok x | None => Err ParseError end
    end
  end.
(** Character data or (with [attr]) an attribute value: references, line ends, white space in attributes. *)
Fixpoint decode (fuel : nat) (attr : bool) (s : list N) : result (list N) :=
  match fuel with
  | 0 => Err OutOfFuel
  | S f =>
    match s with
    | [] => Ok []
    | c :: t =>
      if (c =? 38)%N then let! r := read_ref t in let! u := decode f attr (snd r) in Ok (fst r :: u)
      else if (c =? 60)%N || negb (xml_char c) then Err ParseError
      else if (c =? 13)%N then
        let t' := match t with d :: t' => if (d =? 10)%N then t' else t | [] => t end in
        let! u := decode f attr t' in Ok ((if attr then 32 else 10)%N :: u)
      else let! u := decode f attr t in
           Ok ((if attr && ((c =? 9) || (c =? 10))%N then 32%N else c) :: u)
    end
  end.
Definition decoded (attr : bool) (s : list N) : result (list N) := decode (S (length s)) attr s.
Definition has_attr (n : list N) (l : list (list N * list N)) : bool := existsb (fun a => name_eqb (fst a) n) l.
(** Attributes and the end of the tag: true for "/>". *)
Fixpoint read_attrs (fuel : nat) (acc : list (list N * list N)) (s : list N) : result (list (list N * list N) * bool * list N) :=
  match fuel with
  | 0 => Err OutOfFuel
  | S f =>
    let s' := skip_ws s in
    match s' with
    | [] => Err ParseError
    | c :: t =>
      if (c =? 62)%N then Ok (acc, false, t)
      else if (c =? 47)%N then match t with d :: t' => if (d =? 62)%N then Ok (acc, true, t') else Err ParseError | [] => Err ParseError end
      else if Nat.eqb (length s) (length s') then Err ParseError          (* white space is needed before an attribute *)
      else
        let! r := read_name s' in
        match skip_ws (snd r) with
        | e :: u =>
          if negb (e =? 61)%N then Err ParseError else
          match skip_ws u with
          | q :: w =>
            if (q =? 34)%N || (q =? 39)%N then
              let (raw, rest) := span (fun c => negb (c =? q)%N) w in
              match rest with
              | [] => Err ParseError
              | _ :: rest' =>
                let! v := decoded true raw in
                if has_attr (fst r) acc || name_eqb (fst r) (tx "xmlns") then Err ParseError
                else read_attrs f (acc ++ [(fst r, v)]) rest'
              end
            else Err ParseError
          | [] => Err ParseError
          end
        | [] => Err ParseError
        end
    end
  end.
(** An element after its "<", and what stands between two tags.  Text after a child element (its tail) is dropped: the
    code never looks at it. *)
Fixpoint read_elem (fuel : nat) (s : list N) : result (node * list N) :=
  match fuel with
  | 0 => Err OutOfFuel
  | S f =>
    let! r := read_name s in
    let! a := read_attrs (S (length (snd r))) [] (snd r) in
    let '(attrs, closed, rest) := a in
    if closed then Ok (Node (fst r) attrs [] [], rest)
    else
      let! c := read_content f rest in
      let '(t, kids, rest2) := c in
      let! e := read_name rest2 in
      if name_eqb (fst e) (fst r) then
        match skip_ws (snd e) with
        | d :: rest3 => if (d =? 62)%N then Ok (Node (fst r) attrs t kids, rest3) else Err ParseError
        | [] => Err ParseError
        end
      else Err ParseError
  end
with read_content (fuel : nat) (s : list N) : result (list N * list node * list N) :=
  match fuel with
  | 0 => Err OutOfFuel
  | S f =>
    let (raw, rest) := span (fun c => negb (c =? 60)%N) s in
    let! t := decoded false raw in
    match strip (tx "</") rest with
    | Some u => Ok (t, [], u)
    | None =>
      match rest with
      | [] => Err ParseError
      | _ :: u => let! x := read_elem f u in
                  let! c := read_content f (snd x) in
                  let '(_, kids, rest2) := c in Ok (t, fst x :: kids, rest2)
      end
    end
  end.
(** ElementTree.fromstring *)
Definition parse (s : list N) : result node :=
  match skip_ws s with
  | c :: t => if (c =? 60)%N then let! r := read_elem (S (length t)) t in
                                   if forallb is_ws (snd r) then Ok (fst r) else Err ParseError
              else Err ParseError
  | [] => Err ParseError
  end.

(** ** Names of CLIXML elements *)
(** The tag= arguments in types/_primitive.py and types/_collection.py; the rest as in types/_serializer.py. *)
Definition int_tag (t : int_type) : string :=
  match t with
  | TByte => "By" | TSByte => "SB" | TUInt16 => "U16" | TInt16 => "I16" | TUInt32 => "U32" | TInt32 => "I32"
  | TUInt64 => "U64" | TInt64 => "I64"
  end.
Definition known : list (tag * string) :=
  [(TgObj, "Obj"); (TgRef, "Ref"); (TgNil, "Nil"); (TgB, "B"); (TgTN, "TN"); (TgT, "T"); (TgTNRef, "TNRef");
   (TgProps, "Props"); (TgMS, "MS"); (TgToString, "ToString"); (TgList LIE, "IE"); (TgList LStack, "STK");
   (TgList LList, "LST"); (TgQUE, "QUE"); (TgDCT, "DCT"); (TgEn, "En"); (TgC, "C"); (TgBA, "BA"); (TgDT, "DT");
   (TgTS, "TS"); (TgG, "G"); (TgVersion, "Version"); (TgSS, "SS"); (TgStr KString, "S"); (TgStr KUri, "URI");
   (TgStr KXml, "XD"); (TgStr KScript, "SBK"); (TgFloat KSingle, "Sg"); (TgFloat KDouble, "Db");
   (TgFloat KDecimal, "D")]%string
  ++ map (fun t => (TgInt t, int_tag t)) [TByte; TSByte; TUInt16; TInt16; TUInt32; TInt32; TUInt64; TInt64].
Definition tag_text (t : tag) : list N :=
  match t with
  | TgObj => tx "Obj" | TgRef => tx "Ref" | TgNil => tx "Nil" | TgB => tx "B" | TgTN => tx "TN" | TgT => tx "T"
  | TgTNRef => tx "TNRef" | TgProps => tx "Props" | TgMS => tx "MS" | TgToString => tx "ToString"
  | TgList LIE => tx "IE" | TgList LStack => tx "STK" | TgList LList => tx "LST" | TgQUE => tx "QUE" | TgDCT => tx "DCT"
  | TgEn => tx "En" | TgC => tx "C" | TgBA => tx "BA" | TgDT => tx "DT" | TgTS => tx "TS" | TgG => tx "G"
  | TgVersion => tx "Version" | TgSS => tx "SS" | TgStr KString => tx "S" | TgStr KUri => tx "URI" | TgStr KXml => tx "XD"
  | TgStr KScript => tx "SBK" | TgFloat KSingle => tx "Sg" | TgFloat KDouble => tx "Db" | TgFloat KDecimal => tx "D"
  | TgInt t => tx (int_tag t) | TgOther n => n
  end.
Definition tag_of (n : list N) : tag :=
  match find (fun p => name_eqb (tx (snd p)) n) known with Some p => fst p | None => TgOther n end.
Definition attr_text (a : attr) : list N :=
  match a with AtN => tx "N" | AtRefId => tx "RefId" | AtS => tx "S" | AtOther n => n end.
Definition attr_of (n : list N) : attr :=
  if name_eqb n (tx "N") then AtN else if name_eqb n (tx "RefId") then AtRefId else if name_eqb n (tx "S") then AtS else AtOther n.
Fixpoint raw (x : xml) : node :=
  let 'Elem t a s k := x in Node (tag_text t) (map (fun p => (attr_text (fst p), snd p)) a) s (map raw k).
Fixpoint cook (x : node) : xml :=
  let 'Node n a s k := x in Elem (tag_of n) (map (fun p => (attr_of (fst p), snd p)) a) s (map cook k).

(** ** CLIXML strings *)
(** ClixmlStream, types/_serializer.py:621-630 *)
Inductive stream := SOutput | SError | SDebug | SVerbose | SWarning | SProgress | SInformation.
Definition stream_text (s : stream) : list N :=
  match s with
  | SOutput => tx "output" | SError => tx "error" | SDebug => tx "debug" | SVerbose => tx "verbose"
  | SWarning => tx "warning" | SProgress => tx "progress" | SInformation => tx "information"
  end.
Definition streams : list stream := [SOutput; SError; SDebug; SVerbose; SWarning; SProgress; SInformation].
(** str.lower() of an attribute, ASCII only: other characters never make a stream name. *)
Definition lower (s : list N) : list N := map (fun c => if (65 <=? c)%N && (c <=? 90)%N then (c + 32)%N else c) s.
(** Lines 192-200. *)
Definition read_stream (x : xml) : stream :=
  match attr_get AtS (x_attrs x) with
  | None | Some [] => SOutput
  | Some s => match find (fun t => name_eqb (stream_text t) (lower s)) streams with Some t => t | None => SOutput end
  end.
Definition objs_attrs : list (list N * list N) :=
  [(tx "Version", tx "1.1.0.1"); (tx "xmlns", tx "http://schemas.microsoft.com/powershell/2004/04")].
(** serialize_clixml, lines 278-302.  An item is a value with, for a tuple, its stream. *)
Fixpoint label (xs : list xml) (ls : list (option stream)) : list xml :=
  match xs, ls with
  | x :: xs', l :: ls' => (match l with Some s => set_attr AtS (stream_text s) x | None => x end) :: label xs' ls'
  | _, _ => []
  end.
Definition serialize_clixml (fuel : nat) (h : heap) (items : list (value * option stream)) : result (list N * sst) :=
  let! r := ser_list (ser fuel) (s_init h) (map fst items) in
  Ok (print (Node (tx "Objs") objs_attrs [] (map raw (label (fst r) (map snd items)))), snd r).
(** clixml[clixml.find(">"):]; find gives -1 when there is none. *)
Fixpoint from_gt (s : list N) : option (list N) :=
  match s with [] => None | c :: t => if (c =? 62)%N then Some s else from_gt t end.
Definition cut_header (s : list N) : list N :=
  match from_gt s with Some r => r | None => skipn (length s - 1) s end.
Definition strip_crlf (s : list N) : list N := snd (span (fun c => (c =? 13) || (c =? 10))%N s).
(** deserialize_clixml, lines 176-204, with preserve_streams. *)
Fixpoint read_items_streams (reg : registry) (d : dst) (xs : list node) : result (list (value * stream) * dst) :=
  match xs with
  | [] => Ok ([], d)
  | x :: t => let! r := deserialize reg d (cook x) in
              let! r' := read_items_streams reg (snd r) t in Ok ((fst r, read_stream (cook x)) :: fst r', snd r')
  end.
Definition deserialize_clixml (reg : registry) (s : list N) : result (list (value * stream) * dst) :=
  let s1 := match strip (tx "#< CLIXML") s with Some r => strip_crlf r | None => s end in
  let! x := parse (tx "<Objs" ++ cut_header s1) in
  let 'Node _ _ _ kids := x in read_items_streams reg d_init kids.
