(** What CLIXML text looks like to the other side ([MS-PSRP] 2.2.5, XML Schema Part 2), written without the model's
    writers or readers: numerals by their digits, names by tables, elements by a grammar (C51). *)
From Coq Require Import String Ascii.
From Verif Require Import Base Model_Scalars Model_Object Model_Clixml Model_Xml Spec_Strings Spec_Scalars.
Local Open Scope list_scope.

Definition chars (s : string) : list N := map N_of_ascii (list_ascii_of_string s).
(** The number that digits stand for, most significant first. *)
Fixpoint value_of (base : N) (ds : list N) : N :=
  match ds with [] => 0 | d :: t => d * base ^ N.of_nat (length t) + value_of base t end%N.
Definition below (base : N) (ds : list N) : Prop := Forall (fun d => (d < base)%N) ds.
Definition shown (alphabet : string) (ds : list N) : list N := map (fun d => nth (N.to_nat d) (chars alphabet) 0%N) ds.
Definition digits10 : string := "0123456789".
Definition digits16 : string := "0123456789abcdef".
Definition digits16_upper : string := "0123456789ABCDEF".
Definition digits64 : string := "ABCDEFGHIJKLMNOPQRSTUVWXYZabcdefghijklmnopqrstuvwxyz0123456789+/".

(** [n] in decimal, without leading zeros. *)
Definition numeral (n : N) (s : list N) : Prop :=
  exists ds, below 10 ds /\ value_of 10 ds = n /\ s = shown digits10 ds /\ (ds = [0%N] \/ exists d t, ds = d :: t /\ d <> 0%N).
(** [n] in exactly [w] decimal digits. *)
Definition fixed (w : nat) (n : N) (s : list N) : Prop :=
  exists ds, length ds = w /\ below 10 ds /\ value_of 10 ds = n /\ s = shown digits10 ds.
Definition signed_numeral (z : Z) (s : list N) : Prop :=
  (0 <= z /\ numeral (Z.to_N z) s)%Z \/ (z < 0 /\ exists t, s = chars "-" ++ t /\ numeral (Z.to_N (- z)) t)%Z.

(** 8-4-4-4-12 lower-case hexadecimal digits. *)
Definition guid_form (n : N) (s : list N) : Prop :=
  exists a b c d e, map (@length N) [a; b; c; d; e] = [8; 4; 4; 4; 12] /\ below 16 (a ++ b ++ c ++ d ++ e)
    /\ value_of 16 (a ++ b ++ c ++ d ++ e) = n
    /\ s = shown digits16 a ++ chars "-" ++ shown digits16 b ++ chars "-" ++ shown digits16 c
           ++ chars "-" ++ shown digits16 d ++ chars "-" ++ shown digits16 e.
(** Major.minor[.build[.revision]] *)
Definition version_form (v : version) (s : list N) : Prop :=
  exists a b, numeral (v_major v) a /\ numeral (v_minor v) b /\
  match v_build v, v_revision v with
  | None, _ => s = a ++ chars "." ++ b
  | Some x, None => exists c, numeral x c /\ s = a ++ chars "." ++ b ++ chars "." ++ c
  | Some x, Some y => exists c d, numeral x c /\ numeral y d /\ s = a ++ chars "." ++ b ++ chars "." ++ c ++ chars "." ++ d
  end.
(** RFC 4648: six bits a digit, zero bits and = fill the last group of four. *)
Definition base64_form (l s : list N) : Prop :=
  exists ds p, below 64 ds /\ (p < 3)%nat /\ (length ds + p) mod 4 = 0 /\ 6 * length ds = 8 * length l + 2 * p
    /\ value_of 64 ds = (value_of 256 l * 4 ^ N.of_nat p)%N
    /\ s = shown digits64 ds ++ concat (repeat (chars "=") p).
(** YYYY-MM-DDThh:mm:ss[.ffffff[f]][Z|+hh:mm|-hh:mm] *)
Definition zone_form (tz : option Z) (s : list N) : Prop :=
  match tz with
  | None => s = []
  | Some m => if (m =? 0)%Z then s = chars "Z"
              else exists h mi, fixed 2 (Z.abs_N m / 60) h /\ fixed 2 (Z.abs_N m mod 60) mi
                   /\ s = (if (m <? 0)%Z then chars "-" else chars "+") ++ h ++ chars ":" ++ mi
  end.
Definition fraction_form (micro nano : N) (s : list N) : Prop :=
  if ((micro =? 0) && (nano =? 0))%N then s = []
  else if (nano =? 0)%N then exists f, fixed 6 micro f /\ s = chars "." ++ f
  else exists f, fixed 7 (micro * 10 + nano / 100) f /\ s = chars "." ++ f.
Definition datetime_form (d : datetime) (s : list N) : Prop :=
  exists y mo da h mi se f z, fixed 4 (dt_year d) y /\ fixed 2 (dt_month d) mo /\ fixed 2 (dt_day d) da
    /\ fixed 2 (dt_hour d) h /\ fixed 2 (dt_minute d) mi /\ fixed 2 (dt_second d) se
    /\ fraction_form (dt_micro d) (dt_nano d) f /\ zone_form (dt_tz d) z
    /\ s = y ++ chars "-" ++ mo ++ chars "-" ++ da ++ chars "T" ++ h ++ chars ":" ++ mi ++ chars ":" ++ se ++ f ++ z.
(** [-]P[nD][T[nH][nM][n[.f]S]], no empty P or T. *)
Definition part_form (n : N) (unit : string) (s : list N) : Prop :=
  (n = 0%N /\ s = []) \/ (n <> 0%N /\ exists t, numeral n t /\ s = t ++ chars unit).
Definition seconds_form (n : N) (frac : list N) (s : list N) : Prop :=
  (n = 0%N /\ frac = [] /\ s = [])
  \/ exists t, numeral n t /\ s = t ++ (match frac with [] => [] | _ => chars "." ++ shown digits10 frac end) ++ chars "S".
Definition duration_form (neg : bool) (d h m sec : N) (frac s : list N) : Prop :=
  (h < 24 /\ m < 60 /\ sec < 60)%N /\ below 10 frac /\ length frac <= 7 /\ last frac 1%N <> 0%N
  /\ exists td th tm ts, part_form d "D" td /\ part_form h "H" th /\ part_form m "M" tm /\ seconds_form sec frac ts
     /\ td ++ th ++ tm ++ ts <> []
     /\ s = (if neg then chars "-" else []) ++ chars "P" ++ td
            ++ (match th ++ tm ++ ts with [] => [] | t => chars "T" ++ t end).
(** The fraction in units of 100 ns. *)
Definition frac_ticks (frac : list N) : N := value_of 10 (frac ++ repeat 0%N (7 - length frac)).

(** Strings: every character as itself or as the _xHHHH_ escapes of its UTF-16 code units. *)
Definition code_units (c : N) (us : list N) : Prop :=
  (c < 0x10000 /\ us = [c])%N
  \/ exists h l, us = [0xD800 + h; 0xDC00 + l]%N /\ (h < 1024 /\ l < 1024 /\ c = 0x10000 + 1024 * h + l)%N.
Definition unit_escape (u : N) (s : list N) : Prop :=
  exists ds, length ds = 4 /\ below 16 ds /\ value_of 16 ds = u /\ s = chars "_x" ++ shown digits16_upper ds ++ chars "_".
Definition char_form (c : N) (s : list N) : Prop :=
  s = [c] \/ exists us es, code_units c us /\ Forall2 unit_escape us es /\ s = concat es.
Definition string_form (t s : list N) : Prop := exists ps, Forall2 char_form t ps /\ s = concat ps.

(** ** Elements *)
(** [MS-PSRP] 2.2.5.1 *)
Definition prim_element (p : prim) : string :=
  match p with
  | PStr KString _ => "S" | PChar _ => "C" | PDate _ => "DT" | PDur _ => "TS"
  | PInt TByte _ => "By" | PInt TSByte _ => "SB" | PInt TUInt16 _ => "U16" | PInt TInt16 _ => "I16"
  | PInt TUInt32 _ => "U32" | PInt TInt32 _ => "I32" | PInt TUInt64 _ => "U64" | PInt TInt64 _ => "I64"
  | PPlainInt z => if (2147483647 <? z)%Z then "I64" else "I32"
  | PFloat KSingle _ => "Sg" | PFloat KDouble _ => "Db" | PFloat KDecimal _ => "D"
  | PBytes _ => "BA" | PGuid _ => "G" | PStr KUri _ => "URI" | PVer _ => "Version" | PStr KXml _ => "XD"
  | PStr KScript _ => "SBK" | PSecure _ => "SS"
  end.
Definition prim_form (p : prim) (s : list N) : Prop :=
  match p with
  | PInt _ z | PPlainInt z => signed_numeral z s
  | PChar c => numeral c s
  | PStr _ t => string_form t s
  | PBytes l => base64_form l s
  | PDate d => datetime_form d s
  | PDur ns => exists d h m sec frac, duration_form (ns / 100 <? 0)%Z d h m sec frac s
               /\ (((d * 24 + h) * 60 + m) * 60 + sec) * 10000000 + frac_ticks frac = Z.abs_N (ns / 100)
  | PGuid n => guid_form n s
  | PVer v => version_form v s
  | PFloat _ t | PSecure t => s = t
  end%N.
Definition list_element (k : list_kind) : string := match k with LIE => "IE" | LStack => "STK" | LList => "LST" end.
Definition element (n : string) (a : list (list N * list N)) (t : list N) (k : list node) : node := Node (chars n) a t k.
(** Attributes: RefId first (only where a number is due), then the name N; [lab] is the name, if any. *)
Definition labelled (lab : option (list N)) : list (list N * list N) :=
  match lab with Some n => [(chars "N", n)] | None => [] end.
(** The type names: a list of names, or the number of one given before. *)
Inductive types_form : node -> Prop :=
| TypesNew i r ns : numeral i r -> ns <> [] ->
    types_form (element "TN" [(chars "RefId", r)] [] (map (fun n => element "T" [] n []) ns))
| TypesOld i r : numeral i r -> types_form (element "TNRef" [(chars "RefId", r)] [] []).
Definition at_most_one {A} (P : A -> Prop) (l : list A) : Prop := l = [] \/ exists x, l = [x] /\ P x.
(** An element that stands for a value; the label is the text of its N attribute. *)
Inductive value_form : option (list N) -> node -> Prop :=
| FormNil lab : value_form lab (element "Nil" (labelled lab) [] [])
| FormBool lab b : value_form lab (element "B" (labelled lab) (chars (if (b : bool) then "true" else "false")) [])
| FormPrim lab p s : prim_form p s -> value_form lab (element (prim_element p) (labelled lab) s [])
| FormRef lab i r : numeral i r -> value_form lab (element "Ref" ((chars "RefId", r) :: labelled lab) [] [])
| FormObj lab i r prim tn props ms body str : numeral i r ->
    at_most_one (fun x => exists p s, prim_form p s /\ x = element (prim_element p) [] s []) prim ->
    at_most_one types_form tn ->
    at_most_one (fun x => exists l, x = element "Props" [] [] l /\ l <> [] /\ properties l) props ->
    at_most_one (fun x => exists l, x = element "MS" [] [] l /\ l <> [] /\ properties l) ms ->
    at_most_one body_form body ->
    at_most_one (fun x => exists s, s <> [] /\ x = element "ToString" [] s []) str ->
    value_form lab (element "Obj" ((chars "RefId", r) :: labelled lab) [] (prim ++ tn ++ props ++ ms ++ body ++ str))
with properties : list node -> Prop :=
| PropsNil : properties []
| PropsCons n s x l : string_form n s -> value_form (Some s) x -> properties l -> properties (x :: l)
with body_form : node -> Prop :=
| BodyList k l : items l -> body_form (element (list_element k) [] [] l)
| BodyQueue l : items l -> body_form (element "QUE" [] [] l)
| BodyDict l : entries l -> body_form (element "DCT" [] [] l)
with items : list node -> Prop :=
| ItemsNil : items []
| ItemsCons x l : value_form None x -> items l -> items (x :: l)
with entries : list node -> Prop :=
| EntriesNil : entries []
| EntriesCons k v l : value_form (Some (chars "Key")) k -> value_form (Some (chars "Value")) v -> entries l ->
    entries (element "En" [] [] [k; v] :: l).

(** ** Values inside the claim: text is Unicode, bytes are bytes, dates exist, durations are not whole multiples of ten
    seconds within a minute (C17). *)
Definition ordinary (p : prim) : Prop :=
  match p with
  | PStr _ s => pystr s
  | PBytes l => bytes_ok l
  | PDate d => valid_datetime d
  | PDur ns => (ns / 100 mod 100000000 <> 0 \/ ns / 100 mod 600000000 = 0)%Z
  | PGuid n => (n < 2 ^ 128)%N
  | PVer v => version_wf v
  | _ => True
  end.
Definition ordinary_value (v : value) : Prop := match v with VPrim p => ordinary p | _ => True end.
Definition ordinary_prop (x : name * value) : Prop := pystr (fst x) /\ ordinary_value (snd x).
Definition ordinary_object (o : gobj) : Prop :=
  Forall ordinary_prop (g_adapted o) /\ Forall ordinary_prop (g_extended o) /\
  match g_body o with
  | BPlain | BMade => True
  | BPrim p => ordinary p
  | BList _ l | BQueue l => Forall ordinary_value l
  | BDict l => Forall (fun e => ordinary_value (fst e) /\ ordinary_value (snd e)) l
  | BPy _ l => Forall (fun x => pystr (fst (fst x)) /\ ordinary_value (snd x)) l
  end.
Definition ordinary_heap (h : heap) : Prop := forall a o, aget a h = Some o -> ordinary_object o.

(** ** Documents *)
(** Character data: the characters with a meaning in XML as references, the others as they are. *)
Definition reference (specials : list (N * string)) (c : N) (s : list N) : Prop :=
  (exists t, In (c, t) specials /\ s = chars t) \/ ((forall t, ~ In (c, t) specials) /\ s = [c]).
Definition text_specials : list (N * string) := [(38%N, "&amp;"); (60%N, "&lt;"); (62%N, "&gt;")]%string.
Definition attr_specials : list (N * string) :=
  text_specials ++ [(34%N, "&quot;"); (13%N, "&#13;"); (10%N, "&#10;"); (9%N, "&#09;")]%string.
Definition char_data (specials : list (N * string)) (t s : list N) : Prop :=
  exists ps, Forall2 (reference specials) t ps /\ s = concat ps.
Definition attr_data (a : list N * list N) (s : list N) : Prop :=
  exists v, char_data attr_specials (snd a) v /\ s = chars " " ++ fst a ++ chars "=" ++ [34%N] ++ v ++ [34%N].
Inductive written : node -> list N -> Prop :=
| WrittenEmpty n a ats : Forall2 attr_data a ats ->
    written (Node n a [] []) (chars "<" ++ n ++ concat ats ++ chars " />")
| Written n a t k ats t' ks : Forall2 attr_data a ats -> char_data text_specials t t' -> written_all k ks ->
    (t <> [] \/ k <> []) ->
    written (Node n a t k) (chars "<" ++ n ++ concat ats ++ chars ">" ++ t' ++ concat ks ++ chars "</" ++ n ++ chars ">")
with written_all : list node -> list (list N) -> Prop :=
| WrittenNil : written_all [] []
| WrittenCons x s l m : written x s -> written_all l m -> written_all (x :: l) (s :: m).
Definition stream_name (s : stream) : string :=
  match s with
  | SOutput => "output" | SError => "error" | SDebug => "debug" | SVerbose => "verbose" | SWarning => "warning"
  | SProgress => "progress" | SInformation => "information"
  end.
(** The element of one value, with the stream it is for as the last attribute. *)
Definition item_form (l : option stream) (x : node) : Prop :=
  match l with
  | None => value_form None x
  | Some s => exists n a t k, value_form None (Node n a t k) /\ x = Node n (a ++ [(chars "S", chars (stream_name s))]) t k
  end.
Definition document_form (ls : list (option stream)) (s : list N) : Prop :=
  exists xs ps, Forall2 item_form ls xs /\ written_all xs ps /\
  let open := chars "<Objs Version=" ++ [34%N] ++ chars "1.1.0.1" ++ [34%N] ++ chars " xmlns=" ++ [34%N]
              ++ chars "http://schemas.microsoft.com/powershell/2004/04" ++ [34%N] in
  s = match xs with [] => open ++ chars " />" | _ => open ++ chars ">" ++ concat ps ++ chars "</Objs>" end.
