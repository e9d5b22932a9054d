(** Host calls: argument packing in src/psrpcore/_host.py and types/_host.py, unpacking in src/psrpcore/_events.py.
    The serializer in between is taken as the identity on these plain values; see the CLIXML files for it. *)
From Coq Require Import String Ascii.
From Verif Require Import Base Model_Scalars.
Local Open Scope string_scope.
Local Open Scope list_scope.
Local Open Scope nat_scope.

(** Plain values on the wire: objects are property lists, dictionaries have ints as keys; [HOpaque] stands for any value
    that is passed through. *)
Inductive hv :=
| HNull | HInt (z : Z) | HStr (s : list N) | HBool (b : bool) | HChar (c : N)
| HList (l : list hv) | HObj (ps : list (string * hv)) | HDict (l : list (Z * hv)) | HOpaque (n : N).

Fixpoint prop_of (ps : list (string * hv)) (k : string) : result hv :=
  match ps with [] => Err AttributeError | (n, v) :: t => if String.eqb n k then Ok v else prop_of t k end.
Definition attr (v : hv) (k : string) : result hv := match v with HObj ps => prop_of ps k | _ => Err AttributeError end.

(** Casts of the property types (PSPropertyInfo._cast) on plain values: None passes, PSInt checks its range.
    Values of another type raise. *)
Definition new_int32 (z : Z) : result Z :=
  if ((min_value TInt32 <=? z) && (z <=? max_value TInt32))%Z then Ok z else Err ValueError.
Definition as_int (v : hv) : result Z := match v with HInt z => new_int32 z | _ => Err TypeError end.
Definition as_bool (v : hv) : result bool := match v with HBool b => Ok b | _ => Err TypeError end.
Definition as_char (v : hv) : result N := match v with HChar c => Ok c | _ => Err TypeError end.
Definition as_str (v : hv) : result (option (list N)) :=
  match v with HStr s => Ok (Some s) | HNull => Ok None | _ => Err TypeError end.
Definition opt_str (s : option (list N)) : hv := match s with Some s => HStr s | None => HNull end.
Definition as_list (v : hv) : result (list hv) := match v with HList l => Ok l | _ => Err TypeError end.

Fixpoint map_result {A B} (f : A -> result B) (l : list A) : result (list B) :=
  match l with [] => Ok [] | x :: t => let! y := f x in let! r := map_result f t in Ok (y :: r) end.

(** ConsoleColor, types/_complex.py:102-117: an enumeration of 0..15. *)
Definition console_color (v : hv) : result Z :=
  match v with HInt z => if ((0 <=? z) && (z <=? 15))%Z then Ok z else Err ValueError | _ => Err ValueError end.
(** Flag enumerations (types/_enum.py:108-175) accept any integer, as enum.IntFlag does. *)
Definition flags (v : hv) : result Z := match v with HInt z => Ok z | _ => Err ValueError end.

(** ** Host objects, types/_host.py *)
Record coord := mkCoord { co_x : Z; co_y : Z }.
Record size := mkSize { sz_w : Z; sz_h : Z }.
Record rect := mkRect { re_l : Z; re_t : Z; re_r : Z; re_b : Z }.
Record cell := mkCell { ce_char : N; ce_fg : Z; ce_bg : Z; ce_type : Z }.
Record key_info := mkKey { ki_code : Z; ki_char : N; ki_state : Z; ki_down : bool }.
Record choice := mkChoice { ch_label : option (list N); ch_help : option (list N) }.
Record field := mkField {
  fd_name : option (list N); fd_type : option (list N); fd_full : option (list N); fd_assembly : option (list N);
  fd_label : option (list N); fd_help : option (list N); fd_mandatory : bool;
  fd_default : hv; fd_attributes : list hv }.
Record progress := mkProgress {
  pr_id : Z; pr_activity : option (list N); pr_status : option (list N); pr_operation : option (list N);
  pr_parent : Z; pr_percent : Z; pr_type : Z; pr_seconds : Z }.

(** Constructors: the properties are cast to PSInt (lines 316-317, 520-523, 580-581). *)
Definition new_coord x y : result coord := let! x := new_int32 x in let! y := new_int32 y in Ok (mkCoord x y).
Definition new_size w h : result size := let! w := new_int32 w in let! h := new_int32 h in Ok (mkSize w h).
Definition new_rect l t r b : result rect :=
  let! l := new_int32 l in let! t := new_int32 t in let! r := new_int32 r in let! b := new_int32 b in Ok (mkRect l t r b).

(** Coordinates, lines 338-364. *)
Definition coord_to (c : coord) : hv := HObj [("x", HInt (co_x c)); ("y", HInt (co_y c))].
Definition coord_from (v : hv) : result coord :=
  let! x := attr v "x" in let! y := attr v "y" in let! x := as_int x in let! y := as_int y in Ok (mkCoord x y).
(** Size, lines 603-629. *)
Definition size_to (s : size) : hv := HObj [("width", HInt (sz_w s)); ("height", HInt (sz_h s))].
Definition size_from (v : hv) : result size :=
  let! w := attr v "width" in let! h := attr v "height" in let! w := as_int w in let! h := as_int h in Ok (mkSize w h).
(** Rectangle, lines 543-571. *)
Definition rect_to (r : rect) : hv :=
  HObj [("left", HInt (re_l r)); ("top", HInt (re_t r)); ("right", HInt (re_r r)); ("bottom", HInt (re_b r))].
Definition rect_from (v : hv) : result rect :=
  let! l := attr v "left" in let! t := attr v "top" in let! r := attr v "right" in let! b := attr v "bottom" in
  let! l := as_int l in let! t := as_int t in let! r := as_int r in let! b := as_int b in Ok (mkRect l t r b).
(** BufferCell, lines 222-255. *)
Definition cell_to (c : cell) : hv :=
  HObj [("character", HChar (ce_char c)); ("foregroundColor", HInt (ce_fg c)); ("backgroundColor", HInt (ce_bg c));
        ("bufferCellType", HInt (ce_type c))].
Definition cell_from (v : hv) : result cell :=
  let! ch := attr v "character" in
  let! fg := attr v "foregroundColor" in let! fg := console_color fg in
  let! bg := attr v "backgroundColor" in let! bg := console_color bg in
  let! ty := attr v "bufferCellType" in let! ty := flags ty in
  let! ch := as_char ch in Ok (mkCell ch fg bg ty).
(** KeyInfo, lines 478-511. *)
Definition key_to (k : key_info) : hv :=
  HObj [("virtualKeyCode", HInt (ki_code k)); ("character", HChar (ki_char k)); ("controlKeyState", HInt (ki_state k));
        ("keyDown", HBool (ki_down k))].
Definition key_from (v : hv) : result key_info :=
  let! c := attr v "virtualKeyCode" in let! ch := attr v "character" in
  let! st := attr v "controlKeyState" in let! st := flags st in
  let! d := attr v "keyDown" in
  let! c := as_int c in let! ch := as_char ch in let! d := as_bool d in Ok (mkKey c ch st d).
(** ChoiceDescription, lines 281-307. *)
Definition choice_to (c : choice) : hv := HObj [("label", opt_str (ch_label c)); ("helpMessage", opt_str (ch_help c))].
Definition choice_from (v : hv) : result choice :=
  let! l := attr v "label" in let! h := attr v "helpMessage" in let! l := as_str l in let! h := as_str h in Ok (mkChoice l h).
(** FieldDescription, lines 404-447: neither DefaultValue nor Attributes is sent. *)
Definition field_to (f : field) : hv :=
  HObj [("name", opt_str (fd_name f)); ("label", opt_str (fd_label f)); ("parameterTypeName", opt_str (fd_type f));
        ("parameterTypeFullName", opt_str (fd_full f)); ("parameterAssemblyFullName", opt_str (fd_assembly f));
        ("helpMessage", opt_str (fd_help f)); ("isMandatory", HBool (fd_mandatory f)); ("metadata", HList []);
        ("modifiedByRemotingProtocol", HBool false); ("isFromRemoteHost", HBool false)].
Definition field_from (v : hv) : result field :=
  let! n := attr v "name" in let! ty := attr v "parameterTypeName" in let! fu := attr v "parameterTypeFullName" in
  let! asm := attr v "parameterAssemblyFullName" in let! l := attr v "label" in let! h := attr v "helpMessage" in
  let! m := attr v "isMandatory" in let! md := attr v "metadata" in
  let! n := as_str n in let! ty := as_str ty in let! fu := as_str fu in let! asm := as_str asm in
  let! l := as_str l in let! h := as_str h in let! m := as_bool m in let! md := as_list md in
  Ok (mkField n ty fu asm l h m HNull md).
(** ProgressRecordMsg as sent (_host.py:1118-1133) and ProgressRecord as read (_events.py:112-125). *)
Definition progress_to (p : progress) : hv :=
  HObj [("Activity", opt_str (pr_activity p)); ("ActivityId", HInt (pr_id p)); ("StatusDescription", opt_str (pr_status p));
        ("CurrentOperation", opt_str (pr_operation p)); ("ParentActivityId", HInt (pr_parent p));
        ("PercentComplete", HInt (pr_percent p)); ("Type", HInt (pr_type p)); ("SecondsRemaining", HInt (pr_seconds p))].
Definition progress_from (v : hv) : result progress :=
  let! a := attr v "Activity" in let! i := attr v "ActivityId" in let! o := attr v "CurrentOperation" in
  let! pa := attr v "ParentActivityId" in let! pc := attr v "PercentComplete" in let! ty := attr v "Type" in
  let! s := attr v "SecondsRemaining" in let! st := attr v "StatusDescription" in
  let! a := as_str a in let! i := as_int i in let! o := as_str o in let! pa := as_int pa in let! pc := as_int pc in
  let! ty := as_int ty in let! s := as_int s in let! st := as_str st in
  Ok (mkProgress i a st o pa pc ty s).

(** ** Two-dimensional arrays *)
(** _create_multi_dimensional_array, _host.py:48-66: (mae, mal). *)
Definition create_array {A} (pack : A -> hv) (values : list (list A)) : result (list hv * list N) :=
  match values with
  | [] => Err IndexError
  | row :: _ => Ok (map pack (concat values), [N.of_nat (length values); N.of_nat (length row)])
  end.
Definition array_obj (a : list hv * list N) : hv :=
  HObj [("mae", HList (fst a)); ("mal", HList (map (fun n => HInt (Z.of_N n)) (snd a)))].

(** Nested Python lists. *)
Inductive nest (A : Type) := Leaf (a : A) | Row (l : list (nest A)).
Arguments Leaf {A}. Arguments Row {A}.
(** The inner loop of _unpack_multi_dimensional_array, _events.py:196-200. *)
Fixpoint group {A} (count : Z) (entries : list (nest A)) (l : list (nest A)) : list (nest A) :=
  match l with
  | [] => []
  | e :: t => let es := entries ++ [e] in
              if (Z.of_nat (length es) =? count)%Z then Row es :: group count [] t else group count es t
  end.
(** _unpack_multi_dimensional_array, _events.py:186-202. *)
Definition unpack_array {A} (unpack : hv -> result A) (v : hv) : result (nest A) :=
  let! mae := attr v "mae" in let! mae := as_list mae in
  let! items := map_result unpack mae in
  let! mal := attr v "mal" in let! mal := as_list mal in
  let! counts := map_result (fun c => match c with HInt z => Ok z | _ => Err TypeError end) mal in
  let final := fold_left (fun l count => group count [] l) (rev counts) (map Leaf items) in
  match final with [] => Err IndexError | x :: _ => Ok x end.
Definition grid {A} (g : list (list A)) : nest A := Row (map (fun r => Row (map Leaf r)) g).

(** ** Server side: ServerHostRequestor, _host.py:628-1978 *)
Inductive request :=
| RPlain (method : N)                                (* a method without parameters *)
| RSetShouldExit (code : Z)
| RWrite (value : list N) (fg bg : option Z)
| RWriteLine (line : option (list N)) (fg bg : option Z)
| RWriteErrorLine (line : list N) | RWriteDebugLine (line : list N)
| RWriteProgress (source : Z) (p : progress)
| RWriteVerboseLine (line : list N) | RWriteWarningLine (line : list N)
| RPrompt (caption message : list N) (fields : list field)
| RPromptForCredential (caption message : list N) (username target : option (list N)) (types options : option Z)
| RPromptForChoice (caption message : list N) (choices : list choice) (default : Z)
| RPromptForMultipleChoice (caption message : list N) (choices : list choice) (defaults : option (list Z))
| RSetForegroundColor (c : Z) | RSetBackgroundColor (c : Z)
| RSetCursorPosition (x y : Z) | RSetWindowPosition (x y : Z)
| RSetCursorSize (n : Z)
| RSetBufferSize (w h : Z) | RSetWindowSize (w h : Z)
| RSetWindowTitle (t : list N)
| RReadKey (options : Z)
| RSetBufferCells (l t r b : Z) (ch : N) (fg bg : Z)
| RSetBufferContents (x y : Z) (contents : list (list cell))
| RGetBufferContents (l t r b : Z)
| RScrollBufferContents (sl st sr sb x y cl ct cr cb : Z) (ch : N) (fg bg : Z).

Definition colour_or_0 (c : option Z) : hv := HInt (match c with Some z => z | None => 0%Z end).
Definition is_some {A} (o : option A) : bool := match o with Some _ => true | None => false end.
Definition new_progress (p : progress) : result progress :=
  let! i := new_int32 (pr_id p) in let! a := new_int32 (pr_parent p) in let! c := new_int32 (pr_percent p) in
  let! s := new_int32 (pr_seconds p) in
  Ok (mkProgress i (pr_activity p) (pr_status p) (pr_operation p) a c (pr_type p) s).

(** The method identifier and the parameter list each helper passes to host_call. *)
Definition encode (r : request) : result (N * list hv) :=
  match r with
  | RPlain m => Ok (m, [])
  | RSetShouldExit c => Ok (6%N, [HInt c])                                        (* 771 *)
  | RWrite v fg bg =>                                                             (* 978-986 *)
    if is_some fg || is_some bg then Ok (14%N, [colour_or_0 fg; colour_or_0 bg; HStr v]) else Ok (13%N, [HStr v])
  | RWriteLine l fg bg =>                                                         (* 1013-1028 *)
    if is_some fg || is_some bg
    then Ok (17%N, [colour_or_0 fg; colour_or_0 bg; HStr (match l with Some s => s | None => [] end)])
    else match l with Some s => Ok (16%N, [HStr s]) | None => Ok (15%N, []) end
  | RWriteErrorLine l => Ok (18%N, [HStr l])                                      (* 1049 *)
  | RWriteDebugLine l => Ok (19%N, [HStr l])                                      (* 1070 *)
  | RWriteProgress s p => let! p := new_progress p in Ok (20%N, [HInt s; progress_to p])  (* 1118-1133 *)
  | RWriteVerboseLine l => Ok (21%N, [HStr l])                                    (* 1154 *)
  | RWriteWarningLine l => Ok (22%N, [HStr l])                                    (* 1175 *)
  | RPrompt c m fs => Ok (23%N, [HStr c; HStr m; HList (map field_to fs)])        (* 1204-1206 *)
  | RPromptForCredential c m u t ty op =>                                         (* 1244-1253 *)
    let base := [HStr c; HStr m; opt_str u; HStr (match t with Some s => s | None => [] end)] in
    if is_some ty || is_some op
    then Ok (25%N, base ++ [HInt (match ty with Some z => z | None => 3%Z end); HInt (match op with Some z => z | None => 1%Z end)])
    else Ok (24%N, base)
  | RPromptForChoice c m cs d => Ok (26%N, [HStr c; HStr m; HList (map choice_to cs); HInt d])   (* 1286-1290 *)
  | RPromptForMultipleChoice c m cs d =>                                          (* 1322-1327 *)
    Ok (56%N, [HStr c; HStr m; HList (map choice_to cs); HList (map HInt (match d with Some l => l | None => [] end))])
  | RSetForegroundColor c => Ok (28%N, [HInt c])                                  (* 1370 *)
  | RSetBackgroundColor c => Ok (30%N, [HInt c])                                  (* 1413 *)
  | RSetCursorPosition x y => let! c := new_coord x y in Ok (32%N, [coord_to c])  (* 1458-1461 *)
  | RSetWindowPosition x y => let! c := new_coord x y in Ok (34%N, [coord_to c])  (* 1508-1511 *)
  | RSetCursorSize n => Ok (36%N, [HInt n])                                       (* 1554 *)
  | RSetBufferSize w h => let! s := new_size w h in Ok (38%N, [size_to s])        (* 1599-1601 *)
  | RSetWindowSize w h => let! s := new_size w h in Ok (40%N, [size_to s])        (* 1646-1648 *)
  | RSetWindowTitle t => Ok (42%N, [HStr t])                                      (* 1691 *)
  | RReadKey o => Ok (46%N, [HInt o])                                             (* 1779 *)
  | RSetBufferCells l t r b ch fg bg =>                                           (* 1836-1840 *)
    let! re := new_rect l t r b in Ok (48%N, [rect_to re; cell_to (mkCell ch fg bg 0)])
  | RSetBufferContents x y g =>                                                   (* 1874-1877 *)
    let! c := new_coord x y in let! a := create_array cell_to g in Ok (49%N, [coord_to c; array_obj a])
  | RGetBufferContents l t r b => let! re := new_rect l t r b in Ok (50%N, [rect_to re])   (* 1913-1918 *)
  | RScrollBufferContents sl st sr sb x y cl ct cr cb ch fg bg =>                 (* 1969-1978 *)
    let! s := new_rect sl st sr sb in let! d := new_coord x y in let! c := new_rect cl ct cr cb in
    Ok (51%N, [rect_to s; coord_to d; rect_to c; cell_to (mkCell ch fg bg 0)])
  end.

(** ** Client side: _decode_host_call_parameters, _events.py:105-183 *)
Inductive dv :=
| DRaw (v : hv) | DColor (z : Z) | DCoord (c : coord) | DSize (s : size) | DRect (r : rect) | DCell (c : cell)
| DCells (g : nest cell) | DKey (k : key_info) | DFields (l : list field) | DChoices (l : list choice)
| DCredTypes (z : Z) | DUIOptions (z : Z) | DReadKeyOptions (z : Z) | DProgress (p : progress).
Definition param (ps : list hv) (i : nat) : result hv := match nth_error ps i with Some v => Ok v | None => Err IndexError end.
Definition isin (m : N) (l : list N) : bool := existsb (N.eqb m) l.
Definition decode_params (m : N) (ps : list hv) : result (list dv) :=
  if isin m [14; 17]%N then
    let! a := param ps 0 in let! a := console_color a in let! b := param ps 1 in let! b := console_color b in
    let! c := param ps 2 in Ok [DColor a; DColor b; DRaw c]
  else if isin m [20]%N then
    let! a := param ps 0 in let! b := param ps 1 in let! p := progress_from b in Ok [DRaw a; DProgress p]
  else if isin m [23]%N then
    let! a := param ps 0 in let! b := param ps 1 in let! c := param ps 2 in let! c := as_list c in
    let! fs := map_result field_from c in Ok [DRaw a; DRaw b; DFields fs]
  else if isin m [25]%N then
    let! a := param ps 0 in let! b := param ps 1 in let! c := param ps 2 in let! d := param ps 3 in
    let! e := param ps 4 in let! e := flags e in let! f := param ps 5 in let! f := flags f in
    Ok [DRaw a; DRaw b; DRaw c; DRaw d; DCredTypes e; DUIOptions f]
  else if isin m [26; 56]%N then
    let! a := param ps 0 in let! b := param ps 1 in let! c := param ps 2 in let! c := as_list c in
    let! cs := map_result choice_from c in let! d := param ps 3 in Ok [DRaw a; DRaw b; DChoices cs; DRaw d]
  else if isin m [28; 30]%N then let! a := param ps 0 in let! a := console_color a in Ok [DColor a]
  else if isin m [32; 34]%N then let! a := param ps 0 in let! a := coord_from a in Ok [DCoord a]
  else if isin m [38; 40]%N then let! a := param ps 0 in let! a := size_from a in Ok [DSize a]
  else if isin m [46]%N then let! a := param ps 0 in let! a := flags a in Ok [DReadKeyOptions a]
  else if isin m [48]%N then
    let! a := param ps 0 in let! a := rect_from a in let! b := param ps 1 in let! b := cell_from b in Ok [DRect a; DCell b]
  else if isin m [49]%N then
    let! b := param ps 1 in let! g := unpack_array cell_from b in
    let! a := param ps 0 in let! a := coord_from a in Ok [DCoord a; DCells g]
  else if isin m [50]%N then let! a := param ps 0 in let! a := rect_from a in Ok [DRect a]
  else if isin m [51]%N then
    let! a := param ps 0 in let! a := rect_from a in let! b := param ps 1 in let! b := coord_from b in
    let! c := param ps 2 in let! c := rect_from c in let! d := param ps 3 in let! d := cell_from d in
    Ok [DRect a; DCoord b; DRect c; DCell d]
  else Ok (map DRaw ps).

(** ** Responses: ClientHostResponder, _host.py:69-625, and _decode_host_resp_result, _events.py:74-102.
    [PRaw] covers the methods that pass their argument through. *)
Inductive response :=
| PRaw (method : N) (v : hv)
| PColor (method : N) (c : Z)                            (* 316-358 *)
| PCoord (method : N) (x y : Z)                          (* 360-406 *)
| PSize (method : N) (w h : Z)                           (* 430-552 *)
| PKey (code : Z) (ch : N) (state : Z) (down : bool)     (* 571-598 *)
| PMultiChoice (l : list Z)                              (* 298-314 *)
| PCells (g : list (list cell)).                         (* 600-625 *)
Definition response_method (r : response) : N :=
  match r with PRaw m _ | PColor m _ | PCoord m _ _ | PSize m _ _ => m | PKey _ _ _ _ => 46 | PMultiChoice _ => 56 | PCells _ => 50 end.
Definition encode_response (r : response) : result hv :=
  match r with
  | PRaw _ v => Ok v
  | PColor _ c => Ok (HInt c)
  | PCoord _ x y => let! c := new_coord x y in Ok (coord_to c)
  | PSize _ w h => let! s := new_size w h in Ok (size_to s)
  | PKey code ch st d => let! code := new_int32 code in Ok (key_to (mkKey code ch st d))
  | PMultiChoice l => Ok (HList (map HInt l))
  | PCells g => let! a := create_array cell_to g in Ok (array_obj a)
  end.
Definition decode_result (m : N) (v : hv) : result dv :=
  match v with
  | HNull => Ok (DRaw HNull)
  | _ =>
    if isin m [27; 29]%N then let! c := console_color v in Ok (DColor c)
    else if isin m [31; 33]%N then let! c := coord_from v in Ok (DCoord c)
    else if isin m [37; 39; 43; 44]%N then let! s := size_from v in Ok (DSize s)
    else if isin m [46]%N then let! k := key_from v in Ok (DKey k)
    else if isin m [50]%N then let! g := unpack_array cell_from v in Ok (DCells g)
    else Ok (DRaw v)
  end.

(** HostMethodIdentifier.is_void, types/_host.py:91-123. *)
Definition is_void (m : N) : bool :=
  isin m [6; 7; 8; 9; 10; 52; 53; 13; 14; 15; 16; 17; 18; 19; 20; 21; 22; 28; 30; 32; 34; 36; 38; 40; 42; 47; 48; 49; 51]%N.

(** ** Host information, types/_host.py:632-792 *)
Record host_data := mkHostData {
  hd_fg : Z; hd_bg : Z; hd_cursor : coord; hd_window : coord; hd_cursor_size : Z;
  hd_buffer : size; hd_window_size : size; hd_max : size; hd_max_physical : size; hd_title : list N }.
Record host_info := mkHostInfo {
  hi_null : bool; hi_ui_null : bool; hi_raw_null : bool; hi_runspace_host : bool; hi_data : option host_data }.
(** dict_value, lines 699-703: the value with the name of its type. *)
Definition txt (s : string) : list N := map N_of_ascii (list_ascii_of_string s).
Definition dict_value (v : hv) (ty : string) : hv := HObj [("T", HStr (txt ty)); ("V", v)].
(** HostDefaultData.ToPSObjectForRemoting, lines 692-727: an object with the dictionary from index to value. *)
Definition host_data_to (d : host_data) : hv :=
  HObj [("data", HDict
  [(0, dict_value (HInt (hd_fg d)) "System.ConsoleColor"); (1, dict_value (HInt (hd_bg d)) "System.ConsoleColor");
   (2, dict_value (coord_to (hd_cursor d)) "System.Management.Automation.Host.Coordinates");
   (3, dict_value (coord_to (hd_window d)) "System.Management.Automation.Host.Coordinates");
   (4, dict_value (HInt (hd_cursor_size d)) "System.Int32");
   (5, dict_value (size_to (hd_buffer d)) "System.Management.Automation.Host.Size");
   (6, dict_value (size_to (hd_window_size d)) "System.Management.Automation.Host.Size");
   (7, dict_value (size_to (hd_max d)) "System.Management.Automation.Host.Size");
   (8, dict_value (size_to (hd_max_physical d)) "System.Management.Automation.Host.Size");
   (9, dict_value (HStr (hd_title d)) "System.String")]%Z)].
(** obj.data[k].V; a PSDict asked for a number it has no entry for raises TypeError (C64). *)
Fixpoint item (d : list (Z * hv)) (k : Z) : result hv :=
  match d with [] => Err TypeError | (n, v) :: t => if (n =? k)%Z then Ok v else item t k end.
Definition item_v (d : hv) (k : Z) : result hv :=
  let! v := attr d "data" in
  match v with HDict l => let! v := item l k in attr v "V" | _ => Err TypeError end.
(** HostDefaultData.FromPSObjectForRemoting, lines 673-690. *)
Definition host_data_from (d : hv) : result host_data :=
  let! fg := item_v d 0 in let! fg := console_color fg in
  let! bg := item_v d 1 in let! bg := console_color bg in
  let! cp := item_v d 2 in let! cp := coord_from cp in
  let! wp := item_v d 3 in let! wp := coord_from wp in
  let! cs := item_v d 4 in
  let! bs := item_v d 5 in let! bs := size_from bs in
  let! ws := item_v d 6 in let! ws := size_from ws in
  let! ms := item_v d 7 in let! ms := size_from ms in
  let! mp := item_v d 8 in let! mp := size_from mp in
  let! t := item_v d 9 in
  let! cs := as_int cs in
  match t with HStr s => Ok (mkHostData fg bg cp wp cs bs ws ms mp s) | _ => Err TypeError end.
(** HostInfo, lines 777-792: the flags, and the data only when there is some. *)
Definition host_info_to (h : host_info) : hv :=
  HObj ([("_isHostNull", HBool (hi_null h)); ("_isHostUINull", HBool (hi_ui_null h)); ("_isHostRawUINull", HBool (hi_raw_null h));
         ("_useRunspaceHost", HBool (hi_runspace_host h))]
        ++ match hi_data h with Some d => [("_hostDefaultData", host_data_to d)] | None => [] end).
(** HostInfo.FromPSObjectForRemoting, lines 757-775: no data, or null, is None. *)
Definition host_info_from (v : hv) : result host_info :=
  let! d := match attr v "_hostDefaultData" with
            | Ok HNull | Err AttributeError => Ok None
            | Ok d => let! d := host_data_from d in Ok (Some d)
            | Err e => Err e
            end in
  let! n := attr v "_isHostNull" in let! u := attr v "_isHostUINull" in let! r := attr v "_isHostRawUINull" in
  let! s := attr v "_useRunspaceHost" in
  let! n := as_bool n in let! u := as_bool u in let! r := as_bool r in let! s := as_bool s in
  Ok (mkHostInfo n u r s d).
