(** What host calls have to satisfy. *)
From Coq Require Import String.
From Verif Require Import Base Model_Host.
Local Open Scope list_scope.
Local Open Scope Z_scope.

Definition int32_ok (z : Z) : Prop := -2147483648 <= z <= 2147483647.
Definition color_ok (z : Z) : Prop := 0 <= z <= 15.
Definition cell_ok (c : cell) : Prop := color_ok (ce_fg c) /\ color_ok (ce_bg c).
(** A grid with [r] rows of [c] cells, at least one of each. *)
Definition rectangular {A} (r c : nat) (g : list (list A)) : Prop :=
  (1 <= r)%nat /\ (1 <= c)%nat /\ length g = r /\ Forall (fun row => length row = c) g.
Definition opt_color_ok (c : option Z) : Prop := match c with Some z => color_ok z | None => True end.
(** Methods without parameters: those whose helper passes none. *)
Definition plain_methods : list N :=
  [1; 2; 3; 4; 5; 7; 8; 9; 10; 11; 12; 27; 29; 31; 33; 35; 37; 39; 41; 43; 44; 45; 47; 53; 54]%N.
(** A prompt field that has neither a default value nor attributes (these are not sent, see C42_field_refuted). *)
Definition field_plain (f : field) : Prop := fd_default f = HNull /\ fd_attributes f = [].

(** Arguments of the right range. *)
Definition request_ok (r : request) : Prop :=
  match r with
  | RPlain m => In m plain_methods
  | RWrite _ fg bg | RWriteLine _ fg bg => opt_color_ok fg /\ opt_color_ok bg
  | RWriteProgress _ p => int32_ok (pr_id p) /\ int32_ok (pr_parent p) /\ int32_ok (pr_percent p)
                          /\ int32_ok (pr_seconds p) /\ (pr_type p = 0 \/ pr_type p = 1)
  | RPrompt _ _ fs => Forall field_plain fs
  | RSetForegroundColor c | RSetBackgroundColor c => color_ok c
  | RSetCursorPosition x y | RSetWindowPosition x y | RSetBufferSize x y | RSetWindowSize x y => int32_ok x /\ int32_ok y
  | RSetBufferCells l t r b _ fg bg =>
    int32_ok l /\ int32_ok t /\ int32_ok r /\ int32_ok b /\ color_ok fg /\ color_ok bg
  | RSetBufferContents x y g =>
    int32_ok x /\ int32_ok y /\ Forall (Forall cell_ok) g /\ exists r c, rectangular r c g
  | RGetBufferContents l t r b => int32_ok l /\ int32_ok t /\ int32_ok r /\ int32_ok b
  | RScrollBufferContents sl st sr sb x y cl ct cr cb _ fg bg =>
    int32_ok sl /\ int32_ok st /\ int32_ok sr /\ int32_ok sb /\ int32_ok x /\ int32_ok y
    /\ int32_ok cl /\ int32_ok ct /\ int32_ok cr /\ int32_ok cb /\ color_ok fg /\ color_ok bg
  | _ => True
  end.
Definition or_default {A} (d : A) (o : option A) : A := match o with Some x => x | None => d end.
(** The host method a request stands for, with the arguments of its .NET signature in order. *)
Definition meaning (r : request) : N * list dv :=
  match r with
  | RPlain m => (m, [])
  | RSetShouldExit c => (6%N, [DRaw (HInt c)])
  | RWrite v None None => (13%N, [DRaw (HStr v)])
  | RWrite v fg bg => (14%N, [DColor (or_default 0 fg); DColor (or_default 0 bg); DRaw (HStr v)])
  | RWriteLine None None None => (15%N, [])
  | RWriteLine (Some l) None None => (16%N, [DRaw (HStr l)])
  | RWriteLine l fg bg => (17%N, [DColor (or_default 0 fg); DColor (or_default 0 bg); DRaw (HStr (or_default [] l))])
  | RWriteErrorLine l => (18%N, [DRaw (HStr l)])
  | RWriteDebugLine l => (19%N, [DRaw (HStr l)])
  | RWriteProgress s p => (20%N, [DRaw (HInt s); DProgress p])
  | RWriteVerboseLine l => (21%N, [DRaw (HStr l)])
  | RWriteWarningLine l => (22%N, [DRaw (HStr l)])
  | RPrompt c m fs => (23%N, [DRaw (HStr c); DRaw (HStr m); DFields fs])
  | RPromptForCredential c m u t None None =>
    (24%N, [DRaw (HStr c); DRaw (HStr m); DRaw (opt_str u); DRaw (HStr (or_default [] t))])
  | RPromptForCredential c m u t ty op =>
    (25%N, [DRaw (HStr c); DRaw (HStr m); DRaw (opt_str u); DRaw (HStr (or_default [] t));
            DCredTypes (or_default 3 ty); DUIOptions (or_default 1 op)])
  | RPromptForChoice c m cs d => (26%N, [DRaw (HStr c); DRaw (HStr m); DChoices cs; DRaw (HInt d)])
  | RPromptForMultipleChoice c m cs d =>
    (56%N, [DRaw (HStr c); DRaw (HStr m); DChoices cs; DRaw (HList (map HInt (or_default [] d)))])
  | RSetForegroundColor c => (28%N, [DColor c])
  | RSetBackgroundColor c => (30%N, [DColor c])
  | RSetCursorPosition x y => (32%N, [DCoord (mkCoord x y)])
  | RSetWindowPosition x y => (34%N, [DCoord (mkCoord x y)])
  | RSetCursorSize n => (36%N, [DRaw (HInt n)])
  | RSetBufferSize w h => (38%N, [DSize (mkSize w h)])
  | RSetWindowSize w h => (40%N, [DSize (mkSize w h)])
  | RSetWindowTitle t => (42%N, [DRaw (HStr t)])
  | RReadKey o => (46%N, [DReadKeyOptions o])
  | RSetBufferCells l t r b ch fg bg => (48%N, [DRect (mkRect l t r b); DCell (mkCell ch fg bg 0)])
  | RSetBufferContents x y g => (49%N, [DCoord (mkCoord x y); DCells (Row (map (fun row => Row (map Leaf row)) g))])
  | RGetBufferContents l t r b => (50%N, [DRect (mkRect l t r b)])
  | RScrollBufferContents sl st sr sb x y cl ct cr cb ch fg bg =>
    (51%N, [DRect (mkRect sl st sr sb); DCoord (mkCoord x y); DRect (mkRect cl ct cr cb); DCell (mkCell ch fg bg 0)])
  end.

(** Responses. *)
Definition raw_methods : list N := [1; 2; 3; 4; 5; 11; 12; 23; 24; 25; 26; 35; 41; 45; 54]%N.
Definition response_ok (r : response) : Prop :=
  match r with
  | PRaw m _ => In m raw_methods
  | PColor m c => In m [27; 29]%N /\ color_ok c
  | PCoord m x y => In m [31; 33]%N /\ int32_ok x /\ int32_ok y
  | PSize m w h => In m [37; 39; 43; 44]%N /\ int32_ok w /\ int32_ok h
  | PKey code _ _ _ => int32_ok code
  | PMultiChoice _ => True
  | PCells g => Forall (Forall cell_ok) g /\ exists r c, rectangular r c g
  end.
Definition response_meaning (r : response) : dv :=
  match r with
  | PRaw _ v => DRaw v
  | PColor _ c => DColor c
  | PCoord _ x y => DCoord (mkCoord x y)
  | PSize _ w h => DSize (mkSize w h)
  | PKey code ch st d => DKey (mkKey code ch st d)
  | PMultiChoice l => DRaw (HList (map HInt l))
  | PCells g => DCells (Row (map (fun row => Row (map Leaf row)) g))
  end.
Definition coord_ok (c : coord) : Prop := int32_ok (co_x c) /\ int32_ok (co_y c).
Definition size_ok (s : size) : Prop := int32_ok (sz_w s) /\ int32_ok (sz_h s).
Definition host_ok (h : host_info) : Prop :=
  match hi_data h with
  | None => True
  | Some d => color_ok (hd_fg d) /\ color_ok (hd_bg d) /\ coord_ok (hd_cursor d) /\ coord_ok (hd_window d)
              /\ int32_ok (hd_cursor_size d) /\ size_ok (hd_buffer d) /\ size_ok (hd_window_size d)
              /\ size_ok (hd_max d) /\ size_ok (hd_max_physical d)
  end.

(** The host methods by number, from 1 on ([MS-PSRP] 2.2.3.17); those that get, read or prompt have an answer. *)
Definition method_names : list string :=
  ["GetName"; "GetVersion"; "GetInstanceId"; "GetCurrentCulture"; "GetCurrentUICulture"; "SetShouldExit"; "EnterNestedPrompt";
   "ExitNestedPrompt"; "NotifyBeginApplication"; "NotifyEndApplication"; "ReadLine"; "ReadLineAsSecureString"; "Write1"; "Write2";
   "WriteLine1"; "WriteLine2"; "WriteLine3"; "WriteErrorLine"; "WriteDebugLine"; "WriteProgress"; "WriteVerboseLine";
   "WriteWarningLine"; "Prompt"; "PromptForCredential1"; "PromptForCredential2"; "PromptForChoice"; "GetForegroundColor";
   "SetForegroundColor"; "GetBackgroundColor"; "SetBackgroundColor"; "GetCursorPosition"; "SetCursorPosition";
   "GetWindowPosition"; "SetWindowPosition"; "GetCursorSize"; "SetCursorSize"; "GetBufferSize"; "SetBufferSize"; "GetWindowSize";
   "SetWindowSize"; "GetWindowTitle"; "SetWindowTitle"; "GetMaxWindowSize"; "GetMaxPhysicalWindowSize"; "GetKeyAvailable";
   "ReadKey"; "FlushInputBuffer"; "SetBufferContents1"; "SetBufferContents2"; "GetBufferContents"; "ScrollBufferContents";
   "PushRunspace"; "PopRunspace"; "GetIsRunspacePushed"; "GetRunspace"; "PromptForChoiceMultipleSelection"]%string.
Definition has_answer (n : string) : bool :=
  (String.prefix "Get" n || String.prefix "Read" n || String.prefix "Prompt" n)%bool.
Definition method_name (m : N) : option string := match m with 0%N => None | _ => nth_error method_names (N.to_nat m - 1) end.

(** ** Malformed values *)
(** An object without the property: other values have no properties with these names at all. *)
Definition lacks (v : hv) (k : string) : Prop := match v with HObj ps => ~ In k (map fst ps) | _ => True end.
(** The property a well-formed object has. *)
Definition has (v : hv) (k : string) (x : hv) : Prop :=
  match v with HObj ps => exists a b, ps = (a ++ (k, x) :: b)%list /\ ~ In k (map fst a) | _ => False end.
(** The properties of each host object, by name ([MS-PSRP] 2.2.3.1, 2.2.3.2 and the .NET classes). *)
Definition coord_names : list string := ["x"; "y"]%string.
Definition size_names : list string := ["width"; "height"]%string.
Definition rect_names : list string := ["left"; "top"; "right"; "bottom"]%string.
Definition choice_names : list string := ["label"; "helpMessage"]%string.
Definition field_names : list string :=
  ["name"; "label"; "parameterTypeName"; "parameterTypeFullName"; "parameterAssemblyFullName"; "helpMessage"; "isMandatory";
   "metadata"]%string.
Definition progress_names : list string :=
  ["Activity"; "ActivityId"; "StatusDescription"; "CurrentOperation"; "ParentActivityId"; "PercentComplete"; "Type";
   "SecondsRemaining"]%string.
(** The host methods whose parameters are converted, with the number of parameters of each. *)
Definition converted : list (N * nat) :=
  [(14%N, 3%nat); (17%N, 3%nat); (20%N, 2%nat); (23%N, 3%nat); (25%N, 6%nat); (26%N, 4%nat); (56%N, 4%nat); (28%N, 1%nat); (30%N, 1%nat); (32%N, 1%nat); (34%N, 1%nat); (38%N, 1%nat); (40%N, 1%nat); (46%N, 1%nat);
   (48%N, 2%nat); (49%N, 2%nat); (50%N, 1%nat); (51%N, 4%nat)].
(** The whole numbers of a request that are sent as 32 bit numbers. *)
Definition numbers (r : request) : list Z :=
  match r with
  | RWriteProgress _ p => [pr_id p; pr_parent p; pr_percent p; pr_seconds p]
  | RSetCursorPosition x y | RSetWindowPosition x y | RSetBufferSize x y | RSetWindowSize x y => [x; y]
  | RSetBufferCells l t r b _ _ _ | RGetBufferContents l t r b => [l; t; r; b]
  | RSetBufferContents x y _ => [x; y]
  | RScrollBufferContents sl st sr sb x y cl ct cr cb _ _ _ => [sl; st; sr; sb; x; y; cl; ct; cr; cb]
  | _ => []
  end.
