(** C21 (round trip), C22 (numbering), C23 (sharing), C24 (type names), C46 (the value is left alone). *)
From Coq Require Import String.
From Verif Require Import Base BaseFacts Model_Scalars Model_Strings Model_Text Model_Object Model_Clixml.
From Verif Require Import Spec_Strings Spec_Scalars Spec_Clixml Proofs_Clixml5 Proofs_Clixml6 Proofs_Clixml7.
Local Open Scope list_scope.

(** ** An example graph *)
Definition custom : name := tx "System.Management.Automation.PSCustomObject".
Definition colour_names : list name := [tx "My.Colour"; tx "System.Enum"].
Definition ex_reg : registry := fun n =>
  if name_eqb n custom then Some (mkC CPlain py_names [] [])
  else if name_eqb n (tx "My.Colour") then Some (mkC (CEnum TInt32 false [0; 1; 2]%Z) colour_names [] [])
  else if name_eqb n (tx "My.Box") then Some (mkC CPlain [tx "My.Box"; tx "System.Object"] [] [tx "size"])
  else None.
Definition ex_lex : lexicon :=
  mkLex (fun n => if name_eqb n custom then py_names else if name_eqb n (tx "My.Colour") then colour_names
                  else if name_eqb n (tx "System.Object") then [n] else [n; tx "System.Object"])
        (fun _ z => if (z =? 1)%Z then tx "Green" else tx "Red").
Definition green : value := VEnum (mkE colour_names TInt32 1 (tx "Green")).
Definition str (s : string) : value := VPrim (PStr KString (tx s)).
(** A box that contains itself and a list; the list contains the box, a queue and a colour; the queue contains the
    box; a dictionary whose entries are the list, the queue and an annotated string; an instance of a Python class. *)
Definition ex_heap : heap :=
  [(1, mkG BPlain [tx "My.Box"; tx "System.Object"] (Some (tx "a box")) [] [(tx "size", VPrim (PInt TInt64 7)); (tx "self", VRef 1); (tx "list", VRef 2)]);
   (2, mkG (BList LList [VRef 1; VRef 3; green]) [tx "System.Collections.ArrayList"; tx "System.Object"] None [] []);
   (3, mkG (BQueue [VRef 1; VNull; green]) [tx "System.Collections.Queue"; tx "System.Object"] None [(tx "owner", str "me")] []);
   (4, mkG (BDict [(str "x", VRef 2); (VPrim (PInt TInt32 4), VRef 3); (VBool true, VRef 5); (VNull, VRef 6)])
        [tx "System.Collections.Hashtable"; tx "System.Object"] None [] []);
   (5, mkG (BPrim (PStr KString (tx "note"))) [tx "System.String"; tx "System.Object"] None [] [(tx "from", VRef 6)]);
   (6, mkG (BPy (tx "Person") [(tx "name", false, str "Ann"); (tx "greet", true, VNull); (tx "boss", false, VRef 6); (tx "__doc", false, VNull)])
        [] None [] [])]%N.
Ltac tame_all := repeat match goal with |- good_str _ => apply tame_good; reflexivity | |- raw_str _ => apply tame_good; reflexivity end.
Lemma green_good : good_value ex_reg ex_lex green.
Proof.
  exists (tx "My.Colour"), [tx "System.Enum"], (mkC (CEnum TInt32 false [0; 1; 2]%Z) colour_names [] []), false, [0; 1; 2]%Z.
  do 5 (split; [reflexivity|]). split; [right; right; left; reflexivity|]. split; [cbn; lia|]. split; [reflexivity|]. now apply tame_good.
Qed.
Lemma good_props_ok reg lx l : NoDup (map fst l) -> Forall (fun x => tame (fst x) = true) l -> Forall (fun x => good_value reg lx (snd x)) l -> good_props reg lx l.
Proof.
  intros H1 H2 H3. split; [exact H1|]. rewrite Forall_forall in *. intros x Hx. split; [apply tame_good; auto|auto].
Qed.
Lemma names_unreg o : registered ex_reg (g_names o) = None -> match g_names o with [] => g_body o = BPlain \/ g_body o = BMade | n :: r => full ex_lex n = n :: r end ->
  good_names ex_reg ex_lex o.
Proof. intros H1 H2. split; [exact H2|]. intros c Hc. congruence. Qed.
Ltac no_dup := repeat (apply NoDup_cons; [vm_compute; intuition discriminate|]); apply NoDup_nil.
Ltac props := apply good_props_ok; [no_dup|repeat (constructor; [reflexivity|]); constructor|
  repeat (constructor; [try exact I; try exact green_good; try (apply tame_good; reflexivity); try (cbn; lia)|]); constructor].
Lemma ex_good : good_graph ex_reg ex_lex ex_heap.
Proof.
  constructor.
  - assert (Forall (fun p => good_object ex_reg ex_lex (snd p)) ex_heap) as H.
    { apply Forall_cons; [|apply Forall_cons; [|apply Forall_cons; [|apply Forall_cons; [|apply Forall_cons; [|apply Forall_cons; [|apply Forall_nil]]]]]]; cbn [snd];
        unfold good_object; cbn [g_body].
      - split; [cbn; split; [discriminate|now apply tame_whole]|]. split; [|split; [props|split; [props|intros []]]].
        split; [reflexivity|]. intros c Hc. change (Some (mkC CPlain [tx "My.Box"; tx "System.Object"] [] [tx "size"]) = Some c) in Hc.
        injection Hc as <-. cbn. repeat apply conj; try reflexivity; eexists; reflexivity.
      - split; [cbn; repeat (constructor; [try exact I; try exact green_good|]); constructor|].
        split; [apply names_unreg; reflexivity|split; [props|split; [props|intros _; constructor]]].
      - split; [cbn; repeat (constructor; [try exact I; try exact green_good|]); constructor|].
        split; [apply names_unreg; reflexivity|split; [props|split; [props|intros _; repeat constructor]]].
      - split.
        + cbn. split.
          * repeat (constructor; [cbn [fst snd good_value good_key]; repeat apply conj; try exact I; try (apply tame_good; reflexivity); try (cbn; lia)|]). constructor.
          * repeat first [apply FOP_cons|apply FOP_nil|apply Forall_cons|apply Forall_nil]; cbn [fst]; intros F; inversion F; cbn in *; congruence.
        + split; [apply names_unreg; reflexivity|split; [props|split; [props|intros _; constructor]]].
      - split; [cbn; split; [now apply tame_good|split; [discriminate|split; [reflexivity|right; discriminate]]]|].
        split; [exact I|split; [props|split; [props|intros []]]].
      - split; [|reflexivity]. cbn [good_body g_body]. exists [(tx "name", str "Ann"); (tx "boss", VRef 6%N)]. split; [|props].
        assert (forall x p s, tx "_" ++ p = x :: s -> x = 95%N) as Hu by (intros x p s Hx; now injection Hx).
        apply PubKeep.
        { repeat apply conj; try reflexivity; try discriminate; intros (r & Hr); discriminate. }
        apply PubSkip. { intros (F & _). discriminate. }
        apply (PubKeep (tx "Person") (tx "boss", false, VRef 6%N)).
        { repeat apply conj; try reflexivity; try discriminate; intros (r & Hr); discriminate. }
        apply PubSkip. { intros (_ & _ & F & _). apply F. exists (tx "doc"). reflexivity. }
        constructor. }
    intros a o Ho. rewrite Forall_forall in H. destruct (in_dec N.eq_dec a (map fst ex_heap)) as [Hin|Hn]; [|apply aget_None in Hn; congruence].
    destruct Hin as [<-|[<-|[<-|[<-|[<-|[<-|[]]]]]]]; injection Ho as <-; refine (H (_, _) _); cbn [ex_heap In]; tauto.
  - assert (forall a o p, aget a ex_heap = Some o -> g_body o = BPrim p -> a = 5%N) as H.
    { intros a o p Ha Hp. destruct (in_dec N.eq_dec a (map fst ex_heap)) as [Hin|Hn]; [|apply aget_None in Hn; congruence].
      destruct Hin as [<-|[<-|[<-|[<-|[<-|[<-|[]]]]]]]; injection Ha as <-; try discriminate Hp; reflexivity. }
    intros a b o o' p q Ha Hb Hp Hq _. rewrite (H a o p Ha Hp), (H b o' q Hb Hq). reflexivity.
  - reflexivity.
Qed.

(** ** C21 *)
(** Values written one after the other by one serializer and read by one deserializer: each is read as a value of the
    same shape, and every object met is read as an object with the same content.  Outside the claim: see [good_graph]
    and the refutations below. *)
Theorem C21_roundtrip_partial : forall reg lx h vs fuel xs st,
  good_graph reg lx h -> Forall (good_value reg lx) vs -> ser_list (ser fuel) (s_init h) vs = Ok (xs, st) ->
  exists vs' d R, read_values reg d_init xs = Ok (vs', d) /\ Forall2 (same_value R) vs vs' /\ same_graph reg h (d_heap d) R.
Proof.
  intros reg lx h vs fuel xs st HG Hv E. destruct (document_roundtrip reg lx h HG fuel vs xs st Hv E) as (vs' & d & R & A & B & C & _).
  exists vs', d, R. auto.
Qed.
Print Assumptions C21_roundtrip_partial.
(** Writing comes to an end when every cycle passes an object that CLIXML can refer back to. *)
Theorem C21_ends : forall h rank vs, closed h -> ranked h rank -> Forall (resolves h) vs ->
  exists fuel xs st, ser_list (ser fuel) (s_init h) vs = Ok (xs, st).
Proof. exact writing_ends. Qed.
Print Assumptions C21_ends.
Definition ex_rank (a : N) : nat := if (a =? 4)%N then 2 else if (a =? 2)%N then 1 else 0.
Lemma ex_closed : closed ex_heap /\ ranked ex_heap ex_rank.
Proof.
  assert (forall (P : N -> gobj -> Prop), Forall (fun p => P (fst p) (snd p)) ex_heap -> forall a o, aget a ex_heap = Some o -> P a o) as Hall.
  { intros P H a o Ho. rewrite Forall_forall in H. destruct (in_dec N.eq_dec a (map fst ex_heap)) as [Hin|Hn]; [|apply aget_None in Hn; congruence].
    destruct Hin as [<-|[<-|[<-|[<-|[<-|[<-|[]]]]]]]; injection Ho as <-; refine (H (_, _) _); cbn [ex_heap In]; tauto. }
  set (out := fun o => map snd (g_adapted o) ++ map snd (g_extended o)
       ++ match g_body o with BList _ l | BQueue l => l | BDict l => map fst l ++ map snd l | BPy _ l => map snd l | _ => [] end).
  assert (forall o v, mentions o v -> In v (out o)) as Hout.
  { intros o v Hm. unfold out. rewrite !in_app_iff.
    destruct Hm as [n v Hi|n v Hi|k l v Hb Hi|l v Hb Hi|l k v Hb Hi|l k v Hb Hi|c l n b v Hb Hi];
      try (rewrite Hb); rewrite ?in_app_iff; [left|right; left|right; right|right; right|right; right; left|right; right; right|right; right];
      try exact Hi; exact (in_map snd _ _ Hi) || exact (in_map fst _ _ Hi). }
  split.
  - intros a o b Ha Hm. apply Hout in Hm. revert a o Ha Hm. refine (Hall (fun a o => In (VRef b) (out o) -> exists o', aget b ex_heap = Some o') _).
    repeat (constructor; [cbn; intuition (try discriminate; match goal with E : VRef _ = VRef _ |- _ => injection E as <-; eexists; reflexivity end)|]). constructor.
  - intros a o b Ha Hni Hm. apply Hout in Hm. revert a o Ha Hni Hm. refine (Hall (fun a o => ~ by_identity o -> In (VRef b) (out o) -> (ex_rank b < ex_rank a)%nat) _).
    repeat (constructor; [cbn; intuition (try discriminate; match goal with E : VRef _ = VRef _ |- _ => injection E as <-; cbv; lia end)|]). constructor.
Qed.
Example C21_example : good_graph ex_reg ex_lex ex_heap /\ closed ex_heap /\ ranked ex_heap ex_rank
  /\ Forall (good_value ex_reg ex_lex) [VRef 4; green]%N /\ Forall (resolves ex_heap) [VRef 4; green]%N
  /\ exists r, ser_list (ser 20) (s_init ex_heap) [VRef 4; green]%N = Ok r /\ map (fun x => length (marks x)) (fst r) = [24; 1].
Proof.
  split; [exact ex_good|]. split; [exact (proj1 ex_closed)|]. split; [exact (proj2 ex_closed)|].
  split; [repeat constructor; exact green_good|]. split; [repeat constructor; eexists; reflexivity|].
  eexists. split; [vm_compute; reflexivity|vm_compute; reflexivity].
Qed.
(** What is outside: *)
Definition lst (l : list value) ad ex : gobj := mkG (BList LList l) [tx "System.Collections.ArrayList"; tx "System.Object"] None ad ex.
Definition thing (ex : list (name * value)) : gobj := mkG BPlain [tx "Thing"; tx "System.Object"] None [] ex.
Definition table (l : list (value * value)) : gobj := mkG (BDict l) [tx "System.Collections.Hashtable"; tx "System.Object"] None [] [].
Definition write_one (h : heap) (v : value) : result (xml * sst) := ser 9 (s_init h) v.
(** The properties of a list come before its items in the document, but are read after them: an item that refers to
    an object first met in a property cannot be read. *)
Theorem C21_container_properties_refuted : exists h v x st,
  write_one h v = Ok (x, st) /\ deserialize ex_reg d_init x = Err KeyError.
Proof. exists [(1, lst [VRef 2] [] [(tx "first", VRef 2)]); (2, thing [])]%N, (VRef 1). do 2 eexists. split; [vm_compute; reflexivity|]. vm_compute; reflexivity. Qed.
Print Assumptions C21_container_properties_refuted.
(** The key of an entry is written before the value but read after it. *)
Theorem C21_entry_order_refuted : exists h v x st,
  write_one h v = Ok (x, st) /\ deserialize ex_reg d_init x = Err KeyError.
Proof. exists [(1, table [(green, green)])]%N, (VRef 1). do 2 eexists. split; [vm_compute; reflexivity|]. vm_compute; reflexivity. Qed.
Print Assumptions C21_entry_order_refuted.
(** Durations (and versions) define equality without a hash, so a dictionary with such a key is written, but cannot
    be read. *)
Theorem C21_duration_key_refuted : exists h v x st,
  write_one h v = Ok (x, st) /\ deserialize ex_reg d_init x = Err TypeError.
Proof. exists [(1, table [(VPrim (PDur 0), VNull)])]%N, (VRef 1). do 2 eexists. split; [vm_compute; reflexivity|]. vm_compute; reflexivity. Qed.
Print Assumptions C21_duration_key_refuted.
(** A list that contains itself is never finished. *)
Theorem C21_cyclic_list_refuted : exists h v, forall fuel, ser fuel (s_init h) v = Err OutOfFuel.
Proof.
  exists [(1, lst [VRef 1] [] [])]%N, (VRef 1). intros fuel.
  assert (forall st, s_heap st = [(1, lst [VRef 1] [] [])]%N -> ser fuel st (VRef 1) = Err OutOfFuel) as H; [|now apply H].
  induction fuel as [|f IH]; intros st Hst; [reflexivity|]. cbn [ser]. replace (aget 1 (s_heap st)) with (Some (lst [VRef 1] [] [])) by (rewrite Hst; reflexivity).
  cbn [g_body lst ref_key get_ref_id].
  unfold ser_object. cbn [g_body lst g_names g_adapted g_extended fst snd]. cbv zeta.
  match goal with |- context [write_names ?s ?n] => assert (s_heap (snd (write_names s n)) = s_heap s) as Hn end.
  { unfold write_names. destruct (index_of _ _); reflexivity. }
  match goal with |- context [write_names ?s ?n] => destruct (write_names s n) as [tn st1] end. cbn [snd s_heap] in Hn.
  cbn [ser_props bind fst snd ser_body g_body lst ser_list]. rewrite IH; [reflexivity|]. congruence.
Qed.
Print Assumptions C21_cyclic_list_refuted.
(** ToString is written as it is, but unescaped when read; an empty one is dropped. *)
Theorem C21_tostring_refuted :
  (exists x st d o, write_one [(1, mkG BPlain [tx "T"] (Some (tx "_x0041_")) [] [])]%N (VRef 1) = Ok (x, st)
    /\ deserialize ex_reg d_init x = Ok (VRef 0, d) /\ aget 0 (d_heap d) = Some o /\ g_string o = Some (tx "A"))
  /\ (exists x st d o, write_one [(1, mkG BPlain [tx "T"] (Some []) [] [])]%N (VRef 1) = Ok (x, st)
    /\ deserialize ex_reg d_init x = Ok (VRef 0, d) /\ aget 0 (d_heap d) = Some o /\ g_string o = None).
Proof. split; do 4 eexists; (split; [vm_compute; reflexivity|]); (split; [vm_compute; reflexivity|]); (split; [vm_compute; reflexivity|]); vm_compute; reflexivity. Qed.
Print Assumptions C21_tostring_refuted.

(** ** C22 *)
(** For every heap and every sequence of values, also outside C21's conditions. *)
Theorem C22_numbering : forall h fuel vs xs st, ser_list (ser fuel) (s_init h) vs = Ok (xs, st) ->
  Forall numbered xs /\ well_numbered (flat_map marks xs).
Proof. exact document_numbering. Qed.
Print Assumptions C22_numbering.
Example C22_example : exists r, ser_list (ser 20) (s_init ex_heap) [VRef 1; green; VRef 1]%N = Ok r
  /\ flat_map marks (fst r) =
     [MObj (tx "0"); MTN (tx "0"); MRef (tx "0"); MObj (tx "1"); MTN (tx "1"); MRef (tx "0"); MObj (tx "2"); MTN (tx "2"); MRef (tx "0");
      MObj (tx "3"); MTN (tx "3"); MRef (tx "3"); MRef (tx "3"); MRef (tx "0")].
Proof. eexists. split; [vm_compute; reflexivity|]. vm_compute; reflexivity. Qed.

(** ** C23 *)
(** Sharing is kept for every object CLIXML can refer back to, and different objects are never merged. *)
Theorem C23_sharing_partial : forall reg lx h vs fuel xs st,
  good_graph reg lx h -> Forall (good_value reg lx) vs -> ser_list (ser fuel) (s_init h) vs = Ok (xs, st) ->
  exists vs' d R, read_values reg d_init xs = Ok (vs', d) /\ Forall2 (same_value R) vs vs' /\ same_graph reg h (d_heap d) R
    /\ (forall a b b' o, R a b -> R a b' -> aget a h = Some o -> by_identity o -> b = b')
    /\ (forall a a' b, R a b -> R a' b -> a = a').
Proof. intros reg lx h vs fuel xs st HG Hv E. exact (document_roundtrip reg lx h HG fuel vs xs st Hv E). Qed.
Print Assumptions C23_sharing_partial.
Example C23_example : exists r d, ser_list (ser 20) (s_init ex_heap) [VRef 1; VRef 3; VRef 1]%N = Ok r
  /\ read_values ex_reg d_init (fst r) = Ok ([VRef 0; VRef 4; VRef 0]%N, d) /\ length (d_heap d) = 5.
Proof. do 2 eexists. split; [vm_compute; reflexivity|]. split; [vm_compute; reflexivity|]. vm_compute; reflexivity. Qed.
(** A list met twice becomes two lists. *)
Theorem C23_shared_list_refuted : exists h xs st d,
  ser_list (ser 9) (s_init h) [VRef 1; VRef 1]%N = Ok (xs, st) /\ read_values ex_reg d_init xs = Ok ([VRef 1; VRef 3]%N, d).
Proof. exists [(1, lst [VNull] [] [])]%N. do 3 eexists. split; [vm_compute; reflexivity|]. vm_compute; reflexivity. Qed.
Print Assumptions C23_shared_list_refuted.
(** Two annotated strings with the same text become one, and the second loses its property. *)
Definition annotated (n : string) : gobj := mkG (BPrim (PStr KString (tx "hi"))) [tx "System.String"; tx "System.Object"] None [] [(tx n, VNull)].
Theorem C23_equal_strings_refuted : exists xs st d,
  ser_list (ser 9) (s_init [(1, annotated "A"); (2, annotated "B")]%N) [VRef 1; VRef 2]%N = Ok (xs, st)
  /\ read_values ex_reg d_init xs = Ok ([VRef 1; VRef 1]%N, d) /\ aget 1 (d_heap d) = Some (annotated "A").
Proof. do 3 eexists. split; [vm_compute; reflexivity|]. split; [vm_compute; reflexivity|]. vm_compute; reflexivity. Qed.
Print Assumptions C23_equal_strings_refuted.

(** ** C24 *)
(** Every object is read with the type names it was written with ("Deserialized." is put in front when the type is
    not registered), as long as objects that agree on the first name agree on all of them. *)
Theorem C24_type_names_partial : forall reg lx h vs fuel xs st,
  good_graph reg lx h -> Forall (good_value reg lx) vs -> ser_list (ser fuel) (s_init h) vs = Ok (xs, st) ->
  exists vs' d R, read_values reg d_init xs = Ok (vs', d) /\ Forall2 (same_value R) vs vs' /\ same_graph reg h (d_heap d) R
    /\ forall a b, R a b -> exists o o', aget a h = Some o /\ aget b (d_heap d) = Some o'
         /\ g_names o' = match g_body o with BPrim _ => g_names o | BPy _ _ => py_names | _ => names_back reg (g_names o) end.
Proof.
  intros reg lx h vs fuel xs st HG Hv E. destruct (document_roundtrip reg lx h HG fuel vs xs st Hv E) as (vs' & d & R & A & B & C & _).
  exists vs', d, R. split; [exact A|]. split; [exact B|]. split; [exact C|]. intros a b Hab.
  destruct (C a b Hab) as (o & o' & Ho & Ho' & Hs). exists o, o'. split; [exact Ho|]. split; [exact Ho'|].
  unfold same_object in Hs. destruct (g_body o); tauto.
Qed.
Print Assumptions C24_type_names_partial.
Example C24_example : exists r d o3 o4, ser_list (ser 20) (s_init ex_heap) [VRef 1; VRef 3]%N = Ok r
  /\ read_values ex_reg d_init (fst r) = Ok ([VRef 0; VRef 4]%N, d) /\ aget 0 (d_heap d) = Some o3 /\ aget 4 (d_heap d) = Some o4
  /\ g_names o3 = [tx "My.Box"; tx "System.Object"]
  /\ g_names o4 = [tx "Deserialized.System.Collections.Queue"; tx "Deserialized.System.Object"].
Proof. do 4 eexists. split; [vm_compute; reflexivity|]. do 4 (split; [vm_compute; reflexivity|]). vm_compute; reflexivity. Qed.
(** References to type names go by the first name only. *)
Theorem C24_first_name_refuted : exists xs st d o,
  ser_list (ser 9) (s_init [(1, mkG BPlain [tx "T"; tx "A"] None [] []); (2, mkG BPlain [tx "T"; tx "B"] None [] [])]%N) [VRef 1; VRef 2]%N = Ok (xs, st)
  /\ read_values ex_reg d_init xs = Ok ([VRef 0; VRef 1]%N, d)
  /\ aget 1 (d_heap d) = Some o /\ g_names o = [tx "Deserialized.T"; tx "Deserialized.A"].
Proof. do 4 eexists. split; [vm_compute; reflexivity|]. split; [vm_compute; reflexivity|]. split; [vm_compute; reflexivity|]. vm_compute; reflexivity. Qed.
Print Assumptions C24_first_name_refuted.
(** An instance of a registered class is read with the type names of the class, not with those in the document. *)
Theorem C24_registered_refuted : exists x st d o,
  write_one [(1, mkG BPlain [tx "My.Box"; tx "My.Extra"] None [] [])]%N (VRef 1) = Ok (x, st)
  /\ deserialize ex_reg d_init x = Ok (VRef 0, d) /\ aget 0 (d_heap d) = Some o /\ g_names o = [tx "My.Box"; tx "System.Object"].
Proof. do 4 eexists. split; [vm_compute; reflexivity|]. split; [vm_compute; reflexivity|]. split; [vm_compute; reflexivity|]. vm_compute; reflexivity. Qed.
Print Assumptions C24_registered_refuted.
(** The type names of an annotated primitive are not written at all. *)
Theorem C24_primitive_refuted : exists x st d o,
  write_one [(1, mkG (BPrim (PInt TInt32 5)) [tx "My.Number"] None [] [(tx "p", VNull)])]%N (VRef 1) = Ok (x, st)
  /\ deserialize ex_reg d_init x = Ok (VRef 1, d) /\ aget 1 (d_heap d) = Some o /\ g_names o = [tx "System.Int32"; tx "System.ValueType"; tx "System.Object"].
Proof. do 4 eexists. split; [vm_compute; reflexivity|]. split; [vm_compute; reflexivity|]. split; [vm_compute; reflexivity|]. vm_compute; reflexivity. Qed.
Print Assumptions C24_primitive_refuted.

(** ** C46 *)
(** Every object is left as it was, except that queues met are empty afterwards; without queues nothing changes and a
    second run gives the same document. *)
Theorem C46_heap_partial : forall h fuel vs xs st, ser_list (ser fuel) (s_init h) vs = Ok (xs, st) ->
  (forall a o, aget a h = Some o -> aget a (s_heap st) = Some o
     \/ exists l, g_body o = BQueue l /\ aget a (s_heap st) = Some (mkG (BQueue []) (g_names o) (g_string o) (g_adapted o) (g_extended o)))
  /\ (no_queues h -> s_heap st = h /\ ser_list (ser fuel) (s_init (s_heap st)) vs = Ok (xs, st)).
Proof.
  intros h fuel vs xs st E. split; [exact (heap_after h fuel vs xs st E)|]. intros Hq. rewrite (heap_same h fuel vs xs st Hq E). auto.
Qed.
Print Assumptions C46_heap_partial.
Example C46_example : no_queues [(1, lst [VRef 2] [] []); (2, thing [(tx "back", VRef 1); (tx "c", green)])]%N
  /\ exists r, ser_list (ser 9) (s_init [(1, lst [VRef 2] [] []); (2, thing [(tx "c", green)])]%N) [VRef 1; VRef 2]%N = Ok r.
Proof.
  split; [|eexists; vm_compute; reflexivity]. intros a o l H. cbn [aget] in H.
  destruct (a =? 1)%N; [injection H as <-; discriminate|]. destruct (a =? 2)%N; [injection H as <-; discriminate|discriminate].
Qed.
Theorem C46_queue_refuted : exists h x st x' st',
  write_one h (VRef 1) = Ok (x, st) /\ write_one (s_heap st) (VRef 1) = Ok (x', st') /\ x <> x'.
Proof.
  exists [(1, mkG (BQueue [VNull]) [tx "System.Collections.Queue"] None [] [])]%N. do 4 eexists.
  split; [vm_compute; reflexivity|]. split; [vm_compute; reflexivity|]. discriminate.
Qed.
Print Assumptions C46_queue_refuted.
