(** XML: what the serializer writes can stand in a document. *)
From Coq Require Import String.
From Verif Require Import Base BaseFacts Model_Scalars Model_Strings Model_Text Model_Object Model_Clixml Model_Xml.
From Verif Require Import Spec_Strings Spec_Scalars Spec_Clixml Spec_Xml Proofs_Scalars Proofs_Text Proofs_Clixml3 Proofs_Clixml1 Proofs_Clixml5 Proofs_Clixml6 Proofs_Xml1.
Local Open Scope list_scope.
Local Open Scope nat_scope.

(** ** Text of primitives *)
Definition ink (c : N) : Prop := (33 <= c <= 126)%N.
Definition inked (s : list N) : Prop := Forall ink s.
Lemma inked_text s : inked s -> text_ok s.
Proof. apply Forall_impl. unfold ink, valid_char. intros c H. lia. Qed.
Lemma text_attr s : text_ok s -> attr_ok s.
Proof. apply Forall_impl. tauto. Qed.
Lemma inked_app a b : inked a -> inked b -> inked (a ++ b).
Proof. intros. now apply Forall_app. Qed.
Lemma inked_one c : (33 <= c <= 126)%N -> inked [c].
Proof. intros H. constructor; [exact H|constructor]. Qed.
Lemma inked_digits s : forallb is_digit s = true -> inked s.
Proof.
  intros H. rewrite forallb_forall in H. apply Forall_forall. intros c Hc. apply H in Hc. unfold is_digit in Hc. apply andb_true_iff in Hc.
  rewrite !N.leb_le in Hc. unfold ink. lia.
Qed.
Lemma inked_dec n : inked (dec n). Proof. apply inked_digits, dec_digits. Qed.
Lemma inked_padl w s : inked s -> inked (padl w s).
Proof. intros H. apply inked_app; [|exact H]. apply Forall_forall. intros c Hc. apply repeat_spec in Hc. subst. unfold ink. lia. Qed.
Lemma inked_pad w n : inked (dec_pad w n). Proof. apply inked_padl, inked_dec. Qed.
Lemma inked_firstn n s : inked s -> inked (firstn n s).
Proof. intros H. rewrite <- (firstn_skipn n s) in H. apply Forall_app in H. apply H. Qed.
Lemma inked_skipn n s : inked s -> inked (skipn n s).
Proof. intros H. rewrite <- (firstn_skipn n s) in H. apply Forall_app in H. apply H. Qed.
Lemma inked_str z : inked (str_int z).
Proof. destruct z; try apply inked_dec. constructor; [unfold ink; lia|apply inked_dec]. Qed.
Lemma inked_join l : Forall inked l -> inked (join [46]%N l).
Proof.
  induction 1 as [|a l Ha Hl IH]; [constructor|]. cbn [join]. destruct l; [exact Ha|]. apply inked_app; [exact Ha|].
  apply inked_app; [apply inked_one; lia|exact IH].
Qed.
Lemma inked_version v : inked (write_version v).
Proof. apply inked_join. apply Forall_forall. intros s Hs. apply in_map_iff in Hs. destruct Hs as (n & <- & _). apply inked_dec. Qed.
Lemma inked_filter_rev p s : inked s -> inked (rstrip p s).
Proof.
  intros H. unfold rstrip. apply Forall_rev in H. apply Forall_rev. 
  induction H as [|c l Hc Hl IH]; cbn; [constructor|]. destruct (p c); [exact IH|constructor; assumption].
Qed.
Lemma inked_duration z : inked (write_duration z).
Proof.
  unfold write_duration.
  repeat match goal with
  | |- inked (if ?b then _ else _) => destruct b
  | |- inked (let _ := _ in _) => cbv zeta
  | |- inked (_ ++ _) => apply inked_app
  | |- inked [] => constructor
  | |- inked [_] => apply inked_one; lia
  | |- inked (dec _) => apply inked_dec
  | |- inked (dec_pad _ _) => apply inked_pad
  | |- inked (padl _ _) => apply inked_padl
  | |- inked (rstrip _ _) => apply inked_filter_rev
  end.
Qed.
Lemma inked_z m : inked (strf_z m).
Proof. unfold strf_z. apply inked_app; [destruct (m <? 0)%Z; apply inked_one; lia|]. apply inked_app; apply inked_pad. Qed.
Lemma inked_datetime d : inked (write_datetime d).
Proof.
  unfold write_datetime. destruct (dt_tz d) as [m|];
  repeat match goal with
  | |- inked (if ?b then _ else _) => destruct b
  | |- inked (let _ := _ in _) => cbv zeta
  | |- inked (_ ++ _) => apply inked_app
  | |- inked [] => constructor
  | |- inked [_] => apply inked_one; lia
  | |- inked (dec _) => apply inked_dec
  | |- inked (dec_pad _ _) => apply inked_pad
  | |- inked (firstn _ _) => apply inked_firstn, inked_z
  | |- inked (skipn _ _) => apply inked_skipn, inked_z
  end.
Qed.
Lemma inked_hex w n : inked (hex_digits w n).
Proof.
  revert n. induction w as [|w IH]; intros n; [constructor|]. cbn [hex_digits]. apply inked_app; [apply IH|]. apply inked_one. unfold hex_lower.
  pose proof (N.mod_upper_bound n 16 ltac:(discriminate)). destruct (n mod 16 <? 10)%N; lia.
Qed.
Lemma inked_guid n : inked (write_guid n).
Proof.
  unfold write_guid. cbv zeta. unfold slice. repeat apply inked_app; try (apply inked_one; lia); apply inked_firstn, inked_skipn, inked_hex.
Qed.
Lemma inked_b64 l : bytes_ok l -> inked (b64_encode l).
Proof.
  intros H. destruct (b64_encode_n (length l) l (le_n _) H) as [A _]. eapply Forall_impl; [|exact A]. unfold b64_alphabet, ink. intros c Hc. lia.
Qed.

(** ** Escaped strings *)
Lemma underscore_chars (P : N -> Prop) s : (forall c, ink c -> P c) -> Forall P s -> Forall P (esc_underscore s).
Proof.
  intros HP. induction s as [s IH] using (well_founded_induction (Wf_nat.well_founded_ltof _ (@length N))). intros H.
  destruct s as [|a [|c t]]; [constructor|exact H|]. inversion H as [|? ? Ha H1]; subst. inversion H1 as [|? ? Hc H2]; subst. cbn [esc_underscore].
  destruct ((a =? 0x5F)%N && is_x c).
  - apply Forall_app. split; [repeat (constructor; [apply HP; unfold ink; lia|]); constructor|]. constructor; [exact Hc|]. apply IH; [unfold ltof; cbn; lia|exact H2].
  - constructor; [exact Ha|]. apply (IH (c :: t)); [unfold ltof; cbn; lia|exact H1].
Qed.
Lemma ink_hexdig d : (d < 16)%N -> ink (hexdig d).
Proof. intros H. unfold hexdig, ink. destruct (N.ltb_spec d 10); lia. Qed.
Lemma inked_unit u : (u < 65536)%N -> inked (esc_unit u).
Proof.
  intros H. unfold esc_unit, hex4. cbn [app].
  assert (u / 4096 < 16)%N by (apply N.div_lt_upper_bound; lia).
  repeat (constructor; [first [apply ink_hexdig; first [assumption|apply N.mod_upper_bound; discriminate]|unfold ink; lia]|]). constructor.
Qed.
Lemma string_text s : safe_str s -> text_ok (serialize_string s).
Proof.
  intros H. unfold serialize_string.
  apply (underscore_chars (fun c => c < 0x110000 /\ ~ 0xD800 <= c <= 0xDFFF /\ c <> 0xFFFE /\ c <> 0xFFFF)%N) in H.
  2:{ unfold ink. intros c Hc. lia. }
  induction H as [|c l (H1 & H2 & H3 & H4) _ IH]; [constructor|]. cbn [flat_map]. apply Forall_app. split; [|exact IH].
  unfold esc_char. destruct (must_escape c) eqn:E.
  - apply inked_text. unfold utf16. destruct (N.ltb_spec c 0x10000).
    + cbn [flat_map]. rewrite app_nil_r. now apply inked_unit.
    + cbn [flat_map]. rewrite app_nil_r. apply inked_app; apply inked_unit.
      * assert ((c - 0x10000) / 1024 < 1024)%N by (apply N.div_lt_upper_bound; lia). lia.
      * pose proof (N.mod_upper_bound (c - 0x10000) 1024 ltac:(discriminate)). lia.
  - constructor; [|constructor]. unfold must_escape, in_range in E. rewrite !orb_false_iff, !andb_false_iff, !N.leb_gt in E. unfold valid_char. lia.
Qed.

(** ** Clean elements *)
Fixpoint clean (x : xml) : Prop :=
  let 'Elem t a s k := x in
  (forall n, t <> TgOther n) /\ NoDup (map fst a) /\ Forall (fun p => (forall n, fst p <> AtOther n) /\ attr_ok (snd p)) a /\ text_ok s
  /\ fold_right (fun y P => clean y /\ P) True k.
Lemma clean_kids l : Forall clean l -> fold_right (fun y P => clean y /\ P) True l.
Proof. induction 1; cbn [fold_right]; auto. Qed.
Lemma kids_clean l : fold_right (fun y P => clean y /\ P) True l -> Forall clean l.
Proof. induction l as [|y l IH]; cbn [fold_right]; [constructor|]. intros [H1 H2]. constructor; auto. Qed.
Lemma clean_elem t a s k : (forall n, t <> TgOther n) -> NoDup (map fst a) -> Forall (fun p => (forall n, fst p <> AtOther n) /\ attr_ok (snd p)) a ->
  text_ok s -> Forall clean k -> clean (Elem t a s k).
Proof. intros. cbn [clean]. repeat (split; [assumption|]). now apply clean_kids. Qed.
Lemma attr_text_ok a : (forall n, a <> AtOther n) -> name_ok (attr_text a) /\ attr_text a <> tx "xmlns".
Proof.
  intros H. destruct a; [| | |destruct (H n eq_refl)]; (split; [eexists; eexists; split; [reflexivity|]; split; [unfold letter; vm_compute; intuition discriminate|]|discriminate]).
  - constructor.
  - repeat (constructor; [left; unfold letter; vm_compute; intuition discriminate|]). constructor.
  - constructor.
Qed.
Lemma attr_text_inj a b : (forall n, a <> AtOther n) -> (forall n, b <> AtOther n) -> attr_text a = attr_text b -> a = b.
Proof. intros Ha Hb E. destruct a, b; try reflexivity; try discriminate E; try (now destruct (Ha n)); now destruct (Hb n). Qed.
Lemma attr_of_text a : (forall n, a <> AtOther n) -> attr_of (attr_text a) = a.
Proof. intros H. destruct a; [reflexivity..|now destruct (H n)]. Qed.
Lemma tag_of_text t : (forall n, t <> TgOther n) -> tag_of (tag_text t) = t.
Proof. intros H. destruct t as [| | | | | | | | | |[]| | | |[]|[]| | | | | | |[]| |n]; try reflexivity. now destruct (H n). Qed.
Lemma tag_name t : (forall n, t <> TgOther n) -> name_ok (tag_text t).
Proof.
  assert (forall c r, name_start c = true -> forallb name_char r = true -> name_ok (c :: r)) as H.
  { intros c r Hc Hr. exists c, r. split; [reflexivity|]. split; [now apply name_start_iff|]. apply Forall_forall. intros d Hd. rewrite forallb_forall in Hr.
    apply name_char_iff. auto. }
  intros Hn. destruct t as [| | | | | | | | | |[]| | | |[]|[]| | | | | | |[]| |n]; try (apply H; reflexivity). now destruct (Hn n).
Qed.
Section Xml_ind.
  Variable P : xml -> Prop.
  Hypothesis HP : forall t a s k, Forall P k -> P (Elem t a s k).
  Fixpoint xml_induct (x : xml) : P x :=
    let 'Elem t a s k := x in HP t a s k ((fix go (l : list xml) : Forall P l := match l with [] => Forall_nil P | y :: r => Forall_cons y (xml_induct y) (go r) end) k).
End Xml_ind.
Lemma clean_printable x : clean x -> printable (raw x).
Proof.
  induction x as [t a s k IH] using xml_induct. intros (Ht & Hd & Ha & Hs & Hk). cbn [raw printable].
  split; [now apply tag_name|]. split; [|split; [|split; [exact Hs|]]].
  - rewrite map_map. cbn [fst]. induction a as [|[n v] a IHa]; [constructor|]. cbn [map fst] in *. inversion Hd as [|? ? Hn Hd']; subst. inversion Ha as [|? ? [Hn' _] Ha']; subst.
    constructor; [|auto]. intros Hi. apply in_map_iff in Hi. destruct Hi as ([m w] & E & Hi). cbn [fst] in *. rewrite Forall_forall in Ha'.
    apply attr_text_inj in E; [|apply (Ha' _ Hi)|exact Hn']. subst m. apply Hn. apply in_map_iff. exists (n, w). auto.
  - apply Forall_forall. intros p Hp. apply in_map_iff in Hp. destruct Hp as ([n v] & <- & Hi). rewrite Forall_forall in Ha. apply Ha in Hi. cbn [fst snd] in *.
    destruct (attr_text_ok n (proj1 Hi)) as [A B]. split; [exact A|]. split; [exact B|apply Hi].
  - apply kids_clean in Hk. clear - IH Hk. induction k as [|y k IHk]; [exact I|]. inversion IH; inversion Hk; subst. cbn [map fold_right]. auto.
Qed.
Lemma cook_raw x : clean x -> cook (raw x) = x.
Proof.
  induction x as [t a s k IH] using xml_induct. intros (Ht & _ & Ha & _ & Hk). cbn [raw cook]. rewrite tag_of_text by exact Ht. f_equal.
  - rewrite map_map. cbn [fst snd]. induction Ha as [|[n v] a [Hn _] _ IHa]; [reflexivity|]. cbn [map fst snd] in *. rewrite attr_of_text by exact Hn. now rewrite IHa.
  - rewrite map_map. apply kids_clean in Hk. clear - IH Hk. induction k as [|y k IHk]; [reflexivity|]. inversion IH; inversion Hk; subst. cbn [map]. rewrite IHk by assumption. f_equal. auto.
Qed.
Lemma attr_put_keys k v l : map fst (attr_put k v l) = map fst l \/ (map fst (attr_put k v l) = map fst l ++ [k] /\ Forall (fun p => attr_eqb (fst p) k = false) l).
Proof.
  induction l as [|[a w] l IH]; [right; auto|]. cbn [attr_put]. destruct (attr_eqb a k) eqn:E; [left; reflexivity|].
  destruct IH as [IH|[IH H]]; [left|right]; cbn [map fst app]; rewrite IH; auto.
Qed.
Lemma clean_set k v x : (forall n, k <> AtOther n) -> attr_ok v -> clean x -> clean (set_attr k v x).
Proof.
  intros Hk Hv. destruct x as [t a s l]. intros (Ht & Hd & Ha & Hs & Hl). cbn [set_attr clean]. split; [exact Ht|]. split; [|split; [|split; assumption]].
  - destruct (attr_put_keys k v a) as [->|[-> H]]; [exact Hd|]. apply NoDup_app_iff || idtac.
    clear - Hd H. induction a as [|[b w] a IH]; cbn [map fst app] in *; [constructor; [intros []|constructor]|].
    inversion Hd; inversion H; subst. constructor; [|auto]. rewrite in_app_iff. intros [Hi|[E|[]]]; [contradiction|]. subst k. cbn [fst] in *. 
    destruct b; try discriminate. cbn in *. rewrite name_eqb_refl in *. discriminate.
  - clear - Ha Hk Hv. induction Ha as [|[b w] a [H1 H2] H3 IH]; cbn [attr_put]; [constructor; auto|]. destruct (attr_eqb b k); constructor; auto.
Qed.

(** ** The serializer *)
Definition safe_state (st : sst) : Prop := safe_graph (s_heap st).
Lemma clean_prim p : safe_value (VPrim p) -> clean (prim_elem p).
Proof.
  intros H. destruct p; cbn [prim_elem]; (apply clean_elem; [discriminate|constructor|constructor| |constructor]); cbn [safe_value] in H;
    first [exact H|now apply string_text|apply inked_text].
  - apply inked_str.
  - apply inked_str.
  - apply inked_str.
  - now apply inked_b64.
  - apply inked_datetime.
  - apply inked_duration.
  - apply inked_guid.
  - apply inked_version.
Qed.
Lemma clean_numbered t n k : (forall m, t <> TgOther m) -> Forall clean k -> clean (Elem t [(AtRefId, dec n)] [] k).
Proof.
  intros Ht Hk. apply clean_elem; auto; [repeat constructor; intros []| |constructor]. constructor; [|constructor]. split; [discriminate|].
  apply text_attr, inked_text, inked_dec.
Qed.
Lemma clean_names st names : Forall text_ok names -> Forall clean (fst (write_names st names)).
Proof.
  intros H. destruct names as [|n r]; [constructor|]. unfold write_names. destruct (index_of n (s_tns st)) as [i|]; cbn [fst]; (constructor; [|constructor]); apply clean_numbered; try discriminate.
  - constructor.
  - apply Forall_forall. intros x Hx. apply in_map_iff in Hx. destruct Hx as (t & <- & Ht). rewrite Forall_forall in H.
    apply clean_elem; [discriminate|constructor|constructor|auto|constructor].
Qed.
Lemma clean_string s : match s with Some t => text_ok t | None => True end -> Forall clean (string_elem s).
Proof.
  intros H. destruct s as [[|c t]|]; [constructor| |constructor]. cbn [string_elem]. constructor; [|constructor]. apply clean_elem; [discriminate|constructor|constructor|exact H|constructor].
Qed.
Lemma clean_group t l : (forall n, t <> TgOther n) -> Forall clean l -> Forall clean (group t l).
Proof. intros Ht H. destruct l; [constructor|]. constructor; [|constructor]. apply clean_elem; auto; constructor. Qed.
Lemma names_heap st names : s_heap (snd (write_names st names)) = s_heap st.
Proof. destruct names as [|n r]; [reflexivity|]. unfold write_names. destruct (index_of n (s_tns st)); reflexivity. Qed.
Lemma ref_heap st k : s_heap (snd (get_ref_id st k)) = s_heap st.
Proof. unfold get_ref_id. destruct k as [k|]; [|reflexivity]. destruct (key_get k (s_refs st)); reflexivity. Qed.
Lemma safe_pop v t ns s ad ex : safe_object (mkG (BQueue (v :: t)) ns s ad ex) -> safe_object (mkG (BQueue t) ns s ad ex).
Proof.
  intros (A & B & C & D & E & F). cbn [g_names g_string g_adapted g_extended g_body] in *. repeat (split; [assumption || discriminate|]).
  intros w Hw. apply F. inversion Hw; subst; cbn [g_adapted g_extended g_body] in *; try discriminate.
  - eapply MenAdapted. cbn. eassumption.
  - eapply MenExtended. cbn. eassumption.
  - match goal with H : BQueue _ = BQueue _ |- _ => injection H as <- end. eapply MenEntry; [reflexivity|]. now right.
Qed.
Definition cleans (f : nat) : Prop := forall st v x st2, safe_state st -> safe_value v -> ser f st v = Ok (x, st2) -> clean x /\ safe_state st2.
Section Loops.
  Variable f : nat.
  Hypothesis HW : cleans f.
  Lemma clean_list l st xs st2 : safe_state st -> Forall safe_value l -> ser_list (ser f) st l = Ok (xs, st2) -> Forall clean xs /\ safe_state st2.
  Proof.
    intros Hs Hl. revert st xs Hs. induction Hl as [|v t Hv _ IH]; intros st xs Hs E; cbn [ser_list] in E.
    - injection E as <- <-. auto.
    - apply bind_Ok in E. destruct E as ([x1 st1] & E1 & E). apply bind_Ok in E. destruct E as ([xs1 st3] & E2 & E). cbn [fst snd] in *.
      apply Ok_pair in E. destruct E as [<- <-]. destruct (HW _ _ _ _ Hs Hv E1) as [A B]. destruct (IH _ _ B E2) as [C D]. auto.
  Qed.
  Lemma clean_props l st xs st2 : safe_state st -> Forall (fun p => safe_str (fst p) /\ safe_value (snd p)) l -> ser_props (ser f) st l = Ok (xs, st2) ->
    Forall clean xs /\ safe_state st2.
  Proof.
    intros Hs Hl. revert st xs Hs. induction Hl as [|[n v] t [Hn Hv] _ IH]; intros st xs Hs E; cbn [ser_props] in E.
    - injection E as <- <-. auto.
    - apply bind_Ok in E. destruct E as ([x1 st1] & E1 & E). apply bind_Ok in E. destruct E as ([xs1 st3] & E2 & E). cbn [fst snd] in *.
      apply Ok_pair in E. destruct E as [<- <-]. destruct (HW _ _ _ _ Hs Hv E1) as [A B]. destruct (IH _ _ B E2) as [C D]. split; [|exact D].
      constructor; [|exact C]. apply clean_set; [discriminate|now apply text_attr, string_text|exact A].
  Qed.
  Lemma clean_dict l st xs st2 : safe_state st -> Forall (fun p => safe_value (fst p) /\ safe_value (snd p)) l -> ser_dict (ser f) st l = Ok (xs, st2) ->
    Forall clean xs /\ safe_state st2.
  Proof.
    intros Hs Hl. revert st xs Hs. induction Hl as [|[k v] t [Hk Hv] _ IH]; intros st xs Hs E; cbn [ser_dict] in E.
    - injection E as <- <-. auto.
    - apply bind_Ok in E. destruct E as ([x1 st1] & E1 & E). apply bind_Ok in E. destruct E as ([x2 st3] & E2 & E). apply bind_Ok in E. destruct E as ([xs1 st4] & E3 & E).
      cbn [fst snd] in *. apply Ok_pair in E. destruct E as [<- <-]. destruct (HW _ _ _ _ Hs Hk E1) as [A B]. destruct (HW _ _ _ _ B Hv E2) as [A' B'].
      destruct (IH _ _ B' E3) as [C D]. split; [|exact D]. constructor; [|exact C].
      assert (attr_ok (tx "Key") /\ attr_ok (tx "Value")) as [K1 K2].
      { split; apply Forall_forall; intros c Hc; apply xml_char_iff; revert c Hc; apply forallb_forall; reflexivity. }
      apply clean_elem; [discriminate|constructor|constructor|constructor|]. constructor; [|constructor; [|constructor]]; (apply clean_set; [discriminate|assumption|assumption]).
  Qed.
  Lemma clean_queue a n st xs st2 : safe_state st -> ser_queue (ser f) n st a = Ok (xs, st2) -> Forall clean xs /\ safe_state st2.
  Proof.
    revert st xs. induction n as [|n IH]; intros st xs Hs E; cbn [ser_queue] in E.
    - injection E as <- <-. auto.
    - destruct (aget a (s_heap st)) as [[[| | |[|v t]| | |] ns s ad ex]|] eqn:Ha; try (injection E as <- <-; auto).
      apply bind_Ok in E. destruct E as ([x1 st1] & E1 & E). apply bind_Ok in E. destruct E as ([xs1 st3] & E2 & E). cbn [fst snd] in *.
      apply Ok_pair in E. destruct E as [<- <-]. pose proof (Hs _ _ Ha) as Ho.
      apply HW in E1.
      + destruct E1 as [A B]. destruct (IH _ _ B E2) as [C D]. auto.
      + intros b o Hb. cbn [set_heap s_heap] in Hb. rewrite aget_aset in Hb. destruct (_ =? _)%N eqn:Eb; [injection Hb as <-; now apply safe_pop in Ho|]. exact (Hs b o Hb).
      + apply Ho. eapply MenEntry; [reflexivity|]. now left.
  Qed.
End Loops.
Lemma publics_safe c l : (forall n b v, In (n, b, v) l -> safe_str n /\ safe_value v) -> Forall (fun p => safe_str (fst p) /\ safe_value (snd p)) (public_attrs c l).
Proof.
  intros H. unfold public_attrs. apply Forall_forall. intros p Hp. apply in_map_iff in Hp. destruct Hp as ([[n b] v] & <- & Hi). apply filter_In in Hi. exact (H n b v (proj1 Hi)).
Qed.
Lemma custom_text : Forall text_ok custom_names.
Proof.
  repeat (constructor; [apply Forall_forall; intros c Hc;
    assert (xml_char c && negb (c =? 13)%N = true) as E by (revert c Hc; apply forallb_forall; reflexivity);
    apply andb_true_iff in E; destruct E as [E1 E2]; split; [now apply xml_char_iff|apply N.eqb_neq; now apply negb_true_iff]|]). constructor.
Qed.
Lemma cleans_all f : cleans f.
Proof.
  induction f as [|f HW]; intros st v x st2 Hs Hv E; [discriminate|]. cbn [ser] in E. destruct v as [|b|p|e|a].
  - injection E as <- <-. split; [|exact Hs]. apply clean_elem; [discriminate|constructor..].
  - apply Ok_pair in E. destruct E as [<- <-]. split; [|exact Hs]. apply clean_elem; [discriminate|constructor|constructor| |constructor]. apply inked_text.
    destruct b; cbn [write_bool]; repeat (constructor; [unfold ink; lia|]); constructor.
  - apply Ok_pair in E. destruct E as [<- <-]. split; [now apply clean_prim|exact Hs].
  - pose proof (ref_heap st (Some (KMember (e_names e) (e_val e)))) as Hh. destruct (get_ref_id st (Some (KMember (e_names e) (e_val e)))) as [[id used] st1]. cbn [snd] in Hh.
    destruct used.
    + apply Ok_pair in E. destruct E as [<- <-]. split; [now apply clean_numbered|]. unfold safe_state. now rewrite Hh.
    + destruct Hv as [Hn Ht]. pose proof (clean_names st1 (e_names e) Hn) as Hc. pose proof (names_heap st1 (e_names e)) as Hh2.
      destruct (write_names st1 (e_names e)) as [tn st3]. cbn [fst snd] in *. apply Ok_pair in E. destruct E as [<- <-]. split; [|unfold safe_state; rewrite Hh2, Hh; exact Hs].
      apply clean_numbered; [discriminate|]. constructor; [apply clean_prim; exact I|]. apply Forall_app. split; [exact Hc|]. now apply clean_string.
  - destruct (aget a (s_heap st)) as [o|] eqn:Ha; [|discriminate]. pose proof (Hs _ _ Ha) as Ho.
    assert ((let '(id, used, st1) := get_ref_id st (ref_key a (g_body o)) in
             if used then Ok (Elem TgRef [(AtRefId, dec id)] [] [], st1) else ser_object (ser f) st1 id a o) = Ok (x, st2) ->
            clean x /\ safe_state st2) as Hgo.
    2:{ destruct (g_body o) as [|p| | | | |] eqn:Hb; try (now apply Hgo). destruct (has_props o); [now apply Hgo|]. apply Ok_pair in E. destruct E as [<- <-].
        split; [|exact Hs]. apply clean_prim. destruct Ho as (_ & _ & _ & Ob & _). apply Ob. exact Hb. }
    clear E. intros E. pose proof (ref_heap st (ref_key a (g_body o))) as Hh. destruct (get_ref_id st (ref_key a (g_body o))) as [[id used] st1]. cbn [snd] in Hh.
    assert (safe_state st1) as Hs1 by (unfold safe_state; now rewrite Hh).
    destruct used; [apply Ok_pair in E; destruct E as [<- <-]; split; [now apply clean_numbered|exact Hs1]|].
    unfold ser_object in E. cbv zeta in E. destruct Ho as (On & Os & Op & Ob & Oy & Om).
    set (sub := match g_body o with BPrim p => [prim_elem p] | _ => [] end) in E.
    set (names := match g_body o with BPrim _ => [] | BPy _ _ => custom_names | _ => g_names o end) in E.
    set (props := match g_body o with BPy _ _ => ([], []) | _ => (g_adapted o, g_extended o) end) in E.
    assert (Forall clean sub) as Hsub.
    { unfold sub. destruct (g_body o) eqn:Hb; constructor; [|constructor]. now apply clean_prim, Ob. }
    assert (Forall text_ok names) as Hnm.
    { unfold names. destruct (g_body o); try exact On; [constructor|exact custom_text]. }
    assert (Forall (fun p => safe_str (fst p) /\ safe_value (snd p)) (fst props) /\ Forall (fun p => safe_str (fst p) /\ safe_value (snd p)) (snd props)) as [Hpa Hpe].
    { rewrite Forall_app in Op. destruct Op as [Op1 Op2]. rewrite Forall_forall in Op1, Op2.
      assert (Forall (fun p => safe_str (fst p) /\ safe_value (snd p)) (g_adapted o) /\ Forall (fun p => safe_str (fst p) /\ safe_value (snd p)) (g_extended o)) as H.
      { split; apply Forall_forall; intros [n v] Hi; (split; [auto|]); apply Om; [eapply MenAdapted|eapply MenExtended]; exact Hi. }
      unfold props. destruct (g_body o); try exact H. split; constructor. }
    pose proof (clean_names st1 names Hnm) as Htn. pose proof (names_heap st1 names) as Hh2.
    destruct (write_names st1 names) as [tn st1']. cbn [fst snd] in Htn, Hh2.
    assert (safe_state st1') as Hs2 by (unfold safe_state; rewrite Hh2; exact Hs1).
    apply bind_Ok in E. destruct E as ([xa sa] & Ea & E). apply bind_Ok in E. destruct E as ([xe se] & Ee & E). apply bind_Ok in E. destruct E as ([xb sb] & Eb & E).
    cbn [fst snd] in *. apply Ok_pair in E. destruct E as [<- <-].
    destruct (clean_props f HW _ _ _ _ Hs2 Hpa Ea) as [Ca Sa]. destruct (clean_props f HW _ _ _ _ Sa Hpe Ee) as [Ce Se].
    assert (Forall clean xb /\ safe_state sb) as [Cb Sb].
    { unfold ser_body in Eb. destruct (g_body o) as [|p|k l|l|l|c l|] eqn:Hb.
      - apply Ok_pair in Eb. destruct Eb as [<- <-]. split; [now apply clean_string|exact Se].
      - injection Eb as <- <-. auto.
      - apply bind_Ok in Eb. destruct Eb as ([xs s3] & E1 & Eb). apply Ok_pair in Eb. destruct Eb as [<- <-]. cbn [fst snd].
        destruct (clean_list f HW l se xs s3) as [A B]; auto. { apply Forall_forall. intros v Hi. apply Om. eapply MenItem; eauto. }
        split; [|exact B]. constructor; [|constructor]. apply clean_elem; [discriminate|constructor|constructor|constructor|exact A].
      - apply bind_Ok in Eb. destruct Eb as ([xs s3] & E1 & Eb). apply Ok_pair in Eb. destruct Eb as [<- <-]. cbn [fst snd].
        destruct (clean_queue f HW a (length l) se xs s3) as [A B]; auto.
        split; [|exact B]. constructor; [|constructor]. apply clean_elem; [discriminate|constructor|constructor|constructor|exact A].
      - apply bind_Ok in Eb. destruct Eb as ([xs s3] & E1 & Eb). apply Ok_pair in Eb. destruct Eb as [<- <-]. cbn [fst snd].
        destruct (clean_dict f HW l se xs s3) as [A B]; auto.
        { apply Forall_forall. intros [k v] Hi. cbn [fst snd]. split; apply Om; [eapply MenKey|eapply MenValue]; eauto. }
        split; [|exact B]. constructor; [|constructor]. apply clean_elem; [discriminate|constructor|constructor|constructor|exact A].
      - apply bind_Ok in Eb. destruct Eb as ([xs s3] & E1 & Eb). apply Ok_pair in Eb. destruct Eb as [<- <-]. cbn [fst snd].
        destruct (clean_props f HW (public_attrs c l) se xs s3) as [A B]; auto.
        { apply publics_safe. intros n b v Hi. split; [eapply Oy; eauto|]. apply Om. eapply MenAttr; eauto. }
        split; [|exact B]. apply clean_group; [discriminate|exact A].
      - apply Ok_pair in Eb. destruct Eb as [<- <-]. split; [now apply clean_string|exact Se]. }
    split; [|exact Sb]. apply clean_numbered; [discriminate|].
    apply Forall_app. split; [exact Hsub|]. apply Forall_app. split; [exact Htn|]. apply Forall_app. split; [now apply clean_group|].
    apply Forall_app. split; [now apply clean_group|exact Cb].
Qed.
