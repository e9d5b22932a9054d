(** Reading documents of any writer: it always comes to an end, and only ordinary exceptions are raised. *)
From Coq Require Import String.
From Verif Require Import Base BaseFacts Model_Scalars Model_Strings Model_Text Model_Object Model_Clixml.
From Verif Require Import Spec_Strings Spec_Scalars Spec_Clixml Spec_Read Proofs_Clixml1 Proofs_Clixml3 Proofs_Clixml4 Proofs_Read Proofs_Read2.
Local Open Scope list_scope.
Local Open Scope nat_scope.

Lemma calm_bind {A B} es (x : result A) (f : A -> result B) : raises es x -> (forall a, x = Ok a -> raises es (f a)) -> raises es (bind x f).
Proof. intros H1 H2. destruct x; cbn [bind]; [now apply H2|exact H1]. Qed.
Lemma raises_incl {A} es fs (x : result A) : incl es fs -> raises es x -> raises fs x.
Proof. destruct x; cbn [raises]; auto. Qed.
Ltac calms := repeat
  first [ exact I | assumption | (left; reflexivity) | apply calm_bind; [|intros ? ?]
        | match goal with
          | |- raises _ (match ?x with _ => _ end) => destruct x
          | |- raises _ (if ?x then _ else _) => destruct x
          | |- raises _ (let '(_, _) := ?x in _) => destruct x
          | |- raises _ (bind _ _) => apply calm_bind; [|intros ? ?]
          | |- raises _ (Err _) => cbn; tauto
          | |- raises _ (Ok _) => exact I
          end ].
Definition bad : list err := [ValueError].
Lemma grouped_calm : forall k s n, length s <= k -> raises bad (grouped n s).
Proof.
  induction k as [|k IH]; intros s n L; (destruct s as [|c t]; cbn [grouped]; [exact I|]); cbn [length] in L; [lia|].
  destruct (is_digit c); [apply IH; lia|]. destruct (c =? 95)%N; [|calms]. destruct t as [|d t]; [calms|].
  destruct (is_digit d); [|calms]. apply IH. cbn [length] in L. lia.
Qed.
Lemma nat_calm s : raises bad (parse_nat s).
Proof. unfold parse_nat. destruct s as [|c t]; [calms|]. destruct (is_digit c); [|calms]. now apply (grouped_calm (length t)). Qed.
Lemma int_calm s : raises bad (parse_int s).
Proof. unfold parse_int. destruct (rev _) as [|c t]; [calms|]. destruct (c =? 45)%N; [apply calm_bind; [apply nat_calm|intros; exact I]|].
  destruct (c =? 43)%N; (apply calm_bind; [apply nat_calm|intros; exact I]). Qed.
Lemma read_int_calm t s : raises bad (read_int t s).
Proof. unfold read_int, new_int. apply calm_bind; [apply int_calm|intros]. calms. Qed.
Lemma char_calm s : raises bad (read_char s).
Proof. unfold read_char, new_char. apply calm_bind; [apply int_calm|intros]. calms. Qed.
Lemma part_calm s : raises bad (version_part s).
Proof. unfold version_part. calms. Qed.
Lemma version_calm s : raises bad (read_version s).
Proof.
  unfold read_version. destruct (split_on 46 (drop_newline s)) as [|a [|b [|c [|d [|e l]]]]]; try (left; reflexivity);
    repeat (apply calm_bind; [apply part_calm|intros ? ?]); exact I.
Qed.
Lemma b64_calm s : forall q l p, raises bad (b64_dec q l p s).
Proof.
  induction s as [|c s IH]; intros q l p; cbn [b64_dec]; [destruct q; [exact I|left; reflexivity]|].
  destruct (c =? 61)%N; [destruct (Nat.leb 2 q); [destruct (Nat.leb 4 (q + S p)); [exact I|apply IH]|apply IH]|].
  destruct (b64_val c); [|apply IH]. destruct q as [|[|[|q]]]; [apply IH|..]; (apply calm_bind; [apply IH|intros; exact I]).
Qed.
Lemma guid_calm s : raises bad (read_guid s).
Proof. unfold read_guid. cbv zeta. calms. Qed.
Lemma digits_calm n s : raises bad (take_digits n s).
Proof. unfold take_digits. cbv zeta. calms. Qed.
Lemma expect_calm c s : raises bad (expect c s).
Proof. unfold expect. calms. Qed.
Lemma field_calm ps o s : raises bad (field ps o s).
Proof. unfold field. cbv zeta. calms. Qed.
Lemma year_calm s : raises bad (year_field s).
Proof. unfold year_field. cbv zeta. calms. Qed.
Lemma expect_T_calm s : raises bad (expect_T s).
Proof. unfold expect_T. calms. Qed.
Lemma strptime_calm s f z : raises bad (strptime s f z).
Proof.
  unfold strptime. cbv zeta.
  repeat (apply calm_bind; [first [apply year_calm|apply field_calm|apply expect_T_calm|apply expect_calm]|intros ? ?; try match goal with p : _ * _ |- _ => destruct p end; cbv beta iota]).
  apply calm_bind.
  { destruct f; [|exact I]. apply calm_bind; [apply expect_calm|intros ? ?]. calms. }
  intros [us s12] _. cbv beta iota. apply calm_bind.
  { destruct z; [|exact I]. destruct s12 as [|c t]; [calms|]. destruct (negb ((c =? 43) || (c =? 45))%N); [calms|].
    apply calm_bind; [apply digits_calm|intros [? ?] _]. apply calm_bind; [apply digits_calm|intros [? ?] _]. calms. }
  intros [tz s13] _. cbv beta iota. calms.
Qed.
Lemma datetime_calm s : raises bad (read_datetime s).
Proof.
  unfold read_datetime. destruct (split_fraction s). destruct (rewrite_zone l). apply calm_bind; [|intros; exact I].
  pose proof (strptime_calm l0 true b) as H1. destruct (strptime l0 true b) as [d|e]; [exact I|].
  destruct H1 as [<-|[]]. apply strptime_calm.
Qed.
Lemma duration_calm s : raises [ValueError; OverflowError] (read_duration s).
Proof.
  unfold read_duration. generalize (map to_digit s). clear s. intros s. unfold parse_duration.
  assert (forall t n, raises [ValueError; OverflowError] (match drop_newline t with [] => new_duration n | _ => Err ValueError end)) as Hf.
  { intros t n. destruct (drop_newline t); [unfold new_duration; destruct (duration_ok n); [exact I|right; left; reflexivity]|left; reflexivity]. }
  match goal with |- raises _ (let '(neg, s1) := ?x in _) => destruct x as [neg s1] end.
  destruct s1 as [|c s2]; [left; reflexivity|]. destruct (negb (c =? 80)%N); [left; reflexivity|].
  destruct s2 as [|c2 s2']; [left; reflexivity|]. destruct (c2 =? 10)%N; [left; reflexivity|].
  destruct (opt_unit 68 (c2 :: s2')) as [days s3]. cbv zeta.
  assert (forall c4 s4, raises [ValueError; OverflowError]
    (if (c4 =? 10)%N then Err ValueError else
        let '(hours, s5) := opt_unit 72 (c4 :: s4) in
        let '(minutes, s6) := opt_unit 77 s5 in
        let '(seconds, frac, s7) := opt_seconds s6 in
        match drop_newline s7 with
        | [] => new_duration (if neg then (- (Z.of_N (seconds + minutes * 60 + hours * 3600 + days * 86400) * 1000000000 + Z.of_N (digits_val (ljust7 frac)) * 100))%Z
                              else (Z.of_N (seconds + minutes * 60 + hours * 3600 + days * 86400) * 1000000000 + Z.of_N (digits_val (ljust7 frac)) * 100)%Z)
        | _ => Err ValueError
        end)) as Ht.
  { intros c4 s4. destruct (c4 =? 10)%N; [left; reflexivity|]. destruct (opt_unit 72 (c4 :: s4)) as [hours s5].
    destruct (opt_unit 77 s5) as [minutes s6]. destruct (opt_seconds s6) as [[seconds frac] s7]. apply Hf. }
  destruct s3 as [|t s4]; [apply Hf|].
  destruct (N.eq_dec t 84) as [->|Hn].
  - destruct s4 as [|c4 s4]; [left; reflexivity|apply Ht].
  - match goal with |- raises _ ?m => assert (m = match drop_newline (t :: s4) with
      | [] => new_duration (if neg then (- (Z.of_N (0 + 0 * 60 + 0 * 3600 + days * 86400) * 1000000000 + Z.of_N (digits_val (ljust7 [])) * 100))%Z
                              else (Z.of_N (0 + 0 * 60 + 0 * 3600 + days * 86400) * 1000000000 + Z.of_N (digits_val (ljust7 [])) * 100)%Z)
      | _ => Err ValueError end) as -> end; [|apply Hf].
    destruct t as [|p]; [reflexivity|]. do 7 (destruct p; try reflexivity). elim Hn. reflexivity.
Qed.
Lemma string_calm s : raises [UnicodeError] (deserialize_string s).
Proof.
  unfold deserialize_string, encode_utf16be, decode_utf16be. destruct (existsb is_surrogate s); [left; reflexivity|]. cbn [bind].
  destruct (units_of_bytes _); [exact I|left; reflexivity].
Qed.
Ltac among := cbn; tauto.
Ltac wider H := eapply raises_incl; [|apply H]; let e := fresh in intros e; cbn; tauto.
Lemma prim_calm t s r : read_prim t s = Some r -> raises ordinary r.
Proof.
  destruct t; cbn [read_prim]; intros E; try discriminate E; injection E as <-.
  - apply calm_bind; [|intros; exact I]. destruct s; [exact I|]. wider read_int_calm.
  - apply calm_bind; [wider string_calm|intros; exact I].
  - apply calm_bind; [wider char_calm|intros; exact I].
  - apply calm_bind; [unfold b64_decode; destruct (forallb _ s); [wider b64_calm|left; reflexivity]|intros; exact I].
  - apply calm_bind; [wider datetime_calm|intros; exact I].
  - apply calm_bind; [wider duration_calm|intros; exact I].
  - destruct s; [among|]. apply calm_bind; [wider guid_calm|intros; exact I].
  - destruct s; [among|]. apply calm_bind; [wider version_calm|intros; exact I].
  - destruct s; [among|exact I].
  - exact I.
Qed.

Section Calm.
  Variable reg : registry.
  Variable go : dst -> xml -> result (value * dst).
  Variable g : nat.
  Hypothesis HC : forall d x, height x <= g -> raises ordinary (go d x).
  Lemma items_calm a l : hmax g l -> forall d, raises ordinary (read_items go d a l).
  Proof. induction 1 as [|x l Hx HF IH]; intros d; cbn [read_items]; [exact I|]. apply calm_bind; [now apply HC|intros; apply IH]. Qed.
  Lemma find_n_hmax n l x : hmax g l -> find_n n l = Some x -> height x <= g.
  Proof. intros H E. apply find_n_in in E. unfold hmax in H. rewrite Forall_forall in H. auto. Qed.
  Lemma entries_calm a l : Forall (fun x => hmax g (x_kids x)) l -> forall d, raises ordinary (read_entries go d a l).
  Proof.
    induction 1 as [|x l Hx HF IH]; intros d; cbn [read_entries]; [exact I|].
    destruct (find_n (tx "Key") (x_kids x)) as [xk|] eqn:Ek; [|among]. destruct (find_n (tx "Value") (x_kids x)) as [xv|] eqn:Ev; [|among].
    apply calm_bind; [apply HC; eapply find_n_hmax; eassumption|intros rv _].
    apply calm_bind; [apply HC; eapply find_n_hmax; eassumption|intros rk _].
    destruct (hash _ _); [apply IH|among].
  Qed.
  Lemma props_calm put1 a l : hmax g l -> forall d, raises ordinary (read_props go put1 d a l).
  Proof.
    induction 1 as [|x l Hx HF IH]; intros d; cbn [read_props]; [exact I|]. destruct (attr_get AtN (x_attrs x)); [|among].
    apply calm_bind; [wider string_calm|intros]. apply calm_bind; [now apply HC|intros; apply IH].
  Qed.
  Lemma dropped_calm l : hmax g l -> forall d, raises ordinary (read_dropped go d l).
  Proof.
    induction 1 as [|x l Hx HF IH]; intros d; cbn [read_dropped]; [exact I|]. destruct (attr_get AtN (x_attrs x)); [|among].
    apply calm_bind; [wider string_calm|intros]. apply calm_bind; [now apply HC|intros; apply IH].
  Qed.
  Lemma member_calm c v : raises ordinary (make_member c v).
  Proof.
    unfold make_member. destruct (c_kind c); try (cbn; tauto). cbv zeta. destruct v as [|b|p|e|a]; try (cbn; tauto).
    - destruct (flag || _)%bool; [exact I|among].
    - destruct p; try (cbn; tauto); (destruct (flag || _)%bool; [exact I|among]).
    - destruct (flag || _)%bool; [exact I|among].
  Qed.
  Lemma kids_hmax x : height x <= g -> hmax g (x_kids x).
  Proof. destruct x as [t a s kids]. intros H. cbn [x_kids]. apply hmax_le with (g := pred g); [|lia]. eapply (height_kids t a s). cbn [height] in *. lia. Qed.
  Lemma child_calm rid en l x : height x <= g -> raises ordinary (read_child go rid en l x).
  Proof.
    intros Hx. pose proof (kids_hmax x Hx) as Hk.
    assert (forall keep c fill, (forall d a, raises ordinary (fill d a)) -> raises ordinary
      match l_val l with
      | None => Err RuntimeError
      | Some v =>
        if (keep : bool) then match v with VRef a => let! d := fill (l_d l) a in
                       Ok (mkL d (l_val l) (l_cls l) (l_props l) (l_ms l) (l_str l)) | _ => Err AttributeError end
        else let (a, d1) := alloc (l_d l) (blank c) in
             let! d := fill (update_ref d1 rid (VRef a)) a in
             Ok (mkL d (Some (VRef a)) (Some c) (l_props l) (l_ms l) (l_str l))
      end) as Hc.
    { intros keep c fill Hfill. destruct (l_val l) as [v|]; [|among]. destruct keep.
      - destruct v; try (cbn; tauto). apply calm_bind; [apply Hfill|intros; exact I].
      - destruct (alloc (l_d l) (blank c)). apply calm_bind; [apply Hfill|intros; exact I]. }
    unfold read_child. cbv zeta.
    assert (raises ordinary (go (l_d l) x)) as Hg by now apply HC.
    assert (forall r names, raises ordinary
       match fst r with
        | VPrim p => let (a, d1) := alloc (snd r) (mkG (BPrim p) (match names with [] => prim_names p | _ => names end) None [] []) in
                     Ok (mkL (update_ref d1 rid (VRef a)) (Some (VRef a)) None (l_props l) (l_ms l) (l_str l))
        | VRef a => Ok (mkL (update_ref (match names with [] => snd r | _ => modify (snd r) a (fun o => with_names o names) end) rid (VRef a)) (Some (VRef a)) None (l_props l) (l_ms l) (l_str l))
        | VEnum e => Ok (mkL (update_ref (snd r) rid (VEnum e)) (Some (VEnum e)) None (l_props l) (l_ms l) (l_str l))
        | v => match names with [] => Ok (mkL (update_ref (snd r) rid v) (Some v) None (l_props l) (l_ms l) (l_str l)) | _ => Err AttributeError end
        end) as Hp.
    { intros r names. destruct (fst r); try exact I.
      - destruct names; [exact I|among].
      - destruct names; [exact I|among]. }
    assert (raises ordinary
      (let! r := go (l_d l) x in
       match en with
       | Some c => let! e := make_member c (fst r) in
                  Ok (mkL (update_ref (snd r) rid (VEnum e)) (Some (VEnum e)) None (l_props l) (l_ms l) (l_str l))
       | None =>
         match fst r with
        | VPrim p => let (a, d1) := alloc (snd r) (mkG (BPrim p) (match (match l_val l with
                     | Some (VRef a) => match aget a (d_heap (l_d l)) with Some o => g_names o | None => [] end
                     | Some (VEnum e) => e_names e
                     | _ => []
                     end) with [] => prim_names p | _ => (match l_val l with
                     | Some (VRef a) => match aget a (d_heap (l_d l)) with Some o => g_names o | None => [] end
                     | Some (VEnum e) => e_names e
                     | _ => []
                     end) end) None [] []) in
                     Ok (mkL (update_ref d1 rid (VRef a)) (Some (VRef a)) None (l_props l) (l_ms l) (l_str l))
        | VRef a => Ok (mkL (update_ref (match (match l_val l with
                     | Some (VRef a) => match aget a (d_heap (l_d l)) with Some o => g_names o | None => [] end
                     | Some (VEnum e) => e_names e
                     | _ => []
                     end) with [] => snd r | _ => modify (snd r) a (fun o => with_names o (match l_val l with
                     | Some (VRef a) => match aget a (d_heap (l_d l)) with Some o => g_names o | None => [] end
                     | Some (VEnum e) => e_names e
                     | _ => []
                     end)) end) rid (VRef a)) (Some (VRef a)) None (l_props l) (l_ms l) (l_str l))
        | VEnum e => Ok (mkL (update_ref (snd r) rid (VEnum e)) (Some (VEnum e)) None (l_props l) (l_ms l) (l_str l))
        | v => match (match l_val l with
                     | Some (VRef a) => match aget a (d_heap (l_d l)) with Some o => g_names o | None => [] end
                     | Some (VEnum e) => e_names e
                     | _ => []
                     end) with [] => Ok (mkL (update_ref (snd r) rid v) (Some v) None (l_props l) (l_ms l) (l_str l)) | _ => Err AttributeError end
        end
       end)) as Hlast.
    { apply calm_bind; [exact Hg|]. intros r _. destruct en as [c|]; [apply calm_bind; [apply member_calm|intros; exact I]|apply Hp]. }
    destruct (x_tag x); try exact I; try exact Hlast.
    - apply calm_bind; [wider string_calm|intros; exact I].
    - apply (Hc false _ (fun d a => read_items go d a (x_kids x))). intros. now apply items_calm.
    - match goal with |- raises _ (match _ with Some v => if ?k then _ else _ | None => _ end) =>
        apply (Hc k cls_queue (fun d a => read_items go d a (x_kids x))) end. intros. now apply items_calm.
    - apply (Hc false _ (fun d a => read_entries go d a (x_kids x))). intros. apply entries_calm.
      eapply Forall_impl; [|exact Hk]. intros y Hy. now apply kids_hmax.
  Qed.
  Lemma children_calm rid en kids : hmax g kids -> forall l, raises ordinary (read_children go rid en l kids).
  Proof. induction 1 as [|x kids Hx HF IH]; intros l; cbn [read_children]; [exact I|]. apply calm_bind; [now apply child_calm|intros; apply IH]. Qed.
  Lemma names_calm d kids : raises ordinary (read_names d kids).
  Proof.
    unfold read_names. destruct (tn_texts kids).
    - destruct (find_tag is_tnref kids); [|exact I]. destruct (attr_get _ _); [|among]. destruct (sget _ _); [exact I|among].
    - destruct (find_tag is_tn kids); [|exact I]. destruct (attr_get _ _); [exact I|among].
  Qed.
  (** The elements set aside are children of children. *)
  Definition aside_hmax (l : loc) : Prop :=
    (forall ps, l_props l = Some ps -> hmax g ps) /\ (forall ps, l_ms l = Some ps -> hmax g ps).
  Lemma child_aside rid en l x l' : height x <= g -> aside_hmax l -> read_child go rid en l x = Ok l' -> aside_hmax l'.
  Proof.
    intros Hx Ha H. pose proof (kids_hmax x Hx) as Hk.
    assert (forall d v c s, aside_hmax (mkL d v c (l_props l) (l_ms l) s)) as Hsame by (intros; exact Ha).
    unfold read_child in H. cbv zeta in H.
    destruct (x_tag x);
      try (injection H as <-; first [exact Ha|split; cbn [l_props l_ms]; [|exact (proj2 Ha)]; intros ps E; injection E as <-; exact Hk
                                    |split; cbn [l_props l_ms]; [exact (proj1 Ha)|]; intros ps E; injection E as <-; exact Hk]).
    all: try (binds H; destruct en as [c|];
      [binds H; injection H as <-; apply Hsame
      |destruct (fst r);
        [match type of H with match ?n with _ => _ end = _ => destruct n end; [injection H as <-; apply Hsame|discriminate]
        |match type of H with match ?n with _ => _ end = _ => destruct n end; [injection H as <-; apply Hsame|discriminate]
        |match type of H with (let (a, d1) := alloc ?d ?o in _) = _ => destruct (alloc d o) end; injection H as <-; apply Hsame
        |injection H as <-; apply Hsame
        |injection H as <-; apply Hsame]]).
    - binds H. injection H as <-. apply Hsame.
    - destruct (l_val l); [|discriminate]. match type of H with (let (a, d1) := alloc ?d ?o in _) = _ => destruct (alloc d o) end.
      binds H. injection H as <-. apply Hsame.
    - destruct (l_val l); [|discriminate]. match type of H with (if ?k then _ else _) = _ => destruct k end.
      + destruct v; try discriminate. binds H. injection H as <-. apply Hsame.
      + match type of H with (let (a, d1) := alloc ?d ?o in _) = _ => destruct (alloc d o) end. binds H. injection H as <-. apply Hsame.
    - destruct (l_val l); [|discriminate]. match type of H with (let (a, d1) := alloc ?d ?o in _) = _ => destruct (alloc d o) end.
      binds H. injection H as <-. apply Hsame.
  Qed.
  Lemma children_aside rid en kids : hmax g kids -> forall l l', aside_hmax l -> read_children go rid en l kids = Ok l' -> aside_hmax l'.
  Proof.
    induction 1 as [|x kids Hx HF IH]; intros l l' Ha H; cbn [read_children] in H; [injection H as <-; exact Ha|].
    binds H. eapply IH; [|exact H]. eapply child_aside; eassumption.
  Qed.
  Lemma object_calm d attrs kids : hmax g kids -> raises ordinary (read_object reg go d attrs kids).
  Proof.
    intros Hk. unfold read_object. cbv zeta. apply calm_bind; [apply names_calm|intros rn _].
    destruct (rehydrate reg (snd rn) (fst rn) (attr_get AtRefId attrs)) as [[[[v0 c0] en] original] d1].
    apply calm_bind; [now apply children_calm|]. intros l Hl.
    assert (aside_hmax (mkL d1 v0 c0 None None None)) as A0 by (split; cbn [l_props l_ms]; intros; discriminate).
    pose proof (children_aside _ _ _ Hk _ _ A0 Hl) as [A1 A2].
    destruct (l_val l) as [v|]; [|among]. destruct v as [|b|p|e|a].
    - destruct (l_str l); [among|exact I].
    - destruct (l_str l); [among|exact I].
    - destruct (l_str l); [among|exact I].
    - apply calm_bind; [destruct (l_props l); [apply dropped_calm; auto|exact I]|intros].
      apply calm_bind; [destruct (l_ms l); [apply dropped_calm; auto|exact I]|intros; exact I].
    - apply calm_bind; [destruct (l_props l); [apply props_calm; auto|exact I]|intros].
      apply calm_bind; [destruct (l_ms l); [apply props_calm; auto|exact I]|intros; exact I].
  Qed.
End Calm.
Theorem deser_calm reg f : forall d x, height x <= f -> raises ordinary (deser reg f d x).
Proof.
  induction f as [|f IH]; intros d [t attrs text kids] Hh; [cbn [height] in Hh; lia|]. cbn [deser].
  pose proof (height_kids _ _ _ _ _ Hh) as Hk.
  assert (forall r, read_prim t text = r -> raises ordinary match r with Some r => let! p := r in Ok (VPrim p, d) | None => Err ValueError end) as Hp.
  { intros [r|] E; [|among]. apply calm_bind; [exact (prim_calm _ _ _ E)|intros; exact I]. }
  destruct t; try exact I; try (apply Hp; reflexivity).
  - now apply (object_calm reg _ f).
  - destruct (attr_get AtRefId attrs); [|among]. destruct (sget _ _); [exact I|among].
  - apply calm_bind; [wider string_calm|intros; exact I].
Qed.
Theorem reading_calm reg xs : forall d, raises ordinary (read_values reg d xs).
Proof.
  induction xs as [|x xs IH]; intros d; cbn [read_values]; [exact I|].
  apply calm_bind; [apply deser_calm; lia|intros]. apply calm_bind; [apply IH|intros; exact I].
Qed.
