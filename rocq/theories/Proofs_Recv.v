(** The receiving side: next_event up to the message. *)
From Verif Require Import Base BaseFacts Model_Payload Model_Transport Spec_Transport Proofs_Payload Proofs_Send Proofs_Send2.

Lemma app_inj_last {A} (a b : list A) x y : a ++ [x] = b ++ [y] -> a = b /\ x = y.
Proof. apply app_inj_tail. Qed.

Lemma numbered_snoc_inv fs f b : numbered (fs ++ [f]) b ->
  numbered fs false /\ f_fid f = N.of_nat (length fs) /\ f_end f = b.
Proof.
  unfold numbered. rewrite !app_length, !map_app. simpl. rewrite Nat.add_1_r, seq_snoc, !map_app. simpl.
  intros (H1 & H2 & H3).
  apply app_inj_last in H1. apply app_inj_last in H2. apply app_inj_last in H3.
  destruct H1 as [H1 H1'], H2 as [H2 _], H3 as [H3 H3'].
  rewrite Nat.eqb_refl in H3'. repeat split; auto.
  rewrite H3. apply map_ext_in. intros i Hi. apply in_seq in Hi. rewrite andb_false_r.
  destruct (Nat.eqb_spec i (length fs)); [lia|reflexivity].
Qed.

Lemma numbered_false_noend fs : numbered fs false -> existsb f_end fs = false.
Proof.
  intros (_ & _ & H). destruct (existsb f_end fs) eqn:E; [|reflexivity]. exfalso.
  apply existsb_exists in E. destruct E as (f & Hin & Hf).
  apply (in_map f_end) in Hin. rewrite H, Hf in Hin. apply in_map_iff in Hin.
  destruct Hin as (i & Hi & _). rewrite andb_false_r in Hi. discriminate.
Qed.

Lemma well_sequenced_snoc_inv A f : well_sequenced (A ++ [f]) -> well_sequenced A.
Proof.
  intros [Hfit H]. split; [apply Forall_app in Hfit; tauto|].
  intros oid. destruct (H oid) as (c & Hn & Hm). rewrite frags_of_app in Hn, Hm.
  destruct (N.eq_dec (f_oid f) oid) as [E|E].
  - rewrite frags_of_same in Hn by exact E. apply numbered_snoc_inv in Hn. exists false. split; [tauto|discriminate].
  - rewrite frags_of_other, app_nil_r in Hn, Hm by exact E. eauto.
Qed.
Lemma well_sequenced_app_inv A B : well_sequenced (A ++ B) -> well_sequenced A.
Proof.
  revert A. induction B as [|b B IH] using rev_ind; intros A H; [now rewrite app_nil_r in H|].
  rewrite app_assoc in H. apply well_sequenced_snoc_inv in H. now apply IH.
Qed.

(** Data collected for an unfinished object. *)
Definition open (A : list Fragment) (oid : N) : option (list (list N)) :=
  if existsb f_end (frags_of oid A) then None
  else match frags_of oid A with [] => None | l => Some (map f_data l) end.

Lemma in_finished A oid : In oid (finished A) <-> existsb f_end (frags_of oid A) = true.
Proof.
  unfold finished, frags_of. rewrite in_map_iff, existsb_exists. split.
  - intros (f & Ho & Hf). apply filter_In in Hf. exists f. split; [|tauto]. apply filter_In.
    split; [tauto|]. apply N.eqb_eq. congruence.
  - intros (f & Hf & He). apply filter_In in Hf. destruct Hf as [Hf Ho]. apply N.eqb_eq in Ho.
    exists f. split; [exact Ho|]. apply filter_In. auto.
Qed.

Record RInv (r : Receiver) (G : list (N * RMsg)) (A : list Fragment) : Prop := {
  ri_frags : forall oid, aget oid (rx_frags r) = open A oid;
  ri_nd : NoDup (akeys (rx_frags r));
  ri_msgs : map Some (G ++ rx_msgs r) = map (object_message A) (finished A) }.

Lemma rinv_init : RInv receiver_init [] [].
Proof. constructor; simpl; auto. constructor. Qed.

Lemma rinv_buf r G A b : RInv r G A -> RInv (mkRx b (rx_frags r) (rx_msgs r)) G A.
Proof. intros [H1 H2 H3]. constructor; auto. Qed.

Lemma map_some_fst G (A : list Fragment) l :
  map Some G = map (object_message A) l -> map fst G = l.
Proof.
  revert l. induction G as [|g G IH]; intros [|o l]; simpl; try discriminate; [reflexivity|].
  intros [= H1 H2]. rewrite (IH l H2). f_equal. unfold object_message in H1.
  destruct (unpack_message _); [|discriminate]. injection H1 as ->. reflexivity.
Qed.

Lemma accept_step r G A f :
  RInv r G A -> well_sequenced (A ++ [f]) ->
  exists r', accept_fragment r f = (r', Ok tt) /\ RInv r' G (A ++ [f]) /\ rx_buf r' = rx_buf r.
Proof.
  intros HI [_ Hs]. destruct (Hs (f_oid f)) as (c & Hn & Hm).
  rewrite frags_of_app, frags_of_same in Hn, Hm by reflexivity.
  apply numbered_snoc_inv in Hn. destruct Hn as (Hn & Hfid & Hend).
  assert (Hne := numbered_false_noend _ Hn).
  set (o := f_oid f) in *. set (old := frags_of o A) in *.
  assert (Hget : aget o (rx_frags r) = match old with [] => None | l => Some (map f_data l) end).
  { rewrite (ri_frags _ _ _ HI). unfold open. fold old. rewrite Hne. destruct old; reflexivity. }
  assert (Hnotfin : ~ In o (finished A)).
  { rewrite in_finished. fold old. congruence. }
  assert (Hother : forall oid, oid <> o -> frags_of oid (A ++ [f]) = frags_of oid A).
  { intros oid Ho. rewrite frags_of_app, frags_of_other by (intros E; apply Ho; symmetry; exact E). apply app_nil_r. }
  assert (Hobj : map (object_message (A ++ [f])) (finished A) = map (object_message A) (finished A)).
  { apply map_ext_in. intros oid Hoid. unfold object_message. rewrite Hother; [reflexivity|].
    intros ->. tauto. }
  unfold accept_fragment. fold o.
  set (oldd := match aget o (rx_frags r) with Some b => b | None => [] end).
  assert (Hold : oldd = map f_data old) by (unfold oldd; rewrite Hget; destruct old; reflexivity).
  set (fr := match aget o (rx_frags r) with Some _ => rx_frags r | None => aset o [] (rx_frags r) end).
  rewrite Hold, map_length, Hfid, N.eqb_refl. cbn [negb].
  assert (Hfr_nd : NoDup (akeys fr)).
  { unfold fr. destruct (aget o (rx_frags r)); [apply HI|apply NoDup_aset, HI]. }
  assert (Hfr_get : forall oid, oid <> o -> aget oid fr = aget oid (rx_frags r)).
  { intros oid Ho. unfold fr. destruct (aget o (rx_frags r)); [reflexivity|].
    rewrite aget_aset. destruct (N.eqb_spec oid o); [congruence|reflexivity]. }
  destruct (f_end f) eqn:Ef.
  - subst c.
    assert (Hok : is_ok (unpack_message (concat (map f_data (old ++ [f])))) = true).
    { apply Hm; [reflexivity|]. destruct old; discriminate. }
    rewrite map_app in Hok. simpl in Hok.
    destruct (unpack_message (concat (map f_data old ++ [f_data f]))) as [m|] eqn:Eu; [|discriminate].
    eexists. split; [reflexivity|]. split; [|reflexivity]. constructor; cbn [rx_frags rx_msgs rx_buf].
    + intros oid. rewrite aget_adel by now apply NoDup_aset.
      destruct (N.eqb_spec oid o) as [->|Ho].
      * unfold open. rewrite frags_of_app, existsb_app, frags_of_same by reflexivity. simpl.
        rewrite Ef, orb_true_r. reflexivity.
      * rewrite aget_aset. destruct (N.eqb_spec oid o); [congruence|]. rewrite Hfr_get by exact Ho.
        rewrite (ri_frags _ _ _ HI). unfold open. now rewrite Hother.
    + now apply NoDup_adel, NoDup_aset.
    + assert (Hfinn : finished (A ++ [f]) = finished A ++ [o]).
      { unfold finished. rewrite filter_app, map_app. simpl. now rewrite Ef. }
      rewrite Hfinn, (map_app (object_message _)), Hobj, <- (ri_msgs _ _ _ HI).
      assert (Hkeys : map fst (G ++ rx_msgs r) = finished A) by (eapply map_some_fst, HI).
      rewrite aset_new.
      2:{ apply aget_None. intros Hk. apply Hnotfin. rewrite <- Hkeys, map_app. apply in_or_app. now right. }
      rewrite app_assoc, map_app. f_equal. simpl. f_equal. unfold object_message.
      rewrite frags_of_app, frags_of_same, map_app by reflexivity. fold old. simpl.
      now rewrite Eu.
  - eexists. split; [reflexivity|]. split; [|reflexivity]. constructor; cbn [rx_frags rx_msgs rx_buf].
    + intros oid. rewrite aget_aset. destruct (N.eqb_spec oid o) as [->|Ho].
      * unfold open. rewrite frags_of_app, existsb_app, frags_of_same by reflexivity. fold old. rewrite Hne. simpl.
        rewrite Ef. simpl. destruct old; simpl; [reflexivity|]. now rewrite map_app.
      * rewrite Hfr_get by exact Ho. rewrite (ri_frags _ _ _ HI). unfold open. now rewrite Hother.
    + now apply NoDup_aset.
    + assert (Hfinn : finished (A ++ [f]) = finished A).
      { unfold finished. rewrite filter_app, map_app. simpl. rewrite Ef. apply app_nil_r. }
      rewrite Hfinn, Hobj. apply HI.
Qed.

(** ** The loop *)
Lemma pump_empty fuel r : rx_buf r = [] -> pump fuel r = (r, Ok tt).
Proof. intros H. destruct fuel; simpl; rewrite H; reflexivity. Qed.

Lemma pump_S fuel r : rx_buf r <> [] -> pump (S fuel) r =
  match unpack_fragment (rx_buf r) with
  | Err e => (r, Err e)
  | Ok f =>
    match accept_fragment (mkRx (skipn (21 + length (f_data f)) (rx_buf r)) (rx_frags r) (rx_msgs r)) f with
    | (r2, Err e) => (r2, Err e)
    | (r2, Ok _) => pump fuel r2
    end
  end.
Proof. intros H. cbn [pump]. destruct (rx_buf r) as [|b t] eqn:E; [congruence|]. rewrite <- E. reflexivity. Qed.

Lemma accept_buf r f : rx_buf (fst (accept_fragment r f)) = rx_buf r.
Proof.
  unfold accept_fragment. destruct (negb _); [reflexivity|]. destruct (f_end f); [|reflexivity].
  destruct (unpack_message _); reflexivity.
Qed.

(** Enough fuel is enough, and more makes no difference. *)
Lemma pump_fuel_enough fuel : forall r fuel', length (rx_buf r) <= fuel -> length (rx_buf r) <= fuel' ->
  pump fuel r = pump fuel' r.
Proof.
  induction fuel as [|fuel IH]; intros r fuel' H1 H2.
  - assert (rx_buf r = []) by (destruct (rx_buf r); simpl in *; [reflexivity|lia]).
    now rewrite !pump_empty.
  - destruct (rx_buf r) as [|b t] eqn:E.
    + now rewrite !pump_empty.
    + destruct fuel' as [|fuel']; [simpl in H2; lia|].
      rewrite !pump_S by congruence. rewrite E in *.
      destruct (unpack_fragment (b :: t)) as [f|e] eqn:Eu; [|reflexivity].
      pose proof (accept_buf (mkRx (skipn (21 + length (f_data f)) (b :: t)) (rx_frags r) (rx_msgs r)) f) as Hb.
      destruct (accept_fragment _ f) as [r2 [u|e]]; [|reflexivity]. cbn [fst rx_buf] in Hb.
      assert (length (rx_buf r2) <= length t).
      { rewrite Hb, skipn_length. cbn [length]. lia. }
      simpl in H1, H2. apply IH; lia.
Qed.

Lemma pump_not_outoffuel fuel : forall r, length (rx_buf r) <= fuel -> snd (pump fuel r) <> Err OutOfFuel.
Proof.
  induction fuel as [|fuel IH]; intros r H.
  - assert (rx_buf r = []) by (destruct (rx_buf r); simpl in *; [reflexivity|lia]).
    rewrite pump_empty by assumption. discriminate.
  - destruct (rx_buf r) as [|b t] eqn:E; [rewrite pump_empty by assumption; discriminate|].
    rewrite pump_S by congruence. rewrite E.
    destruct (unpack_fragment (b :: t)) as [f|e] eqn:Eu.
    + pose proof (accept_buf (mkRx (skipn (21 + length (f_data f)) (b :: t)) (rx_frags r) (rx_msgs r)) f) as Hb.
      destruct (accept_fragment _ f) as [r2 [u|e]] eqn:Ea; cbn [fst rx_buf] in Hb.
      * apply IH. rewrite Hb, skipn_length. cbn [length] in *. lia.
      * simpl. intros [= ->]. revert Ea. unfold accept_fragment. destruct (negb _); [discriminate|].
        destruct (f_end f); [|discriminate]. destruct (unpack_message _) as [m|e] eqn:Em; [discriminate|].
        intros [= _ ->]. apply unpack_message_err in Em. destruct Em; discriminate.
    + simpl. intros [= ->]. destruct (Nat.ltb_spec (length (b :: t)) 21) as [Hl|Hl].
      * rewrite unpack_fragment_short in Eu by exact Hl. discriminate.
      * destruct (unpack_fragment_long _ Hl) as (f & Ef & _). congruence.
Qed.

Lemma frag_bytes_cons oid fid d e rest : frag_bytes oid fid d e ++ rest <> [].
Proof.
  intros H. apply (f_equal (@length _)) in H. rewrite app_length, frag_bytes_length in H. simpl in H. lia.
Qed.

(** Processing well-sequenced fragments that are followed by arbitrary bytes. *)
Lemma pump_wire F : forall fuel r G A tail,
  RInv r G A -> well_sequenced (A ++ F) -> rx_buf r = wire F ++ tail -> length (rx_buf r) <= fuel ->
  exists r', pump fuel r = pump (length tail) r' /\ RInv r' G (A ++ F) /\ rx_buf r' = tail.
Proof.
  induction F as [|f F IH]; intros fuel r G A tail HI Hs Hb Hf.
  - simpl in Hb. rewrite app_nil_r. exists r. repeat split; try apply HI; auto.
    apply pump_fuel_enough; [exact Hf|rewrite Hb; lia].
  - assert (Hff : frag_fits f).
    { destruct Hs as [Hfit _]. rewrite Forall_forall in Hfit. apply Hfit. apply in_or_app. right. now left. }
    rewrite wire_cons, <- app_assoc in Hb. destruct Hff as (Ho & Hi & Hl & Hst).
    assert (Hne : rx_buf r <> []) by (rewrite Hb; apply frag_bytes_cons).
    destruct fuel as [|fuel]; [destruct (rx_buf r); [congruence|simpl in Hf; lia]|].
    rewrite pump_S by exact Hne. rewrite Hb, unpack_frag_bytes by assumption. cbn [f_data].
    rewrite app_skipn_len by apply frag_bytes_length.
    replace (mkFragment (f_oid f) (f_fid f) (f_fid f =? 0)%N (f_end f) (f_data f)) with f
      by (destruct f; simpl in *; now subst).
    change (f :: F) with ([f] ++ F) in Hs. rewrite app_assoc in Hs.
    destruct (accept_step _ G A f (rinv_buf r G A (wire F ++ tail) HI) (well_sequenced_app_inv _ _ Hs))
      as (r2 & Ea & HI2 & Hb2).
    rewrite Ea. cbn [rx_buf] in Hb2.
    destruct (IH fuel r2 G (A ++ [f]) tail HI2 Hs Hb2) as (r' & Hp & HI' & Hb').
    { rewrite Hb2. rewrite Hb in Hf. rewrite app_length, frag_bytes_length in Hf. lia. }
    exists r'. split; [exact Hp|]. split; [|exact Hb']. now rewrite <- app_assoc in HI'.
Qed.

Lemma pump_wire_all F r G A :
  RInv r G A -> well_sequenced (A ++ F) -> rx_buf r = wire F ->
  exists r', pump (length (rx_buf r)) r = (r', Ok tt) /\ RInv r' G (A ++ F) /\ rx_buf r' = [].
Proof.
  intros HI Hs Hb. destruct (pump_wire F (length (rx_buf r)) r G A [] HI Hs) as (r' & H1 & H2 & H3).
  - now rewrite app_nil_r. - lia.
  - exists r'. rewrite H1. split; [now apply pump_empty|auto].
Qed.

(** next_event on well-sequenced input. *)
Lemma next_wire F r G A :
  RInv r G A -> well_sequenced (A ++ F) -> rx_buf r = wire F ->
  (exists r' x, next_message r = (r', Ok (Some x)) /\ RInv r' (G ++ [x]) (A ++ F) /\ rx_buf r' = [])
  \/ (exists r', next_message r = (r', Ok None) /\ RInv r' G (A ++ F) /\ rx_buf r' = [] /\ rx_msgs r' = []).
Proof.
  intros HI Hs Hb. destruct (pump_wire_all F r G A HI Hs Hb) as (r' & Hp & HI' & Hb').
  unfold next_message. rewrite Hp. destruct (rx_msgs r') as [|x t] eqn:E.
  - right. exists r'. auto.
  - left. eexists _, x. split; [reflexivity|]. split; [|exact Hb'].
    destruct HI' as [H1 H2 H3]. constructor; auto. cbn [rx_msgs]. rewrite <- app_assoc. simpl. now rewrite <- E.
Qed.

(** *** C11: interleaved objects *)
Definition RHInv (h : rhist) (A F : list Fragment) : Prop :=
  RInv (rh_r h) (rh_got h) A /\ rx_buf (rh_r h) = wire F /\ rh_fed h = A ++ F /\ rh_errs h = [].

Lemma rstep_fed h o : rh_fed (rstep h o) = rh_fed h ++ match o with RFeed fs => fs | RNext => [] end.
Proof. destruct o; simpl; [reflexivity|]. rewrite app_nil_r. destruct (next_message _) as [r [[x|]|e]]; reflexivity. Qed.

Lemma rrun_inv_aux ops : forall h A F, RHInv h A F -> well_sequenced (rh_fed h ++ fed ops) ->
  exists A' F', RHInv (fold_left rstep ops h) A' F' /\ A' ++ F' = rh_fed h ++ fed ops.
Proof.
  induction ops as [|o ops IH]; intros h A F Hinv Hs.
  - simpl. exists A, F. split; [exact Hinv|]. rewrite app_nil_r. symmetry. apply Hinv.
  - simpl fold_left. assert (Hfed := rstep_fed h o).
    destruct Hinv as (HI & Hb & Hf & He).
    destruct o as [fs|].
    + destruct (IH (rstep h (RFeed fs)) A (F ++ fs)) as (A' & F' & H1 & H2).
      * repeat split; simpl; auto; try apply HI.
        -- rewrite wire_app, Hb. reflexivity.
        -- now rewrite Hf, app_assoc.
      * rewrite Hfed, <- app_assoc. exact Hs.
      * exists A', F'. split; [exact H1|]. rewrite H2, Hfed, <- app_assoc. reflexivity.
    + assert (Hs' : well_sequenced (A ++ F)).
      { apply well_sequenced_app_inv with (B := fed ops). rewrite <- Hf. exact Hs. }
      assert (Hstep : exists A' F', RHInv (rstep h RNext) A' F').
      { exists (A ++ F), []. destruct (next_wire F (rh_r h) (rh_got h) A HI Hs' Hb)
          as [(r' & x & Hn & HI' & Hb')|(r' & Hn & HI' & Hb' & _)];
        simpl; rewrite Hn; repeat split; simpl; auto; try apply HI'; rewrite app_nil_r; auto. }
      destruct Hstep as (A1 & F1 & Hinv1).
      destruct (IH (rstep h RNext) A1 F1 Hinv1) as (A' & F' & H1 & H2).
      * rewrite Hfed, app_nil_r. exact Hs.
      * exists A', F'. split; [exact H1|]. rewrite H2, Hfed, app_nil_r. reflexivity.
Qed.

Lemma finished_app A B : finished (A ++ B) = finished A ++ finished B.
Proof. unfold finished. now rewrite filter_app, map_app. Qed.

Lemma object_message_ext A B : well_sequenced (A ++ B) ->
  map (object_message (A ++ B)) (finished A) = map (object_message A) (finished A).
Proof.
  induction B as [|b B IH] using rev_ind; intros Hs; [now rewrite app_nil_r|].
  rewrite app_assoc in *. rewrite <- IH by now apply well_sequenced_snoc_inv in Hs.
  apply map_ext_in. intros oid Hoid. unfold object_message.
  assert (f_oid b <> oid).
  { intros E. destruct Hs as [_ Hs]. destruct (Hs oid) as (c & Hn & _).
    rewrite frags_of_app, frags_of_same in Hn by exact E. apply numbered_snoc_inv in Hn.
    destruct Hn as (Hn & _). apply numbered_false_noend in Hn.
    assert (In oid (finished (A ++ B))) by (rewrite finished_app; apply in_or_app; now left).
    rewrite in_finished in H. congruence. }
  rewrite frags_of_app, frags_of_other by assumption. now rewrite app_nil_r.
Qed.

Lemma interleave_lemma ops :
  well_sequenced (fed ops) ->
  let h := rrun ops in
  let all := map (object_message (fed ops)) (finished (fed ops)) in
  rh_errs h = [] /\ prefix (map Some (rh_got h)) all
  /\ (forall r', next_message (rh_r h) = (r', Ok None) -> map Some (rh_got h) = all).
Proof.
  intros Hs. cbv zeta. unfold rrun.
  destruct (rrun_inv_aux ops rhist_init [] []) as (A & F & (HI & Hb & Hf & He) & HAF).
  { repeat split; simpl; auto. constructor. }
  { exact Hs. }
  simpl in HAF. rewrite <- HAF in *.
  set (h := fold_left rstep ops rhist_init) in *.
  assert (Hext := object_message_ext A F Hs).
  split; [exact He|]. split.
  - exists (map Some (rx_msgs (rh_r h)) ++ map (object_message (A ++ F)) (finished F)).
    rewrite finished_app, map_app, Hext, <- (ri_msgs _ _ _ HI), map_app, app_assoc. reflexivity.
  - intros r' Hn. destruct (next_wire F (rh_r h) (rh_got h) A HI Hs Hb) as [(r2 & x & Hn2 & _)|(r2 & Hn2 & HI2 & _ & Hm)].
    + congruence.
    + rewrite <- (ri_msgs _ _ _ HI2), Hm, app_nil_r. reflexivity.
Qed.

(** *** C08: a fragment out of sequence *)
Lemma bad_id_lemma r f rest :
  frag_fits f -> rx_buf r = wire [f] ++ rest ->
  f_fid f <> N.of_nat (length (collected r (f_oid f))) ->
  exists r', next_message r = (r', Err PSRPCoreError)
    /\ rx_buf r' = rest /\ rx_msgs r' = rx_msgs r /\ (forall oid, collected r' oid = collected r oid).
Proof.
  intros (Ho & Hi & Hl & Hst) Hb Hbad. unfold next_message.
  rewrite wire_cons in Hb. replace (wire []) with (@nil N) in Hb by reflexivity. rewrite app_nil_r in Hb.
  assert (Hne : rx_buf r <> []) by (rewrite Hb; apply frag_bytes_cons).
  destruct (length (rx_buf r)) as [|fuel] eqn:El; [destruct (rx_buf r); [congruence|discriminate]|].
  rewrite pump_S by exact Hne. rewrite Hb, unpack_frag_bytes by assumption. cbn [f_data].
  rewrite app_skipn_len by apply frag_bytes_length.
  unfold accept_fragment. cbn [f_oid f_fid f_data f_end rx_buf rx_frags rx_msgs].
  unfold collected in Hbad.
  destruct (N.eqb_spec (f_fid f)
      (N.of_nat (length match aget (f_oid f) (rx_frags r) with Some b => b | None => [] end))) as [E|E]; [congruence|].
  cbn [negb]. eexists. split; [reflexivity|]. cbn [rx_buf rx_msgs]. split; [reflexivity|]. split; [reflexivity|].
  intros oid. unfold collected. cbn [rx_frags].
  destruct (aget (f_oid f) (rx_frags r)) as [l|] eqn:Eg; [reflexivity|].
  rewrite aget_aset. destruct (N.eqb_spec oid (f_oid f)) as [->|]; [now rewrite Eg|reflexivity].
Qed.

(** *** C09: arbitrary bytes *)
Lemma short_tail_lemma r : 0 < length (rx_buf r) < 21 -> next_message r = (r, Err StructError).
Proof.
  intros H. unfold next_message.
  destruct (length (rx_buf r)) as [|fuel] eqn:El; [lia|].
  rewrite pump_S; [|destruct (rx_buf r); [discriminate|discriminate]].
  rewrite unpack_fragment_short by lia. reflexivity.
Qed.

Lemma aset_In {V} k (v : V) m k' v' : In (k', v') (aset k v m) -> In (k', v') m \/ (k' = k /\ v' = v).
Proof.
  induction m as [|[j w] m IH]; simpl.
  - intros [[= -> ->]|[]]; auto.
  - destruct (N.eqb_spec k j) as [->|]; simpl.
    + intros [[= -> ->]|H]; auto.
    + intros [[= -> ->]|H]; [auto|]. destruct (IH H); auto.
Qed.

Lemma pump_events fuel : forall r oid m, In (oid, m) (rx_msgs (fst (pump fuel r))) ->
  In (oid, m) (rx_msgs r) \/ completed_in (rx_buf r) oid m.
Proof.
  induction fuel as [|fuel IH]; intros r oid m Hin.
  - left. revert Hin. simpl. destruct (rx_buf r); auto.
  - destruct (rx_buf r) as [|b t] eqn:E; [rewrite pump_empty in Hin by exact E; auto|].
    rewrite pump_S in Hin by congruence. rewrite E in Hin.
    destruct (unpack_fragment (b :: t)) as [f|e] eqn:Eu; [|auto].
    set (r1 := mkRx (skipn (21 + length (f_data f)) (b :: t)) (rx_frags r) (rx_msgs r)) in *.
    assert (Hacc : forall r2 u, accept_fragment r1 f = (r2, u) -> forall o x, In (o, x) (rx_msgs r2) ->
              In (o, x) (rx_msgs r) \/ completed_in (b :: t) o x).
    { intros r2 u Ha o x Hx. unfold accept_fragment in Ha.
      destruct (negb _); [injection Ha as <- <-; auto|].
      destruct (f_end f) eqn:Ef; [|injection Ha as <- <-; auto].
      destruct (unpack_message _) as [y|e] eqn:Ey; [|injection Ha as <- <-; auto].
      injection Ha as <- <-. cbn [rx_msgs] in Hx. apply aset_In in Hx. destruct Hx as [Hx|[-> ->]]; [auto|].
      right. rewrite concat_app in Ey. simpl in Ey. rewrite app_nil_r in Ey.
      exists [], (b :: t), f. eexists _, y. repeat split; eauto. }
    destruct (accept_fragment r1 f) as [r2 [u|e]] eqn:Ea.
    + apply IH in Hin. destruct Hin as [Hin|Hin].
      * eapply Hacc; eauto.
      * pose proof (accept_buf r1 f) as Hb. rewrite Ea in Hb. cbn [fst rx_buf] in Hb.
        destruct Hin as (pre & post & g & data & x & Hp & Hrest). right.
        exists (firstn (21 + length (f_data f)) (b :: t) ++ pre), post, g, data, x.
        split; [|exact Hrest]. rewrite <- app_assoc, <- Hp, Hb. symmetry. apply firstn_skipn.
    + simpl in Hin. eapply Hacc; eauto.
Qed.

Lemma next_total_lemma r :
  let '(r', x) := next_message r in
  match x with
  | Ok None => rx_buf r' = []
  | Ok (Some (oid, m)) => (In (oid, m) (rx_msgs r) \/ completed_in (rx_buf r) oid m) /\ rx_buf r' = []
  | Err e => e = StructError \/ e = ValueError \/ e = PSRPCoreError
  end.
Proof.
  unfold next_message.
  pose proof (pump_events (length (rx_buf r)) r) as Hev.
  assert (Hres : forall fuel q, length (rx_buf q) <= fuel ->
     match snd (pump fuel q) with Ok _ => rx_buf (fst (pump fuel q)) = []
     | Err e => e = StructError \/ e = ValueError \/ e = PSRPCoreError end).
  { clear. induction fuel as [|fuel IH]; intros q Hq.
    - assert (rx_buf q = []) by (destruct (rx_buf q); simpl in *; [reflexivity|lia]).
      now rewrite pump_empty.
    - destruct (rx_buf q) as [|b t] eqn:E; [rewrite pump_empty by assumption; exact E|].
      rewrite pump_S by congruence. rewrite E.
      destruct (unpack_fragment (b :: t)) as [f|e] eqn:Eu.
      + pose proof (accept_buf (mkRx (skipn (21 + length (f_data f)) (b :: t)) (rx_frags q) (rx_msgs q)) f) as Hb.
        destruct (accept_fragment _ f) as [r2 [u|e]] eqn:Ea; cbn [fst rx_buf] in Hb.
        * apply IH. rewrite Hb, skipn_length. cbn [length] in *. lia.
        * simpl. revert Ea. unfold accept_fragment. destruct (negb _); [intros [= _ <-]; auto|].
          destruct (f_end f); [|discriminate]. destruct (unpack_message _) as [m|e'] eqn:Em; [discriminate|].
          intros [= _ <-]. apply unpack_message_err in Em. tauto.
      + simpl. destruct (Nat.ltb_spec (length (b :: t)) 21) as [Hl|Hl].
        * rewrite unpack_fragment_short in Eu by exact Hl. injection Eu as <-. auto.
        * destruct (unpack_fragment_long _ Hl) as (f & Ef & _). congruence. }
  specialize (Hres (length (rx_buf r)) r (le_n _)).
  destruct (pump (length (rx_buf r)) r) as [r' [u|e]]; simpl in *; [|exact Hres].
  destruct (rx_msgs r') as [|[oid m] t] eqn:E; [exact Hres|]. cbn [rx_buf]. split; [|exact Hres].
  apply Hev. now left.
Qed.

(** *** C10: cuts inside a fragment header *)
Lemma header_cut_lemma r G A F h rest :
  RInv r G A -> rx_buf r = [] -> well_sequenced (A ++ F) -> 0 < length h < 21 ->
  exists r', next_message (receive_data r (wire F ++ h)) = (r', Err StructError)
    /\ next_message (receive_data r' rest) = next_message (receive_data r (wire F ++ h ++ rest)).
Proof.
  intros HI Hb Hs Hh.
  set (r1 := receive_data r (wire F ++ h)).
  assert (HI1 : RInv r1 G A) by (apply (rinv_buf r G A (rx_buf r ++ wire F ++ h) HI)).
  destruct (pump_wire F (length (rx_buf r1)) r1 G A h HI1 Hs) as (r' & Hp & HI' & Hb'); [simpl; now rewrite Hb|lia|].
  assert (Hn : next_message r1 = (r', Err StructError)).
  { unfold next_message. rewrite Hp.
    destruct (length h) as [|n] eqn:El; [lia|].
    rewrite pump_S by (rewrite Hb'; destruct h; [discriminate|congruence]).
    rewrite Hb', unpack_fragment_short by lia. reflexivity. }
  exists r'. split; [exact Hn|].
  (* relate with the one-shot run *)
  set (r2 := receive_data r (wire F ++ h ++ rest)).
  assert (HI2 : RInv r2 G A) by (apply (rinv_buf r G A (rx_buf r ++ wire F ++ h ++ rest) HI)).
  assert (Hgen : forall F0 A0 (ra rb : Receiver) ta tb fa fb,
     RInv ra G A0 -> well_sequenced (A0 ++ F0) -> rx_buf ra = wire F0 ++ ta -> rx_buf rb = wire F0 ++ tb ->
     rx_frags ra = rx_frags rb -> rx_msgs ra = rx_msgs rb ->
     length (rx_buf ra) <= fa -> length (rx_buf rb) <= fb ->
     exists ra' rb', pump fa ra = pump (length ta) ra' /\ pump fb rb = pump (length tb) rb'
       /\ rx_buf ra' = ta /\ rx_buf rb' = tb /\ rx_frags ra' = rx_frags rb' /\ rx_msgs ra' = rx_msgs rb').
  { clear. induction F0 as [|f F0 IH]; intros A0 ra rb ta tb fa fb HI Hs Ha Hb Hfr Hm Hla Hlb.
    - exists ra, rb. simpl in *. repeat split; auto; apply pump_fuel_enough; auto; rewrite ?Ha, ?Hb; lia.
    - assert (Hff : frag_fits f).
      { destruct Hs as [Hfit _]. rewrite Forall_forall in Hfit. apply Hfit. apply in_or_app. right. now left. }
      rewrite wire_cons, <- app_assoc in Ha, Hb. destruct Hff as (Ho & Hi & Hl & Hst).
      assert (Hna : rx_buf ra <> []) by (rewrite Ha; apply frag_bytes_cons).
      assert (Hnb : rx_buf rb <> []) by (rewrite Hb; apply frag_bytes_cons).
      destruct fa as [|fa]; [destruct (rx_buf ra); [congruence|simpl in Hla; lia]|].
      destruct fb as [|fb]; [destruct (rx_buf rb); [congruence|simpl in Hlb; lia]|].
      rewrite !pump_S by assumption. rewrite Ha, Hb, !unpack_frag_bytes by assumption. cbn [f_data].
      rewrite !app_skipn_len by apply frag_bytes_length.
      replace (mkFragment (f_oid f) (f_fid f) (f_fid f =? 0)%N (f_end f) (f_data f)) with f
        by (destruct f; simpl in *; now subst).
      change (f :: F0) with ([f] ++ F0) in Hs. rewrite app_assoc in Hs.
      destruct (accept_step _ G A0 f (rinv_buf ra G A0 (wire F0 ++ ta) HI) (well_sequenced_app_inv _ _ Hs))
        as (r2 & Ea & HI2 & Hb2). cbn [rx_buf] in Hb2.
      rewrite Ea. rewrite <- Hfr, <- Hm.
      assert (Eb : accept_fragment (mkRx (wire F0 ++ tb) (rx_frags ra) (rx_msgs ra)) f
                   = (mkRx (wire F0 ++ tb) (rx_frags r2) (rx_msgs r2), Ok tt)).
      { revert Ea. unfold accept_fragment. cbn [rx_buf rx_frags rx_msgs].
        destruct (negb _); [discriminate|]. destruct (f_end f).
        - destruct (unpack_message _); [|discriminate]. intros [= <-]. reflexivity.
        - intros [= <-]. reflexivity. }
      rewrite Eb. eapply IH; [exact HI2|exact Hs|exact Hb2|reflexivity|reflexivity|reflexivity| |].
      + rewrite Hb2. rewrite Ha in Hla. rewrite app_length, frag_bytes_length in Hla. lia.
      + cbn [rx_buf]. rewrite Hb in Hlb. rewrite app_length, frag_bytes_length in Hlb. lia. }
  assert (Hb1 : rx_buf r1 = wire F ++ h) by (simpl; now rewrite Hb).
  assert (Hb2 : rx_buf r2 = wire F ++ h ++ rest) by (simpl; now rewrite Hb).
  destruct (Hgen F A r1 r2 h (h ++ rest) (length (rx_buf r1)) (length (rx_buf r2)) HI1 Hs Hb1 Hb2
              eq_refl eq_refl (le_n _) (le_n _))
    as (ra & rb & Hpa & Hpb & Hba & Hbb & Hfr & Hmm).
  assert (Hra : ra = r').
  { (* both are the state in which the short header raises *)
    assert (Hx : pump (length h) ra = (ra, Err StructError)).
    { destruct (length h) as [|n] eqn:El; [lia|].
      rewrite pump_S by (rewrite Hba; destruct h; [discriminate|congruence]).
      rewrite Hba, unpack_fragment_short by lia. reflexivity. }
    rewrite Hpa, Hx in Hp.
    assert (Hy : pump (length h) r' = (r', Err StructError)).
    { destruct (length h) as [|n] eqn:El; [lia|].
      rewrite pump_S by (rewrite Hb'; destruct h; [discriminate|congruence]).
      rewrite Hb', unpack_fragment_short by lia. reflexivity. }
    rewrite Hy in Hp. congruence. }
  subst ra.
  assert (Hrb : receive_data r' rest = rb).
  { unfold receive_data. rewrite Hba, Hfr, Hmm, <- Hbb. destruct rb; reflexivity. }
  rewrite Hrb. unfold next_message. rewrite Hbb, Hpb. reflexivity.
Qed.

Lemma open_in_progress A oid : match open A oid with Some l => l | None => [] end = map f_data (in_progress A oid).
Proof.
  unfold open, in_progress. destruct (existsb f_end (frags_of oid A)); [reflexivity|].
  destruct (frags_of oid A); reflexivity.
Qed.

Lemma bad_id_later_lemma ops F f rest :
  well_sequenced (fed ops ++ F) -> frag_fits f ->
  f_fid f <> N.of_nat (length (in_progress (fed ops ++ F) (f_oid f))) ->
  let h := rrun ops in
  let all := fed ops ++ F in
  exists r', next_message (receive_data (rh_r h) (wire F ++ wire [f] ++ rest)) = (r', Err PSRPCoreError)
    /\ rx_buf r' = rest
    /\ map Some (rh_got h ++ rx_msgs r') = map (object_message all) (finished all)
    /\ (forall oid, collected r' oid = map f_data (in_progress all oid)).
Proof.
  intros Hs Hf Hbad. cbv zeta. unfold rrun.
  destruct (rrun_inv_aux ops rhist_init [] []) as (A & B & (HI & Hb & Hfd & He) & HAB).
  { repeat split; simpl; auto. constructor. }
  { simpl. now apply well_sequenced_app_inv in Hs. }
  simpl in HAB. set (h := fold_left rstep ops rhist_init) in *.
  rewrite <- HAB, <- app_assoc in *.
  set (r := receive_data (rh_r h) (wire F ++ wire [f] ++ rest)).
  assert (HI0 : RInv r (rh_got h) A) by apply (rinv_buf _ _ _ (rx_buf (rh_r h) ++ wire F ++ wire [f] ++ rest) HI).
  assert (Hb0 : rx_buf r = wire (B ++ F) ++ wire [f] ++ rest).
  { simpl. now rewrite Hb, wire_app, <- !app_assoc. }
  destruct (pump_wire (B ++ F) (length (rx_buf r)) r (rh_got h) A (wire [f] ++ rest) HI0 Hs Hb0 (le_n _))
    as (r1 & Hp & HI1 & Hb1).
  destruct (bad_id_lemma r1 f rest Hf Hb1) as (r' & Hn & H1 & H2 & H3).
  { unfold collected. rewrite (ri_frags _ _ _ HI1), open_in_progress, map_length. exact Hbad. }
  exists r'. split.
  - unfold next_message in *. rewrite Hp. rewrite Hb1 in Hn. exact Hn.
  - split; [exact H1|]. split; [rewrite H2; apply HI1|].
    intros oid. rewrite H3. unfold collected. now rewrite (ri_frags _ _ _ HI1), open_in_progress.
Qed.
