(** Flag text. *)
From Verif Require Import Base BaseFacts Model_Scalars Model_Enum.

(** [w] has no bit that [v] lacks. *)
Definition bits_within (w v : N) : Prop := forall i, N.testbit w i = true -> N.testbit v i = true.
(** In-order selection. *)
Inductive subseq {A} : list A -> list A -> Prop :=
| sub_nil : subseq [] []
| sub_keep x a b : subseq a b -> subseq (x :: a) (x :: b)
| sub_drop x a b : subseq a b -> subseq a (x :: b).
(** Member [m] is to be listed for [v]. *)
Definition listed (ms : members) (v : N) (m : list N * N) : Prop :=
  In m ms /\ bits_within (snd m) v
  /\ (snd m <> 0%N \/ forall m', In m' ms -> bits_within (snd m') v -> m' = m).
(** How a name is shown: PowerShell's None instead of the Python-safe none. *)
Definition shown (ps : bool) (n : list N) : list N :=
  if ps then (if list_eqb N.eqb n [110; 111; 110; 101]%N then [78; 111; 110; 101]%N else n) else n.

Lemma contained_iff w v : contained w v = true <-> bits_within w v.
Proof.
  unfold contained, bits_within. rewrite N.eqb_eq. split.
  - intros H i Hi. rewrite <- H, N.land_spec in Hi. now apply andb_prop in Hi.
  - intros H. apply N.bits_inj. intros i. rewrite N.land_spec. specialize (H i).
    destruct (N.testbit w i); [now rewrite H|reflexivity].
Qed.
Lemma filter_subseq {A} (p : A -> bool) l : subseq (filter p l) l.
Proof. induction l as [|x l IH]; [constructor|]. cbn [filter]. destruct (p x); now constructor. Qed.
Lemma subseq_trans {A} (b c : list A) : subseq b c -> forall a, subseq a b -> subseq a c.
Proof.
  induction 1 as [|x b c H IH|x b c H IH]; intros a Ha.
  - exact Ha.
  - inversion Ha; subst; constructor; auto.
  - constructor. auto.
Qed.
Lemma member_name_nodup ms n v : NoDup (map snd ms) -> In (n, v) ms -> member_name ms v = n.
Proof.
  induction ms as [|[m w] ms IH]; intros Hnd Hin; [destruct Hin|]. cbn [map snd] in Hnd. inversion Hnd; subst.
  cbn [member_name]. destruct Hin as [E|Hin].
  - injection E as -> ->. now rewrite N.eqb_refl.
  - destruct (N.eqb_spec w v) as [->|Hn]; [|now apply IH]. exfalso. apply H1. apply in_map_iff. now exists (n, v).
Qed.
Lemma nodup_filter {A} (p : A -> bool) l : NoDup l -> NoDup (filter p l).
Proof. apply NoDup_filter. Qed.

Lemma flag_names_spec ps ms v : NoDup (map snd ms) ->
  exists L, flag_names ps ms v = map (fun m => shown ps (fst m)) L /\ subseq L ms /\ forall m, In m L <-> listed ms v m.
Proof.
  intros Hnd. unfold flag_names. cbv zeta. set (flags := filter (fun m => contained (snd m) v) ms).
  exists (filter (fun m => negb (snd m =? 0)%N || Nat.eqb (length flags) 1) flags).
  assert (forall m, In m flags <-> In m ms /\ bits_within (snd m) v) as Hfl.
  { intros m. unfold flags. rewrite filter_In, contained_iff. reflexivity. }
  split; [|split].
  - apply map_ext_in. intros [n w] Hin. apply filter_In in Hin. destruct Hin as [Hin _]. apply Hfl in Hin. cbn [snd fst].
    rewrite (member_name_nodup ms n w Hnd) by tauto. unfold shown, name_none, name_None.
    destruct ps, (list_eqb N.eqb n [110; 111; 110; 101]%N); reflexivity.
  - eapply subseq_trans; [apply filter_subseq|apply filter_subseq].
  - intros m. rewrite filter_In. unfold listed. rewrite Hfl. split.
    + intros [[H1 H2] H3]. split; [exact H1|]. split; [exact H2|]. apply orb_prop in H3. destruct H3 as [H3|H3].
      * left. apply negb_true_iff in H3. now apply N.eqb_neq.
      * right. apply Nat.eqb_eq in H3. intros m' H4 H5. assert (In m flags) as A by now apply Hfl.
        assert (In m' flags) as B by now apply Hfl. destruct flags as [|x [|]]; try discriminate H3.
        destruct A as [<-|[]], B as [<-|[]]. reflexivity.
    + intros (H1 & H2 & H3). split; [auto|]. apply orb_true_iff. destruct H3 as [H3|H3].
      * left. apply negb_true_iff. now apply N.eqb_neq.
      * right. apply Nat.eqb_eq. assert (NoDup flags) as Hnf.
        { apply NoDup_filter. now apply NoDup_map_inv in Hnd. }
        assert (In m flags) as A by now apply Hfl.
        assert (forall m', In m' flags -> m' = m) as Hall by (intros m' B; apply Hfl in B; apply H3; tauto).
        destruct flags as [|x [|y t]]; [destruct A|reflexivity|].
        pose proof (Hall x (or_introl eq_refl)). pose proof (Hall y (or_intror (or_introl eq_refl))). subst.
        inversion Hnf as [|? ? Hx]; subst. exfalso. apply Hx. now left.
Qed.
