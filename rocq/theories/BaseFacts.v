(** Facts about Base.v. *)
From Verif Require Import Base.

Lemma le_bytes_length n v : length (le_bytes n v) = n.
Proof. revert v; induction n as [|n IH]; intros v; simpl; [reflexivity|]. now rewrite IH. Qed.

Lemma le_bytes_ok n v : bytes_ok (le_bytes n v).
Proof.
  revert v; induction n as [|n IH]; intros v; simpl; constructor; [|apply IH].
  apply N.mod_lt; lia.
Qed.

Lemma pow256_S n : (256 ^ N.of_nat (S n) = 256 * 256 ^ N.of_nat n)%N.
Proof. rewrite Nat2N.inj_succ, N.pow_succ_r'. reflexivity. Qed.

Lemma le_val_le_bytes n v : (v < 256 ^ N.of_nat n)%N -> le_val (le_bytes n v) = v.
Proof.
  revert v; induction n as [|n IH]; intros v Hv.
  - simpl in *. change (256 ^ N.of_nat 0)%N with 1%N in Hv. lia.
  - cbn [le_bytes le_val]. rewrite pow256_S in Hv. rewrite IH.
    + pose proof (N.div_mod v 256). lia.
    + apply N.div_lt_upper_bound; lia.
Qed.

Lemma le_val_bound l : bytes_ok l -> (le_val l < 256 ^ N.of_nat (length l))%N.
Proof.
  induction l as [|b l IH]; intros H.
  - simpl. change (256 ^ N.of_nat 0)%N with 1%N. lia.
  - inversion H as [|? ? Hb Hl]; subst. specialize (IH Hl). cbn [le_val length].
    rewrite pow256_S. nia.
Qed.

Lemma le_bytes_le_val l : bytes_ok l -> le_bytes (length l) (le_val l) = l.
Proof.
  induction l as [|b l IH]; intros H; [reflexivity|].
  inversion H as [|? ? Hb Hl]; subst. cbn [le_val length le_bytes].
  rewrite N.mul_comm at 1. rewrite N.mod_add by lia. rewrite N.mod_small by lia.
  rewrite N.mul_comm. rewrite N.div_add by lia. rewrite N.div_small by lia.
  rewrite N.add_0_l. now rewrite IH.
Qed.

Lemma bytes_ok_app a b : bytes_ok (a ++ b) <-> bytes_ok a /\ bytes_ok b.
Proof. unfold bytes_ok. apply Forall_app. Qed.

Lemma bytes_ok_rev a : bytes_ok a -> bytes_ok (rev a).
Proof. unfold bytes_ok. intros H. now apply Forall_rev. Qed.

Lemma bytes_ok_firstn n a : bytes_ok a -> bytes_ok (firstn n a).
Proof.
  unfold bytes_ok. rewrite !Forall_forall. intros H x Hx. apply H.
  rewrite <- (firstn_skipn n a). apply in_or_app; now left.
Qed.

Lemma bytes_ok_skipn n a : bytes_ok a -> bytes_ok (skipn n a).
Proof.
  unfold bytes_ok. rewrite !Forall_forall. intros H x Hx. apply H.
  rewrite <- (firstn_skipn n a). apply in_or_app; now right.
Qed.

Lemma bytes_okb_spec l : bytes_okb l = true <-> bytes_ok l.
Proof.
  unfold bytes_okb, bytes_ok. rewrite forallb_forall, Forall_forall.
  split; intros H x Hx; specialize (H x Hx); lia.
Qed.

Lemma be_bytes_length n v : length (be_bytes n v) = n.
Proof. unfold be_bytes. now rewrite rev_length, le_bytes_length. Qed.
Lemma be_bytes_ok n v : bytes_ok (be_bytes n v).
Proof. apply bytes_ok_rev, le_bytes_ok. Qed.
Lemma be_val_be_bytes n v : (v < 256 ^ N.of_nat n)%N -> be_val (be_bytes n v) = v.
Proof. intros H. unfold be_val, be_bytes. rewrite rev_involutive. now apply le_val_le_bytes. Qed.
Lemma be_val_bound l : bytes_ok l -> (be_val l < 256 ^ N.of_nat (length l))%N.
Proof. intros H. unfold be_val. rewrite <- rev_length. apply le_val_bound, bytes_ok_rev, H. Qed.
Lemma be_bytes_be_val l : bytes_ok l -> be_bytes (length l) (be_val l) = l.
Proof.
  intros H. unfold be_bytes, be_val. rewrite <- (rev_length l), le_bytes_le_val by now apply bytes_ok_rev.
  apply rev_involutive.
Qed.

Lemma pack_be_ok n v : (v < 256 ^ N.of_nat n)%N -> pack_be n v = Ok (be_bytes n v).
Proof. unfold pack_be. intros H. destruct (N.ltb_spec v (256 ^ N.of_nat n)); [reflexivity|lia]. Qed.
Lemma pack_be_err n v : (256 ^ N.of_nat n <= v)%N -> pack_be n v = Err StructError.
Proof. unfold pack_be. intros H. destruct (N.ltb_spec v (256 ^ N.of_nat n)); [lia|reflexivity]. Qed.

Lemma app_firstn_len {A} (a b : list A) n : length a = n -> firstn n (a ++ b) = a.
Proof. intros <-. rewrite firstn_app, Nat.sub_diag, firstn_all. simpl. apply app_nil_r. Qed.
Lemma app_skipn_len {A} (a b : list A) n : length a = n -> skipn n (a ++ b) = b.
Proof. intros <-. rewrite skipn_app, Nat.sub_diag, skipn_all. reflexivity. Qed.

Lemma list_eqb_spec {A} (eqb : A -> A -> bool) (H : forall x y, eqb x y = true <-> x = y) a b :
  list_eqb eqb a b = true <-> a = b.
Proof.
  revert b; induction a as [|x a IH]; destruct b as [|y b]; simpl; try (split; congruence).
  rewrite andb_true_iff, H, IH. split; [intros [-> ->]; reflexivity|]. intros E; inversion E; auto.
Qed.
Lemma opt_eqb_spec {A} (eqb : A -> A -> bool) (H : forall x y, eqb x y = true <-> x = y) a b :
  opt_eqb eqb a b = true <-> a = b.
Proof.
  destruct a as [x|], b as [y|]; simpl; try (split; congruence).
  rewrite H. split; congruence.
Qed.

(** Association lists behave like finite maps. *)
Section AssocFacts.
  Context {V : Type}.
  Implicit Types (m : list (N * V)).
  Lemma aget_aset k k' v m : aget k (aset k' v m) = if (k =? k')%N then Some v else aget k m.
  Proof.
    induction m as [|[j w] m IH]; simpl; [reflexivity|].
    destruct (N.eqb_spec k' j) as [->|Hj]; simpl.
    - destruct (N.eqb_spec k j); reflexivity.
    - destruct (N.eqb_spec k j) as [->|Hkj].
      + destruct (N.eqb_spec j k'); congruence.
      + exact IH.
  Qed.
  Lemma aget_None m k : aget k m = None <-> ~ In k (akeys m).
  Proof.
    induction m as [|[j w] m IH]; simpl; [tauto|].
    destruct (N.eqb_spec k j) as [->|Hkj].
    - split; [discriminate|tauto].
    - rewrite IH. split; intros H; [intros [->|]; tauto|tauto].
  Qed.
  Lemma aget_Some_In m k v : aget k m = Some v -> In (k, v) m.
  Proof.
    induction m as [|[j w] m IH]; simpl; [discriminate|].
    destruct (N.eqb_spec k j) as [->|Hkj]; [intros [= ->]; now left|right; auto].
  Qed.
  Lemma aget_In m k v : NoDup (akeys m) -> In (k, v) m -> aget k m = Some v.
  Proof.
    induction m as [|[j w] m IH]; simpl; [tauto|].
    intros Hn Hi. inversion Hn as [|? ? Hj Hm]; subst.
    destruct Hi as [[= -> ->]|Hi].
    - now rewrite N.eqb_refl.
    - destruct (N.eqb_spec k j) as [->|]; [|auto].
      exfalso. apply Hj. unfold akeys. change j with (fst (j, v)). now apply in_map.
  Qed.
  Lemma aget_adel k k' m : NoDup (akeys m) -> aget k (adel k' m) = if (k =? k')%N then None else aget k m.
  Proof.
    induction m as [|[j w] m IH]; simpl; intros Hn.
    - destruct (k =? k')%N; reflexivity.
    - inversion Hn as [|? ? Hj Hm]; subst.
      destruct (N.eqb_spec k' j) as [->|Hj'].
      + destruct (N.eqb_spec k j) as [->|]; [now apply aget_None|reflexivity].
      + simpl. destruct (N.eqb_spec k j) as [->|Hkj].
        * destruct (N.eqb_spec j k'); congruence.
        * now apply IH.
  Qed.
  Lemma akeys_aset k v m : akeys (aset k v m) = if amem k m then akeys m else akeys m ++ [k].
  Proof.
    unfold amem. induction m as [|[j w] m IH]; simpl; [reflexivity|].
    destruct (N.eqb_spec k j) as [->|Hkj]; simpl; [reflexivity|].
    rewrite IH. destruct (aget k m); reflexivity.
  Qed.
  Lemma aset_new k v m : aget k m = None -> aset k v m = m ++ [(k, v)].
  Proof.
    induction m as [|[j w] m IH]; simpl; [reflexivity|].
    destruct (N.eqb_spec k j) as [->|Hkj]; [discriminate|]. intros H. now rewrite IH.
  Qed.
  Lemma NoDup_app_single {A} (l : list A) x : NoDup l -> ~ In x l -> NoDup (l ++ [x]).
  Proof.
    induction l as [|y l IH]; simpl; intros Hn Hi; [repeat constructor; tauto|].
    inversion Hn; subst. constructor; [|apply IH; tauto].
    rewrite in_app_iff; simpl. intros [|[->|[]]]; tauto.
  Qed.
  Lemma NoDup_aset k v m : NoDup (akeys m) -> NoDup (akeys (aset k v m)).
  Proof.
    intros H. rewrite akeys_aset. unfold amem. destruct (aget k m) eqn:E; [exact H|].
    apply NoDup_app_single; [exact H|]. now apply aget_None.
  Qed.
  Lemma In_akeys_adel k k' m : In k (akeys (adel k' m)) -> In k (akeys m).
  Proof.
    induction m as [|[j w] m IH]; simpl; [tauto|].
    destruct (N.eqb_spec k' j) as [->|]; simpl; [tauto|]. intros [->|H]; tauto.
  Qed.
  Lemma NoDup_adel k m : NoDup (akeys m) -> NoDup (akeys (adel k m)).
  Proof.
    induction m as [|[j w] m IH]; simpl; intros Hn; [constructor|].
    inversion Hn; subst. destruct (N.eqb_spec k j) as [->|]; [assumption|].
    simpl. constructor; [|auto]. intros Hi. apply In_akeys_adel in Hi. tauto.
  Qed.
  Lemma adel_notin k m : aget k m = None -> adel k m = m.
  Proof.
    induction m as [|[j w] m IH]; simpl; [reflexivity|].
    destruct (N.eqb_spec k j) as [->|Hkj]; [discriminate|]. intros H. now rewrite IH.
  Qed.
  Lemma adel_app_last k v m : aget k m = None -> adel k (m ++ [(k, v)]) = m.
  Proof.
    induction m as [|[j w] m IH]; simpl; [now rewrite N.eqb_refl|].
    destruct (N.eqb_spec k j) as [->|Hkj]; [discriminate|]. intros H. now rewrite IH.
  Qed.
  Lemma aget_app k m1 m2 : aget k (m1 ++ m2) = match aget k m1 with Some v => Some v | None => aget k m2 end.
  Proof.
    induction m1 as [|[j w] m IH]; simpl; [reflexivity|].
    destruct (k =? j)%N; [reflexivity|exact IH].
  Qed.
End AssocFacts.
