(** Malformed host calls and answers, and the exact shape of host objects. *)
From Coq Require Import String.
From Verif Require Import Base BaseFacts Model_Scalars Model_Host Spec_Host Proofs_Host.
Local Open Scope list_scope.

Lemma lacks_attr v k : lacks v k -> attr v k = Err AttributeError.
Proof.
  destruct v as [| | | | | |ps| |]; try reflexivity. cbn [lacks attr]. induction ps as [|[n x] t IH]; [reflexivity|].
  intros K. cbn [prop_of]. destruct (String.eqb n k) eqn:E.
  - apply String.eqb_eq in E. subst n. destruct K. left. reflexivity.
  - apply IH. intros I. apply K. right. exact I.
Qed.
Lemma attr_lacks v k e : attr v k = Err e -> e = AttributeError.
Proof.
  destruct v as [| | | | | |ps| |]; cbn [attr]; try congruence. induction ps as [|[n x] t IH]; cbn [prop_of]; [congruence|].
  destruct (String.eqb n k); [discriminate|exact IH].
Qed.
Lemma has_attr v k x : has v k x -> attr v k = Ok x.
Proof.
  destruct v as [| | | | | |ps| |]; try contradiction. intros (a & b & -> & K). cbn [attr]. induction a as [|[n y] a IH]; cbn [prop_of app].
  - now rewrite String.eqb_refl.
  - destruct (String.eqb n k) eqn:E.
    + apply String.eqb_eq in E. subst n. destruct K. left. reflexivity.
    + apply IH. intros I. apply K. right. exact I.
Qed.
(** A chain of lookups one of which fails. *)
Ltac missing :=
  repeat match goal with
  | H : attr ?v ?k = Err AttributeError |- context [attr ?v ?k] => rewrite H; reflexivity
  | |- bind (attr ?v ?k) _ = _ => let E := fresh "E" in destruct (attr v k) eqn:E; cbn [bind]; [|f_equal; exact (attr_lacks v k _ E)]
  end.
Ltac each I v := repeat (destruct I as [<- | I]; [pose proof (lacks_attr v) as M; cbn in M|]); [..|destruct I].
Lemma coord_missing v k : In k coord_names -> lacks v k -> coord_from v = Err AttributeError.
Proof. intros I L. apply lacks_attr in L. unfold coord_from. cbn in I. repeat (destruct I as [<- | I]; [missing|]). destruct I. Qed.
Lemma size_missing v k : In k size_names -> lacks v k -> size_from v = Err AttributeError.
Proof. intros I L. apply lacks_attr in L. unfold size_from. cbn in I. repeat (destruct I as [<- | I]; [missing|]). destruct I. Qed.
Lemma rect_missing v k : In k rect_names -> lacks v k -> rect_from v = Err AttributeError.
Proof. intros I L. apply lacks_attr in L. unfold rect_from. cbn in I. repeat (destruct I as [<- | I]; [missing|]). destruct I. Qed.
Lemma choice_missing v k : In k choice_names -> lacks v k -> choice_from v = Err AttributeError.
Proof. intros I L. apply lacks_attr in L. unfold choice_from. cbn in I. repeat (destruct I as [<- | I]; [missing|]). destruct I. Qed.
Lemma field_missing v k : In k field_names -> lacks v k -> field_from v = Err AttributeError.
Proof. intros I L. apply lacks_attr in L. unfold field_from. cbn in I. repeat (destruct I as [<- | I]; [missing|]). destruct I. Qed.
Lemma progress_missing v k : In k progress_names -> lacks v k -> progress_from v = Err AttributeError.
Proof. intros I L. apply lacks_attr in L. unfold progress_from. cbn in I. repeat (destruct I as [<- | I]; [missing|]). destruct I. Qed.

Lemma int32_iff z : (exists y, new_int32 z = Ok y) <-> int32_ok z.
Proof.
  unfold new_int32, int32_ok. replace (min_value TInt32) with (-2147483648)%Z by reflexivity.
  replace (max_value TInt32) with 2147483647%Z by reflexivity.
  match goal with |- context [if ?c then _ else _] => destruct c eqn:E end.
  - apply andb_true_iff in E as [E1 E2]. apply Z.leb_le in E1, E2. split; [intros _; lia | eauto].
  - split; [intros [y Y]; discriminate|]. intros [A B]. apply andb_false_iff in E as [E | E]; apply Z.leb_gt in E; lia.
Qed.
Lemma int32_out z : ~ int32_ok z -> new_int32 z = Err ValueError.
Proof.
  intros N. unfold new_int32. match goal with |- (if ?c then _ else _) = _ => destruct c eqn:E end; [|reflexivity].
  destruct N. apply int32_iff. exists z. unfold new_int32. now rewrite E.
Qed.
Lemma int32_err z e : new_int32 z = Err e -> e = ValueError.
Proof. unfold new_int32. match goal with |- (if ?c then _ else _) = _ -> _ => destruct c end; congruence. Qed.
Ltac ranged :=
  repeat match goal with
  | H : new_int32 ?z = Err ValueError |- context [new_int32 ?z] => rewrite H; reflexivity
  | |- context [bind (new_int32 ?z) _] => let E := fresh "E" in destruct (new_int32 z) eqn:E; cbn [bind]; [|f_equal; exact (int32_err _ _ E)]
  end.
Lemma numbers_range r z : In z (numbers r) -> ~ int32_ok z -> encode r = Err ValueError.
Proof.
  intros I N. apply int32_out in N. destruct r; cbn [numbers] in I; cbn [encode]; unfold new_progress, new_coord, new_size, new_rect; try (destruct I; fail);
    repeat (destruct I as [<- | I]; [ranged|]); destruct I.
Qed.
Lemma color_iff z : console_color (HInt z) = if (0 <=? z)%Z && (z <=? 15)%Z then Ok z else Err ValueError.
Proof. reflexivity. Qed.
Lemma color_out z : ~ color_ok z -> console_color (HInt z) = Err ValueError.
Proof.
  intros N. cbn [console_color]. match goal with |- (if ?c then _ else _) = _ => destruct c eqn:E end; [|reflexivity].
  apply andb_true_iff in E as [A B]. apply Z.leb_le in A, B. destruct N. split; assumption.
Qed.
(** The converted methods read exactly their parameters. *)
Lemma param_len ps i v : param ps i = Ok v -> (i < length ps)%nat.
Proof. unfold param. destruct (nth_error ps i) eqn:E; [|discriminate]. intros _. apply nth_error_Some. congruence. Qed.
Ltac reads H :=
  repeat match type of H with
  | bind ?a _ = Ok _ => let E := fresh "P" in destruct a eqn:E; cbn [bind] in H; [|discriminate H]
  end;
  repeat match goal with P : param _ _ = Ok _ |- _ => apply param_len in P end;
  injection H as <-.
Ltac picks H :=
  repeat match type of H with
  | context [isin ?a ?l] => let b := eval vm_compute in (isin a l) in change (isin a l) with b in H; cbv iota in H
  end.
Lemma arity m n ps ds : In (m, n) converted -> decode_params m ps = Ok ds -> length ds = n /\ (n <= length ps)%nat.
Proof.
  intros I H. cbn in I.
  repeat (destruct I as [[= <- <-] | I]; [unfold decode_params in H; picks H; reads H; split; [reflexivity|lia]|]).
  destruct I.
Qed.
Lemma none_given m n : In (m, n) converted -> decode_params m [] = Err IndexError.
Proof. intros I. cbn in I. repeat (destruct I as [[= <- <-] | I]; [reflexivity|]). destruct I. Qed.
Lemma others m ps : ~ In m (map fst converted) -> decode_params m ps = Ok (map DRaw ps).
Proof.
  intros K. assert (forall l, (forall x, In x l -> In x (map fst converted)) -> isin m l = false) as O.
  { intros l Hl. unfold isin. destruct (existsb (N.eqb m) l) eqn:E; [|reflexivity]. apply existsb_exists in E as (x & X & Y).
    apply N.eqb_eq in Y. subst x. destruct K. auto. }
  unfold decode_params.
  repeat match goal with |- (if isin m ?l then _ else _) = _ => rewrite (O l) by (intros x X; cbn in X |- *; tauto) end. reflexivity.
Qed.
