(** Indexing of objects: proofs. *)
From Coq Require Import Sorting.Sorted.
From Verif Require Import Base BaseFacts Model_Object Model_Index Spec_Index Proofs_Index.
Local Open Scope Z_scope.

Section Statements.
  Context {V T : Type} (cast : T -> V -> result V) (none : V) (is_none : V -> bool) (fuel : nat).
  Notation object := (obj V T).
  Notation attribute := (getattr V T cast none is_none fuel).
  Notation lget := (list_get V T cast none is_none fuel).
  Notation lset := (list_set V T cast is_none).
  Notation dget := (dict_get_item V T cast none is_none fuel).
  Notation dset := (dict_set_item V T).
  Notation dhas := (dict_has V T).

  (** *** Lists and stacks *)
  (** A number reads the element it means, from the front or from the end; one that means none is an IndexError.  No
      property is ever asked. *)
  Lemma list_read (x : listobj V T) z :
    (forall i v, means (length (l_items x)) z i -> nth_error (l_items x) i = Some v -> lget x (IInt z) = Ok (One v))
    /\ ((forall i, ~ means (length (l_items x)) z i) -> lget x (IInt z) = Err IndexError).
  Proof.
    split.
    - intros i v M E. unfold list_get. cbn [py_list_get]. rewrite (proj2 (at_index_means _ z v)) by eauto. reflexivity.
    - intros H. apply at_index_none in H. unfold list_get. cbn [py_list_get]. rewrite H. reflexivity.
  Qed.
  (** A number writes that element: nothing else changes, neither another element nor a property. *)
  Lemma list_write (x : listobj V T) z v :
    (forall i, means (length (l_items x)) z i -> exists x', lset x (IInt z) v = Ok x' /\ l_obj x' = l_obj x
       /\ length (l_items x') = length (l_items x)
       /\ forall j, nth_error (l_items x') j = if Nat.eqb i j then Some v else nth_error (l_items x) j)
    /\ ((forall i, ~ means (length (l_items x)) z i) -> lset x (IInt z) v = Err IndexError).
  Proof.
    split.
    - intros i M. cbn [list_set]. destruct (set_index (l_items x) z v) as [l|e] eqn:E.
      + cbn [bind]. eexists. split; [reflexivity|]. cbn [l_obj l_items]. apply set_index_means in E as (i' & M' & L & N).
        rewrite (means_unique _ _ _ _ M M'). auto.
      + exfalso. assert (E' : set_index (l_items x) z v = Err IndexError).
        { unfold set_index in *. destruct (_ || _); [reflexivity|discriminate]. }
        exact (proj2 (set_index_none (l_items x) z v) E' i M).
    - intros H. apply (set_index_none _ z v) in H. cbn [list_set]. rewrite H. reflexivity.
  Qed.
  (** A name reads and writes the attribute or property: the elements stay. *)
  Lemma list_name (x : listobj V T) k :
    (lget x (IName k) = let! v := attribute (l_obj x) k in Ok (One v))
    /\ forall v, lset x (IName k) v = (let! o := setattr V T cast is_none (l_obj x) k v in Ok (mkList (l_items x) o)).
  Proof. split; [reflexivity|]. intros v. reflexivity. Qed.
  (** Any other key is a TypeError. *)
  Lemma list_other (x : listobj V T) n v :
    lget x (IOther n) = Err TypeError /\ lget x (IUnhashable n) = Err TypeError /\ lset x (IOther n) v = Err TypeError
    /\ lset x (IUnhashable n) v = Err TypeError.
  Proof. repeat split. Qed.
  (** A slice reads the elements it selects, in order, as a plain list. *)
  Lemma list_slice (x : listobj V T) a b c :
    (match c with Some s => s | None => 1 end <> 0 ->
     exists r, lget x (ISlice a b c) = Ok (Many r) /\ sliced (l_items x) a b (match c with Some s => s | None => 1 end) r)
    /\ lget x (ISlice a b (Some 0)) = Err ValueError.
  Proof.
    split; [|reflexivity]. intros S0. destruct (slice_defined (l_items x) a b c S0) as [r R]. exists r.
    unfold list_get. cbn [py_list_get]. rewrite R. cbn [bind]. split; [reflexivity|]. exact (proj1 (slice_sliced _ _ _ _ _ R)).
  Qed.

  (** *** Dictionaries *)
  Lemma key_eqb_iff i j : key_eqb i j = true <-> i = j /\ can_be_key i.
  Proof.
    destruct i, j; cbn; try (split; [discriminate|intros [H _]; discriminate H]).
    - unfold name_eqb. rewrite (list_eqb_spec N.eqb N.eqb_eq). split; [intros ->; auto|intros [[= ->] _]; auto].
    - rewrite Z.eqb_eq. split; [intros ->; auto|intros [[= ->] _]; auto].
    - split; [discriminate|intros [_ []]].
    - rewrite N.eqb_eq. split; [intros ->; auto|intros [[= ->] _]; auto].
    - split; [discriminate|intros [_ []]].
  Qed.
  Lemma hashable_iff i : hashable i = true <-> can_be_key i.
  Proof. destruct i; cbn; split; auto; try discriminate; contradiction. Qed.
  Lemma entry_put (d : list (index * V)) i v j : can_be_key i -> entry (put d i v) j = if key_eqb i j then Some v else entry d j.
  Proof.
    intros K. induction d as [|[k w] t IH]; cbn [put entry]; [reflexivity|].
    destruct (key_eqb k i) eqn:E.
    - apply key_eqb_iff in E as [-> _]. cbn [entry]. destruct (key_eqb i j); reflexivity.
    - cbn [entry]. rewrite IH. destruct (key_eqb k j) eqn:F; [|reflexivity]. destruct (key_eqb i j) eqn:G; [|reflexivity].
      apply key_eqb_iff in F as [-> F]. apply key_eqb_iff in G as [-> G].
      rewrite (proj2 (key_eqb_iff j j)) in E by auto. discriminate.
  Qed.
  (** Writing a key puts that entry: it is then read whatever properties there are, every other key reads as before, and no
      property changes. *)
  Lemma dict_write (x : dictobj V T) i v : can_be_key i ->
    exists x', dset x i v = Ok x' /\ dget x' i = Ok v /\ dhas x' i = Ok true /\ d_obj x' = d_obj x
      /\ forall j, j <> i -> dget x' j = dget x j /\ dhas x' j = dhas x j.
  Proof.
    intros K. apply hashable_iff in K as H. unfold dict_set_item. rewrite H. cbn [negb]. eexists. split; [reflexivity|].
    unfold dict_get_item, py_dict_get, dict_has. cbn [d_items d_obj]. rewrite H. cbn [negb].
    rewrite entry_put by exact K. rewrite (proj2 (key_eqb_iff i i)) by auto. repeat split.
    - destruct (hashable j); [|reflexivity]. cbn [negb]. rewrite entry_put by exact K.
      destruct (key_eqb i j) eqn:E; [|reflexivity]. apply key_eqb_iff in E as [-> _]. contradiction.
    - destruct (hashable j); [|reflexivity]. cbn [negb]. rewrite entry_put by exact K.
      destruct (key_eqb i j) eqn:E; [|reflexivity]. apply key_eqb_iff in E as [-> _]. contradiction.
  Qed.
  Lemma dict_read (x : dictobj V T) i :
    (dhas x i = Ok true -> exists v, entry (d_items x) i = Some v /\ dget x i = Ok v)
    /\ (dhas x i = Ok false -> dget x i = match i with IName k => attribute (d_obj x) k | _ => Err TypeError end)
    /\ (~ can_be_key i -> dget x i = Err TypeError /\ dhas x i = Err TypeError /\ forall v, dset x i v = Err TypeError).
  Proof.
    unfold dict_has, dict_get_item, py_dict_get, dict_set_item. split; [|split].
    - destruct (hashable i); [|discriminate]. cbn [negb]. destruct (entry (d_items x) i) as [v|]; [|discriminate]. eauto.
    - destruct (hashable i); [|discriminate]. cbn [negb]. destruct (entry (d_items x) i) as [v|]; [discriminate|]. intros _. destruct i; reflexivity.
    - intros K. assert (hashable i = false) as -> by (apply not_true_is_false; rewrite hashable_iff; exact K). cbn. auto.
  Qed.
  Lemma attribute_no_key_error : (forall t v, cast t v <> Err KeyError) -> forall f o k, getattr V T cast none is_none f o k <> Err KeyError.
  Proof.
    intros C. induction f as [|f IH]; intros o k; cbn [getattr]; [discriminate|].
    destruct (dict_get _ _); [discriminate|]. destruct (o_class o k); [discriminate|].
    destruct (find_property o k) as [p|]; [|discriminate]. destruct (p_kind p) as [ty [v|]|ty t]; try discriminate.
    specialize (IH o t). destruct (getattr V T cast none is_none f o t) as [v|e]; cbn [bind]; [|congruence].
    unfold cast_opt. destruct ty as [ty|]; [|discriminate]. destruct (is_none v); [discriminate|apply C].
  Qed.
  Lemma dict_no_key_error (x : dictobj V T) i : (forall t v, cast t v <> Err KeyError) -> dget x i <> Err KeyError.
  Proof.
    intros C. unfold dict_get_item. destruct (py_dict_get _ _ i) as [v|e] eqn:E; [discriminate|].
    destruct e; try discriminate. unfold object_get. destruct i; try discriminate. now apply attribute_no_key_error.
  Qed.

  (** *** Strings and byte arrays *)
  Context {C : Type} (fresh : C -> object).
  Notation sget := (string_get V T cast none is_none fuel C fresh).
  Notation bget := (bytes_get V T cast none is_none fuel C fresh).
  Lemma string_read (x : textobj V T C) :
    (forall z i ch, means (length (t_text x)) z i -> nth_error (t_text x) i = Some ch ->
       exists y, sget x (IInt z) = Ok (PText y) /\ t_text y = [ch] /\ t_class y = t_class x)
    /\ (forall z, (forall i, ~ means (length (t_text x)) z i) -> sget x (IInt z) = Err IndexError)
    /\ (forall a b c, match c with Some s => s | None => 1 end <> 0 ->
       exists y, sget x (ISlice a b c) = Ok (PText y) /\ t_class y = t_class x
         /\ sliced (t_text x) a b (match c with Some s => s | None => 1 end) (t_text y))
    /\ (forall a b, sget x (ISlice a b (Some 0)) = Err ValueError)
    /\ (forall k, sget x (IName k) = let! v := attribute (t_obj x) k in Ok (PValue v))
    /\ (forall n, sget x (IOther n) = Err TypeError /\ sget x (IUnhashable n) = Err TypeError).
  Proof.
    split; [|split; [|split; [|split; [|split]]]]; try (repeat split; fail).
    - intros z i ch M E. cbn [string_get]. rewrite (proj2 (at_index_means _ z ch)) by eauto. cbn [bind]. eexists. repeat split.
    - intros z H. apply at_index_none in H. cbn [string_get]. rewrite H. reflexivity.
    - intros a b c S0. destruct (slice_defined (t_text x) a b c S0) as [r R]. cbn [string_get]. rewrite R. cbn [bind].
      eexists. split; [reflexivity|]. split; [reflexivity|]. exact (proj1 (slice_sliced _ _ _ _ _ R)).
  Qed.
  Lemma bytes_read (x : textobj V T C) :
    (forall a b c, match c with Some s => s | None => 1 end <> 0 ->
       exists y, bget x (ISlice a b c) = Ok (PText y) /\ t_class y = t_class x
         /\ sliced (t_text x) a b (match c with Some s => s | None => 1 end) (t_text y))
    /\ (forall a b, bget x (ISlice a b (Some 0)) = Err ValueError)
    /\ (forall z, (forall i, ~ means (length (t_text x)) z i) -> bget x (IInt z) = Err IndexError)
    /\ (forall k, bget x (IName k) = let! v := attribute (t_obj x) k in Ok (PValue v))
    /\ (forall n, bget x (IOther n) = Err TypeError /\ bget x (IUnhashable n) = Err TypeError).
  Proof.
    split; [|split; [|split; [|split]]]; try (repeat split; fail).
    - intros a b c S0. destruct (slice_defined (t_text x) a b c S0) as [r R]. cbn [bytes_get]. rewrite R. cbn [bind].
      eexists. split; [reflexivity|]. split; [reflexivity|]. exact (proj1 (slice_sliced _ _ _ _ _ R)).
    - intros z H. apply at_index_none in H. cbn [bytes_get]. rewrite H. reflexivity.
  Qed.
  Lemma bytes_zeros (x : textobj V T C) z i n : means (length (t_text x)) z i -> nth_error (t_text x) i = Some n ->
    exists y, bget x (IInt z) = Ok (PText y) /\ length (t_text y) = N.to_nat n /\ Forall (eq 0%N) (t_text y) /\ t_text y <> [n].
  Proof.
    intros M E. cbn [bytes_get]. rewrite (proj2 (at_index_means _ z n)) by eauto. cbn [bind]. eexists. split; [reflexivity|].
    cbn [new_text t_text]. split; [apply repeat_length|]. split; [apply Forall_forall; intros y Y; apply repeat_spec in Y; auto|].
    destruct (N.to_nat n) as [|[|m]] eqn:L; cbn; [discriminate| |discriminate]. intros [= K]. subst n. discriminate.
  Qed.
  (** The parts have no property of their own: they are as new instances of the class. *)
  Lemma part_fresh (x : textobj V T C) i y :
    (sget x i = Ok (PText y) -> t_obj y = fresh (t_class x)) /\ (bget x i = Ok (PText y) -> t_obj y = fresh (t_class x)).
  Proof.
    split; destruct i as [k|z|a b c|n|n]; cbn [string_get bytes_get]; intros H; try discriminate.
    - destruct (object_get _ _ _ _ _ _ _ _); cbn [bind] in H; discriminate.
    - destruct (at_index (t_text x) z); cbn [bind] in H; [|discriminate]. injection H as <-. reflexivity.
    - destruct (slice (t_text x) a b c); cbn [bind] in H; [|discriminate]. injection H as <-. reflexivity.
    - destruct (object_get _ _ _ _ _ _ _ _); cbn [bind] in H; discriminate.
    - destruct (at_index (t_text x) z); cbn [bind] in H; [|discriminate]. injection H as <-. reflexivity.
    - destruct (slice (t_text x) a b c); cbn [bind] in H; [|discriminate]. injection H as <-. reflexivity.
  Qed.
End Statements.
