(** C64: what obj[key] reads and obj[key] = value changes. *)
From Coq Require Import Sorting.Sorted.
From Verif Require Import Base BaseFacts Model_Object Model_Index Spec_Index Proofs_Index Proofs_Index2.
Local Open Scope Z_scope.

(** ** C64 *)
(** Lists and stacks.  A number reads or writes the element it means, counted from the front or the end; one that means none
    raises IndexError; properties are neither asked nor changed. *)
Theorem C64_list_element : forall V T cast none is_none fuel (x : listobj V T) z,
  (forall i v, means (length (l_items x)) z i -> nth_error (l_items x) i = Some v ->
     list_get V T cast none is_none fuel x (IInt z) = Ok (One v))
  /\ (forall i v, means (length (l_items x)) z i -> exists x', list_set V T cast is_none x (IInt z) v = Ok x' /\ l_obj x' = l_obj x
       /\ length (l_items x') = length (l_items x)
       /\ forall j, nth_error (l_items x') j = if Nat.eqb i j then Some v else nth_error (l_items x) j)
  /\ ((forall i, ~ means (length (l_items x)) z i) ->
      list_get V T cast none is_none fuel x (IInt z) = Err IndexError
      /\ forall v, list_set V T cast is_none x (IInt z) v = Err IndexError).
Proof.
  intros V T cast none is_none fuel x z. destruct (list_read cast none is_none fuel x z) as [A B].
  split; [exact A|]. split; [intros i v; exact (proj1 (list_write cast is_none x z v) i)|].
  intros H. split; [exact (B H)|]. intros v. exact (proj2 (list_write cast is_none x z v) H).
Qed.
Print Assumptions C64_list_element.
(** A name reads or writes the attribute or property and leaves the elements; a slice reads the elements it selects, in
    order; a step of zero is a ValueError, any other key a TypeError. *)
Theorem C64_list_rest : forall V T cast none is_none fuel (x : listobj V T),
  (forall k, list_get V T cast none is_none fuel x (IName k)
             = (let! v := getattr V T cast none is_none fuel (l_obj x) k in Ok (One v)))
  /\ (forall k v, list_set V T cast is_none x (IName k) v
             = (let! o := setattr V T cast is_none (l_obj x) k v in Ok (mkList (l_items x) o)))
  /\ (forall a b c, match c with Some s => s | None => 1 end <> 0 ->
       exists r, list_get V T cast none is_none fuel x (ISlice a b c) = Ok (Many r)
       /\ sliced (l_items x) a b (match c with Some s => s | None => 1 end) r)
  /\ (forall a b, list_get V T cast none is_none fuel x (ISlice a b (Some 0)) = Err ValueError)
  /\ (forall n, list_get V T cast none is_none fuel x (IOther n) = Err TypeError
                /\ list_get V T cast none is_none fuel x (IUnhashable n) = Err TypeError)
  /\ (forall n v, list_set V T cast is_none x (IOther n) v = Err TypeError /\ list_set V T cast is_none x (IUnhashable n) v = Err TypeError).
Proof.
  intros V T cast none is_none fuel x. split; [intros k; reflexivity|]. split; [intros k v; reflexivity|].
  split; [intros a b c; exact (proj1 (list_slice cast none is_none fuel x a b c))|]. split; [reflexivity|].
  split; intros; split; reflexivity.
Qed.
Print Assumptions C64_list_rest.
(** Dictionaries.  Writing a key puts that entry and nothing else: it is read back whatever properties the object has, every
    other key reads as before, no property changes. *)
Theorem C64_dict_entry : forall V T cast none is_none fuel (x : dictobj V T) i v, can_be_key i ->
  exists x', dict_set_item V T x i v = Ok x' /\ dict_get_item V T cast none is_none fuel x' i = Ok v
    /\ dict_has V T x' i = Ok true /\ d_obj x' = d_obj x
    /\ forall j, j <> i -> dict_get_item V T cast none is_none fuel x' j = dict_get_item V T cast none is_none fuel x j
                           /\ dict_has V T x' j = dict_has V T x j.
Proof. intros. now apply dict_write. Qed.
Print Assumptions C64_dict_entry.
(** Reading: the entry if the key is in the dictionary; else, for a name, the attribute or property; else TypeError. *)
Theorem C64_dict_read : forall V T cast none is_none fuel (x : dictobj V T) i,
  (dict_has V T x i = Ok true -> exists v, entry (d_items x) i = Some v /\ dict_get_item V T cast none is_none fuel x i = Ok v)
  /\ (dict_has V T x i = Ok false -> dict_get_item V T cast none is_none fuel x i
      = match i with IName k => getattr V T cast none is_none fuel (d_obj x) k | _ => Err TypeError end)
  /\ (~ can_be_key i -> dict_get_item V T cast none is_none fuel x i = Err TypeError /\ dict_has V T x i = Err TypeError
      /\ forall v, dict_set_item V T x i v = Err TypeError).
Proof. intros. apply dict_read. Qed.
Print Assumptions C64_dict_read.
(** Finding: reading a key that is not there never raises KeyError, as it does for a dict. *)
Theorem C64_dict_no_key_error : forall V T cast none is_none fuel (x : dictobj V T) i,
  (forall t v, cast t v <> Err KeyError) -> dict_get_item V T cast none is_none fuel x i <> Err KeyError.
Proof. intros. now apply dict_no_key_error. Qed.
Print Assumptions C64_dict_no_key_error.

Definition no_cast (t : unit) (v : N) : result N := Ok v.
Definition kA : name := [65]%N.
Definition kItems : name := [105; 116; 101; 109; 115]%N.
(** An object with the method "items" (the value 500) and the note property A = 7. *)
Definition ex_object : obj N unit :=
  mkObj [] (fun k => if name_eqb k kItems then Some 500%N else None) [] [mkProp kA (Note None (Some 7%N))].
Definition is_nil (v : N) : bool := (v =? 0)%N.
Notation ex_lget := (list_get N unit no_cast 0%N is_nil 5).
Notation ex_dget := (dict_get_item N unit no_cast 0%N is_nil 5).
Notation ex_sget := (string_get N unit no_cast 0%N is_nil 5 unit (fun _ => mkObj [] (fun _ => None) [] [])).
Notation ex_bget := (bytes_get N unit no_cast 0%N is_nil 5 unit (fun _ => mkObj [] (fun _ => None) [] [])).
Definition ex_list : listobj N unit := mkList [10; 20; 30; 40]%N ex_object.
Definition ex_dict : dictobj N unit := mkDict [(IInt 1, 10); (IName kA, 20)]%N ex_object.
(** Instead: the name of a method gives the method, another name AttributeError, another key TypeError; and an entry hides
    the property of its name, which no longer can be read or written by key. *)
Theorem C64_dict_missing_refuted : exists (x : dictobj N unit) a b c d v w,
  dict_has N unit x a = Ok false /\ ex_dget x a = Ok 500%N
  /\ dict_has N unit x b = Ok false /\ ex_dget x b = Err AttributeError
  /\ dict_has N unit x c = Ok false /\ ex_dget x c = Err TypeError
  /\ getattr N unit no_cast 0%N is_nil 5 (d_obj x) d = Ok v /\ ex_dget x (IName d) = Ok w /\ v <> w.
Proof.
  exists ex_dict, (IName kItems), (IName [90%N]), (IInt 5), kA, 7%N, 20%N. repeat split; try (vm_compute; reflexivity). discriminate.
Qed.
Print Assumptions C64_dict_missing_refuted.

(** Strings.  A number reads the character it means and a slice the characters it selects, as a string of the same class. *)
Theorem C64_string : forall V T cast none is_none fuel C fresh (x : textobj V T C),
  let get := string_get V T cast none is_none fuel C fresh x in
  (forall z i ch, means (length (t_text x)) z i -> nth_error (t_text x) i = Some ch ->
       exists y, get (IInt z) = Ok (PText y) /\ t_text y = [ch] /\ t_class y = t_class x)
  /\ (forall z, (forall i, ~ means (length (t_text x)) z i) -> get (IInt z) = Err IndexError)
  /\ (forall a b c, match c with Some s => s | None => 1 end <> 0 ->
       exists y, get (ISlice a b c) = Ok (PText y) /\ t_class y = t_class x
         /\ sliced (t_text x) a b (match c with Some s => s | None => 1 end) (t_text y))
  /\ (forall a b, get (ISlice a b (Some 0)) = Err ValueError)
  /\ (forall k, get (IName k) = let! v := getattr V T cast none is_none fuel (t_obj x) k in Ok (PValue v))
  /\ (forall n, get (IOther n) = Err TypeError /\ get (IUnhashable n) = Err TypeError).
Proof. intros. apply string_read. Qed.
Print Assumptions C64_string.
(** Byte arrays: the same of slices. *)
Theorem C64_bytes_slice : forall V T cast none is_none fuel C fresh (x : textobj V T C),
  let get := bytes_get V T cast none is_none fuel C fresh x in
  (forall a b c, match c with Some s => s | None => 1 end <> 0 ->
       exists y, get (ISlice a b c) = Ok (PText y) /\ t_class y = t_class x
         /\ sliced (t_text x) a b (match c with Some s => s | None => 1 end) (t_text y))
  /\ (forall a b, get (ISlice a b (Some 0)) = Err ValueError)
  /\ (forall z, (forall i, ~ means (length (t_text x)) z i) -> get (IInt z) = Err IndexError)
  /\ (forall k, get (IName k) = let! v := getattr V T cast none is_none fuel (t_obj x) k in Ok (PValue v))
  /\ (forall n, get (IOther n) = Err TypeError /\ get (IUnhashable n) = Err TypeError).
Proof. intros. apply bytes_read. Qed.
Print Assumptions C64_bytes_slice.
(** Finding: a number never reads the byte it means: where the byte is n, there come n zero bytes. *)
Theorem C64_bytes_zeros : forall V T cast none is_none fuel C fresh (x : textobj V T C) z i n,
  means (length (t_text x)) z i -> nth_error (t_text x) i = Some n ->
  exists y, bytes_get V T cast none is_none fuel C fresh x (IInt z) = Ok (PText y) /\ length (t_text y) = N.to_nat n
    /\ Forall (eq 0%N) (t_text y) /\ t_text y <> [n].
Proof. intros. eapply bytes_zeros; eauto. Qed.
Print Assumptions C64_bytes_zeros.
Theorem C64_bytes_element_refuted : exists x z n,
  nth_error (t_text x) (Z.to_nat z) = Some n
  /\ (forall v, ex_bget x (IInt z) <> Ok (PValue v)) /\ (forall y, ex_bget x (IInt z) = Ok (PText y) -> t_text y <> [n])
  /\ exists y, ex_bget x (IInt z) = Ok (PText y) /\ t_text y = [0; 0; 0]%N.
Proof.
  exists (mkText tt [5; 3; 255]%N ex_object), 1, 3%N. split; [reflexivity|].
  split; [intros v H; vm_compute in H; discriminate|]. split; [intros y H; vm_compute in H; injection H as <-; discriminate|].
  eexists. split; [vm_compute; reflexivity|reflexivity].
Qed.
Print Assumptions C64_bytes_element_refuted.
(** A part has the properties of a new instance of the class: not those added to the whole. *)
Theorem C64_parts : forall V T cast none is_none fuel C fresh (x : textobj V T C) i y,
  (string_get V T cast none is_none fuel C fresh x i = Ok (PText y) -> t_obj y = fresh (t_class x))
  /\ (bytes_get V T cast none is_none fuel C fresh x i = Ok (PText y) -> t_obj y = fresh (t_class x)).
Proof. intros. apply part_fresh. Qed.
Print Assumptions C64_parts.
(** Any other object (also a queue) is read and written by name only. *)
Theorem C64_object : forall V T cast none is_none fuel (o : obj V T) i v,
  (forall k, i <> IName k) -> object_get V T cast none is_none fuel o i = Err TypeError /\ object_set V T cast is_none o i v = Err TypeError.
Proof. intros V T cast none is_none fuel o i v H. destruct i; [destruct (H k eq_refl)| | | |]; split; reflexivity. Qed.
Print Assumptions C64_object.

Example C64_example :
  means 4 (-1) 3 /\ ex_lget ex_list (IInt (-1)) = Ok (One 40%N) /\ (forall i, ~ means 4 4 i) /\ (forall i, ~ means 4 (-5) i)
  /\ ex_lget ex_list (IName kA) = Ok (One 7%N) /\ ex_lget ex_list (ISlice None None (Some (-2))) = Ok (Many [40; 20]%N)
  /\ ex_lget ex_list (ISlice (Some 1) (Some (-1)) None) = Ok (Many [20; 30]%N)
  /\ ex_lget ex_list (ISlice (Some 9) (Some (-9)) (Some (-3))) = Ok (Many [40; 10]%N)
  /\ can_be_key (IOther 3) /\ ~ can_be_key (ISlice None None None) /\ ex_dget ex_dict (IName kA) = Ok 20%N
  /\ ex_dget (mkDict [] ex_object) (IName kA) = Ok 7%N
  /\ (exists y, ex_sget (mkText tt [97; 98; 99]%N ex_object) (IInt (-2)) = Ok (PText y) /\ t_text y = [98]%N)
  /\ (exists y, ex_sget (mkText tt [97; 98; 99]%N ex_object) (ISlice (Some (-2)) None None) = Ok (PText y) /\ t_text y = [98; 99]%N)
  /\ (exists x', list_set N unit no_cast is_nil ex_list (IInt (-4)) 99%N = Ok x' /\ l_items x' = [99; 20; 30; 40]%N).
Proof.
  split; [split; [lia|right; lia]|]. split; [reflexivity|]. split; [intros i [? ?]; lia|]. split; [intros i [? ?]; lia|].
  split; [reflexivity|]. split; [reflexivity|]. split; [reflexivity|]. split; [reflexivity|]. split; [exact I|]. split; [intros []|].
  split; [reflexivity|]. split; [reflexivity|]. split; [eexists; split; reflexivity|]. split; [eexists; split; reflexivity|].
  eexists; split; reflexivity.
Qed.
