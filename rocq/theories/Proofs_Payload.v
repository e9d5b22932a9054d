From Verif Require Import Base BaseFacts Model_Payload Model_Transport Spec_Transport.

Lemma testbit_flags (f : N) (e : bool) :
  N.testbit ((if (f =? 0)%N then 1 else 0) + (if e then 2 else 0)) 0 = (f =? 0)%N
  /\ N.testbit ((if (f =? 0)%N then 1 else 0) + (if e then 2 else 0)) 1 = e.
Proof. destruct (f =? 0)%N, e; split; reflexivity. Qed.

Lemma flags_bound (f : N) (e : bool) : ((if (f =? 0)%N then 1 else 0) + (if e then 2 else 0) < 256)%N.
Proof. destruct (f =? 0)%N, e; lia. Qed.

Lemma create_fragment_ok oid fid data e :
  (oid < 2 ^ 64)%N -> (fid < 2 ^ 64)%N -> (N.of_nat (length data) < 2 ^ 32)%N ->
  create_fragment oid fid data e = Ok (frag_bytes oid fid data e).
Proof.
  intros H1 H2 H3. unfold create_fragment, frag_bytes, bind.
  change (2 ^ 64)%N with (256 ^ N.of_nat 8)%N in *. change (2 ^ 32)%N with (256 ^ N.of_nat 4)%N in *.
  rewrite !pack_be_ok; auto. apply flags_bound.
Qed.

Lemma create_fragment_inv oid fid data e b :
  create_fragment oid fid data e = Ok b ->
  (oid < 2 ^ 64)%N /\ (fid < 2 ^ 64)%N /\ (N.of_nat (length data) < 2 ^ 32)%N /\ b = frag_bytes oid fid data e.
Proof.
  unfold create_fragment, bind, pack_be.
  change (2 ^ 64)%N with (256 ^ N.of_nat 8)%N in *. change (2 ^ 32)%N with (256 ^ N.of_nat 4)%N in *.
  destruct (N.ltb_spec oid (256 ^ N.of_nat 8)); [|discriminate].
  destruct (N.ltb_spec fid (256 ^ N.of_nat 8)); [|discriminate].
  destruct (N.ltb_spec ((if (fid =? 0)%N then 1 else 0) + (if e then 2 else 0)) (256 ^ N.of_nat 1)); [|discriminate].
  destruct (N.ltb_spec (N.of_nat (length data)) (256 ^ N.of_nat 4)); [|discriminate].
  intros [= <-]. auto.
Qed.

Lemma create_fragment_err oid fid data e x :
  create_fragment oid fid data e = Err x -> x = StructError.
Proof.
  unfold create_fragment, bind, pack_be.
  repeat (match goal with |- context [if ?c then Ok _ else _] => destruct c end; [|congruence]).
  discriminate.
Qed.

Lemma frag_bytes_length oid fid data e : length (frag_bytes oid fid data e) = 21 + length data.
Proof. unfold frag_bytes. rewrite !app_length, !be_bytes_length. lia. Qed.

Lemma frag_bytes_ok oid fid data e : bytes_ok data -> bytes_ok (frag_bytes oid fid data e).
Proof. intros H. unfold frag_bytes. rewrite !bytes_ok_app. repeat split; auto using be_bytes_ok. Qed.

Lemma slice_app_mid {A} (a b c : list A) n m :
  length a = n -> length b = m - n -> slice n m (a ++ b ++ c) = b.
Proof. intros H1 H2. unfold slice. rewrite app_skipn_len by exact H1. now apply app_firstn_len. Qed.

Lemma unpack_frag_bytes oid fid data e rest :
  (oid < 2 ^ 64)%N -> (fid < 2 ^ 64)%N -> (N.of_nat (length data) < 2 ^ 32)%N ->
  unpack_fragment (frag_bytes oid fid data e ++ rest) = Ok (mkFragment oid fid (fid =? 0)%N e data).
Proof.
  intros H1 H2 H3. unfold unpack_fragment, frag_bytes, bind.
  set (A := be_bytes 8 oid). set (B := be_bytes 8 fid).
  set (C := be_bytes 1 _). set (D := be_bytes 4 _).
  rewrite <- !app_assoc.
  assert (HA : length A = 8) by apply be_bytes_length.
  assert (HB : length B = 8) by apply be_bytes_length.
  assert (HC : length C = 1) by apply be_bytes_length.
  assert (HD : length D = 4) by apply be_bytes_length.
  replace (slice 0 8 (A ++ B ++ C ++ D ++ data ++ rest)) with A
    by (symmetry; apply (slice_app_mid [] A); simpl; auto).
  replace (slice 8 16 (A ++ B ++ C ++ D ++ data ++ rest)) with B
    by (symmetry; apply (slice_app_mid A B); simpl; auto).
  replace (slice 16 17 (A ++ B ++ C ++ D ++ data ++ rest)) with C
    by (symmetry; rewrite (app_assoc A); apply (slice_app_mid (A++B) C); rewrite ?app_length; lia).
  replace (slice 17 21 (A ++ B ++ C ++ D ++ data ++ rest)) with D
    by (symmetry; rewrite (app_assoc A), (app_assoc (A++B)); apply (slice_app_mid _ D); rewrite ?app_length; lia).
  replace (skipn 21 (A ++ B ++ C ++ D ++ data ++ rest)) with (data ++ rest)
    by (symmetry; rewrite (app_assoc A), (app_assoc (A++B)), (app_assoc ((A++B)++C));
        apply app_skipn_len; rewrite !app_length; lia).
  unfold unpack_be. rewrite HA, HB, HC, HD. cbn [Nat.eqb].
  unfold A, B, C, D. rewrite !be_val_be_bytes; auto; [|apply flags_bound].
  destruct (testbit_flags fid e) as [-> ->]. f_equal. f_equal.
  rewrite app_length.
  destruct (N.leb_spec (N.of_nat (length data + length rest)) (N.of_nat (length data))) as [Hle|Hlt].
  - destruct rest as [|r rest]; [now rewrite app_nil_r|]. simpl in Hle. lia.
  - rewrite Nat2N.id. now apply app_firstn_len.
Qed.

Lemma slice_length {A} a b (l : list A) : length (slice a b l) = Nat.min (b - a) (length l - a).
Proof. unfold slice. rewrite firstn_length, skipn_length. lia. Qed.

Lemma unpack_fragment_short d : (length d < 21) -> unpack_fragment d = Err StructError.
Proof.
  intros H. unfold unpack_fragment, bind, unpack_be. rewrite !slice_length.
  destruct (Nat.eqb_spec (Nat.min (8 - 0) (length d - 0)) 8); [|reflexivity].
  destruct (Nat.eqb_spec (Nat.min (16 - 8) (length d - 8)) 8); [|reflexivity].
  destruct (Nat.eqb_spec (Nat.min (17 - 16) (length d - 16)) 1); [|reflexivity].
  destruct (Nat.eqb_spec (Nat.min (21 - 17) (length d - 17)) 4); [lia|reflexivity].
Qed.

Lemma unpack_fragment_long d : 21 <= length d ->
  exists f, unpack_fragment d = Ok f /\ length (f_data f) <= length d - 21.
Proof.
  intros H. unfold unpack_fragment, bind, unpack_be. rewrite !slice_length.
  replace (Nat.min (8 - 0) (length d - 0)) with 8 by lia.
  replace (Nat.min (16 - 8) (length d - 8)) with 8 by lia.
  replace (Nat.min (17 - 16) (length d - 16)) with 1 by lia.
  replace (Nat.min (21 - 17) (length d - 17)) with 4 by lia.
  cbn [Nat.eqb]. eexists; split; [reflexivity|]. cbn [f_data].
  match goal with |- context [if ?c then _ else _] => destruct c end;
    rewrite ?firstn_length, skipn_length; lia.
Qed.

(** GUID layout. *)
Lemma guid_swap_length b : length b = 16 -> length (guid_swap b) = 16.
Proof.
  intros H. unfold guid_swap. rewrite !app_length, !rev_length, !slice_length, skipn_length. lia.
Qed.
Lemma guid_swap_invol b : length b = 16 -> guid_swap (guid_swap b) = b.
Proof.
  intros H. do 16 (destruct b as [|? b]; [discriminate|]). destruct b; [reflexivity|discriminate].
Qed.
Lemma guid_swap_ok b : bytes_ok b -> bytes_ok (guid_swap b).
Proof.
  intros H. unfold guid_swap, slice. rewrite !bytes_ok_app.
  repeat split; auto using bytes_ok_rev, bytes_ok_firstn, bytes_ok_skipn.
Qed.
Lemma uuid_bytes_le_length u : length (uuid_bytes_le u) = 16.
Proof. apply guid_swap_length, be_bytes_length. Qed.
Lemma uuid_bytes_le_ok u : bytes_ok (uuid_bytes_le u).
Proof. apply guid_swap_ok, be_bytes_ok. Qed.
Lemma uuid_le_roundtrip u : (u < 2 ^ 128)%N -> uuid_of_bytes_le (uuid_bytes_le u) = Ok u.
Proof.
  intros H. unfold uuid_of_bytes_le. rewrite uuid_bytes_le_length. cbn [Nat.eqb].
  unfold uuid_bytes_le, uuid_bytes. rewrite guid_swap_invol by apply be_bytes_length.
  rewrite be_val_be_bytes; [reflexivity|exact H].
Qed.
Lemma uuid_le_roundtrip_inv b : length b = 16 -> bytes_ok b ->
  exists u, uuid_of_bytes_le b = Ok u /\ (u < 2 ^ 128)%N /\ uuid_bytes_le u = b.
Proof.
  intros H Hb. unfold uuid_of_bytes_le. rewrite H. cbn [Nat.eqb]. eexists; split; [reflexivity|].
  assert (HL := guid_swap_length b H). split.
  - pose proof (be_val_bound (guid_swap b) (guid_swap_ok b Hb)) as HB. rewrite HL in HB. exact HB.
  - unfold uuid_bytes_le, uuid_bytes.
    rewrite <- HL at 1. rewrite be_bytes_be_val by now apply guid_swap_ok. now apply guid_swap_invol.
Qed.

Lemma known_type_In t : known_type t = true <-> In t message_types.
Proof.
  unfold known_type. rewrite existsb_exists. split.
  - intros [x [Hx He]]. apply N.eqb_eq in He. now subst.
  - intros H. exists t. split; [exact H|apply N.eqb_refl].
Qed.
Lemma known_type_bound t : known_type t = true -> (t < 2 ^ 32)%N.
Proof.
  intros H. apply known_type_In in H. revert t H. apply Forall_forall.
  unfold message_types. repeat constructor.
Qed.

Definition norm_pid (p : option N) : option N :=
  match p with Some q => if (q =? 0)%N then None else Some q | None => None end.

Lemma create_message_length c mt d r p : length (create_message c mt d r p) = 40 + length d.
Proof. unfold create_message. rewrite !app_length, !le_bytes_length, !uuid_bytes_le_length. lia. Qed.
Lemma create_message_ok c mt d r p : bytes_ok d -> bytes_ok (create_message c mt d r p).
Proof.
  intros H. unfold create_message. rewrite !bytes_ok_app.
  repeat split; auto using le_bytes_ok, uuid_bytes_le_ok.
Qed.

Lemma unpack_create_message c mt d r p :
  known_type mt = true -> (r < 2 ^ 128)%N -> (match p with Some q => (q < 2 ^ 128)%N | None => True end) ->
  unpack_message (create_message c mt d r p)
  = Ok (mkMessage (if c then 2 else 1) mt r (norm_pid p) (strip_bom d)).
Proof.
  intros Hk Hr Hp. unfold unpack_message, create_message, bind.
  set (A := le_bytes 4 (if c then 2 else 1)). set (B := le_bytes 4 mt).
  set (C := uuid_bytes_le r). set (q := match p with Some x => x | None => 0%N end).
  set (D := uuid_bytes_le q).
  assert (HA : length A = 4) by apply le_bytes_length.
  assert (HB : length B = 4) by apply le_bytes_length.
  assert (HC : length C = 16) by apply uuid_bytes_le_length.
  assert (HD : length D = 16) by apply uuid_bytes_le_length.
  replace (slice 0 4 (A ++ B ++ C ++ D ++ d)) with A by (symmetry; apply (slice_app_mid [] A); simpl; auto).
  replace (slice 4 8 (A ++ B ++ C ++ D ++ d)) with B by (symmetry; apply (slice_app_mid A B); simpl; auto).
  replace (slice 8 24 (A ++ B ++ C ++ D ++ d)) with C
    by (symmetry; rewrite (app_assoc A); apply (slice_app_mid (A++B) C); rewrite ?app_length; lia).
  replace (slice 24 40 (A ++ B ++ C ++ D ++ d)) with D
    by (symmetry; rewrite (app_assoc A), (app_assoc (A++B)); apply (slice_app_mid _ D); rewrite ?app_length; lia).
  replace (skipn 40 (A ++ B ++ C ++ D ++ d)) with d
    by (symmetry; rewrite (app_assoc A), (app_assoc (A++B)), (app_assoc ((A++B)++C));
        apply app_skipn_len; rewrite !app_length; lia).
  unfold unpack_le. rewrite HA, HB. cbn [Nat.eqb]. unfold A, B.
  rewrite !le_val_le_bytes.
  2:{ change (256 ^ N.of_nat 4)%N with 4294967296%N. destruct c; lia. }
  2:{ exact (known_type_bound _ Hk). }
  rewrite Hk. cbn [negb]. unfold C, D.
  rewrite (uuid_le_roundtrip r Hr).
  rewrite (uuid_le_roundtrip q) by (unfold q; destruct p; [exact Hp|reflexivity]).
  f_equal. f_equal. unfold q, norm_pid. destruct p as [x|]; reflexivity.
Qed.

Lemma unpack_message_short d : length d < 40 -> exists e, unpack_message d = Err e /\ (e = StructError \/ e = ValueError).
Proof.
  intros H. unfold unpack_message, bind, unpack_le, uuid_of_bytes_le. rewrite !slice_length.
  destruct (Nat.eqb _ 4); [|eauto].
  destruct (Nat.eqb _ 4); [|eauto].
  destruct (negb _); [eauto|].
  destruct (Nat.eqb _ 16); [|eauto].
  destruct (Nat.eqb_spec (Nat.min (40 - 24) (length d - 24)) 16); [lia|eauto].
Qed.

Lemma unpack_message_err d e : unpack_message d = Err e -> e = StructError \/ e = ValueError.
Proof.
  unfold unpack_message, bind, unpack_le, uuid_of_bytes_le.
  repeat (match goal with |- context [if ?c then _ else _] => destruct c end;
          try (intros H; discriminate H); try (intros H; injection H as <-; auto)).
Qed.

(** Exact acceptance condition of the message reader. *)
Lemma unpack_message_accepts d :
  (exists m, unpack_message d = Ok m) <-> (40 <= length d /\ known_type (le_val (slice 4 8 d)) = true).
Proof.
  split.
  - intros [m Hm]. destruct (Nat.ltb_spec (length d) 40) as [Hs|Hl].
    + destruct (unpack_message_short d Hs) as [e [He _]]. congruence.
    + split; [exact Hl|]. revert Hm. unfold unpack_message, bind, unpack_le. rewrite !slice_length.
      replace (Nat.min (4 - 0) (length d - 0)) with 4 by lia.
      replace (Nat.min (8 - 4) (length d - 4)) with 4 by lia. cbn [Nat.eqb].
      destruct (known_type _); [reflexivity|discriminate].
  - intros [Hl Hk]. unfold unpack_message, bind, unpack_le, uuid_of_bytes_le. rewrite !slice_length.
    replace (Nat.min (4 - 0) (length d - 0)) with 4 by lia.
    replace (Nat.min (8 - 4) (length d - 4)) with 4 by lia.
    replace (Nat.min (24 - 8) (length d - 8)) with 16 by lia.
    replace (Nat.min (40 - 24) (length d - 24)) with 16 by lia. cbn [Nat.eqb].
    rewrite Hk. cbn [negb]. eauto.
Qed.
