From Coq Require Import String.
From Verif Require Import Base BaseFacts Model_Scalars Model_Host Spec_Host.
Open Scope list_scope.

Lemma new_int32_ok z : int32_ok z -> new_int32 z = Ok z.
Proof. unfold int32_ok, new_int32, min_value, max_value. intros H. destruct (Z.leb_spec (-2147483648) z), (Z.leb_spec z 2147483647); simpl; auto; lia. Qed.
Lemma color_int z : color_ok z -> console_color (HInt z) = Ok z.
Proof. unfold color_ok, console_color. intros H. destruct (Z.leb_spec 0 z), (Z.leb_spec z 15); simpl; auto; lia. Qed.
Lemma coord_rt c : coord_ok c -> coord_from (coord_to c) = Ok c.
Proof. intros [H1 H2]. unfold coord_from, coord_to. cbn. rewrite (new_int32_ok _ H1). cbn. rewrite (new_int32_ok _ H2). now destruct c. Qed.
Lemma size_rt c : size_ok c -> size_from (size_to c) = Ok c.
Proof. intros [H1 H2]. unfold size_from, size_to. cbn. rewrite (new_int32_ok _ H1). cbn. rewrite (new_int32_ok _ H2). now destruct c. Qed.
Lemma rect_rt l t r b : int32_ok l -> int32_ok t -> int32_ok r -> int32_ok b -> rect_from (rect_to (mkRect l t r b)) = Ok (mkRect l t r b).
Proof. intros. unfold rect_from, rect_to. cbn -[new_int32]. repeat (rewrite new_int32_ok by auto; cbn -[new_int32]). reflexivity. Qed.
Lemma cell_rt c : cell_ok c -> cell_from (cell_to c) = Ok c.
Proof. intros [H1 H2]. unfold cell_from, cell_to. cbn [attr prop_of String.eqb Ascii.eqb Bool.eqb bind].
  rewrite (color_int _ H1), (color_int _ H2). destruct c; reflexivity. Qed.
Lemma str_rt s : as_str (opt_str s) = Ok s.
Proof. now destruct s. Qed.
Lemma choice_rt c : choice_from (choice_to c) = Ok c.
Proof. unfold choice_from, choice_to. cbn -[as_str]. repeat (rewrite str_rt; cbn -[as_str]). now destruct c. Qed.
Lemma field_rt f : field_plain f -> field_from (field_to f) = Ok f.
Proof.
  intros [H1 H2]. unfold field_from, field_to. cbn -[as_str]. repeat (rewrite str_rt; cbn -[as_str]).
  destruct f; cbn in *; subst; reflexivity.
Qed.
Lemma map_result_rt {A B} (f : A -> B) (g : B -> result A) (l : list A) :
  Forall (fun x => g (f x) = Ok x) l -> map_result g (map f l) = Ok l.
Proof. induction 1 as [|x l H _ IH]; simpl; auto. rewrite H. simpl. now rewrite IH. Qed.

(* grids *)
Lemma group_skip {A} (c : Z) (es l : list (nest A)) (k : nat) : (length es + length l < k)%nat -> c = Z.of_nat k ->
  group c es l = [].
Proof.
  revert es; induction l as [|e l IH]; intros es H E; simpl; auto.
  rewrite app_length. simpl. simpl in H. destruct (Z.eqb_spec (Z.of_nat (length es + 1)) c); [lia|].
  apply IH; auto. rewrite app_length. simpl. lia.
Qed.
Lemma group_row {A} (row : list (nest A)) : forall (es rest : list (nest A)), row <> [] ->
  group (Z.of_nat (length es + length row)) es (row ++ rest) = Row (es ++ row) :: group (Z.of_nat (length es + length row)) [] rest.
Proof.
  induction row as [|e row IH]; intros es rest H; [congruence|]. simpl.
  rewrite app_length. simpl length. destruct row as [|e' row].
  - simpl. rewrite Z.eqb_refl. reflexivity.
  - destruct (Z.eqb_spec (Z.of_nat (length es + 1)) (Z.of_nat (length es + S (length (e' :: row))))) as [E|E]; [simpl in E; lia|].
    specialize (IH (es ++ [e]) rest). rewrite app_length in IH. simpl length in IH.
    replace (length es + 1 + S (length row))%nat with (length es + S (S (length row)))%nat in IH by lia.
    simpl length. rewrite IH by congruence. rewrite <- app_assoc. reflexivity.
Qed.
Lemma group_rows {A} (c : nat) (g : list (list (nest A))) : (1 <= c)%nat -> Forall (fun r => length r = c) g ->
  group (Z.of_nat c) [] (concat g) = map Row g.
Proof.
  intros Hc. induction 1 as [|row g H _ IH]; auto. simpl.
  pose proof (group_row row [] (concat g)) as G. simpl in G. rewrite H in G. rewrite G by (destruct row; simpl in H; [lia|congruence]).
  now rewrite IH.
Qed.
Lemma map_concat {A B} (f : A -> B) g : map f (concat g) = concat (map (map f) g).
Proof. induction g; simpl; auto. now rewrite map_app, IHg. Qed.
Lemma grid_roundtrip {A} (pack : A -> hv) unpack r c (g : list (list A)) :
  rectangular r c g -> Forall (Forall (fun x => unpack (pack x) = Ok x)) g ->
  exists a, create_array pack g = Ok a /\ unpack_array unpack (array_obj a) = Ok (Row (map (fun row => Row (map Leaf row)) g)).
Proof.
  intros (Hr & Hc & Hl & Hg) Hp. destruct g as [|row g'] eqn:E; [simpl in Hl; lia|]. rewrite <- E in *.
  assert (length row = c) as Hrow by (rewrite E in Hg; now inversion Hg).
  exists (map pack (concat g), [N.of_nat (length g); N.of_nat c]). split; [rewrite E at 1; unfold create_array; rewrite Hrow, <- E; auto|].
  unfold unpack_array, array_obj. cbn [attr prop_of String.eqb Ascii.eqb Bool.eqb bind as_list fst snd].
  rewrite map_result_rt.
  2:{ apply Forall_forall. intros x Hx. apply in_concat in Hx as (l & H1 & H2). rewrite Forall_forall in Hp.
      specialize (Hp l H1). rewrite Forall_forall in Hp. auto. }
  cbn. rewrite !nat_N_Z. rewrite map_concat.
  rewrite group_rows; auto.
  2:{ apply Forall_map. eapply Forall_impl; [|exact Hg]. intros a Ha. now rewrite map_length. }
  replace (map Row (map (map Leaf) g)) with (concat [map Row (map (map (@Leaf A)) g)]) by (simpl; now rewrite app_nil_r).
  rewrite Hl. rewrite group_rows; auto.
  2:{ repeat constructor. now rewrite !map_length. }
  simpl. now rewrite map_map.
Qed.

Lemma isin_raw m ps : In m [1; 2; 3; 4; 5; 6; 7; 8; 9; 10; 11; 12; 13; 15; 16; 18; 19; 21; 22; 24; 27; 29; 31; 33; 35; 36; 37; 39; 41; 42; 43; 44; 45; 47; 53; 54]%N ->
  decode_params m ps = Ok (map DRaw ps).
Proof. intros H. repeat (destruct H as [<-|H]; [reflexivity|]). destruct H. Qed.

Lemma progress_rt p : int32_ok (pr_id p) -> int32_ok (pr_parent p) -> int32_ok (pr_percent p) ->
  int32_ok (pr_seconds p) -> (pr_type p = 0 \/ pr_type p = 1)%Z ->
  exists q, new_progress p = Ok q /\ progress_from (progress_to q) = Ok p.
Proof.
  intros H1 H2 H3 H4 H5. exists p. unfold new_progress. rewrite !new_int32_ok by auto. cbn [bind].
  split; [now destruct p|]. unfold progress_from, progress_to.
  assert (int32_ok (pr_type p)) by (unfold int32_ok; lia).
  cbn [attr prop_of String.eqb Ascii.eqb Bool.eqb bind as_int]. rewrite !str_rt. cbn [bind].
  rewrite !new_int32_ok by auto. cbn [bind]. destruct p; reflexivity.
Qed.

Theorem host_call_roundtrip r : request_ok r -> exists ps, encode r = Ok (fst (meaning r), ps)
  /\ decode_params (fst (meaning r)) ps = Ok (snd (meaning r)).
Proof.
  destruct r; intros H; simpl in H.
  - exists []. split; auto. apply isin_raw. repeat (destruct H as [<-|H]; [cbn; tauto|]). destruct H.
  - eexists; split; reflexivity.
  - destruct fg as [fg|], bg as [bg|]; simpl in H; (eexists; split; [reflexivity|]); try reflexivity;
      unfold decode_params; cbn -[console_color]; unfold colour_or_0; rewrite ?color_int; try reflexivity;
      simpl; unfold color_ok in *; try lia.
  - destruct line as [line|], fg as [fg|], bg as [bg|]; simpl in H; (eexists; split; [reflexivity|]); try reflexivity;
      unfold decode_params; cbn -[console_color]; unfold colour_or_0; rewrite ?color_int; try reflexivity;
      simpl; unfold color_ok in *; try lia.
  - eexists; split; reflexivity.
  - eexists; split; reflexivity.
  - destruct H as (A & B & C & D & E). destruct (progress_rt p A B C D E) as (q & Q1 & Q2).
    exists [HInt source; progress_to q]. cbn [encode]. rewrite Q1. split; [reflexivity|].
    unfold decode_params. cbn -[progress_from progress_to]. rewrite Q2. reflexivity.
  - eexists; split; reflexivity.
  - eexists; split; reflexivity.
  - eexists; split; [reflexivity|]. unfold decode_params. cbn -[field_from field_to].
    rewrite map_result_rt; [reflexivity|]. eapply Forall_impl; [|exact H]. intros f. apply field_rt.
  - destruct username, target, types, options; eexists; split; reflexivity.
  - eexists; split; [reflexivity|]. unfold decode_params. cbn -[choice_from choice_to].
    rewrite map_result_rt; [reflexivity|]. apply Forall_forall. intros f _. apply choice_rt.
  - eexists; split; [reflexivity|]. unfold decode_params. cbn -[choice_from choice_to].
    rewrite map_result_rt; [now destruct defaults|]. apply Forall_forall. intros f _. apply choice_rt.
  - eexists; split; [reflexivity|]. unfold decode_params. cbn -[console_color]. now rewrite color_int.
  - eexists; split; [reflexivity|]. unfold decode_params. cbn -[console_color]. now rewrite color_int.
  - destruct H. eexists; split; [cbn; unfold new_coord; rewrite !new_int32_ok by auto; reflexivity|].
    unfold decode_params. cbn -[coord_from coord_to]. rewrite coord_rt by (split; auto). reflexivity.
  - destruct H. eexists; split; [cbn; unfold new_coord; rewrite !new_int32_ok by auto; reflexivity|].
    unfold decode_params. cbn -[coord_from coord_to]. rewrite coord_rt by (split; auto). reflexivity.
  - eexists; split; reflexivity.
  - destruct H. eexists; split; [cbn; unfold new_size; rewrite !new_int32_ok by auto; reflexivity|].
    unfold decode_params. cbn -[size_from size_to]. rewrite size_rt by (split; auto). reflexivity.
  - destruct H. eexists; split; [cbn; unfold new_size; rewrite !new_int32_ok by auto; reflexivity|].
    unfold decode_params. cbn -[size_from size_to]. rewrite size_rt by (split; auto). reflexivity.
  - eexists; split; reflexivity.
  - eexists; split; reflexivity.
  - destruct H as (A & B & C & D & E & F). eexists; split; [cbn; unfold new_rect; rewrite !new_int32_ok by auto; reflexivity|].
    unfold decode_params. cbn -[rect_from rect_to cell_from cell_to]. rewrite rect_rt by auto. cbn -[cell_from cell_to].
    rewrite cell_rt by (split; auto). reflexivity.
  - destruct H as (A & B & C & rr & cc & D). destruct (grid_roundtrip cell_to cell_from rr cc contents D) as (a & G1 & G2).
    { eapply Forall_impl; [|exact C]. intros row Hr. eapply Forall_impl; [|exact Hr]. intros c. apply cell_rt. }
    eexists; split; [cbn; unfold new_coord; rewrite !new_int32_ok by auto; cbn; rewrite G1; reflexivity|].
    unfold decode_params. cbn -[coord_from coord_to unpack_array array_obj]. rewrite G2. cbn -[coord_from coord_to].
    rewrite coord_rt by (split; auto). reflexivity.
  - destruct H as (A & B & C & D). eexists; split; [cbn; unfold new_rect; rewrite !new_int32_ok by auto; reflexivity|].
    unfold decode_params. cbn -[rect_from rect_to]. rewrite rect_rt by auto. reflexivity.
  - destruct H as (A & B & C & D & E & F & G & H & I & J & K & L).
    eexists; split; [cbn; unfold new_rect, new_coord; rewrite !new_int32_ok by auto; reflexivity|].
    unfold decode_params. cbn -[rect_from rect_to coord_from coord_to cell_from cell_to].
    rewrite !rect_rt by auto. cbn -[coord_from coord_to cell_from cell_to].
    rewrite coord_rt by (split; auto). cbn -[cell_from cell_to].
    rewrite cell_rt by (split; auto). reflexivity.
Qed.

Theorem host_response_roundtrip r : response_ok r -> exists v, encode_response r = Ok v
  /\ decode_result (response_method r) v = Ok (response_meaning r).
Proof.
  destruct r; intros H; simpl in H.
  - exists v. split; auto. simpl.
    repeat (destruct H as [<-|H]; [destruct v; reflexivity|]). destruct H.
  - destruct H as [H C]. eexists; split; [reflexivity|]. simpl response_method. unfold decode_result.
    repeat (destruct H as [<-|H]; [cbn -[console_color]; now rewrite color_int|]). destruct H.
  - destruct H as (H & A & B). eexists; split; [cbn; unfold new_coord; rewrite !new_int32_ok by auto; reflexivity|].
    simpl response_method. unfold decode_result. rewrite coord_rt by (split; auto).
    repeat (destruct H as [<-|H]; [reflexivity|]). destruct H.
  - destruct H as (H & A & B). eexists; split; [cbn; unfold new_size; rewrite !new_int32_ok by auto; reflexivity|].
    simpl response_method. unfold decode_result. rewrite size_rt by (split; auto).
    repeat (destruct H as [<-|H]; [reflexivity|]). destruct H.
  - eexists; split; [cbn; rewrite !new_int32_ok by auto; reflexivity|]. cbn. now rewrite new_int32_ok.
  - eexists; split; reflexivity.
  - destruct H as (C & rr & cc & D). destruct (grid_roundtrip cell_to cell_from rr cc g D) as (a & G1 & G2).
    { eapply Forall_impl; [|exact C]. intros row Hr. eapply Forall_impl; [|exact Hr]. intros c. apply cell_rt. }
    eexists; split; [cbn; rewrite G1; reflexivity|]. simpl response_method. unfold decode_result.
    rewrite G2. reflexivity.
Qed.

Lemma host_data_roundtrip d : host_ok (mkHostInfo true true true true (Some d)) -> host_data_from (host_data_to d) = Ok d.
Proof.
  intros H. unfold host_ok in H. cbn [hi_data] in H.
  destruct H as (A & B & C & D & E & F & G & I & J).
  unfold host_data_from, host_data_to, item_v, dict_value.
  cbn -[console_color coord_from coord_to size_from size_to new_int32 txt].
  repeat (first [rewrite !color_int by auto | rewrite !coord_rt by auto | rewrite !size_rt by auto | rewrite !new_int32_ok by auto];
    cbn -[console_color coord_from coord_to size_from size_to new_int32 txt]).
  now destruct d.
Qed.
Theorem host_info_roundtrip h : host_ok h -> host_info_from (host_info_to h) = Ok h.
Proof.
  destruct h as [n u r s [d|]]; intros H; [|reflexivity].
  pose proof (host_data_roundtrip d H) as E.
  unfold host_info_from, host_info_to. cbn -[host_data_from host_data_to].
  destruct (host_data_to d) eqn:K; try discriminate K. rewrite E. reflexivity.
Qed.
