(** The bytes of secure strings and exchanged keys. *)
From Verif Require Import Base BaseFacts Model_Strings Spec_Strings Model_Text Model_Crypto Spec_Crypto Proofs_Crypto.

Lemma xor_xored a b : length a = 16 -> length b = 16 -> xored a b (xor_block a b).
Proof.
  intros Ha Hb. unfold xor_block. split; [rewrite map_length, combine_length; lia|].
  intros i Hi. change 0%N with ((fun p => N.lxor (fst p) (snd p)) (0, 0)%N) at 1. rewrite map_nth.
  rewrite combine_nth by lia. reflexivity.
Qed.
Section Chain.
  Variable E : list N -> list N -> list N.
  Variable key : list N.
  Hypothesis HE : forall b, block b -> block (E key b).
  Lemma cbc_each ps : forall iv, block iv -> Forall block ps ->
    forall i p c, nth_error ps i = Some p -> nth_error (cbc_enc E key iv ps) i = Some c ->
    exists x, xored p (match i with O => iv | S j => nth j (cbc_enc E key iv ps) [] end) x /\ c = E key x.
  Proof.
    induction ps as [|b ps IH]; intros iv Hiv HF i p c Hp Hc; [destruct i; discriminate Hp|].
    inversion HF as [|? ? Hb HF']; subst.
    pose proof (HE _ (xor_block_ok _ _ Hb Hiv)) as Hblk.
    destruct i as [|i]; cbn [nth_error cbc_enc] in Hp, Hc.
    - injection Hp as <-. injection Hc as <-. exists (xor_block b iv). split; [|reflexivity].
      apply xor_xored; [apply Hb|apply Hiv].
    - destruct (IH _ Hblk HF' i p c Hp Hc) as (x & Hx & Ex). exists x. split; [|exact Ex].
      cbn [cbc_enc nth]. destruct i as [|i]; exact Hx.
  Qed.
  Lemma cbc_chained ps : Forall block ps -> chained (E key) ps (cbc_enc E key zero_iv ps).
  Proof.
    intros HF. split; [apply cbc_enc_length|]. intros i p c Hp Hc.
    exact (cbc_each ps zero_iv zero_iv_block HF i p c Hp Hc).
  Qed.
End Chain.
Lemma utf16le_chars s : pystr s -> utf16le_encode s = flat_map char_bytes s.
Proof.
  intros _. unfold utf16le_encode. induction s as [|c s IH]; [reflexivity|]. cbn [flat_map]. rewrite flat_map_app, IH. f_equal.
  unfold utf16, char_bytes, word. change 0x10000%N with 65536%N. change 0xD800%N with 55296%N. change 0xDC00%N with 56320%N.
  destruct (c <? 65536)%N; reflexivity.
Qed.
Lemma encrypt_form E key s : (forall b, block b -> block (E key b)) -> pystr s ->
  exists t ps cs, encrypt E (Some key) s = Ok t /\ t = b64_encode (concat cs) /\ bytes_ok (concat cs)
  /\ Forall (fun p => length p = 16) ps /\ Forall (fun c => length c = 16) cs
  /\ padded (flat_map char_bytes s) (concat ps) /\ chained (E key) ps cs.
Proof.
  intros HE Hs. unfold encrypt.
  pose proof (pad_bytes _ (utf16le_encode_bytes s Hs)) as Hp.
  destruct (pad_shape (utf16le_encode s)) as (k & Hk & Ek & Hm & HL).
  unfold aes_encrypt. rewrite HL, Hm. cbn [Nat.eqb bind].
  destruct (blocks_ok ((length (utf16le_encode s) + k) / 16) (pad (utf16le_encode s)) ltac:(lia) Hp) as (B1 & B2 & B3).
  eexists _, _, _. split; [reflexivity|]. split; [reflexivity|].
  pose proof (cbc_enc_ok E key HE _ _ zero_iv_block B1) as HC.
  split; [now apply concat_blocks_bytes|].
  split; [eapply Forall_impl; [|exact B1]; intros ? [? _]; assumption|].
  split; [eapply Forall_impl; [|exact HC]; intros ? [? _]; assumption|].
  split; [|apply cbc_chained; assumption].
  rewrite B3. exists k. split; [exact Hk|]. rewrite Ek. now rewrite utf16le_chars.
Qed.

Lemma number_le_val l : number l = le_val l.
Proof. induction l as [|b l IH]; [reflexivity|]. cbn [number le_val]. rewrite IH. lia. Qed.
Lemma dword_le_bytes n : (n < 2 ^ 32)%N -> le_bytes 4 n = dword n.
Proof.
  intros H. unfold dword. cbn [le_bytes]. rewrite !N.div_div by discriminate. reflexivity.
Qed.
(** No superfluous zero at the end of the modulus. *)
Lemma min_le_last f : forall n, (n < 2 ^ N.of_nat f)%N -> min_le f n <> [] -> last (min_le f n) 0%N <> 0%N.
Proof.
  induction f as [|f IH]; intros n Hn H; [elim H; reflexivity|]. cbn [min_le] in *.
  rewrite Nat2N.inj_succ, N.pow_succ_r' in Hn.
  destruct (N.eqb_spec n 0) as [->|Hz]; [elim H; reflexivity|].
  change 255%N with (N.ones 8) in *. rewrite N.land_ones, N.shiftr_div_pow2 in *. change (2 ^ 8)%N with 256%N in *.
  destruct (min_le f (n / 256)) as [|b r] eqn:Er.
  - cbn [last]. intros Hc.
    pose proof (min_le_val f (n / 256) ltac:(lia)) as Hv. rewrite Er in Hv. cbn [le_val] in Hv. lia.
  - change (last (b :: r) 0%N <> 0%N). rewrite <- Er. apply IH; [lia|]. rewrite Er. discriminate.
Qed.
Lemma size_bound n : (n < 2 ^ N.of_nat (N.size_nat n))%N.
Proof.
  destruct n as [|p]; [vm_compute; reflexivity|]. cbn [N.size_nat].
  induction p; cbn [Pos.size_nat]; rewrite ?Nat2N.inj_succ, ?N.pow_succ_r'; [lia|lia|vm_compute; reflexivity].
Qed.
Lemma le_val_bound l : bytes_ok l -> (le_val l < 256 ^ N.of_nat (length l))%N.
Proof.
  induction 1 as [|b l Hb HF IH]; [vm_compute; reflexivity|]. cbn [le_val length].
  rewrite Nat2N.inj_succ, N.pow_succ_r'. lia.
Qed.
Lemma le_val_least l : last l 0%N <> 0%N -> (256 ^ N.of_nat (length l) <= 256 * le_val l)%N.
Proof.
  induction l as [|b l IH]; intros H; [elim H; reflexivity|]. cbn [le_val length].
  rewrite Nat2N.inj_succ, N.pow_succ_r'. destruct l as [|c l].
  - cbn [last] in H. cbn [length le_val]. change (256 ^ N.of_nat 0)%N with 1%N. lia.
  - change (last (b :: c :: l) 0%N) with (last (c :: l) 0%N) in H. specialize (IH H). lia.
Qed.
Lemma modulus_form n : bytes_ok (modulus_bytes n) /\ number (modulus_bytes n) = n
  /\ (n = 0%N -> modulus_bytes n = []) /\ (n <> 0%N -> last (modulus_bytes n) 0%N <> 0%N).
Proof.
  split; [apply min_le_bytes|]. split; [rewrite number_le_val; apply modulus_val|]. split.
  - intros ->. reflexivity.
  - intros Hn. apply min_le_last; [apply size_bound|]. intros E. pose proof (modulus_val n) as Hv.
    unfold modulus_bytes in Hv. rewrite E in Hv. cbn [le_val] in Hv. congruence.
Qed.
Lemma modulus_length n : (2 ^ 2047 <= n < 2 ^ 2048)%N -> length (modulus_bytes n) = 256.
Proof.
  intros [H1 H2]. destruct (modulus_form n) as (Hb & Hv & _ & Hl). rewrite number_le_val in Hv.
  assert (n <> 0%N) as Hz. { intros ->. apply N.le_0_r in H1. revert H1. apply N.pow_nonzero. discriminate. }
  specialize (Hl Hz). pose proof (le_val_bound _ Hb) as B1. pose proof (le_val_least _ Hl) as B2. rewrite Hv in B1, B2.
  set (k := length (modulus_bytes n)) in *. clearbody k. change 256%N with (2 ^ 8)%N in B1, B2. rewrite <- !N.pow_mul_r in B1, B2.
  assert (2047 < 8 * N.of_nat k)%N as A1.
  { apply (N.pow_lt_mono_r_iff 2); [lia|]. eapply N.le_lt_trans; [exact H1|exact B1]. }
  assert (8 * N.of_nat k < 2056)%N as A2.
  { apply (N.pow_lt_mono_r_iff 2); [lia|]. eapply N.le_lt_trans; [exact B2|].
    change 2056%N with (8 + 2048)%N. rewrite N.pow_add_r. apply N.mul_lt_mono_pos_l; [vm_compute; reflexivity|exact H2]. }
  lia.
Qed.
Lemma public_layout e n : (e < 2 ^ 32)%N -> public_key_bytes e n = Ok (public_blob e (modulus_bytes n)).
Proof.
  intros He. unfold public_key_bytes, pack_le. change (256 ^ N.of_nat 4)%N with (2 ^ 32)%N.
  replace (e <? 2 ^ 32)%N with true by (symmetry; apply N.ltb_lt; exact He). cbn [bind].
  rewrite dword_le_bytes by exact He. unfold public_blob, public_header. rewrite !app_assoc. reflexivity.
Qed.
