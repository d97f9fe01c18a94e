(** Lemmas for C76. *)
From Verif Require Import Base BaseFacts Model_Helpers Model_Font Spec_Entropy.

Definition low (n : nat) (v : Z) : list Z := map (fun i => (v / 2 ^ Z.of_nat i) mod 4) (seq 0 n).
Lemma low_succ n v : low (S n) v = v mod 4 :: low n (v / 2).
Proof.
  unfold low. cbn [seq map]. rewrite Z.div_1_r. f_equal. rewrite <- seq_shift, map_map. apply map_ext. intros i.
  rewrite Nat2Z.inj_succ, Z.pow_succ_r by lia. rewrite <- Z.div_div by lia. reflexivity.
Qed.
Lemma occurs_cons k x l : occurs k (x :: l) = (if k =? x then 1 else 0) + occurs k l.
Proof. unfold occurs. cbn [filter]. destruct (k =? x); [rewrite zlen_cons; reflexivity|lia]. Qed.
Lemma quad (a b c d a' b' c' d' : Z) : a = a' -> b = b' -> c = c' -> d = d' -> (a, b, c, d) = (a', b', c', d').
Proof. congruence. Qed.
Lemma loop_counts n : forall v a b c d,
  entropy_loop n v a b c d = (a + occurs 0 (low n v), b + occurs 1 (low n v), c + occurs 2 (low n v), d + occurs 3 (low n v)).
Proof.
  induction n as [|n IH]; intros v a b c d; cbn [entropy_loop].
  - change (low 0 v) with (@nil Z). unfold occurs. cbn. rewrite zlen_nil. apply quad; lia.
  - rewrite low_succ, !occurs_cons. change 3 with (Z.ones 2) at 1 2 3 4. rewrite Z.land_ones by lia. change (2 ^ 2) with 4. rewrite Z.shiftr_div_pow2 by lia. change (2 ^ 1) with 2. cbv zeta.
    pose proof (Z.mod_pos_bound v 4 ltac:(lia)). change (Z.ones 2) with 3.
    destruct (Z.eqb_spec (v mod 4) 0); [|destruct (Z.eqb_spec (v mod 4) 1); [|destruct (Z.eqb_spec (v mod 4) 2)]]; rewrite IH;
      (replace (0 =? v mod 4) with (v mod 4 =? 0) by (apply Z.eqb_sym)); (replace (1 =? v mod 4) with (v mod 4 =? 1) by (apply Z.eqb_sym));
      (replace (2 =? v mod 4) with (v mod 4 =? 2) by (apply Z.eqb_sym)); (replace (3 =? v mod 4) with (v mod 4 =? 3) by (apply Z.eqb_sym)).
    + replace (v mod 4 =? 0) with true by lia. replace (v mod 4 =? 1) with false by lia. replace (v mod 4 =? 2) with false by lia. replace (v mod 4 =? 3) with false by lia. apply quad; lia.
    + replace (v mod 4 =? 0) with false by lia. replace (v mod 4 =? 1) with true by lia. replace (v mod 4 =? 2) with false by lia. replace (v mod 4 =? 3) with false by lia. apply quad; lia.
    + replace (v mod 4 =? 0) with false by lia. replace (v mod 4 =? 1) with false by lia. replace (v mod 4 =? 2) with true by lia. replace (v mod 4 =? 3) with false by lia. apply quad; lia.
    + replace (v mod 4 =? 0) with false by lia. replace (v mod 4 =? 1) with false by lia. replace (v mod 4 =? 2) with false by lia. replace (v mod 4 =? 3) with true by lia. apply quad; lia.
Qed.
Lemma low_digits v : low 32 v = digits 1 v.
Proof.
  unfold low, digits, zseq. rewrite map_map. change (Z.to_nat 32) with 32%nat. apply map_ext. intros i. rewrite Z.mul_1_l. reflexivity.
Qed.
Lemma dist_abs c : entropy_dist c = Z.abs (c - 8).
Proof. unfold entropy_dist. destruct (Z.leb_spec c 8); lia. Qed.
Lemma dist_spec id : LazyEntropyDist id = unevenness (digits 1 id).
Proof. unfold LazyEntropyDist. rewrite loop_counts, low_digits, !dist_abs. unfold unevenness. rewrite !Z.add_0_l. reflexivity. Qed.
Lemma too_low_spec id : entropy_too_low id = false <-> varied (digits 1 id).
Proof. unfold entropy_too_low, varied. rewrite dist_spec. apply Z.ltb_ge. Qed.
(** the upper 31 bits do not matter *)
Lemma digits_low id : digits 1 (id mod 2 ^ 33) = digits 1 id.
Proof.
  unfold digits. apply map_ext_in. intros i Hi. apply in_zseq in Hi. rewrite Z.mul_1_l.
  rewrite <- Z.land_ones, <- !Z.shiftr_div_pow2 by lia. change 4 with (2 ^ 2). rewrite <- !Z.land_ones by lia.
  apply Z.bits_inj'. intros k Hk. rewrite !Z.land_spec, !Z.shiftr_spec, Z.land_spec by lia.
  destruct (Z.ltb_spec k 2); [rewrite (Z.ones_spec_low 33) by lia; rewrite andb_true_r; reflexivity|]. rewrite !(Z.ones_spec_high 2) by lia. now rewrite !andb_false_r.
Qed.
Lemma upper_ignored id id' : id mod 2 ^ 33 = id' mod 2 ^ 33 -> entropy_too_low id = entropy_too_low id'.
Proof. intros E. unfold entropy_too_low. rewrite !dist_spec, <- (digits_low id), E, digits_low. reflexivity. Qed.
