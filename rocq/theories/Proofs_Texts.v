(** The texts that the builder takes. *)
From Verif Require Import Base BaseFacts Spec_Texts Model_Builder.
From Coq Require Import Lia.

Ltac low := repeat match goal with |- context [?a <? ?b] => destruct (Z.ltb_spec a b); try lia end.
Lemma encodes_nil : encodes [] [].
Proof. split; [constructor|reflexivity]. Qed.
Lemma encodes_cons c cs s : scalar c -> encodes cs s -> encodes (c :: cs) (utf8 c ++ s).
Proof. intros H [H1 ->]. split; [now constructor|reflexivity]. Qed.

Lemma utf8_accepted : forall cs, Forall scalar cs -> valid_utf8 (concat (map utf8 cs)) = true.
Proof.
  induction cs as [|c cs IH]; intros H; [reflexivity|]. inversion H as [|? ? Hc Hcs]; subst. cbn [map concat]. specialize (IH Hcs).
  generalize dependent (concat (map utf8 cs)). intros s IH. unfold scalar in Hc. unfold utf8.
  destruct (Z.ltb_spec c 128).
  - cbn [app valid_utf8]. destruct (Z.ltb_spec c 128); [assumption|lia].
  - destruct (Z.ltb_spec c 2048).
    + cbn [app valid_utf8]. assert (2 <= c / 64 < 32) by (Z.div_mod_to_equations; lia). pose proof (Z.mod_pos_bound c 64 ltac:(lia)).
      destruct (Z.ltb_spec (192 + c / 64) 128); [lia|]. replace ((194 <=? 192 + c / 64) && (192 + c / 64 <? 224)) with true by lia.
      replace (cont (128 + c mod 64)) with true by (unfold cont; lia). assumption.
    + destruct (Z.ltb_spec c 65536).
      * cbn [app valid_utf8]. assert (0 <= c / 4096 < 16) by (Z.div_mod_to_equations; lia). pose proof (Z.mod_pos_bound c 64 ltac:(lia)). pose proof (Z.mod_pos_bound (c / 64) 64 ltac:(lia)).
        assert (E : c / 64 = 64 * (c / 4096) + (c / 64) mod 64) by (rewrite (Z.div_mod (c / 64) 64) at 1 by lia; rewrite Z.div_div by lia; lia).
        assert (c = 64 * (c / 64) + c mod 64) by (apply Z.div_mod; lia).
        destruct (Z.ltb_spec (224 + c / 4096) 128); [lia|]. replace ((194 <=? 224 + c / 4096) && (224 + c / 4096 <? 224)) with false by lia.
        replace ((224 <=? 224 + c / 4096) && (224 + c / 4096 <? 240)) with true by lia.
        replace (cont (128 + c mod 64)) with true by (unfold cont; lia). rewrite IH, !andb_true_r.
        destruct (Z.eqb_spec (224 + c / 4096) 224); [lia|]. destruct (Z.eqb_spec (224 + c / 4096) 237); [lia|]. unfold cont. lia.
      * cbn [app valid_utf8]. assert (0 <= c / 262144 < 5) by (Z.div_mod_to_equations; lia). pose proof (Z.mod_pos_bound c 64 ltac:(lia)).
        pose proof (Z.mod_pos_bound (c / 64) 64 ltac:(lia)). pose proof (Z.mod_pos_bound (c / 4096) 64 ltac:(lia)).
        assert (E : c / 64 = 64 * (c / 4096) + (c / 64) mod 64) by (rewrite (Z.div_mod (c / 64) 64) at 1 by lia; rewrite Z.div_div by lia; lia).
        assert (E2 : c / 4096 = 64 * (c / 262144) + (c / 4096) mod 64) by (rewrite (Z.div_mod (c / 4096) 64) at 1 by lia; rewrite Z.div_div by lia; lia).
        assert (c = 64 * (c / 64) + c mod 64) by (apply Z.div_mod; lia).
        destruct (Z.ltb_spec (240 + c / 262144) 128); [lia|]. replace ((194 <=? 240 + c / 262144) && (240 + c / 262144 <? 224)) with false by lia.
        replace ((224 <=? 240 + c / 262144) && (240 + c / 262144 <? 240)) with false by lia.
        replace ((240 <=? 240 + c / 262144) && (240 + c / 262144 <? 245)) with true by lia.
        replace (cont (128 + c mod 64)) with true by (unfold cont; lia). replace (cont (128 + (c / 64) mod 64)) with true by (unfold cont; lia). rewrite IH, !andb_true_r.
        destruct (Z.eqb_spec (240 + c / 262144) 240); [lia|]. destruct (Z.eqb_spec (240 + c / 262144) 244); [lia|]. unfold cont. lia.
Qed.

Lemma utf8_2 a b : 194 <= a < 224 -> 128 <= b < 192 -> exists c, scalar c /\ utf8 c = [a; b].
Proof.
  intros Ha Hb. exists ((a - 192) * 64 + (b - 128)). unfold scalar, utf8. split; [lia|].
  destruct (Z.ltb_spec ((a - 192) * 64 + (b - 128)) 128); [lia|]. destruct (Z.ltb_spec ((a - 192) * 64 + (b - 128)) 2048); [|lia].
  rewrite Z.div_add_l, Z.div_small by lia. rewrite (Z.add_comm ((a - 192) * 64)), Z.mod_add, Z.mod_small by lia. f_equal; [lia|]. f_equal. lia.
Qed.
Lemma digits3 x y z : 0 <= y < 64 -> 0 <= z < 64 -> let c := (x * 64 + y) * 64 + z in c / 4096 = x /\ (c / 64) mod 64 = y /\ c mod 64 = z.
Proof.
  intros Hy Hz c. assert (E : c / 64 = x * 64 + y) by (unfold c; rewrite Z.div_add_l, Z.div_small by lia; lia).
  split; [change 4096 with (64 * 64); rewrite <- Z.div_div, E, Z.div_add_l, Z.div_small by lia; lia|].
  split; [rewrite E, Z.add_comm, Z.mod_add, Z.mod_small by lia; lia|]. unfold c. rewrite Z.add_comm, Z.mod_add, Z.mod_small by lia. lia.
Qed.
Lemma utf8_3 a b c : 224 <= a < 240 -> 128 <= b < 192 -> 128 <= c < 192 -> (a = 224 -> 160 <= b) -> (a = 237 -> b < 160) -> exists k, scalar k /\ utf8 k = [a; b; c].
Proof.
  intros Ha Hb Hc H1 H2. set (k := ((a - 224) * 64 + (b - 128)) * 64 + (c - 128)). exists k.
  destruct (digits3 (a - 224) (b - 128) (c - 128)) as (D1 & D2 & D3); [lia|lia|]. fold k in D1, D2, D3.
  assert (2048 <= k < 65536 /\ scalar k) as [K1 K2]. { unfold scalar, k. clear D1 D2 D3 k. lia. }
  split; [exact K2|]. unfold utf8. destruct (Z.ltb_spec k 128); [lia|]. destruct (Z.ltb_spec k 2048); [lia|]. destruct (Z.ltb_spec k 65536); [|lia].
  rewrite D1, D2, D3. f_equal; [lia|]. f_equal; [lia|]. f_equal. lia.
Qed.
Lemma utf8_4 a b c d : 240 <= a < 245 -> 128 <= b < 192 -> 128 <= c < 192 -> 128 <= d < 192 -> (a = 240 -> 144 <= b) -> (a = 244 -> b < 144) -> exists k, scalar k /\ utf8 k = [a; b; c; d].
Proof.
  intros Ha Hb Hc Hd H1 H2. set (h := ((a - 240) * 64 + (b - 128)) * 64 + (c - 128)). set (k := h * 64 + (d - 128)). exists k.
  destruct (digits3 (a - 240) (b - 128) (c - 128)) as (D1 & D2 & D3); [lia|lia|]. fold h in D1, D2, D3.
  assert (E : k / 64 = h) by (unfold k; rewrite Z.div_add_l, Z.div_small by lia; lia).
  assert (E4 : k mod 64 = d - 128) by (unfold k; rewrite Z.add_comm, Z.mod_add, Z.mod_small by lia; lia).
  assert (E1 : k / 4096 = h / 64) by (change 4096 with (64 * 64); rewrite <- Z.div_div, E by lia; reflexivity).
  assert (E2 : k / 262144 = h / 4096) by (change 262144 with (64 * 4096); rewrite <- Z.div_div, E by lia; reflexivity).
  assert (65536 <= k < 1114112 /\ scalar k) as [K1 K2]. { unfold scalar, k, h. clear - Ha Hb Hc Hd H1 H2. lia. }
  split; [exact K2|]. unfold utf8. destruct (Z.ltb_spec k 128); [lia|]. destruct (Z.ltb_spec k 2048); [lia|]. destruct (Z.ltb_spec k 65536); [lia|].
  rewrite E, E1, E2, E4, D1, D2, D3. f_equal; [lia|]. f_equal; [lia|]. f_equal; [lia|]. f_equal. lia.
Qed.
Lemma utf8_encodes : forall n s, (length s <= n)%nat -> bytes s -> valid_utf8 s = true -> exists cs, encodes cs s.
Proof.
  induction n as [|n IH]; intros s L B V.
  - destruct s; [|cbn in L; lia]. exists []. apply encodes_nil.
  - destruct s as [|a r]; [exists []; apply encodes_nil|]. cbn [valid_utf8] in V. apply bytes_cons in B. destruct B as [Ba B]. unfold byte in Ba. cbn in L.
    destruct (Z.ltb_spec a 128).
    { destruct (IH r) as (cs & E); [lia|assumption..|]. exists (a :: cs). assert (scalar a) by (unfold scalar; lia).
      pose proof (encodes_cons a cs r H0 E) as X. unfold utf8 in X. destruct (Z.ltb_spec a 128); [exact X|lia]. }
    destruct r as [|b r2]; [discriminate|]. apply bytes_cons in B. destruct B as [Bb B]. cbn in L.
    destruct ((194 <=? a) && (a <? 224)) eqn:E2.
    { apply andb_true_iff in V. destruct V as [V1 V2]. unfold cont in V1. destruct (IH r2) as (cs & E); [lia|assumption..|].
      destruct (utf8_2 a b) as (c & Hc & Ec); [lia..|]. exists (c :: cs). pose proof (encodes_cons c cs r2 Hc E) as X. now rewrite Ec in X. }
    destruct r2 as [|c r3]; [discriminate|]. apply bytes_cons in B. destruct B as [Bc B]. cbn in L.
    destruct ((224 <=? a) && (a <? 240)) eqn:E3.
    { apply andb_true_iff in V. destruct V as [V V3]. apply andb_true_iff in V. destruct V as [V1 V2]. unfold cont in V2.
      assert (128 <= b < 192 /\ (a = 224 -> 160 <= b) /\ (a = 237 -> b < 160)) as (X1 & X2 & X3).
      { destruct (Z.eqb_spec a 224); [lia|]. destruct (Z.eqb_spec a 237); [lia|]. unfold cont in V1. lia. }
      destruct (IH r3) as (cs & E); [lia|assumption..|]. destruct (utf8_3 a b c) as (k & Hk & Ek); [lia|lia|lia|assumption..|].
      exists (k :: cs). pose proof (encodes_cons k cs r3 Hk E) as X. now rewrite Ek in X. }
    destruct r3 as [|d r4]; [discriminate|]. apply bytes_cons in B. destruct B as [Bd B]. cbn in L.
    destruct ((240 <=? a) && (a <? 245)) eqn:E4; [|discriminate].
    apply andb_true_iff in V. destruct V as [V V4]. apply andb_true_iff in V. destruct V as [V V3]. apply andb_true_iff in V. destruct V as [V1 V2]. unfold cont in V2, V3.
    assert (128 <= b < 192 /\ (a = 240 -> 144 <= b) /\ (a = 244 -> b < 144)) as (X1 & X2 & X3).
    { destruct (Z.eqb_spec a 240); [lia|]. destruct (Z.eqb_spec a 244); [lia|]. unfold cont in V1. lia. }
    destruct (IH r4) as (cs & E); [lia|assumption..|]. destruct (utf8_4 a b c d) as (k & Hk & Ek); [lia|lia|lia|lia|assumption..|].
    exists (k :: cs). pose proof (encodes_cons k cs r4 Hk E) as X. now rewrite Ek in X.
Qed.
Lemma utf8_low c : scalar c -> (existsb (fun b => b <? 32) (utf8 c) = true <-> c < 32).
Proof.
  intros H. unfold scalar in H. unfold utf8. pose proof (Z.mod_pos_bound c 64 ltac:(lia)). pose proof (Z.mod_pos_bound (c / 64) 64 ltac:(lia)). pose proof (Z.mod_pos_bound (c / 4096) 64 ltac:(lia)).
  assert (0 <= c / 64) by (apply Z.div_pos; lia). assert (0 <= c / 4096) by (apply Z.div_pos; lia). assert (0 <= c / 262144) by (apply Z.div_pos; lia).
  destruct (Z.ltb_spec c 128); [cbn; lia|]. destruct (Z.ltb_spec c 2048); [cbn; lia|]. destruct (Z.ltb_spec c 65536); cbn; lia.
Qed.
Lemma low_bytes cs : Forall scalar cs -> (existsb (fun b => b <? 32) (concat (map utf8 cs)) = false <-> Forall (fun c => 32 <= c) cs).
Proof.
  induction cs as [|c cs IH]; intros H; [split; constructor|]. inversion H as [|? ? Hc Hcs]; subst. cbn [map concat]. rewrite existsb_app, orb_false_iff, (IH Hcs).
  pose proof (utf8_low c Hc) as U. split.
  - intros [E F]. constructor; [|assumption]. destruct (Z_lt_ge_dec c 32); [|lia]. apply U in l. congruence.
  - intros F. inversion F; subst. split; [|assumption]. destruct (existsb (fun b => b <? 32) (utf8 c)); [|reflexivity]. assert (c < 32) by now apply U. lia.
Qed.
Lemma check_spec s : bytes s -> (checkStringValidity s = Ok tt <-> plain_text s) /\ (checkStringValidity s = Ok tt \/ exists m, checkStringValidity s = Err m).
Proof.
  intros B. unfold checkStringValidity. destruct (valid_utf8 s) eqn:V; cbn [negb].
  - destruct (utf8_encodes (length s) s (le_n _) B V) as (cs & Hs & E). pose proof (low_bytes cs Hs) as LB. rewrite <- E in LB.
    destruct (existsb (fun c => c <? 32) s) eqn:X.
    + split; [|eauto]. split; [discriminate|]. intros (cs' & [Hs' E'] & F). pose proof (low_bytes cs' Hs') as LB'. rewrite <- E' in LB'. apply LB' in F. congruence.
    + split; [|eauto]. split; [|reflexivity]. intros _. exists cs. split; [now split|]. now apply LB.
  - split; [|eauto]. split; [discriminate|]. intros (cs' & [Hs' E'] & F). rewrite E' in V. rewrite utf8_accepted in V by assumption. discriminate.
Qed.
