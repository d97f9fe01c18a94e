(** What an accepted payload looks like, section by section: a weakest precondition for the
    parser on a payload that is in the buffer as a whole ([full P i]). *)
From Verif Require Import Base BaseFacts Spec_Helpers Proofs_Helpers Model_Font Model_Parse Spec_Parse.
From Verif Require Import Proofs_Parse Proofs_Parse2 Proofs_Parse5 Proofs_Parse6 Proofs_Parse7 Proofs_Parse8 Proofs_Export.

Definition fwp {A} (m : action A) (P : list Z) (i : Z) (Q : A -> Z -> Prop) : Prop :=
  forall a s, m (full P i) = POk a s -> exists j, s = full P j /\ Q a j.

Section Flat.
  Variable P : list Z.
  Hypothesis HP : bytes P.

  Lemma fwp_bind {A B} (m : action A) (k : A -> action B) i Q :
    fwp m P i (fun a j => fwp (k a) P j Q) -> fwp (pbind m k) P i Q.
  Proof. intros H b s E. apply bind_inv in E as (a & s1 & E1 & E2). destruct (H _ _ E1) as (j & -> & H2). exact (H2 _ _ E2). Qed.
  Lemma fwp_weak {A} (m : action A) i (Q R : A -> Z -> Prop) : fwp m P i Q -> (forall a j, Q a j -> R a j) -> fwp m P i R.
  Proof. intros H I a s E. destruct (H _ _ E) as (j & -> & X). eauto. Qed.
  Lemma fwp_ret {A} (x : A) i (Q : A -> Z -> Prop) : Q x i -> fwp (pret x) P i Q.
  Proof. intros H a s E. injection E as <- <-. eauto. Qed.
  Lemma fwp_index i (Q : Z -> Z -> Prop) : Q i i -> fwp get_index P i Q.
  Proof. intros H a s E. injection E as <- <-. eauto. Qed.
  Lemma fwp_when b m i (Q : unit -> Z -> Prop) : (b = false -> Q tt i) -> fwp (when b m) P i Q.
  Proof. intros H a s E. destruct b; [discriminate|]. injection E as <- <-. eauto. Qed.
  Lemma fwp_on {A} (f : list Z -> outcome A) i (Q : A -> Z -> Prop) : (forall a, f P = Ok a -> Q a i) -> fwp (on_bytes f) P i Q.
  Proof.
    intros H a s E. unfold on_bytes in E. change (Bytes (full P i)) with P in E. destruct (f P) eqn:F; try discriminate. injection E as <- <-. eauto.
  Qed.
  Lemma fwp_u8 i (Q : Z -> Z -> Prop) : 0 <= i <= zlen P ->
    (i + 1 <= zlen P -> 0 <= byte_at P i < 256 -> Q (byte_at P i) (i + 1)) -> fwp ReadUint8 P i Q.
  Proof.
    intros Hi H a s E. rewrite u8_full in E by lia. destruct (Z.leb_spec (i + 1) (zlen P)); [|discriminate].
    injection E as <- <-. exists (i + 1). split; [reflexivity|]. apply H; [lia|]. pose proof (byte_at_range P i HP) as R. exact R.
  Qed.
  Lemma fwp_u16 i (Q : Z -> Z -> Prop) : 0 <= i <= zlen P ->
    (i + 2 <= zlen P -> 0 <= le_at 2 P i < 65536 -> Q (le_at 2 P i) (i + 2)) -> fwp ReadUint16 P i Q.
  Proof.
    intros Hi H a s E. rewrite u16_full in E by (auto; lia). destruct (Z.leb_spec (i + 2) (zlen P)); [|discriminate].
    injection E as <- <-. exists (i + 2). split; [reflexivity|]. apply H; [lia|]. exact (le_at_range 2 P i HP).
  Qed.
  Lemma fwp_u24 i (Q : Z -> Z -> Prop) : 0 <= i <= zlen P ->
    (i + 3 <= zlen P -> 0 <= le_at 3 P i < 16777216 -> Q (le_at 3 P i) (i + 3)) -> fwp ReadUint24 P i Q.
  Proof.
    intros Hi H a s E. rewrite u24_full in E by (auto; lia). destruct (Z.leb_spec (i + 3) (zlen P)); [|discriminate].
    injection E as <- <-. exists (i + 3). split; [reflexivity|]. apply H; [lia|]. exact (le_at_range 3 P i HP).
  Qed.
  Lemma fwp_ign24 i (Q : Z -> Z -> Prop) : 0 <= i <= zlen P ->
    (i + 3 <= zlen P -> 0 <= le_at 3 P i < 16777216 -> Q (le_at 3 P i) (i + 3)) -> (zlen P < i + 3 -> Q 0 i) -> fwp (ignore_err ReadUint24) P i Q.
  Proof.
    intros Hi H H0 a s E. rewrite ign24_full in E by (auto; lia). destruct (Z.leb_spec (i + 3) (zlen P)); injection E as <- <-.
    - exists (i + 3). split; [reflexivity|]. apply H; [lia|]. exact (le_at_range 3 P i HP).
    - exists i. auto.
  Qed.
  Lemma fwp_advance i n (Q : unit -> Z -> Prop) : 0 <= i <= zlen P -> 0 <= n -> (i + n <= zlen P -> Q tt (i + n)) -> fwp (AdvanceBytes n) P i Q.
  Proof.
    intros Hi Hn H a s E. rewrite advance_full in E by lia. destruct (Z.leb_spec (i + n) (zlen P)); [|discriminate].
    injection E as <- <-. eauto.
  Qed.
  Lemma fwp_if {A} (c : bool) (m n : action A) i Q : (c = true -> fwp m P i Q) -> (c = false -> fwp n P i Q) -> fwp (if c then m else n) P i Q.
  Proof. destruct c; auto. Qed.

  Ltac fwp_step := bool_facts; first
    [ apply fwp_index | apply fwp_ret | apply fwp_when; intros ? | apply fwp_u8; [lia|intros ? ?] | apply fwp_u16; [lia|intros ? ?] | apply fwp_u24; [lia|intros ? ?]
    | apply fwp_ign24; [lia|intros ? ?|intros ?] | apply fwp_advance; [lia|lia|intros ?] | apply fwp_if; intros ? | apply fwp_on; intros ? ? | apply fwp_bind ].

  Lemma flat_dyes i : 0 <= i <= zlen P -> fwp parse_dyes P i (fun r j =>
    let n := byte_at P i in let used := byte_at P (i + n) in
    r = (i, used) /\ i + 1 + n + used + 2 * n <= j <= zlen P /\ 0 <= n < 256 /\ 0 <= used < 256 /\ (n = 0 -> j = i + 1) /\
    (0 < n -> j = i + 1 + n + used + 2 * n + le_at 2 P (i + 1 + n + used + 2 * (n - 1)))).
  Proof.
    intros Hi. unfold parse_dyes. repeat fwp_step.
    - cbv zeta. replace (i + 1 + (byte_at P i - 1)) with (i + byte_at P i) in * by lia.
      replace (i + byte_at P i + 1 + byte_at P (i + byte_at P i) + (byte_at P i - 1) * 2) with (i + 1 + byte_at P i + byte_at P (i + byte_at P i) + 2 * (byte_at P i - 1)) in * by lia.
      repeat split; lia.
    - cbv zeta. assert (E : byte_at P i = 0) by lia. rewrite E, (Z.add_0_r i), E. repeat split; lia.
  Qed.
  Lemma flat_palettes i u : 0 <= i <= zlen P -> 0 <= u < 256 -> fwp (parse_palettes u) P i (fun r j =>
    let n := byte_at P i in let used := byte_at P (i + n) in
    r = i /\ i + 1 + n + 4 * used + 2 * n <= j <= zlen P /\ 0 <= n < 256 /\ 0 <= used /\ u + used <= 255 /\ (n = 0 -> j = i + 1) /\
    (0 < n -> j = i + 1 + n + 4 * used + 2 * n + le_at 2 P (i + 1 + n + 4 * used + 2 * (n - 1)))).
  Proof.
    intros Hi Hu. unfold parse_palettes. repeat fwp_step.
    - cbv zeta. replace (i + 1 + (byte_at P i - 1)) with (i + byte_at P i) in * by lia.
      replace (i + byte_at P i + 1 + byte_at P (i + byte_at P i) * 4 + (byte_at P i - 1) * 2) with (i + 1 + byte_at P i + 4 * byte_at P (i + byte_at P i) + 2 * (byte_at P i - 1)) in * by lia.
      repeat split; lia.
    - cbv zeta. assert (E : byte_at P i = 0) by lia. rewrite E, (Z.add_0_r i), E. repeat split; lia.
  Qed.

  (** a counted table of end offsets of [w] bytes after a counter of [c] bytes and [p] more bytes
      per entry, with the data behind it *)
  Definition framed (w : nat) (P : list Z) (t n j : Z) : Prop :=
    0 <= t /\ 0 <= n /\ t + Z.of_nat w * n <= j <= zlen P /\ (0 < n -> t + Z.of_nat w * n + le_at w P (t + Z.of_nat w * (n - 1)) = j).

  Ltac done := unfold framed; cbv zeta; repeat match goal with |- _ /\ _ => split end; intros; try lia; auto.

  Lemma flat_masks i n v : 0 <= i <= zlen P -> 0 < n < 65536 -> fwp (parse_glyph_masks n v) P i (fun r j =>
    r = i /\ framed 3 P i n j).
  Proof.
    intros Hi Hn. unfold parse_glyph_masks. replace (u16 (n - 1)) with (n - 1) by (unfold u16; rewrite Z.mod_small; lia). repeat fwp_step.
    replace (i + (n - 1) * 3) with (i + 3 * (n - 1)) in * by lia. done; change (Z.of_nat 3) with 3; lia.
  Qed.
  Lemma flat_words i : 0 <= i <= zlen P -> fwp parse_words P i (fun r j =>
    r = i /\ i + 1 <= j /\ framed 2 P (i + 1) (byte_at P i) j).
  Proof.
    intros Hi. unfold parse_words. repeat fwp_step.
    - replace (i + 1 + (byte_at P i - 1) * 2) with (i + 1 + 2 * (byte_at P i - 1)) in * by lia. done; change (Z.of_nat 2) with 2; lia.
    - done; change (Z.of_nat 2) with 2; lia.
  Qed.
  Lemma flat_switches i n : 0 <= i <= zlen P -> fwp (parse_switches n) P i (fun r j =>
    r = i /\ i + 1 <= j /\ byte_at P i <= 253 /\ framed 2 P (i + 1) (byte_at P i) j).
  Proof.
    intros Hi. unfold parse_switches. repeat fwp_step.
    - replace (i + 1 + (byte_at P i - 1) * 2) with (i + 1 + 2 * (byte_at P i - 1)) in * by lia. done; change (Z.of_nat 2) with 2; lia.
    - done; change (Z.of_nat 2) with 2; lia.
  Qed.
  Lemma flat_blocks i m e : 0 <= i <= zlen P -> fwp (parse_u16_blocks m e) P i (fun r j =>
    r = i /\ i + 1 <= j /\ framed 2 P (i + 1) (byte_at P i) j).
  Proof.
    intros Hi. unfold parse_u16_blocks. repeat fwp_step.
    - replace (i + 1 + (byte_at P i - 1) * 2) with (i + 1 + 2 * (byte_at P i - 1)) in * by lia. done; change (Z.of_nat 2) with 2; lia.
    - done; change (Z.of_nat 2) with 2; lia.
  Qed.
  Lemma flat_settings i : 0 <= i <= zlen P -> fwp parse_settings P i (fun r j => exists k,
    r = (i, k, byte_at P i) /\ i + 1 <= k /\ framed 2 P (i + 1) (byte_at P i) k /\ framed 2 P k (byte_at P i) j).
  Proof.
    intros Hi. unfold parse_settings. repeat fwp_step; eexists.
    - replace (i + 1 + (byte_at P i - 1) * 2) with (i + 1 + 2 * (byte_at P i - 1)) in * by lia. split; [reflexivity|].
      remember (i + 1 + 2 * (byte_at P i - 1) + 2 + le_at 2 P (i + 1 + 2 * (byte_at P i - 1))) as k eqn:Ek.
      replace (k + (byte_at P i - 1) * 2) with (k + 2 * (byte_at P i - 1)) in * by lia.
      done; change (Z.of_nat 2) with 2; lia.
    - split; [reflexivity|]. done; change (Z.of_nat 2) with 2; lia.
  Qed.
  Lemma flat_names i om : 0 <= i <= zlen P -> fwp (parse_glyph_names om) P i (fun r j => exists n v,
    r = (i, n, v) /\ metrics_NumGlyphs P om = Ok n /\ metrics_HasVertLayout P om = Ok v /\ i + 2 <= j /\ framed 3 P (i + 2 + 2 * le_at 2 P i) (le_at 2 P i) j).
  Proof.
    intros Hi. unfold parse_glyph_names. repeat fwp_step; eexists; eexists; (split; [reflexivity|]); (split; [eassumption|]); (split; [eassumption|]).
    - replace (i + 2 + le_at 2 P i * 2 + (le_at 2 P i - 1) * 3) with (i + 2 + 2 * le_at 2 P i + 3 * (le_at 2 P i - 1)) in * by lia. done; change (Z.of_nat 3) with 3; lia.
    - done; change (Z.of_nat 3) with 3; lia.
  Qed.
  Lemma flat_mapping i : 0 <= i <= zlen P -> fwp parse_mapping P i (fun r j =>
    r = i /\ i + 2 <= j /\ framed 3 P (i + 2 + 4 * le_at 2 P i) (le_at 2 P i) j).
  Proof.
    intros Hi. unfold parse_mapping. repeat fwp_step.
    - replace (i + 2 + le_at 2 P i * 4 + (le_at 2 P i - 1) * 3) with (i + 2 + 4 * le_at 2 P i + 3 * (le_at 2 P i - 1)) in * by lia. done; change (Z.of_nat 3) with 3; lia.
    - done; change (Z.of_nat 3) with 3; lia.
  Qed.
  Lemma flat_rules i m a b : 0 <= i <= zlen P -> fwp (parse_rules m a b) P i (fun r j =>
    r = i /\ i + 2 <= j /\ framed 3 P (i + 2) (le_at 2 P i) j).
  Proof.
    intros Hi. unfold parse_rules. repeat fwp_step.
    - replace (i + 2 + (le_at 2 P i - 1) * 3) with (i + 2 + 3 * (le_at 2 P i - 1)) in * by lia. done; change (Z.of_nat 3) with 3; lia.
    - exfalso. lia.
    - done; change (Z.of_nat 3) with 3; lia.
  Qed.
  Lemma flat_kernings i n e : 0 <= i <= zlen P -> fwp (parse_kernings n e) P i (fun r j =>
    r = i /\ i <= j <= zlen P /\ (i + 3 <= zlen P -> i + 3 + 5 * le_at 3 P i <= j)).
  Proof. intros Hi. unfold parse_kernings. repeat fwp_step; done. Qed.
End Flat.
