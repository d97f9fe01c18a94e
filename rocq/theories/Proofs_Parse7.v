(** Parse as a whole: results for all readers, and for truncated payloads. *)
From Verif Require Import Base BaseFacts Model_Helpers Spec_Helpers Proofs_Helpers Model_Font Model_Parse Spec_Parse Proofs_Parse Proofs_Parse2 Proofs_Parse3 Proofs_Parse4 Proofs_Parse5 Proofs_Parse6.
From Coq Require Import Lia.

Lemma rel_len P i s : rel P i s -> 0 <= i <= zlen (Bytes s) /\ zlen (Bytes s) <= zlen P.
Proof. intros (_ & H & <- & _). rewrite zlen_app. pose proof (zlen_nonneg (rest s)). lia. Qed.

Lemma u24_rel P i s : rel P i s -> exists s2, ReadUint24 s =
  (if i + 3 <=? zlen P then POk (le_at 3 P i) s2 else PErr premature s2) /\
  (if i + 3 <=? zlen P then rel P (i + 3) s2 else rel P i s2 /\ eof s2 = true).
Proof.
  intros Hr. pose proof (rel_len _ _ _ Hr). pose proof Hr as (_ & _ & _ & _ & HM & HP).
  pose proof (sim_u24 P i s Hr) as Hs. rewrite u24_full in Hs by (auto; lia).
  destruct (Z.leb_spec (i + 3) (zlen P)).
  - destruct Hs as (j & s2 & E & E2 & Hr2). injection E as <-. eauto.
  - unfold ReadUint24, read_with, pbind, get_index. pose proof Hr as (-> & _).
    destruct (readUpTo_rel P i (i + 3) s Hr ltac:(lia)) as (s' & H' & ->).
    destruct (Z.leb_spec (i + 3) (zlen P)); [lia|]. exists s'. split; [reflexivity|assumption].
Qed.

Lemma kernings_rel P i n m s : rel P i s ->
  if i + 3 <=? zlen P then
    let c := le_at 3 P i in
    if c >? n * n then exists s2, parse_kernings n m s = PErr m s2
    else if i + 3 + 5 * c <=? zlen P then exists s2, parse_kernings n m s = POk i s2 /\ rel P (i + 3 + 5 * c) s2
    else exists s2, parse_kernings n m s = PErr premature s2
  else exists s2, parse_kernings n m s = POk i s2 /\ rel P i s2 /\ eof s2 = true.
Proof.
  intros Hr. pose proof (rel_len _ _ _ Hr) as Hl. pose proof Hr as (Hi & _ & _ & _ & HM & HP).
  destruct (u24_rel P i s Hr) as (s1 & E1 & H1). unfold parse_kernings.
  assert (E0 : get_index s = POk i s) by (unfold get_index; now rewrite Hi).
  rewrite !(bind_ok _ _ _ _ _ E0).
  assert (E2 : ignore_err ReadUint24 s = POk (if i + 3 <=? zlen P then le_at 3 P i else 0) s1).
  { unfold ignore_err. rewrite E1. now destruct (_ <=? _). }
  rewrite !(bind_ok _ _ _ _ _ E2).
  destruct (Z.leb_spec (i + 3) (zlen P)).
  - cbv zeta. pose proof (le_at_range 3 P i HP) as Hc. set (c := le_at 3 P i) in *.
    destruct (Z.gtb_spec c 0).
    + destruct (Z.gtb_spec c (n * n)).
      * cbn. eauto.
      * rewrite !(bind_ok (when false m) _ s1 tt s1 eq_refl).
        pose proof (sim_advance P (i + 3) (c * 5) ltac:(lia) s1 H1) as Hs. rewrite advance_full in Hs by lia.
        replace (i + 3 + 5 * c) with (i + 3 + c * 5) by lia. unfold pbind.
        destruct (Z.leb_spec (i + 3 + c * 5) (zlen P)).
        -- destruct Hs as (j & s2 & E & -> & Hr2). injection E as <-. eauto.
        -- destruct Hs as (j & s2 & E & -> & Hr2). eauto.
    + assert (Ec : c = 0) by lia. rewrite Ec. destruct (Z.gtb_spec 0 (n * n)); [nia|].
      replace (i + 3 + 5 * 0) with (i + 3) by lia. destruct (Z.leb_spec (i + 3) (zlen P)); [|lia].
      cbn. eauto.
  - cbn. exists s1. tauto.
Qed.

Lemma rel_initial i P : delivers i P -> bytes P -> zlen P <= MaxFontDataSize -> rel P 0 (initial i).
Proof.
  intros [Hw Hp] HP HM. unfold rel, rest, initial. cbn. subst P. repeat apply conj; auto; try lia; change (zlen []) with 0; lia.
Qed.

(** the kernings, on any reader *)
Definition kernings_then (mk : Z -> Z -> Font) (ng : Z) : action Font :=
  run ohk <- parse_kernings ng horz_msg;
  run ovk <- parse_kernings ng vert_msg;
  pret (mk ohk ovk).

Lemma kernings_then_rel P i mk ng s : rel P i s ->
  exists r, r = kernings_then mk ng (full P i) /\
  match r with
  | POk f s1 => exists h v j s2, h = i /\ f = mk h v /\ s1 = full P j /\ kernings_then mk ng s = POk f s2 /\ rel P j s2 /\
      h <= v /\
      (h + 3 <= zlen P /\ v = h + 3 + 5 * le_at 3 P h /\ v <= zlen P \/ zlen P < h + 3 /\ v = h) /\
      (v + 3 <= zlen P /\ j = v + 3 + 5 * le_at 3 P v /\ j <= zlen P \/ zlen P < v + 3 /\ j = v /\ eof s2 = true)
  | PErr e s1 => exists s2, kernings_then mk ng s = PErr e s2
  | _ => False
  end.
Proof.
  intros Hr. pose proof (rel_len _ _ _ Hr) as Hl. pose proof Hr as (_ & _ & _ & _ & HM & HP).
  eexists; split; [reflexivity|].
  pose proof (kernings_rel P i ng horz_msg s Hr) as K1.
  pose proof (kernings_rel P i ng horz_msg (full P i) (rel_full P i ltac:(lia) HM HP)) as F1.
  assert (Keep : forall o s2, parse_kernings ng horz_msg (full P i) = POk o s2 -> exists j, s2 = full P j).
  { intros o s2 E. pose proof (sim_kernings P HP i ng horz_msg ltac:(lia) s Hr) as Hs. rewrite E in Hs.
    destruct Hs as (j & _ & -> & _). eauto. }
  pose proof (le_at_range 3 P i HP) as Hc.
  assert (Main : forall v s1, parse_kernings ng horz_msg s = POk i s1 -> rel P v s1 ->
    parse_kernings ng horz_msg (full P i) = POk i (full P v) -> i <= v ->
    (i + 3 <= zlen P /\ v = i + 3 + 5 * le_at 3 P i /\ v <= zlen P \/ zlen P < i + 3 /\ v = i) ->
    match kernings_then mk ng (full P i) with
    | POk f s1 => exists h v j s2, h = i /\ f = mk h v /\ s1 = full P j /\ kernings_then mk ng s = POk f s2 /\ rel P j s2 /\
      h <= v /\
      (h + 3 <= zlen P /\ v = h + 3 + 5 * le_at 3 P h /\ v <= zlen P \/ zlen P < h + 3 /\ v = h) /\
      (v + 3 <= zlen P /\ j = v + 3 + 5 * le_at 3 P v /\ j <= zlen P \/ zlen P < v + 3 /\ j = v /\ eof s2 = true)
    | PErr e s1 => exists s2, kernings_then mk ng s = PErr e s2
    | _ => False
    end).
  { intros v s1 E1 R1 E2 Hv Hcase. unfold kernings_then. rewrite !(bind_ok _ _ _ _ _ E1), !(bind_ok _ _ _ _ _ E2).
    pose proof (rel_len _ _ _ R1) as Hl1. pose proof (le_at_range 3 P v HP) as Hc1.
    pose proof (kernings_rel P v ng vert_msg s1 R1) as K2.
    pose proof (kernings_rel P v ng vert_msg (full P v) (rel_full P v ltac:(lia) HM HP)) as F2.
    pose proof (sim_kernings P HP v ng vert_msg ltac:(lia) s1 R1) as Hs.
    unfold pbind. destruct (Z.leb_spec (v + 3) (zlen P)); cbv zeta in K2, F2.
    - destruct (_ >? _).
      + destruct K2 as (s2 & ->), F2 as (s3 & ->). eauto.
      + destruct (Z.leb_spec (v + 3 + 5 * le_at 3 P v) (zlen P)).
        * destruct K2 as (s2 & EK & R2), F2 as (s3 & E3 & R3). rewrite EK, E3 in *. cbn [pret].
          destruct Hs as (j & s4 & -> & E4 & R4). injection E4 as <-.
          assert (j = v + 3 + 5 * le_at 3 P v) by (destruct R3 as (E5 & _); exact E5).
          exists i, v, j, s2. splits; auto; lia.
        * destruct K2 as (s2 & ->), F2 as (s3 & ->). eauto.
    - destruct K2 as (s2 & EK & R2 & He), F2 as (s3 & E3 & R3 & _). rewrite EK, E3 in *. cbn [pret].
      destruct Hs as (j & s4 & -> & E4 & R4). injection E4 as <-.
      assert (j = v) by (destruct R3 as (E5 & _); exact E5). subst j.
      exists i, v, v, s2. splits; auto; lia. }
  destruct (Z.leb_spec (i + 3) (zlen P)); cbv zeta in K1, F1.
  - destruct (_ >? _).
    + destruct K1 as (s2 & E1), F1 as (s3 & E2). unfold kernings_then, pbind. rewrite E1, E2. eauto.
    + destruct (Z.leb_spec (i + 3 + 5 * le_at 3 P i) (zlen P)).
      * destruct K1 as (s2 & E1 & R1), F1 as (s3 & E2 & R2). destruct (Keep _ _ E2) as (v & ->).
        assert (v = i + 3 + 5 * le_at 3 P i) by (destruct R2 as (E5 & _); exact E5). subst v.
        apply (Main _ s2 E1 R1 E2); lia.
      * destruct K1 as (s2 & E1), F1 as (s3 & E2). unfold kernings_then, pbind. rewrite E1, E2. eauto.
  - destruct K1 as (s2 & E1 & R1 & _), F1 as (s3 & E2 & R2 & _). destruct (Keep _ _ E2) as (v & ->).
    assert (v = i) by (destruct R2 as (E5 & _); exact E5). subst v.
    apply (Main _ s2 E1 R1 E2); lia.
Qed.

Definition ends (P : list Z) (f : Font) (j : Z) (s2 : pst) : Prop :=
  let h := OffsetToHorzKernings f in let v := OffsetToVertKernings f in
  0 <= h <= v /\ offsets_in_order f j /\ Data f = [] /\
  (h + 3 <= zlen P /\ v = h + 3 + 5 * le_at 3 P h /\ v <= zlen P \/ zlen P < h + 3 /\ v = h) /\
  (v + 3 <= zlen P /\ j = v + 3 + 5 * le_at 3 P v /\ j <= zlen P \/ zlen P < v + 3 /\ j = v /\ eof s2 = true).

Lemma prefix_result P : bytes P ->
  match parse_prefix (full P 0) with
  | POk r s => exists j, s = full P j /\ 0 <= j <= zlen P /\ prefix_post r (full P j)
  | PErr _ _ => True
  | _ => False
  end.
Proof.
  intros HP. pose proof (zlen_nonneg P) as H0.
  pose proof (wp_prefix (full P 0) (inv_full P HP 0 ltac:(lia)) eq_refl) as Hw. unfold wp in Hw.
  destruct (parse_prefix (full P 0)) as [r s|e s| |] eqn:E; auto. destruct Hw as [_ Hq].
  destruct (cut_prefix P HP 0 ltac:(lia) r s E) as (j & -> & Hj & _). eauto.
Qed.

Lemma sections_result P s : rel P 0 s ->
  match parse_sections (full P 0) with
  | POk f s1 => exists j s2, s1 = full P j /\ 0 <= j <= zlen P /\ parse_sections s = POk f s2 /\ rel P j s2 /\ ends P f j s2
  | PErr e s1 => exists s2, parse_sections s = PErr e s2
  | _ => False
  end.
Proof.
  intros Hr. pose proof Hr as (_ & _ & _ & _ & HM & HP). rewrite !sections_split.
  pose proof (sim_prefix P HP s Hr) as Hs. pose proof (prefix_result P HP) as Hp.
  destruct (parse_prefix (full P 0)) as [[mk ng] s1|e s1| |] eqn:Ep; try contradiction.
  - destruct Hs as (j & s2 & -> & Es & R2). destruct Hp as (j' & Ej & Hj & Hq). injection Ej as <-.
    rewrite !(bind_ok _ _ _ _ _ Ep), !(bind_ok _ _ _ _ _ Es).
    destruct (kernings_then_rel P j mk ng s2 R2) as (r & Er & Hk). fold (kernings_then mk ng).
    rewrite <- Er. destruct r as [f s3|e s3| |]; try contradiction.
    + destruct Hk as (h & v & j2 & s4 & -> & -> & -> & E4 & R4 & Hv & C1 & C2).
      pose proof (le_at_range 3 P v HP).
      destruct (Hq j v j2 ltac:(cbn; lia) ltac:(lia) ltac:(lia)) as (Q1 & Q2 & Q3 & Q4). cbn [fst] in *.
      exists j2, s4. split; [reflexivity|]. pose proof (rel_len _ _ _ R4). split; [lia|]. split; [exact E4|]. split; [exact R4|].
      unfold ends. rewrite Q2, Q3. cbv zeta. splits; auto; lia.
    + exact Hk.
  - destruct Hs as (j & s2 & -> & Es & R2). unfold pbind. rewrite Ep, Es. eauto.
Qed.
