(** Lemmas for C26: masks of indices behind the last glyph. *)
From Verif Require Import Base BaseFacts Spec_Helpers Model_Helpers Proofs_Helpers Model_Mask Model_Words Model_Font
  Spec_Format Proofs_Format Proofs_Font Proofs_Font2 Proofs_Font3 Spec_Foreign.

Lemma skip_skip {A} (l : list A) a b : 0 <= a -> 0 <= b -> skipn (Z.to_nat b) (skipn (Z.to_nat a) l) = skipn (Z.to_nat (a + b)) l.
Proof.
  intros Ha Hb. replace (Z.to_nat (a + b)) with (Z.to_nat a + Z.to_nat b)%nat by lia. generalize (Z.to_nat a) (Z.to_nat b). clear. intros n. revert l.
  induction n as [|n IH]; intros [|x l] k; cbn [skipn Nat.add]; try reflexivity; [destruct k; reflexivity|apply IH].
Qed.
Lemma skip_bytes (l : list Z) n : bytes l -> bytes (skipn n l).
Proof. intros H. rewrite <- (firstn_skipn n l) in H. apply Forall_app in H. apply H. Qed.
(** reading three bytes behind [o] *)
Lemma from_three d o k : bytes d -> 0 <= o <= zlen d -> 0 <= k ->
  (do b <- zfrom d (o + k); DecodeUint24LE b) = match three (skipn (Z.to_nat o) d) k with Some v => Ok v | None => Panic end.
Proof.
  intros HB Ho Hk. unfold three. rewrite skip_skip by lia. unfold zfrom. destruct (Z.leb_spec 0 (o + k)); [|lia]. cbn [andb].
  destruct (Z.leb_spec (o + k) (zlen d)) as [H1|H1]; cbn [bind].
  - rewrite (decode24_spec _ (skip_bytes _ _ HB)). destruct (skipn (Z.to_nat (o + k)) d) as [|a [|b [|c r]]]; [reflexivity..|].
    destruct (Z.ltb_spec (zlen (a :: b :: c :: r)) 3) as [H2|H2]; [rewrite !zlen_cons in H2; pose proof (zlen_nonneg r); lia|]. cbn. f_equal. lia.
  - rewrite skipn_all2; [reflexivity|]. unfold zlen in H1. lia.
Qed.

Section Foreign.
  Variables (f : Font) (m : metrics_fields) (l : list (placement * list Z)).
  Hypothesis HM : stored (Data f) (OffsetToMetrics f) (metrics_bytes m).
  Hypothesis HR : metrics_in_range m.
  Hypothesis HG : m_glyphs m = zlen l.
  Hypothesis HS : stored (Data f) (OffsetToGlyphMasks f) (glyph_masks_bytes (m_vert m) l).
  Hypothesis HL : zlen (concat (map (glyph_bytes (m_vert m)) l)) < 16777216.
  Hypothesis HB : bytes (Data f).
  Let L := map (glyph_bytes (m_vert m)) l.
  Let o := OffsetToGlyphMasks f + 3 * zlen l.
  Lemma mask_foreign i : zlen l <= i ->
    glyphs_mask_ops f i = match foreign_mask (skipn (Z.to_nat o) (Data f)) (zlen l) (zlen (concat L)) (if m_vert m then 4 else 1) i with
                          | Some ops => Ok ops | None => Panic end.
  Proof.
    intros Hi. pose proof (zlen_nonneg l) as Z0. destruct (mask_parts f m l HS) as [H1 H2]. fold L in H1, H2. fold o in H2.
    assert (O0 : 0 <= OffsetToGlyphMasks f) by (destruct HS as (p & q & _ & <-); apply zlen_nonneg).
    assert (RO : 0 <= o <= zlen (Data f)).
    { destruct H2 as (p & q & -> & <-). rewrite !zlen_app. pose proof (zlen_nonneg p). pose proof (zlen_nonneg (concat L)). pose proof (zlen_nonneg q). lia. }
    set (t := skipn (Z.to_nat o) (Data f)). assert (LT : zlen t = zlen (Data f) - o) by (unfold t; unfold zlen in *; rewrite skipn_length; lia).
    unfold glyphs_mask_ops, getGlyphDataOffsets. cbv zeta. rewrite !shiftl_mul by lia. change (2 ^ 1) with 2.
    replace (OffsetToGlyphMasks f + (i * 2 + i)) with (o + 3 * (i - zlen l)) by (unfold o; lia).
    rewrite <- (bind_assoc (zfrom _ _) DecodeUint24LE). rewrite (from_three _ _ _ HB RO) by lia. fold t.
    unfold foreign_mask. destruct (three t (3 * (i - zlen l))) as [e|]; cbn [bind]; [|destruct (if i =? zlen l then _ else _); reflexivity].
    assert (ST : (if i * 2 + i =? 0 then Ok (0, e) else
        do b <- zfrom (Data f) (o + 3 * (i - zlen l) - 3); do startOffset <- DecodeUint24LE b;
        if e <=? startOffset then Panic else Ok (startOffset, e)) =
      match (if i =? zlen l then Some (zlen (concat L)) else three t (3 * (i - zlen l - 1))) with
      | Some s => if (i * 2 + i =? 0) || negb (e <=? s) then Ok (s, e) else Panic | None => Panic end).
    { destruct (Z.eqb_spec (i * 2 + i) 0) as [E0|E0].
      - assert (E1 : zlen l = 0) by lia. rewrite E1. replace (i =? 0) with true by lia. assert (EL : L = []) by (unfold L; destruct l; [reflexivity|rewrite zlen_cons in E1; pose proof (zlen_nonneg l0); lia]).
        rewrite EL. reflexivity.
      - rewrite <- (bind_assoc (zfrom _ _) DecodeUint24LE). cbn [orb]. destruct (Z.eqb_spec i (zlen l)) as [Ei|Ei].
        + assert (LL : zlen L = zlen l) by apply zlen_map. destruct (zget_in_range L (i - 1) ltac:(lia)) as [b Eb].
          destruct (end24 _ _ _ _ _ H1 Eb HL) as [SS R]. assert (EE : start_of L (i - 1) + zlen b = zlen (concat L)).
          { rewrite <- start_all. rewrite LL, <- Ei. unfold start_of. replace (Z.to_nat i) with (S (Z.to_nat (i - 1))) by lia.
            assert (NE : nth_error L (Z.to_nat (i - 1)) = Some b) by (unfold zget in Eb; destruct (i - 1 <? 0); [discriminate|]; destruct (nth_error L (Z.to_nat (i - 1))); congruence).
            clear - NE. revert NE. generalize (Z.to_nat (i - 1)). intros n. generalize L. induction n as [|n IH]; intros [|x r] NE; try discriminate.
            - cbn in NE. injection NE as ->. cbn. rewrite app_nil_r. unfold zlen. cbn. lia.
            - cbn [nth_error] in NE. specialize (IH r NE). cbn [firstn concat] in *. rewrite !zlen_app. lia. }
          rewrite (from24 _ _ (zlen (concat L))); [cbn [bind]|rewrite EE in SS; eapply stored_at; [exact SS|unfold o; lia]|lia]. destruct (e <=? zlen (concat L)); reflexivity.
        + replace (o + 3 * (i - zlen l) - 3) with (o + 3 * (i - zlen l - 1)) by lia. rewrite (from_three _ _ _ HB RO) by lia. fold t.
          destruct (three t (3 * (i - zlen l - 1))) as [s|]; cbn [bind]; [|reflexivity]. destruct (e <=? s); reflexivity. }
    rewrite ST. clear ST. destruct (if i =? zlen l then Some (zlen (concat L)) else three t (3 * (i - zlen l - 1))) as [s|] eqn:ES; [|reflexivity].
    assert (S0 : 0 <= s).
    { destruct (i =? zlen l); [injection ES as <-; apply zlen_nonneg|]. unfold three in ES. destruct (skipn _ t) as [|a [|b [|c r]]] eqn:EK; try discriminate. injection ES as <-.
      assert (BK : bytes (a :: b :: c :: r)) by (rewrite <- EK; apply skip_bytes; unfold t; apply skip_bytes; exact HB). rewrite !bytes_cons in BK. unfold byte in BK. lia. }
    set (skip := if m_vert m then 4 else 1). assert (SK : skip = 4 \/ skip = 1) by (unfold skip; destruct (m_vert m); auto).
    assert (SL : zslice (Data f) (o + (s + skip)) (o + e) = match (if (s + skip <=? e) && (e <=? zlen t) then Some (firstn (Z.to_nat (e - (s + skip))) (skipn (Z.to_nat (s + skip)) t)) else None) with Some ops => Ok ops | None => Panic end).
    { unfold zslice. destruct (Z.leb_spec 0 (o + (s + skip))); [|lia]. cbn [andb]. rewrite LT.
      replace (o + (s + skip) <=? o + e) with (s + skip <=? e) by lia. replace (o + e <=? zlen (Data f)) with (e <=? zlen (Data f) - o) by lia.
      destruct ((s + skip <=? e) && (e <=? zlen (Data f) - o)); [|reflexivity]. unfold t. rewrite skip_skip by lia. do 2 f_equal. lia. }
    destruct ((i * 2 + i =? 0) || negb (e <=? s)) eqn:EC.
    - cbn [bind]. rewrite (glyph_vert f m HM HR), (glyph_count f m l HM HR HG). cbn [bind]. cbv zeta. rewrite shiftl_mul by lia. change (2 ^ 1) with 2. rewrite <- SL.
      replace (OffsetToGlyphMasks f + zlen l * 2 + zlen l) with o by (unfold o; lia). unfold skip. destruct (m_vert m); reflexivity.
    - cbn [bind]. replace (s + skip <=? e) with false; [reflexivity|]. apply orb_false_iff in EC. destruct EC as [_ EC]. destruct (Z.leb_spec e s); [lia|discriminate].
  Qed.
End Foreign.
