(** What choices of lists read from behind the list. *)
From Verif Require Import Base BaseFacts Spec_Helpers Model_Helpers Proofs_Helpers Model_Font Spec_Format Proofs_Format Spec_Layout Proofs_Layout
  Proofs_Font Proofs_Font2 Proofs_Font3 Proofs_Font4.

Lemma list_bytes fl l : 1 < zlen l -> zlen (group_bytes (GList fl l)) = 2 + 2 * zlen l.
Proof.
  intros H. unfold group_bytes. cbn [group_glyphs group_flags]. destruct (Z.eqb_spec (zlen l) 1); [lia|]. rewrite zlen_cons, zlen_app, zlen_cons, zlen_nil.
  rewrite (zlen_concat_fixed (le_digits 2) 2) by (intros; apply zlen_le_digits). lia.
Qed.
Lemma select_behind f gg fl l before rest choice : bytes (Data f) -> gg_directMapping gg = false -> group_in_range (GList fl l) ->
  Data f = before ++ group_bytes (GList fl l) ++ rest -> gg_offset gg = zlen before -> 1 < zlen l -> zlen l <= 2 * choice < 2 * zlen l ->
  group_Select f gg choice = match skipn (Z.to_nat (4 * choice - 2 * zlen l)) rest with a :: b :: _ => Ok (a + 256 * b) | _ => Panic end.
Proof.
  intros HB HD HR ED EO HL HC. pose proof (zlen_nonneg before) as Zb. pose proof (list_bytes fl l HL) as LB.
  assert (GF : group_found f gg (GList fl l)) by (split; [exact HD|]; exists before, rest; auto).
  unfold group_Select. rewrite HD. rewrite (info_byte f gg _ GF). cbn [bind]. cbv zeta. destruct (group_info (GList fl l) (proj1 HR)) as [E1 E2].
  rewrite E1, E2. cbn [group_glyphs]. destruct (Z.geb_spec choice (zlen l - 1 + 1)); [lia|]. destruct (Z.eqb_spec (zlen l - 1 + 1) 1); [lia|]. cbn [negb Z.eqb].
  rewrite shiftl_mul by lia. change (2 ^ 2) with 4. rewrite EO.
  assert (LD : zlen (Data f) = zlen before + (2 + 2 * zlen l) + zlen rest) by (rewrite ED, !zlen_app, LB; lia).
  set (k := 4 * choice - 2 * zlen l). unfold zfrom. destruct (Z.leb_spec 0 (zlen before + 2 + choice * 4)); [|lia]. cbn [andb].
  destruct (Z.leb_spec (zlen before + 2 + choice * 4) (zlen (Data f))) as [Hle|Hgt]; cbn [bind].
  - assert (ES : skipn (Z.to_nat (zlen before + 2 + choice * 4)) (Data f) = skipn (Z.to_nat k) rest).
    { rewrite ED, app_assoc. replace (Z.to_nat (zlen before + 2 + choice * 4)) with (length (before ++ group_bytes (GList fl l)) + Z.to_nat k)%nat.
      - rewrite skipn_app. rewrite skipn_all2 by lia. cbn [app]. f_equal. lia.
      - assert (ZZ : zlen (before ++ group_bytes (GList fl l)) = zlen before + (2 + 2 * zlen l)) by (rewrite zlen_app, LB; lia). unfold zlen in ZZ at 1. unfold k. lia. }
    rewrite ES. assert (BR : bytes (skipn (Z.to_nat k) rest)).
    { rewrite <- ES. apply Forall_forall. intros x Hx. unfold bytes in HB. rewrite Forall_forall in HB. apply HB. rewrite <- (firstn_skipn (Z.to_nat (zlen before + 2 + choice * 4)) (Data f)). apply in_or_app. right. exact Hx. }
    rewrite (decode16_spec _ BR). destruct (skipn (Z.to_nat k) rest) as [|a [|b r]]; [reflexivity|reflexivity|].
    destruct (Z.ltb_spec (zlen (a :: b :: r)) 2) as [H2|H2]; [rewrite !zlen_cons in H2; pose proof (zlen_nonneg r); lia|]. cbn. f_equal. lia.
  - rewrite skipn_all2; [reflexivity|]. unfold k. unfold zlen in *. lia.
Qed.
Lemma select_beyond f gg fl l choice : bytes (Data f) -> group_found f gg (GList fl l) -> group_in_range (GList fl l) ->
  1 < zlen l -> zlen l <= 2 * choice < 2 * zlen l ->
  group_Select f gg choice = match skipn (Z.to_nat (4 * choice - 2 * zlen l)) (skipn (Z.to_nat (gg_offset gg + (2 + 2 * zlen l))) (Data f)) with
                             | a :: b :: _ => Ok (a + 256 * b) | _ => Panic end.
Proof.
  intros HB [HD (before & rest & ED & EO)] HR HL HC. symmetry in EO. rewrite (select_behind f gg fl l before rest choice HB HD HR ED EO HL HC).
  assert (E : skipn (Z.to_nat (gg_offset gg + (2 + 2 * zlen l))) (Data f) = rest); [|rewrite E; reflexivity].
  rewrite ED, app_assoc. pose proof (list_bytes fl l HL) as LB.
  assert (ZZ : zlen (before ++ group_bytes (GList fl l)) = zlen before + (2 + 2 * zlen l)) by (rewrite zlen_app, LB; lia).
  replace (Z.to_nat (gg_offset gg + (2 + 2 * zlen l))) with (length (before ++ group_bytes (GList fl l))) by (rewrite EO, <- ZZ; unfold zlen; lia).
  rewrite skipn_app, skipn_all, Nat.sub_diag. reflexivity.
Qed.
