(** The texts of the header when the uint8 arithmetic of their positions wraps around. *)
From Verif Require Import Base BaseFacts Spec_Helpers Proofs_Helpers Spec_Format Model_Helpers Model_Font Model_Parse Proofs_Format Proofs_Font Spec_Parsed Proofs_Parsed Proofs_Parsed2.

Lemma string_part d i n : 0 <= i < zlen d -> 0 <= n -> i + n <= zlen d -> unsafe_string d i n = Ok (part d i (i + n)).
Proof. intros Hi Hn HL. unfold unsafe_string. rewrite (zget_nth d i 0) by lia. cbn [bind]. now rewrite zslice_ok by lia. Qed.
Lemma string_out d i n : 0 <= i < zlen d -> zlen d < i + n -> unsafe_string d i n = Panic.
Proof.
  intros Hi HL. unfold unsafe_string. rewrite (zget_nth d i 0) by lia. cbn [bind]. unfold zslice.
  destruct (Z.leb_spec (i + n) (zlen d)); [lia|]. now rewrite !andb_false_r.
Qed.
Lemma slice2 d i : bytes d -> 0 <= i -> i + 2 <= zlen d -> (do b <- zslice d i (i + 2); DecodeUint16LE b) = Ok (num 2 d i).
Proof.
  intros HB H0 H. rewrite zslice_ok by lia. cbn [bind]. replace (i + 2 - i) with 2 by lia. change (Z.to_nat 2) with 2%nat.
  rewrite decode16_spec by (now apply bytes_firstn, bytes_skipn). rewrite zlen_firstn, zlen_skipn.
  destruct (Z.ltb_spec (Z.min (Z.of_nat 2) (Z.max 0 (zlen d - Z.of_nat (Z.to_nat i)))) 2); [lia|]. rewrite firstn_firstn. reflexivity.
Qed.
Lemma u8_over x : 256 <= x < 512 -> u8 x = x - 256.
Proof. intros H. unfold u8. replace x with (x - 256 + 1 * 256) at 1 by lia. rewrite Z.mod_add by lia. apply Z.mod_small. lia. Qed.

Lemma wrapped d h post : d = header_bytes h ++ post -> header_in_range h -> post <> [] -> bytes d ->
  let n := zlen (h_name h) in let s := n + zlen (h_family h) in let t := s + zlen (h_author h) in
  (n = 226 -> header_Family d = Ok (part d 0 (zlen (h_family h)))) /\
  (226 < n -> header_Family d = Ok (part d (n - 226) (n - 226 + num 1 d (n - 227)))) /\
  (n < 226 -> s = 225 -> header_Author d = Ok (part d 0 (zlen (h_author h)))) /\
  (n < 226 -> 225 < s -> header_Author d = Ok (part d (s - 225) (s - 225 + num 1 d (s - 226)))) /\
  (s < 225 -> t = 223 \/ t = 224 -> header_About d = Panic) /\
  (s < 225 -> t = 479 -> header_About d = Panic) /\
  (s < 225 -> 224 < t < 479 -> t - 223 + num 2 d (t - 225) <= zlen d ->
    header_About d = Ok (part d (t - 223) (t - 223 + num 2 d (t - 225)))) /\
  (s < 225 -> 224 < t < 479 -> zlen d < t - 223 + num 2 d (t - 225) -> header_About d = Panic).
Proof.
  intros Hd (_ & _ & _ & _ & _ & _ & _ & R1 & R2 & R3 & R4) Hp HB n s t.
  pose proof (stored_whole (header_bytes h) post) as HW. rewrite <- Hd in HW.
  pose proof (header_laid_out _ _ HW) as L.
  assert (Hlen : zlen (header_bytes h) < zlen d) by (rewrite Hd, zlen_app; pose proof (nonempty_len _ Hp); lia).
  assert (Hh : zlen (header_bytes h) = 33 + zlen (h_name h) + zlen (h_family h) + zlen (h_author h) + zlen (h_about h)).
  { unfold header_bytes, short_string, long_string. rewrite ?zlen_app, ?zlen_cons, ?zlen_le_digits, ?zlen_date, ?zlen_app, ?zlen_le_digits. lia. }
  destruct (short_at _ _ _ (hl_name _ _ L)) as [Gn Sn]. destruct (short_at _ _ _ (hl_family _ _ L)) as [Gf Sf].
  destruct (short_at _ _ _ (hl_author _ _ L)) as [Ga Sa].
  pose proof (zlen_nonneg (h_name h)). pose proof (zlen_nonneg (h_family h)). pose proof (zlen_nonneg (h_author h)).
  pose proof (zlen_nonneg (h_about h)).
  assert (En : zlen (h_name h) = n) by reflexivity. assert (Es : n + zlen (h_family h) = s) by reflexivity. assert (Et : s + zlen (h_author h) = t) by reflexivity.
  clearbody n s t. rewrite En in *.
  assert (B1 : forall x, 0 <= num 1 d x < 256) by (intros x; pose proof (num_range 1 d x HB) as R; change (256 ^ Z.of_nat 1) with 256 in R; exact R).
  assert (B2 : forall x, 0 <= num 2 d x < 65536) by (intros x; pose proof (num_range 2 d x HB) as R; change (256 ^ Z.of_nat 2) with 65536 in R; exact R).
  repeat match goal with |- _ /\ _ => split end.
  - intros E. unfold header_Family. rewrite Gn. cbn [bind]. rewrite (u8_small (29 + n)), Gf by lia. cbn [bind]. rewrite u8_over by lia. rewrite E in *.
    change (30 + 226 - 256) with 0. apply string_part; lia.
  - intros E. unfold header_Family. rewrite Gn. cbn [bind]. rewrite !u8_over by lia. rewrite get_num by lia. cbn [bind].
    replace (29 + n - 256) with (n - 227) by lia. replace (30 + n - 256) with (n - 226) by lia. specialize (B1 (n - 227)). apply string_part; lia.
  - intros E1 E2. unfold header_Author. rewrite Gn. cbn [bind]. rewrite (u8_small (29 + n)), Gf by lia. cbn [bind]. rewrite (u8_small (30 + n + _)), Ga by lia. cbn [bind].
    rewrite u8_over by lia. replace (31 + n + zlen (h_family h) - 256) with 0 by lia. apply string_part; lia.
  - intros E1 E2. unfold header_Author. rewrite Gn. cbn [bind]. rewrite (u8_small (29 + n)), Gf by lia. cbn [bind]. rewrite !u8_over by lia. rewrite get_num by lia. cbn [bind].
    replace (30 + n + zlen (h_family h) - 256) with (s - 226) by lia. replace (31 + n + zlen (h_family h) - 256) with (s - 225) by lia. specialize (B1 (s - 226)). apply string_part; lia.
  - intros E1 E2. unfold header_About. rewrite Gn. cbn [bind]. rewrite (u8_small (29 + n)), Gf by lia. cbn [bind]. rewrite (u8_small (30 + n + _)), Ga by lia. cbn [bind]. cbv zeta.
    rewrite (u8_small (31 + _ + _ + _)) by lia. rewrite (u8_over (31 + _ + _ + _ + 2)) by lia. unfold zslice.
    match goal with |- context [?a <=? ?b - 256] => destruct (Z.leb_spec a (b - 256)) end; [lia|]. now rewrite andb_false_r.
  - intros E1 E2. unfold header_About. rewrite Gn. cbn [bind]. rewrite (u8_small (29 + n)), Gf by lia. cbn [bind]. rewrite (u8_small (30 + n + _)), Ga by lia. cbn [bind]. cbv zeta.
    rewrite (u8_over (31 + n + _ + _)) by lia. replace (31 + n + zlen (h_family h) + zlen (h_author h) - 256) with 254 by lia. reflexivity.
  - intros E1 E2 E3. unfold header_About. rewrite Gn. cbn [bind]. rewrite (u8_small (29 + n)), Gf by lia. cbn [bind]. rewrite (u8_small (30 + n + _)), Ga by lia. cbn [bind]. cbv zeta.
    rewrite (u8_over (31 + n + _ + _)) by lia. rewrite (u8_small (_ + 2)) by lia. replace (31 + n + zlen (h_family h) + zlen (h_author h) - 256) with (t - 225) by lia.
    rewrite <- (bind_assoc (zslice _ _ _) DecodeUint16LE). rewrite slice2 by (auto; lia). cbn [bind].
    rewrite (u8_over (33 + _ + _ + _)) by lia. replace (33 + n + zlen (h_family h) + zlen (h_author h) - 256) with (t - 223) by lia.
    specialize (B2 (t - 225)). apply string_part; lia.
  - intros E1 E2 E3. unfold header_About. rewrite Gn. cbn [bind]. rewrite (u8_small (29 + n)), Gf by lia. cbn [bind]. rewrite (u8_small (30 + n + _)), Ga by lia. cbn [bind]. cbv zeta.
    rewrite (u8_over (31 + n + _ + _)) by lia. rewrite (u8_small (_ + 2)) by lia. replace (31 + n + zlen (h_family h) + zlen (h_author h) - 256) with (t - 225) by lia.
    rewrite <- (bind_assoc (zslice _ _ _) DecodeUint16LE). rewrite slice2 by (auto; lia). cbn [bind].
    rewrite (u8_over (33 + _ + _ + _)) by lia. replace (33 + n + zlen (h_family h) + zlen (h_author h) - 256) with (t - 223) by lia.
    specialize (B2 (t - 225)). apply string_out; lia.
Qed.
