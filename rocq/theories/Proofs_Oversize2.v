(** Data that was never sent, from a reader that returns at most 1024 bytes at a time. *)
From Verif Require Import Base BaseFacts Model_Helpers Spec_Helpers Proofs_Helpers Model_Font Model_Parse Spec_Parse
  Proofs_Parse Proofs_Parse2 Proofs_Parse3 Proofs_Parse4 Proofs_Parse5 Proofs_Parse6 Proofs_Parse7 Proofs_Parse8 Proofs_Parse9.
From Verif Require Import Spec_Reader Proofs_Reader Spec_Failing Proofs_Failing Spec_Sticky Proofs_Sticky Properties_Parse.
From Coq Require Import Lia.

Definition full_chunks (g : stream) : Prop := Forall (fun r => snd r = NoErr /\ fst r <> []) g.
Lemma take_loop : forall g b n j r fuel, full_chunks g -> n = zlen b + zlen (sent g) -> n <= MaxFontDataSize -> (length g < fuel)%nat ->
  readUpTo_loop fuel n (at_ b j (g ++ r)) = POk tt (at_ (b ++ sent g) n r).
Proof.
  induction g as [|[chunk err] g IH]; intros b n j r fuel U EN L LF.
  - change (sent []) with (@nil Z) in *. rewrite app_nil_r. change (zlen []) with 0 in EN. destruct fuel as [|fuel]; [cbn in LF; lia|].
    cbn [readUpTo_loop at_ Bytes app]. destruct (Z.ltb_spec (zlen b) n); [lia|]. reflexivity.
  - destruct (Forall_inv U) as [U1 U2]. cbn [fst snd] in U1, U2. subst err. apply Forall_inv_tail in U. change (sent ((chunk, NoErr) :: g)) with (chunk ++ sent g) in *.
    rewrite zlen_app in EN. pose proof (zlen_nonneg (sent g)). assert (PC : 0 < zlen chunk) by (destruct chunk; [congruence|rewrite zlen_cons; pose proof (zlen_nonneg chunk); lia]).
    destruct fuel as [|fuel]; [cbn in LF; lia|]. cbn [length] in LF.
    transitivity (pbind (readMore_loop 3) (fun _ => readUpTo_loop fuel n) (at_ b j (((chunk, NoErr) :: g) ++ r))).
    + cbn [readUpTo_loop at_ Bytes eof]. destruct (Z.ltb_spec (zlen b) n); [reflexivity|lia].
    + unfold pbind. cbn [app readMore_loop at_ input next_read Bytes Index eof]. destruct (Z.ltb_spec MaxFontDataSize (zlen b + zlen chunk)); [lia|]. rewrite andb_false_r.
      destruct (Z.ltb_spec 0 (zlen chunk)); [|lia]. change (mkP (b ++ chunk) j false (g ++ r)) with (at_ (b ++ chunk) j (g ++ r)).
      rewrite (IH (b ++ chunk) n j r fuel U ltac:(rewrite zlen_app; lia) L ltac:(lia)). now rewrite app_assoc.
Qed.
Lemma take g b n r : full_chunks g -> 0 < zlen (sent g) -> n = zlen b + zlen (sent g) -> n <= MaxFontDataSize ->
  readUpTo n (at_ b (zlen b) (g ++ r)) = POk tt (at_ (b ++ sent g) n r).
Proof.
  intros U P E L. unfold readUpTo. cbn [at_ Index input]. destruct (Z.leb_spec n (zlen b)); [lia|]. apply (take_loop g b n (zlen b) r); [exact U|exact E|exact L|].
  rewrite app_length. lia.
Qed.
Lemma read_form {A} n (d : list Z -> outcome A) b j i : read_with n d (at_ b j i) =
  match readUpTo (j + n) (at_ b j i) with POk _ s => on_bytes (fun b => do t <- zfrom b j; d t) s | PErr e s => PErr e s | PPanic => PPanic | PHang => PHang end.
Proof. reflexivity. Qed.
Lemma read_chunk {A} n (d : list Z -> outcome A) c b r : zlen c = n -> 0 < n -> zlen b + n <= MaxFontDataSize ->
  read_with n d (at_ b (zlen b) ((c, NoErr) :: r)) = match d c with
    | Ok v => POk v (at_ (b ++ c) (zlen (b ++ c)) r) | Err e => PErr e (at_ (b ++ c) (zlen (b ++ c)) r) | Panic => PPanic | Hang => PHang end.
Proof.
  intros E P L. rewrite read_form.
  change ((c, NoErr) :: r) with ([(c, NoErr)] ++ r).
  rewrite (take [(c, NoErr)] b (zlen b + n) r); unfold sent; cbn [map concat fst]; rewrite ?app_nil_r; try lia.
  - unfold on_bytes. cbn [at_ Bytes]. rewrite (zfrom_app b c _ eq_refl). cbn [bind]. rewrite zlen_app, E. destruct (d c); reflexivity.
  - apply Forall_cons; [|apply Forall_nil]. split; [reflexivity|]. cbn. intros X. rewrite X in E. change (zlen []) with 0 in E. lia.
Qed.
Lemma advance_chunks g b r n : full_chunks g -> zlen (sent g) = n -> 0 < n -> zlen b + n <= MaxFontDataSize ->
  AdvanceBytes n (at_ b (zlen b) (g ++ r)) = POk tt (at_ (b ++ sent g) (zlen (b ++ sent g)) r).
Proof.
  intros U E P L. rewrite advance_form. destruct (Z.eqb_spec n 0); [lia|]. destruct (Z.ltb_spec n 0); [lia|]. rewrite zlen_app, E.
  apply take; [exact U|lia|lia|lia].
Qed.
Lemma rules_chunks maxSize m1 m2 b c1 g1 c2 g2 r num len : zlen c1 = 2 -> DecodeUint16LE c1 = Ok num -> 1 < num -> full_chunks g1 -> zlen (sent g1) = (num - 1) * 3 ->
  zlen c2 = 3 -> DecodeUint24LE c2 = Ok len -> num * 8 <= len <= num * maxSize -> full_chunks g2 -> zlen (sent g2) = len ->
  zlen b + 2 + (num - 1) * 3 + 3 + len <= MaxFontDataSize ->
  let b' := b ++ c1 ++ sent g1 ++ c2 ++ sent g2 in
  parse_rules maxSize m1 m2 (at_ b (zlen b) ((c1, NoErr) :: g1 ++ (c2, NoErr) :: g2 ++ r)) = POk (zlen b) (at_ b' (zlen b') r).
Proof.
  intros L1 D1 N U1 E1 L2 D2 B U2 E2 L b'. unfold parse_rules. unfold pbind at 1. cbn [get_index at_ Index]. unfold pbind at 1, ReadUint16.
  change (mkP b (zlen b) false ((c1, NoErr) :: g1 ++ (c2, NoErr) :: g2 ++ r)) with (at_ b (zlen b) ((c1, NoErr) :: g1 ++ (c2, NoErr) :: g2 ++ r)).
  rewrite read_chunk by (try assumption; lia). rewrite D1. destruct (Z.gtb_spec num 0); [|lia].
  unfold pbind at 1. rewrite (advance_chunks g1) by (try assumption; rewrite ?zlen_app; lia).
  unfold pbind at 1, ignore_err, ReadUint24. rewrite read_chunk by (try assumption; rewrite ?zlen_app; lia). rewrite D2.
  unfold pbind, when. destruct (Z.ltb_spec len (num * 8)); [lia|]. destruct (Z.gtb_spec len (num * maxSize)); [lia|]. cbn [pret].
  rewrite (advance_chunks g2) by (try assumption; rewrite ?zlen_app; lia). unfold b'. rewrite <- !app_assoc. reflexivity.
Qed.

(** the sections before the rewrite rules *)
Definition parse_front : action ((Z -> Z -> Z -> Z -> Font) * Z) :=
  run _ <- parse_header;
  run om <- parse_metrics;
  run ' (od, used) <- parse_dyes;
  run op <- parse_palettes used;
  run _ <- on_bytes (fun b => color_Validate b od op);
  run ' (ogn, numGlyphs, vert) <- parse_glyph_names om;
  run ogm <- parse_glyph_masks numGlyphs vert;
  run _ <- on_bytes (fun b => glyphs_Validate b om ogn);
  run ow <- parse_words;
  run ' (osn, osd, numSettings) <- parse_settings;
  run osw <- parse_switches numSettings;
  run omp <- parse_mapping;
  run oc <- parse_conditions;
  run ous <- parse_utf8_sets;
  run ogs <- parse_glyph_sets;
  pret (fun our ogr => mkFont [] om od op ogn ogm ow osn osd osw omp oc ous ogs our ogr, numGlyphs).
Lemma prefix_split s : parse_prefix s =
  (run ' (mk, numGlyphs) <- parse_front; run our <- parse_utf8_rules; run ogr <- parse_glyph_rules; pret (mk our ogr, numGlyphs)) s.
Proof.
  unfold parse_prefix, parse_front, pbind.
  repeat (match goal with |- (match ?x with POk _ _ => _ | PErr _ _ => _ | PPanic => _ | PHang => _ end) = _ => destruct x as [?a ?s|?e ?s| |] end;
    [|reflexivity..]; repeat match goal with a : (_ * _)%type |- _ => destruct a end).
  reflexivity.
Qed.
Definition before_rules : list Z := firstn 65 tiny_font.
Lemma front_tiny : exists mk, forall r, parse_front (initial ((before_rules, NoErr) :: r)) = POk (mk, 1) (mkP before_rules 65 false r).
Proof. eexists. intros r. vm_compute. reflexivity. Qed.

(** just 32 MiB before the kernings, which are six bytes of kerning counters *)
Definition len2 : Z := 16629692.
Definition len2_bytes : list Z := [len2 mod 256; len2 / 256 mod 256; len2 / 65536].
Definition long_reader (g1 g2 g3 g4 : stream) (c : list Z) : stream :=
  (before_rules, NoErr) :: ([0; 64], NoErr) :: g1 ++ ([255; 255; 255], NoErr) :: g2 ++
  ([0; 128], NoErr) :: g3 ++ (len2_bytes, NoErr) :: g4 ++ [(c, NoErr)].
Definition long_data (g1 g2 g3 g4 : stream) : list Z :=
  (before_rules ++ [0; 64] ++ sent g1 ++ [255; 255; 255] ++ sent g2) ++ [0; 128] ++ sent g3 ++ len2_bytes ++ sent g4.
Definition long_chunks (g1 g2 g3 g4 : stream) : Prop :=
  (full_chunks g1 /\ zlen (sent g1) = 49149) /\ (full_chunks g2 /\ zlen (sent g2) = 16777215) /\
  (full_chunks g3 /\ zlen (sent g3) = 98301) /\ (full_chunks g4 /\ zlen (sent g4) = len2).
Lemma long_length g1 g2 g3 g4 : long_chunks g1 g2 g3 g4 -> zlen (long_data g1 g2 g3 g4) = 33554432.
Proof.
  intros ((_ & E1) & (_ & E2) & (_ & E3) & (_ & E4)). unfold long_data. rewrite !zlen_app, E1, E2, E3, E4. reflexivity.
Qed.
Lemma long_prefix g1 g2 g3 g4 c : long_chunks g1 g2 g3 g4 -> exists mk, parse_prefix (initial (long_reader g1 g2 g3 g4 c)) = POk (mk, 1) (at_ (long_data g1 g2 g3 g4) 33554432 [(c, NoErr)]).
Proof.
  intros H. pose proof (long_length _ _ _ _ H) as LP. destruct H as ((U1 & E1) & (U2 & E2) & (U3 & E3) & (U4 & E4)). destruct front_tiny as (mk & F).
  eexists. rewrite prefix_split. unfold pbind at 1, long_reader. rewrite F. change (mkP before_rules 65 false) with (at_ before_rules (zlen before_rules)).
  unfold pbind at 1, parse_utf8_rules. rewrite (rules_chunks 1026 _ _ before_rules [0; 64] g1 [255; 255; 255] g2 _ 16384 16777215);
    [|reflexivity|reflexivity|lia|exact U1|rewrite E1; reflexivity|reflexivity|reflexivity|lia|exact U2|exact E2|change (zlen before_rules) with 65; unfold MaxFontDataSize; lia].
  unfold pbind at 1, parse_glyph_rules. rewrite (rules_chunks 514 _ _ _ [0; 128] g3 len2_bytes g4 _ 32768 len2);
    [|reflexivity|reflexivity|lia|exact U3|rewrite E3; reflexivity|reflexivity|reflexivity|unfold len2; lia|exact U4|exact E4
     |rewrite !zlen_app, E1, E2; change (zlen before_rules) with 65; change (zlen [0; 64]) with 2; change (zlen [255; 255; 255]) with 3; unfold MaxFontDataSize, len2; lia].
  fold (long_data g1 g2 g3 g4). rewrite LP. reflexivity.
Qed.
Lemma long_accepted g1 g2 g3 g4 x y z : long_chunks g1 g2 g3 g4 -> exists f, parse_payload (long_reader g1 g2 g3 g4 [x; y; z; 0; 0; 0]) = Ok f /\
  Data f = long_data g1 g2 g3 g4 ++ [0; 0; 0; 0; 0; 0].
Proof.
  intros H. pose proof (long_length _ _ _ _ H) as LP. destruct (long_prefix g1 g2 g3 g4 [x; y; z; 0; 0; 0] H) as (mk & PF).
  remember (long_data g1 g2 g3 g4) as P eqn:EP. clear EP. exists (set_Data (mk 33554432 33554432) (P ++ [0; 0; 0; 0; 0; 0])).
  assert (E1 : forall n msg, parse_kernings n msg (at_ P 33554432 [([x; y; z; 0; 0; 0], NoErr)]) = POk 33554432 (at_ (P ++ [0; 0; 0; 0; 0; 0]) 33554432 [])).
  { intros n msg. rewrite kernings_form, read24_form. unfold readUpTo. cbn [at_ Index input length]. change (33554432 + 3 <=? 33554432) with false. cbv iota.
    cbn [readUpTo_loop at_ Bytes eof]. rewrite LP. change (33554432 <? 33554432 + 3) with true. cbv iota. unfold pbind, readMore. cbn [readMore_loop at_ input next_read Bytes Index eof].
    rewrite LP. reflexivity. }
  assert (E2 : forall n msg, parse_kernings n msg (at_ (P ++ [0; 0; 0; 0; 0; 0]) 33554432 []) = POk 33554432 (at_ (P ++ [0; 0; 0; 0; 0; 0]) 33554435 [])).
  { intros n msg. rewrite kernings_form, read24_form. unfold readUpTo. cbn [at_ Index input length]. change (33554432 + 3 <=? 33554432) with false. cbv iota.
    cbn [readUpTo_loop at_ Bytes eof]. rewrite zlen_app, LP. change (33554432 + zlen [0; 0; 0; 0; 0; 0] <? 33554432 + 3) with false. cbv iota.
    unfold on_bytes. cbn [Bytes]. rewrite (zfrom_app P _ _ (eq_sym LP)). reflexivity. }
  split; [|reflexivity]. rewrite parse_payload_body, body_split, PF, tail_form, E1, E2. reflexivity.
Qed.
Lemma long_payload g1 g2 g3 g4 c : long_chunks g1 g2 g3 g4 -> payload (long_reader g1 g2 g3 g4 c) = long_data g1 g2 g3 g4 ++ c.
Proof.
  intros ((U1 & _) & (U2 & _) & (U3 & _) & (U4 & _)).
  assert (X : forall g r, full_chunks g -> payload (g ++ r) = sent g ++ payload r).
  { induction g as [|[chunk err] g IH]; intros r U; [reflexivity|]. destruct (Forall_inv U) as [V _]. cbn [snd] in V. subst err. apply Forall_inv_tail in U.
    change (sent ((chunk, NoErr) :: g)) with (chunk ++ sent g). cbn [app payload]. rewrite (IH r U). now rewrite app_assoc. }
  unfold long_reader, long_data. cbn [payload]. rewrite (X g1) by assumption. cbn [payload]. rewrite (X g2) by assumption. cbn [payload]. rewrite (X g3) by assumption. cbn [payload].
  rewrite (X g4) by assumption. cbn [payload]. rewrite app_nil_r. now rewrite <- !app_assoc.
Qed.

(** a reader that returns single bytes *)
Definition ones (n : nat) : stream := repeat ([0], NoErr) n.
Lemma ones_sent : forall k, zlen (sent (ones k)) = Z.of_nat k.
Proof.
  induction k as [|k IH]; [reflexivity|]. change (sent (ones (S k))) with (0 :: sent (ones k)). rewrite zlen_cons, IH. lia.
Qed.
Lemma ones_full n : full_chunks (ones n).
Proof. apply Forall_forall. intros x I. apply repeat_spec in I. subst x. split; [reflexivity|discriminate]. Qed.
Lemma ones_small n : Forall (fun r => bytes (fst r) /\ zlen (fst r) <= 1024) (ones n).
Proof. apply Forall_forall. intros x I. apply repeat_spec in I. subst x. split; [apply Forall_cons; [split; lia|apply Forall_nil]|vm_compute; discriminate]. Qed.
Lemma some_ones k : 0 <= k -> exists g, full_chunks g /\ zlen (sent g) = k /\ Forall (fun r => bytes (fst r) /\ zlen (fst r) <= 1024) g.
Proof. intros H. exists (ones (Z.to_nat k)). split; [apply ones_full|]. split; [rewrite ones_sent; lia|apply ones_small]. Qed.
