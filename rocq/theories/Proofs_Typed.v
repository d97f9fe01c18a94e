(** A check that the arguments of calls are typed, for concrete histories. *)
From Verif Require Import Base BaseFacts Spec_Helpers Model_Date Model_Mask Spec_Mask Model_Font Model_Builder Spec_Builder.

Definition inb (lo hi x : Z) : bool := (lo <=? x) && (x <? hi).
Definition byteb := inb 0 256.
Definition uint64b := inb 0 (2 ^ 64).
Definition int32b := inb (- 2 ^ 31) (2 ^ 31).
Definition dateb (d : Date) : bool := inb 0 65536 (Year d) && byteb (Month d) && byteb (Day d).
Definition colorb (c : rgba) : bool := let '(r, g, bl, a) := c in byteb r && byteb g && byteb bl && byteb a.
Definition alphab (m : alpha) : bool := let r := Rect m in
  (rx0 r <=? rx1 r) && (ry0 r <=? ry1 r) && (Stride m =? rx1 r - rx0 r) && (zlen (Pix m) =? (rx1 r - rx0 r) * (ry1 r - ry0 r)) && forallb byteb (Pix m) &&
  (MinInt <=? rx0 r) && (rx1 r <=? MaxInt) && (MinInt <=? ry0 r) && (ry1 r <=? MaxInt).
Definition typedb (op : bop) : bool :=
  match op with
  | OAddDye n a => forallb byteb n && forallb byteb a
  | OAddPalette n c => forallb byteb n && forallb colorb c
  | OAddSetting n o => forallb byteb n && forallb (forallb byteb) o
  | OAddSwitch s => forallb byteb s
  | OMap c u => int32b c && uint64b u
  | OMapGroup c f u => int32b c && byteb f && forallb uint64b u
  | OMapWithSwitchSingles c s u => int32b c && byteb s && forallb uint64b u
  | OMapWithSwitch c s u f => int32b c && byteb s && forallb (forallb uint64b) u && forallb byteb f
  | OSetFirstVerDate d | OSetMajorVerDate d | OSetMinorVerDate d | ORaiseMajorVersion d | ORaiseMinorVersion d => dateb d
  | OSetVersion x y d => inb 0 65536 x && inb 0 65536 y && dateb d
  | OSetName s | OSetFamily s | OSetAuthor s | OSetAbout s => forallb byteb s
  | OSetMetric _ v => byteb v
  | OSetVertLayoutUsed _ => true
  | OAddGlyph m r => alphab m && forallb uint64b r
  | OSetGlyphPlacement u p => uint64b u && byteb (gp_Advance p) && byteb (gp_TopAdvance p) && byteb (gp_BottomAdvance p) && byteb (gp_HorzCenter p)
  | OSetGlyphName u n => uint64b u && forallb byteb n
  | OSetKerningPair p n k => uint64b p && uint64b n && inb (-128) 128 k
  | OCreateGlyphSet r | OCreateRuneSet r => forallb uint64b r
  | ORemoveGlyphSet u | ORemoveRuneSet u => uint64b u
  | OAddGlyphSetRange u x y | ORemoveGlyphSetRange u x y => uint64b u && uint64b x && uint64b y
  | OAddGlyphSetListGlyph u g | ORemoveGlyphSetListGlyph u g => uint64b u && uint64b g
  | OAddRuneSetRange u x y | ORemoveRuneSetRange u x y => uint64b u && int32b x && int32b y
  | OAddRuneSetListRune u c | ORemoveRuneSetListRune u c => uint64b u && int32b c
  | OAddSimpleUtf8RewriteRule r s => int32b r && forallb int32b s
  | OAddGlyphRewriteRule h bo t i o => byteb h && byteb bo && byteb t && forallb uint64b i && forallb uint64b o
  | OBuild _ _ => false
  end.
Lemma inb_true lo hi x : inb lo hi x = true -> lo <= x < hi.
Proof. unfold inb. rewrite andb_true_iff, Z.leb_le, Z.ltb_lt. auto. Qed.
Lemma byteb_true x : byteb x = true -> byte x. Proof. apply inb_true. Qed.
Lemma uint64b_true x : uint64b x = true -> uint64 x. Proof. apply inb_true. Qed.
Lemma int32b_true x : int32b x = true -> int32 x. Proof. apply inb_true. Qed.
Lemma forallb_F {A} f (P : A -> Prop) l : (forall x, f x = true -> P x) -> forallb f l = true -> Forall P l.
Proof. intros H. rewrite forallb_forall, Forall_forall. auto. Qed.
Lemma bytesb_true l : forallb byteb l = true -> bytes l.
Proof. apply forallb_F, byteb_true. Qed.
Lemma dateb_true d : dateb d = true -> date_typed d.
Proof. unfold dateb, date_typed. rewrite !andb_true_iff. intros [[A B] C]. split; [exact (inb_true _ _ _ A)|]. split; apply byteb_true; assumption. Qed.
Lemma colorb_true c : colorb c = true -> color_typed c.
Proof. destruct c as [[[r g] b] a]. unfold colorb, color_typed. rewrite !andb_true_iff. intros [[[A B] C] D]. auto using byteb_true. Qed.
Lemma alphab_true m : alphab m = true -> alpha_ok m /\ int_rect (Rect m).
Proof.
  unfold alphab. cbv zeta. rewrite !andb_true_iff, !Z.leb_le, !Z.eqb_eq. unfold alpha_ok, int_rect.
  intros [[[[[[[[A1 A2] A3] A4] A5] A6] A7] A8] A9]. apply bytesb_true in A5. tauto.
Qed.
Lemma uint64s l : forallb uint64b l = true -> Forall uint64 l. Proof. apply forallb_F, uint64b_true. Qed.
Lemma int32s l : forallb int32b l = true -> Forall int32 l. Proof. apply forallb_F, int32b_true. Qed.
Lemma typed_ok op : typedb op = true -> op_typed op.
Proof.
  destruct op; cbn [typedb op_typed]; try (rewrite !andb_true_iff); intros H; try discriminate H; try exact I;
    repeat match goal with H : _ /\ _ |- _ => destruct H end;
    repeat match goal with
      | H : byteb _ = true |- _ => apply byteb_true in H
      | H : uint64b _ = true |- _ => apply uint64b_true in H
      | H : int32b _ = true |- _ => apply int32b_true in H
      | H : inb _ _ _ = true |- _ => apply inb_true in H
      | H : dateb _ = true |- _ => apply dateb_true in H
      | H : alphab _ = true |- _ => apply alphab_true in H; destruct H
      | H : forallb byteb _ = true |- _ => apply bytesb_true in H
      | H : forallb uint64b _ = true |- _ => apply uint64s in H
      | H : forallb int32b _ = true |- _ => apply int32s in H
      | H : forallb colorb _ = true |- _ => apply (forallb_F _ _ _ colorb_true) in H
      | H : forallb (forallb byteb) _ = true |- _ => apply (forallb_F _ _ _ bytesb_true) in H
      | H : forallb (forallb uint64b) _ = true |- _ => apply (forallb_F _ _ _ uint64s) in H
      end;
    repeat (split; [assumption|]); try assumption.
Qed.
Lemma all_typed ops : forallb typedb ops = true -> Forall op_typed ops.
Proof. apply forallb_F, typed_ok. Qed.
