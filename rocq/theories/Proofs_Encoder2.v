(** The fragment search of mask/encoder.go covers the mask exactly. *)
From Verif Require Import Base BaseFacts Model_Mask Spec_Mask Proofs_Raster Proofs_Encoder.

Lemma painted_ext0 m m' C C' v : painted m m' C v ->
  (forall a b, inside (Rect m) a b -> C a b = C' a b) -> painted m m' C' v.
Proof.
  intros (H1 & H2 & H3) HC. unfold painted. splits; auto. intros a b. rewrite H3.
  destruct (insideb (Rect m) a b) eqn:E; [|reflexivity]. cbn [andb]. rewrite HC; [reflexivity|]. apply insideb_spec. exact E.
Qed.

Lemma clear_rows_spec w : forall n im x y, alpha_ok im ->
  (forall i j, 0 <= i < Z.of_nat w -> 0 <= j < Z.of_nat n -> inside (Rect im) (x + i) (y + j)) ->
  exists pix, clear_rows n w (Pix im) (x - rx0 (Rect im)) (y - ry0 (Rect im)) (Stride im) = Ok pix /\
    painted im (mkAlpha pix (Stride im) (Rect im))
      (fun a b => (x <=? a) && (a <? x + Z.of_nat w) && (y <=? b) && (b <? y + Z.of_nat n)) 0.
Proof.
  induction n as [|n IH]; intros im x y Him HA; cbn [clear_rows].
  - exists (Pix im). split; [reflexivity|]. replace (mkAlpha (Pix im) (Stride im) (Rect im)) with im by (destruct im; reflexivity).
    apply painted_none; [exact Him|]. intros; lia.
  - destruct (clear_row_spec 1 0 ltac:(lia) ltac:(lia) w im x y Him) as (p & Ep & P1).
    { intros j Hj. specialize (HA j 0 Hj ltac:(lia)). replace (x + j * 1) with (x + j) by lia. replace (y + j * 0) with (y + 0) by lia. exact HA. }
    unfold getPixelIndex in Ep. replace (0 * Stride im + 1) with 1 in Ep by lia. rewrite Ep. cbn [bind].
    destruct (IH (mkAlpha p (Stride im) (Rect im)) x (y + 1)) as (pix & E2 & P2).
    + apply P1.
    + cbn [Rect]. intros i j Hi Hj. specialize (HA i (j + 1) Hi ltac:(lia)). replace (y + 1 + j) with (y + (j + 1)) by lia. exact HA.
    + exists pix. cbn [Pix Stride Rect] in E2, P2. replace (y - ry0 (Rect im) + 1) with (y + 1 - ry0 (Rect im)) by lia.
      split; [exact E2|]. eapply painted_trans; [exact P1|exact P2|]. intros a b. cbn beta.
      apply Bool.eq_true_iff_eq. rewrite orb_true_iff, !andb_true_iff, !Z.leb_le, !Z.ltb_lt, !Z.eqb_eq. lia.
Qed.

Lemma clear_from_spec im x y f : alpha_ok im -> frag_good im x y f ->
  exists im', ClearFrom f im = Ok im' /\ painted im im' (cells f) 0.
Proof.
  intros Him ((S1 & S2 & S3) & Hc & HA). unfold ClearFrom. cbv zeta.
  destruct (fdiag f) eqn:D.
  - destruct (clear_rows_spec (Z.to_nat (fx1 f + 1 - fx0 f)) (Z.to_nat (fy1 f + 1 - fy0 f)) im (fx0 f) (fy0 f) Him) as (pix & E & P).
    { intros i j Hi Hj. apply HA. unfold cells. rewrite D. lia. }
    rewrite E. cbn [bind]. eexists. split; [reflexivity|]. eapply painted_ext; [exact P|]. intros a b. cbn beta.
    unfold cells. rewrite D. apply Bool.eq_true_iff_eq. lia.
  - destruct (clear_row_spec (-1) 1 ltac:(lia) ltac:(lia) (Z.to_nat (fx1 f + 1 - fx0 f)) im (fx1 f) (fy0 f) Him) as (pix & E & P).
    { intros j Hj. apply HA. unfold cells. rewrite D. lia. }
    unfold getPixelIndex in E. replace (1 * Stride im + -1) with (Stride im - 1) in E by lia.
    rewrite E. cbn [bind]. eexists. split; [reflexivity|]. eapply painted_ext; [exact P|]. intros a b. cbn beta.
    unfold cells. rewrite D. apply Bool.eq_true_iff_eq. lia.
  - destruct (clear_row_spec 1 1 ltac:(lia) ltac:(lia) (Z.to_nat (fx1 f + 1 - fx0 f)) im (fx0 f) (fy0 f) Him) as (pix & E & P).
    { intros j Hj. apply HA. unfold cells. rewrite D. lia. }
    unfold getPixelIndex in E. replace (1 * Stride im + 1) with (Stride im + 1) in E by lia.
    rewrite E. cbn [bind]. eexists. split; [reflexivity|]. eapply painted_ext; [exact P|]. intros a b. cbn beta.
    unfold cells. rewrite D. apply Bool.eq_true_iff_eq. lia.
Qed.

Lemma point_good im x y v : inside (Rect im) x y -> pixel im x y = v -> frag_good im x y (point x y v).
Proof.
  intros Hin Hp. unfold frag_good, shape_ok, cells, point. cbn [fx0 fy0 fx1 fy1 fvalue fdiag]. splits; try lia; try congruence.
  intros a b Hab. replace a with x by lia. replace b with y by lia. auto.
Qed.

(** *** The invariant of both passes *)

(** [o]: the original image *)
Definition frag_fits (o : alpha) (f : fragment) : Prop :=
  shape_ok f /\ (exists a b, cells f a b = true) /\ fvalue f <> 0 /\ byte (fvalue f) /\
  forall a b, cells f a b = true -> inside (Rect o) a b /\ pixel o a b = fvalue f.

Definition covered (fs : list fragment) (a b : Z) : Prop := exists f, In f fs /\ cells f a b = true.

Definition sinv (o : alpha) (s : search) : Prop :=
  alpha_ok (sim s) /\ Rect (sim s) = Rect o /\ Forall (frag_fits o) (sfrags s) /\
  forall a b, pixel (sim s) a b = pixel o a b \/ pixel (sim s) a b = 0 /\ covered (sfrags s) a b.

(** pixels are only ever cleared *)
Definition shrinks (m m' : alpha) : Prop := forall a b, pixel m' a b = pixel m a b \/ pixel m' a b = 0.

Lemma shrinks_refl m : shrinks m m. Proof. intros a b. auto. Qed.
Lemma shrinks_trans m1 m2 m3 : shrinks m1 m2 -> shrinks m2 m3 -> shrinks m1 m3.
Proof. intros H G a b. destruct (G a b) as [->|]; auto. Qed.
Lemma shrinks_0 m m' a b : shrinks m m' -> pixel m a b = 0 -> pixel m' a b = 0.
Proof. intros H E. destruct (H a b); congruence. Qed.

Lemma take_fragment_spec o s f x y : sinv o s -> frag_good (sim s) x y f -> fvalue f <> 0 ->
  exists s', take_fragment s f = Ok s' /\ sinv o s' /\ sbox s' = sbox s /\ shrinks (sim s) (sim s') /\
    pixel (sim s') x y = 0.
Proof.
  intros (A & R & F & P) G Hv. destruct (clear_from_spec (sim s) x y f A G) as (im' & E & A' & R' & P').
  unfold take_fragment. rewrite E. cbn [bind]. eexists. split; [reflexivity|].
  destruct G as (G1 & G2 & G3).
  assert (ORIG : forall a b, cells f a b = true -> pixel o a b = fvalue f).
  { intros a b Hab. apply G3 in Hab as (_ & Hp). destruct (P a b) as [<-|(H0 & _)]; congruence. }
  splits.
  - unfold sinv. cbn [sim sfrags]. splits; auto; [congruence| |].
    + apply Forall_app. split; [exact F|]. constructor; [|constructor]. unfold frag_fits. splits; auto.
      * eauto.
      * rewrite <- (proj2 (G3 x y G2)). apply pixel_byte. exact A.
      * intros a b Hab. split; [rewrite <- R; apply (G3 a b Hab)|auto].
    + intros a b. rewrite P'. destruct (insideb (Rect (sim s)) a b && cells f a b) eqn:C.
      * right. split; [reflexivity|]. exists f. split; [apply in_or_app; right; left; reflexivity|]. apply andb_true_iff in C. apply C.
      * destruct (P a b) as [H|(H & f' & Hf & Hc)]; [left; exact H|]. right. split; [exact H|].
        exists f'. split; [apply in_or_app; auto|exact Hc].
  - reflexivity.
  - intros a b. cbn [sim]. rewrite P'. destruct (insideb (Rect (sim s)) a b && cells f a b); auto.
  - cbn [sim]. rewrite P', G2. destruct (G3 x y G2) as (Hin & _). apply insideb_spec in Hin. rewrite Hin. reflexivity.
Qed.

(** *** First pass *)

Definition in_box (c : crect) (a b : Z) : Prop := minX c <= a <= maxX c /\ minY c <= b <= maxY c.
Definition box_ok (r : rect) (c : crect) : Prop :=
  rx0 r <= minX c <= rx1 r /\ ry0 r <= minY c <= ry1 r /\ rx0 r <= maxX c <= rx1 r /\ ry0 r <= maxY c <= ry1 r /\
  (c = mkCR (rx1 r) (rx0 r) (ry1 r) (ry0 r) \/
   minX c <= maxX c /\ maxX c < rx1 r /\ minY c <= maxY c /\ maxY c < ry1 r).

Definition box_grows (c c' : crect) : Prop := forall a b, in_box c a b -> in_box c' a b.

Lemma pass1_pixel_spec o s x y : sinv o s -> box_ok (Rect o) (sbox s) -> inside (Rect o) x y ->
  exists s', pass1_pixel s x y (getPixelIndex (sim s) x y) = Ok s' /\ sinv o s' /\ box_ok (Rect o) (sbox s') /\
    shrinks (sim s) (sim s') /\ box_grows (sbox s) (sbox s') /\
    (pixel (sim s') x y = 0 \/ in_box (sbox s') x y).
Proof.
  intros I B Hin. assert (I' := I). destruct I' as (A & R & F & P). assert (Hin' := Hin). rewrite <- R in Hin'.
  unfold pass1_pixel. rewrite gpi_get by assumption. cbn [bind].
  destruct (Z.eqb_spec (pixel (sim s) x y) 0) as [E0|E0].
  { exists s. splits; auto using shrinks_refl. intros a b H; exact H. }
  rewrite countNeighbours_spec by assumption. cbn [bind].
  assert (TAKE : forall f, frag_good (sim s) x y f -> fvalue f = pixel (sim s) x y ->
    exists s', take_fragment s f = Ok s' /\ sinv o s' /\ box_ok (Rect o) (sbox s') /\
    shrinks (sim s) (sim s') /\ box_grows (sbox s) (sbox s') /\ (pixel (sim s') x y = 0 \/ in_box (sbox s') x y)).
  { intros f G Ev. destruct (take_fragment_spec o s f x y I G ltac:(congruence)) as (s' & E & I' & Eb & Sh & Z0).
    exists s'. rewrite Eb. splits; auto. intros a b H; exact H. }
  assert (NB : 0 <= nbs (sim s) x y (pixel (sim s) x y) <= 4).
  { unfold nbs, b2z. repeat match goal with |- context [if ?c then _ else _] => destruct c end; lia. }
  destruct (Z.eqb_spec (nbs (sim s) x y (pixel (sim s) x y)) 0) as [N0|N0].
  - destruct (findDiagonal_spec (sim s) x y (pixel (sim s) x y)) as [E|(f & E & G & Ev)]; auto.
    + rewrite E. cbn [bind]. apply TAKE; [apply point_good; auto|reflexivity].
    + rewrite E. cbn [bind]. apply TAKE; auto.
  - destruct (Z.eqb_spec (nbs (sim s) x y (pixel (sim s) x y)) 1) as [N1|N1].
    + destruct (findLine_spec (sim s) x y (pixel (sim s) x y)) as (f & E & G & Ev); auto.
      rewrite E. cbn [bind]. apply TAKE; auto.
    + replace ((nbs (sim s) x y (pixel (sim s) x y) =? 2) || (nbs (sim s) x y (pixel (sim s) x y) =? 3) ||
        (nbs (sim s) x y (pixel (sim s) x y) =? 4)) with true by lia.
      cbv zeta. eexists. split; [reflexivity|]. cbn [sim sfrags sbox].
      set (b1 := if x >? maxX (sbox s) then mkCR (minX (sbox s)) x (minY (sbox s)) (maxY (sbox s)) else sbox s).
      set (b2 := if x <? minX b1 then mkCR x (maxX b1) (minY b1) (maxY b1) else b1).
      set (b3 := if y <? minY b2 then mkCR (minX b2) (maxX b2) y (maxY b2) else b2).
      set (b4 := if y >? maxY b3 then mkCR (minX b3) (maxX b3) (minY b3) y else b3).
      assert (X : minX b4 = Z.min x (minX (sbox s)) /\ maxX b4 = Z.max x (maxX (sbox s)) /\
                  minY b4 = Z.min y (minY (sbox s)) /\ maxY b4 = Z.max y (maxY (sbox s))).
      { unfold b4, b3, b2, b1. 
        repeat match goal with |- context [if ?c then _ else _] => destruct c eqn:? end; cbn [minX maxX minY maxY] in *; lia. }
      destruct X as (X1 & X2 & X3 & X4). clearbody b4. clear b1 b2 b3.
      unfold inside in *. splits.
      * unfold sinv. cbn [sim sfrags]. auto.
      * destruct B as (B1 & B2 & B3 & B4 & B5). unfold box_ok. splits; try lia. right.
        destruct B5 as [B5|B5]; [rewrite B5 in *; cbn [minX maxX minY maxY] in *|]; lia.
      * apply shrinks_refl.
      * intros a b H. unfold in_box in *. lia.
      * right. unfold in_box. lia.
Qed.

Definition done1 (s : search) (a b : Z) : Prop := pixel (sim s) a b = 0 \/ in_box (sbox s) a b.

Lemma done1_mono s s' a b : shrinks (sim s) (sim s') -> box_grows (sbox s) (sbox s') -> done1 s a b -> done1 s' a b.
Proof. intros H G [D|D]; [left; eapply shrinks_0; eauto|right; auto]. Qed.

Lemma gpi_rect m m' a b : alpha_ok m -> alpha_ok m' -> Rect m = Rect m' -> getPixelIndex m a b = getPixelIndex m' a b.
Proof. intros (_ & _ & H & _) (_ & _ & H' & _) E. unfold getPixelIndex. rewrite H, H', E. reflexivity. Qed.

Lemma pass1_row_spec o y : ry0 (Rect o) <= y < ry1 (Rect o) ->
  forall n s x, sinv o s -> box_ok (Rect o) (sbox s) -> rx0 (Rect o) <= x -> x + Z.of_nat n = rx1 (Rect o) ->
  exists s', pass1_row n s x y (getPixelIndex (sim s) x y) = Ok (s', getPixelIndex (sim s) x y + Z.of_nat n) /\
    sinv o s' /\ box_ok (Rect o) (sbox s') /\
    shrinks (sim s) (sim s') /\ box_grows (sbox s) (sbox s') /\
    forall a, x <= a < rx1 (Rect o) -> done1 s' a y.
Proof.
  intros Hy. induction n as [|n IH]; intros s x I B Hx Hn; cbn [pass1_row].
  - exists s. splits; auto using shrinks_refl. + okpair. + intros a b H; exact H. + intros; lia.
  - destruct (pass1_pixel_spec o s x y I B) as (s1 & E1 & I1 & B1 & Sh1 & Gr1 & D1); [unfold inside; lia|].
    rewrite E1. cbn [bind].
    destruct (IH s1 (x + 1) I1 B1 ltac:(lia) ltac:(lia)) as (s2 & E2 & I2 & B2 & Sh2 & Gr2 & D2).
    assert (GP : getPixelIndex (sim s) x y + 1 = getPixelIndex (sim s1) (x + 1) y).
    { rewrite (gpi_rect (sim s1) (sim s)); [unfold getPixelIndex; lia|apply I1|apply I|].
      destruct I1 as (_ & -> & _), I as (_ & -> & _). reflexivity. }
    rewrite GP, E2. exists s2. splits; auto.
    + rewrite <- GP. okpair.
    + eapply shrinks_trans; eauto.
    + intros a b H. auto.
    + intros a Ha. destruct (Z.eq_dec a x) as [->|]; [|apply D2; lia]. eapply done1_mono; eauto.
Qed.

Lemma pass1_spec o : alpha_ok o -> rx0 (Rect o) < rx1 (Rect o) ->
  forall fuel s y, sinv o s -> box_ok (Rect o) (sbox s) -> ry0 (Rect o) <= y <= ry1 (Rect o) ->
  ry1 (Rect o) - y < Z.of_nat fuel ->
  exists s', pass1 fuel s y (getPixelIndex (sim s) (rx0 (Rect o)) y) = Ok s' /\
    sinv o s' /\ box_ok (Rect o) (sbox s') /\
    shrinks (sim s) (sim s') /\ box_grows (sbox s) (sbox s') /\
    forall a b, rx0 (Rect o) <= a < rx1 (Rect o) -> y <= b < ry1 (Rect o) -> done1 s' a b.
Proof.
  intros Ao Hw. induction fuel as [|fuel IH]; intros s y I B Hy Hf; [lia|]. cbn [pass1].
  assert (I' := I). destruct I' as ((A1 & A2 & A3 & A4 & A5) & R & F & P).
  assert (EI : getPixelIndex (sim s) (rx0 (Rect o)) y = (y - ry0 (Rect o)) * (rx1 (Rect o) - rx0 (Rect o))).
  { unfold getPixelIndex. rewrite A3, R. lia. }
  destruct (Z.ltb_spec (getPixelIndex (sim s) (rx0 (Rect o)) y) (zlen (Pix (sim s)))) as [L|L].
  - rewrite A4, R, EI in L. assert (Hy' : y < ry1 (Rect o)) by nia.
    cbv zeta. rewrite R.
    destruct (pass1_row_spec o y ltac:(lia) (Z.to_nat (rx1 (Rect o) - rx0 (Rect o))) s (rx0 (Rect o)) I B ltac:(lia) ltac:(lia))
      as (s1 & E1 & I1 & B1 & Sh1 & Gr1 & D1).
    rewrite E1. cbn [bind].
    assert (GP : getPixelIndex (sim s) (rx0 (Rect o)) y + Z.of_nat (Z.to_nat (rx1 (Rect o) - rx0 (Rect o))) =
                 getPixelIndex (sim s1) (rx0 (Rect o)) (y + 1)).
    { rewrite (gpi_rect (sim s1) (sim s)); [unfold getPixelIndex; rewrite A3, R; lia|apply I1|apply I|].
      destruct I1 as (_ & -> & _). congruence. }
    rewrite GP.
    destruct (IH s1 (y + 1) I1 B1 ltac:(lia) ltac:(lia)) as (s2 & E2 & I2 & B2 & Sh2 & Gr2 & D2).
    rewrite E2. exists s2. splits; auto.
    + eapply shrinks_trans; eauto.
    + intros a b H; auto.
    + intros a b Ha Hb. destruct (Z.eq_dec b y) as [->|]; [|apply D2; lia]. eapply done1_mono; eauto. 
  - rewrite A4, R, EI in L. assert (y = ry1 (Rect o)) by nia.
    exists s. splits; auto using shrinks_refl. + intros a b H1; exact H1. + intros; lia.
Qed.

(** *** Second pass *)

Lemma pass2_pixel_spec o s x y : sinv o s -> inside (Rect o) x y ->
  exists s', pass2_pixel s x y (getPixelIndex (sim s) x y) = Ok s' /\ sinv o s' /\
    shrinks (sim s) (sim s') /\ pixel (sim s') x y = 0.
Proof.
  intros I Hin. assert (I' := I). destruct I' as (A & R & F & P). assert (Hin' := Hin). rewrite <- R in Hin'.
  unfold pass2_pixel. rewrite gpi_get by assumption. cbn [bind].
  destruct (Z.eqb_spec (pixel (sim s) x y) 0) as [E0|E0].
  { exists s. splits; auto using shrinks_refl. }
  rewrite countNeighbours_spec by assumption. cbn [bind].
  assert (TAKE : forall f, frag_good (sim s) x y f -> fvalue f = pixel (sim s) x y ->
    exists s', take_fragment s f = Ok s' /\ sinv o s' /\ shrinks (sim s) (sim s') /\ pixel (sim s') x y = 0).
  { intros f G Ev. destruct (take_fragment_spec o s f x y I G ltac:(congruence)) as (s' & E & I' & Eb & Sh & Z0). eauto. }
  destruct (nbs (sim s) x y (pixel (sim s) x y) =? 0).
  - apply TAKE; [apply point_good; auto|reflexivity].
  - destruct (findRect_spec (sim s) x y (pixel (sim s) x y)) as (f & E & G & Ev); auto.
    rewrite E. cbn [bind]. apply TAKE; auto.
Qed.

Lemma pass2_row_spec o y : ry0 (Rect o) <= y < ry1 (Rect o) ->
  forall n s x, sinv o s -> rx0 (Rect o) <= x -> x + Z.of_nat n <= rx1 (Rect o) ->
  exists s', pass2_row n s x y (getPixelIndex (sim s) x y) = Ok s' /\ sinv o s' /\
    shrinks (sim s) (sim s') /\ forall a, x <= a < x + Z.of_nat n -> pixel (sim s') a y = 0.
Proof.
  intros Hy. induction n as [|n IH]; intros s x I Hx Hn; cbn [pass2_row].
  - exists s. splits; auto using shrinks_refl. intros; lia.
  - destruct (pass2_pixel_spec o s x y I) as (s1 & E1 & I1 & Sh1 & D1); [unfold inside; lia|].
    rewrite E1. cbn [bind].
    destruct (IH s1 (x + 1) I1 ltac:(lia) ltac:(lia)) as (s2 & E2 & I2 & Sh2 & D2).
    assert (GP : getPixelIndex (sim s) x y + 1 = getPixelIndex (sim s1) (x + 1) y).
    { rewrite (gpi_rect (sim s1) (sim s)); [unfold getPixelIndex; lia|apply I1|apply I|].
      destruct I1 as (_ & -> & _), I as (_ & -> & _). reflexivity. }
    rewrite GP, E2. exists s2. splits; auto.
    + eapply shrinks_trans; eauto.
    + intros a Ha. destruct (Z.eq_dec a x) as [->|]; [|apply D2; lia]. eapply shrinks_0; eauto.
Qed.

Lemma pass2_spec o w x : rx0 (Rect o) <= x -> x + Z.of_nat w <= rx1 (Rect o) ->
  forall n s y, sinv o s -> ry0 (Rect o) <= y -> y + Z.of_nat n <= ry1 (Rect o) ->
  exists s', pass2 n w s x y = Ok s' /\ sinv o s' /\ shrinks (sim s) (sim s') /\
    forall a b, x <= a < x + Z.of_nat w -> y <= b < y + Z.of_nat n -> pixel (sim s') a b = 0.
Proof.
  intros Hx Hw. induction n as [|n IH]; intros s y I Hy Hn; cbn [pass2].
  - exists s. splits; auto using shrinks_refl. intros; lia.
  - destruct (pass2_row_spec o y ltac:(lia) w s x I Hx Hw) as (s1 & E1 & I1 & Sh1 & D1).
    rewrite E1. cbn [bind].
    destruct (IH s1 (y + 1) I1 ltac:(lia) ltac:(lia)) as (s2 & E2 & I2 & Sh2 & D2).
    rewrite E2. exists s2. splits; auto.
    + eapply shrinks_trans; eauto.
    + intros a b Ha Hb. destruct (Z.eq_dec b y) as [->|]; [|apply D2; lia]. eapply shrinks_0; eauto.
Qed.

(** *** The search *)

Lemma NewAlpha_inv r c : NewAlpha r = Ok c ->
  c = mkAlpha (repeat 0 (Z.to_nat ((rx1 r - rx0 r) * (ry1 r - ry0 r)))) (rx1 r - rx0 r) r /\
  rx0 r <= rx1 r /\ ry0 r <= ry1 r /\ rect_area r <= maxAlloc.
Proof.
  unfold NewAlpha, rect_area. cbv zeta.
  destruct ((rx1 r - rx0 r <? 0) || (ry1 r - ry0 r <? 0) || ((rx1 r - rx0 r) * (ry1 r - ry0 r) >? maxAlloc)) eqn:E; [discriminate|].
  intros [= <-]. splits; auto; lia.
Qed.

Lemma fragments_spec o : alpha_ok o -> rect_area (Rect o) <= maxAlloc ->
  exists fs, computeMaskFragments o = Ok fs /\ Forall (frag_fits o) fs /\
    forall a b, pixel o a b <> 0 -> covered fs a b.
Proof.
  intros Ao Ha. assert (Ao' := Ao). destruct Ao' as (A1 & A2 & A3 & A4 & A5). unfold computeMaskFragments.
  assert (EN : NewAlpha (Rect o) = Ok (mkAlpha (repeat 0 (Z.to_nat ((rx1 (Rect o) - rx0 (Rect o)) * (ry1 (Rect o) - ry0 (Rect o))))) (rx1 (Rect o) - rx0 (Rect o)) (Rect o))).
  { unfold NewAlpha. cbv zeta. unfold rect_area in Ha.
    replace ((rx1 (Rect o) - rx0 (Rect o) <? 0) || (ry1 (Rect o) - ry0 (Rect o) <? 0) || ((rx1 (Rect o) - rx0 (Rect o)) * (ry1 (Rect o) - ry0 (Rect o)) >? maxAlloc)) with false by lia.
    reflexivity. }
  rewrite EN. cbn [bind Pix Stride Rect].
  assert (EP : firstn (length (repeat 0 (Z.to_nat ((rx1 (Rect o) - rx0 (Rect o)) * (ry1 (Rect o) - ry0 (Rect o)))))) (Pix o) ++
               skipn (length (Pix o)) (repeat 0 (Z.to_nat ((rx1 (Rect o) - rx0 (Rect o)) * (ry1 (Rect o) - ry0 (Rect o))))) = Pix o).
  { rewrite repeat_length, <- A4. unfold zlen. rewrite Nat2Z.id, firstn_all, skipn_all2, app_nil_r; [reflexivity|]. rewrite repeat_length. lia. }
  rewrite EP. rewrite A3, Z.eqb_refl. cbn [negb].
  replace (mkAlpha (Pix o) (rx1 (Rect o) - rx0 (Rect o)) (Rect o)) with o by (rewrite <- A3; destruct o; reflexivity).
  cbv zeta.
  set (s0 := mkSearch o [] (mkCR (rx1 (Rect o)) (rx0 (Rect o)) (ry1 (Rect o)) (ry0 (Rect o)))).
  assert (I0 : sinv o s0) by (unfold sinv, s0; cbn [sim sfrags]; splits; auto).
  assert (B0 : box_ok (Rect o) (sbox s0)) by (unfold box_ok, s0; cbn [sbox minX maxX minY maxY]; splits; lia || (left; reflexivity)).
  assert (FIN : exists s1, pass1 (S (length (Pix o))) s0 (ry0 (Rect o)) 0 = Ok s1 /\ sinv o s1 /\ box_ok (Rect o) (sbox s1) /\
    forall a b, inside (Rect o) a b -> done1 s1 a b).
  { destruct (Z.eq_dec (rx0 (Rect o)) (rx1 (Rect o))) as [W|W].
    - exists s0. assert (zlen (Pix o) = 0) by (rewrite A4, W; lia).
      split.
      { cbn [pass1]. change (sim s0) with o. rewrite H. reflexivity. }
      splits; auto. intros a b Hab. unfold inside in Hab. lia.
    - destruct (pass1_spec o Ao ltac:(lia) (S (length (Pix o))) s0 (ry0 (Rect o)) I0 B0 ltac:(lia)) as (s1 & E1 & I1 & B1 & _ & _ & D1).
      { unfold zlen in A4. nia. }
      exists s1. replace (getPixelIndex (sim s0) (rx0 (Rect o)) (ry0 (Rect o))) with 0 in E1 by (unfold getPixelIndex; cbn [sim s0]; lia).
      splits; auto. intros a b Hab. unfold inside in Hab. apply D1; lia. }
  destruct FIN as (s1 & E1 & I1 & (B1 & B2 & B3 & B4 & B5) & D1). rewrite E1. cbn [bind].
  match goal with |- context [if ?c then ?a else ?b] => set (bx := if c then a else b) end.
  assert (BX : (forall a b, inside (Rect o) a b -> in_box (sbox s1) a b -> in_box bx a b) /\
               (Z.to_nat (maxY bx + 1 - minY bx) = O \/ Z.to_nat (maxX bx + 1 - minX bx) = O \/
                rx0 (Rect o) <= minX bx /\ maxX bx < rx1 (Rect o) /\ ry0 (Rect o) <= minY bx /\ maxY bx < ry1 (Rect o)) /\
               (rx0 (Rect o) <= minX bx <= rx1 (Rect o) /\ ry0 (Rect o) <= minY bx <= ry1 (Rect o) /\ maxX bx <= rx1 (Rect o) /\ maxY bx <= ry1 (Rect o))).
  { subst bx. destruct (rect_Empty _) eqn:EE; cbn [minX maxX minY maxY].
    - splits; try lia. intros a b Hab _. unfold inside, in_box in *. cbn [minX maxX minY maxY]. lia.
    - splits; try lia; [auto|]. destruct B5 as [B5|B5]; [|right; right; lia].
      rewrite B5 in *. unfold image_Rect, rect_Empty in EE. cbn [minX maxX minY maxY rx0 ry0 rx1 ry1] in *. lia. }
  destruct BX as (BX1 & BX2 & BX3). clearbody bx.
  assert (P2 : exists s2, pass2 (Z.to_nat (maxY bx + 1 - minY bx)) (Z.to_nat (maxX bx + 1 - minX bx)) s1 (minX bx) (minY bx) = Ok s2 /\
    sinv o s2 /\ shrinks (sim s1) (sim s2) /\ forall a b, in_box bx a b -> pixel (sim s2) a b = 0).
  { assert (CASE : exists n w, pass2 (Z.to_nat (maxY bx + 1 - minY bx)) (Z.to_nat (maxX bx + 1 - minX bx)) s1 (minX bx) (minY bx) =
        pass2 n w s1 (minX bx) (minY bx) /\ minX bx + Z.of_nat w <= rx1 (Rect o) /\ minY bx + Z.of_nat n <= ry1 (Rect o) /\
        forall a b, in_box bx a b -> a < minX bx + Z.of_nat w /\ b < minY bx + Z.of_nat n).
    { destruct BX2 as [H|[H|H]].
      - exists O, O. rewrite H. splits; try reflexivity; try lia. intros a b Hab. unfold in_box in Hab. lia.
      - destruct (Z_le_gt_dec (maxY bx + 1 - minY bx) (ry1 (Rect o) - minY bx)) as [L|L].
        + exists (Z.to_nat (maxY bx + 1 - minY bx)), O. rewrite H. splits; try reflexivity; try lia.
          intros a b Hab. unfold in_box in Hab. lia.
        + exists O, O. rewrite H. splits; try lia.
          * generalize (Z.to_nat (maxY bx + 1 - minY bx)). intros n. generalize (minY bx). induction n as [|n IH]; intros y0; [reflexivity|]. cbn [pass2 pass2_row bind]. apply IH.
          * intros a b Hab. unfold in_box in Hab. lia.
      - exists (Z.to_nat (maxY bx + 1 - minY bx)), (Z.to_nat (maxX bx + 1 - minX bx)).
        destruct (Z_le_gt_dec (minX bx) (maxX bx + 1)), (Z_le_gt_dec (minY bx) (maxY bx + 1)); splits; try reflexivity; try lia.
        all: intros a b Hab; unfold in_box in Hab; lia. }
    destruct CASE as (n & w & -> & Hw & Hn & HC).
    destruct (pass2_spec o w (minX bx) ltac:(lia) Hw n s1 (minY bx) I1 ltac:(lia) Hn) as (s2 & E2 & I2 & Sh2 & D2).
    exists s2. splits; auto. intros a b Hab. pose proof (HC a b Hab). unfold in_box in Hab. apply D2; lia. }
  destruct P2 as (s2 & E2 & I2 & Sh2 & D2). rewrite E2. cbn [bind].
  exists (sfrags s2). split; [reflexivity|]. destruct I2 as (_ & _ & F & P). split; [exact F|].
  intros a b Hp. destruct (P a b) as [H|(_ & H)]; [|exact H]. exfalso.
  assert (Hin : inside (Rect o) a b).
  { destruct (insideb (Rect o) a b) eqn:Ei; [apply insideb_spec; exact Ei|]. exfalso. apply Hp. apply pixel_outside. intros C. apply insideb_spec in C. congruence. }
  apply Hp. rewrite <- H. destruct (D1 a b Hin) as [Z0|Z0].
  - eapply shrinks_0; eauto.
  - apply D2. apply BX1; auto.
Qed.
