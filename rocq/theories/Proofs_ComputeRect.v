(** Proofs about mask/compute_rect.go. *)
From Verif Require Import Base BaseFacts Model_Mask Spec_Mask Proofs_Raster.

Lemma readable_get m x y : alpha_readable m -> inside (Rect m) x y ->
  zget (Pix m) ((y - ry0 (Rect m)) * Stride m + (x - rx0 (Rect m))) = Ok (pixel m x y).
Proof.
  intros H Hin. unfold pixel. replace (insideb (Rect m) x y) with true by (symmetry; apply insideb_spec; exact Hin).
  apply zget_nth. apply H. exact Hin.
Qed.

Lemma cr_row_spec m y : alpha_readable m -> ry0 (Rect m) <= y < ry1 (Rect m) ->
  forall n x active c, rx0 (Rect m) <= x -> x + Z.of_nat n = rx1 (Rect m) ->
  exists act c', cr_row n m ((y - ry0 (Rect m)) * Stride m + (x - rx0 (Rect m))) x active c = Ok (act, c') /\
    minY c' = minY c /\ maxY c' = maxY c /\
    (forall lo, lo <= minX c' <-> lo <= minX c /\ forall a, x <= a < rx1 (Rect m) -> pixel m a y <> 0 -> lo <= a) /\
    (forall hi, maxX c' <= hi <-> maxX c <= hi /\ forall a, x <= a < rx1 (Rect m) -> pixel m a y <> 0 -> a <= hi) /\
    (act = true <-> active = true \/ exists a, x <= a < rx1 (Rect m) /\ pixel m a y <> 0).
Proof.
  intros Hm Hy. induction n as [|n IH]; intros x active c Hx Hn; cbn [cr_row].
  - exists active, c. splits; try reflexivity.
    + intros lo. split; [intros; split; [assumption|intros; lia]|tauto].
    + intros hi. split; [intros; split; [assumption|intros; lia]|tauto].
    + split; [tauto|]. intros [H|(a & Ha & _)]; [exact H|lia].
  - rewrite readable_get by (auto; split; lia). cbn [bind].
    replace ((y - ry0 (Rect m)) * Stride m + (x - rx0 (Rect m)) + 1) with
      ((y - ry0 (Rect m)) * Stride m + (x + 1 - rx0 (Rect m))) by lia.
    destruct (Z.eqb_spec (pixel m x y) 0) as [E|E]; cbn [negb].
    + destruct (IH (x + 1) active c ltac:(lia) ltac:(lia)) as (act & c' & R & H1 & H2 & H3 & H4 & H5).
      exists act, c'. splits; auto.
      * intros lo. rewrite H3. split; intros (A & B); (split; [exact A|]); intros a Ha Hp.
        -- destruct (Z.eq_dec a x) as [->|]; [congruence|apply B; [lia|exact Hp]].
        -- apply B; [lia|exact Hp].
      * intros hi. rewrite H4. split; intros (A & B); (split; [exact A|]); intros a Ha Hp.
        -- destruct (Z.eq_dec a x) as [->|]; [congruence|apply B; [lia|exact Hp]].
        -- apply B; [lia|exact Hp].
      * rewrite H5. split; (intros [A|(a & Ha & Hp)]; [left; exact A|right]).
        -- exists a. split; [lia|exact Hp].
        -- exists a. split; [|exact Hp]. destruct (Z.eq_dec a x) as [->|]; [congruence|lia].
    + cbv zeta.
      set (c1 := if x <? minX c then mkCR x (maxX c) (minY c) (maxY c) else c).
      set (c2 := if x >? maxX c1 then mkCR (minX c1) x (minY c1) (maxY c1) else c1).
      assert (C : minX c2 = Z.min (minX c) x /\ maxX c2 = Z.max (maxX c) x /\ minY c2 = minY c /\ maxY c2 = maxY c).
      { unfold c2, c1. destruct (Z.ltb_spec x (minX c)); cbn [minX maxX minY maxY];
        (destruct (Z.gtb_spec x (maxX c)); cbn [minX maxX minY maxY]; lia). }
      destruct C as (C1 & C2 & C3 & C4).
      destruct (IH (x + 1) true c2 ltac:(lia) ltac:(lia)) as (act & c' & R & H1 & H2 & H3 & H4 & H5).
      exists act, c'. splits; auto; try congruence.
      * intros lo. rewrite H3, C1. split; intros (A & B).
        -- split; [lia|]. intros a Ha Hp. destruct (Z.eq_dec a x) as [->|]; [lia|apply B; [lia|exact Hp]].
        -- split; [|intros a Ha Hp; apply B; [lia|exact Hp]]. assert (lo <= x) by (apply B; [lia|exact E]). lia.
      * intros hi. rewrite H4, C2. split; intros (A & B).
        -- split; [lia|]. intros a Ha Hp. destruct (Z.eq_dec a x) as [->|]; [lia|apply B; [lia|exact Hp]].
        -- split; [|intros a Ha Hp; apply B; [lia|exact Hp]]. assert (x <= hi) by (apply B; [lia|exact E]). lia.
      * rewrite H5. split; intros _; [|left; reflexivity]. right. exists x. split; [lia|exact E].
Qed.

Definition in_rows (m : alpha) (y a b : Z) : Prop :=
  rx0 (Rect m) <= a < rx1 (Rect m) /\ y <= b < ry1 (Rect m) /\ pixel m a b <> 0.

Lemma cr_rows_spec m : alpha_readable m -> rx0 (Rect m) <= rx1 (Rect m) ->
  forall n y empty c, ry0 (Rect m) <= y -> y + Z.of_nat n = ry1 (Rect m) ->
  exists emp c', cr_rows n m y empty c = Ok (emp, c') /\
    (forall lo, lo <= minX c' <-> lo <= minX c /\ forall a b, in_rows m y a b -> lo <= a) /\
    (forall hi, maxX c' <= hi <-> maxX c <= hi /\ forall a b, in_rows m y a b -> a <= hi) /\
    (forall lo, lo <= minY c' <-> lo <= minY c /\ forall a b, in_rows m y a b -> lo <= b) /\
    (forall hi, maxY c' <= hi <-> maxY c <= hi /\ forall a b, in_rows m y a b -> b <= hi) /\
    (emp = false <-> empty = false \/ exists a b, in_rows m y a b).
Proof.
  intros Hm Hw. induction n as [|n IH]; intros y empty c Hy Hn; cbn [cr_rows].
  - assert (N : forall a b, ~ in_rows m y a b) by (unfold in_rows; intros; lia).
    exists empty, c. splits; try reflexivity; try (intros k; split; [intros; split; [assumption|intros a b Hc; destruct (N a b Hc)]|tauto]).
    split; [tauto|]. intros [H|(a & b & H)]; [exact H|destruct (N a b H)].
  - pose proof (cr_row_spec m y Hm ltac:(lia) (Z.to_nat (rx1 (Rect m) - rx0 (Rect m))) (rx0 (Rect m)) false c ltac:(lia) ltac:(lia)) as R.
    replace ((y - ry0 (Rect m)) * Stride m + (rx0 (Rect m) - rx0 (Rect m))) with ((y - ry0 (Rect m)) * Stride m) in R by lia.
    destruct R as (act & c1 & E & R1 & R2 & R3 & R4 & R5). rewrite E. cbn [bind].
    assert (SPLIT : forall (P : Z -> Z -> Prop), (forall a b, in_rows m y a b -> P a b) <->
       (forall a, rx0 (Rect m) <= a < rx1 (Rect m) -> pixel m a y <> 0 -> P a y) /\ (forall a b, in_rows m (y + 1) a b -> P a b)).
    { intros P. unfold in_rows. split.
      - intros H. split; [intros a Ha Hp; apply H; splits; auto; lia|].
        intros a b (Ha & Hb & Hp); apply H; splits; auto; lia.
      - intros (H1 & H2) a b (Ha & Hb & Hp). destruct (Z.eq_dec b y) as [->|]; [apply H1; auto|].
        apply H2. splits; auto; lia. }
    destruct act.
    + cbv zeta.
      set (c2 := if y <? minY c1 then mkCR (minX c1) (maxX c1) y (maxY c1) else c1).
      set (c3 := if y >? maxY c2 then mkCR (minX c2) (maxX c2) (minY c2) y else c2).
      assert (C : minX c3 = minX c1 /\ maxX c3 = maxX c1 /\ minY c3 = Z.min (minY c1) y /\ maxY c3 = Z.max (maxY c1) y).
      { unfold c3, c2. destruct (Z.ltb_spec y (minY c1)); cbn [minX maxX minY maxY];
        (destruct (Z.gtb_spec y (maxY c1)); cbn [minX maxX minY maxY]; lia). }
      destruct C as (C1 & C2 & C3 & C4).
      destruct (IH (y + 1) false c3 ltac:(lia) ltac:(lia)) as (emp & c' & E' & H1 & H2 & H3 & H4 & H5).
      destruct (proj1 R5 eq_refl) as [?|(a0 & Ha0 & Hp0)]; [discriminate|].
      exists emp, c'. splits; auto.
      * intros lo. rewrite H1, C1, R3, (SPLIT (fun a b => lo <= a)). tauto.
      * intros hi. rewrite H2, C2, R4, (SPLIT (fun a b => a <= hi)). tauto.
      * intros lo. rewrite H3, C3, (SPLIT (fun a b => lo <= b)). split; intros (A & B).
        -- splits; [lia|intros; lia|exact B].
        -- destruct B as (B1 & B2). split; [|exact B2]. assert (lo <= y) by (apply (B1 a0); auto). lia.
      * intros hi. rewrite H4, C4, (SPLIT (fun a b => b <= hi)). split; intros (A & B).
        -- splits; [lia|intros; lia|exact B].
        -- destruct B as (B1 & B2). split; [|exact B2]. assert (y <= hi) by (apply (B1 a0); auto). lia.
      * rewrite H5. split; [intros _|tauto]. right. exists a0, y. unfold in_rows. splits; auto; lia.
    + assert (N : forall a, rx0 (Rect m) <= a < rx1 (Rect m) -> pixel m a y <> 0 -> False).
      { intros a Ha Hp. assert (false = true); [|discriminate]. apply R5. right. exists a. auto. }
      destruct (IH (y + 1) empty c1 ltac:(lia) ltac:(lia)) as (emp & c' & E' & H1 & H2 & H3 & H4 & H5).
      exists emp, c'. splits; auto.
      * intros lo. rewrite H1, R3, (SPLIT (fun a b => lo <= a)). tauto.
      * intros hi. rewrite H2, R4, (SPLIT (fun a b => a <= hi)). tauto.
      * intros lo. rewrite H3, R1, (SPLIT (fun a b => lo <= b)). split; intros (A & B).
        -- splits; [lia|intros a Ha Hp; destruct (N a Ha Hp)|exact B].
        -- tauto.
      * intros hi. rewrite H4, R2, (SPLIT (fun a b => b <= hi)). split; intros (A & B).
        -- splits; [lia|intros a Ha Hp; destruct (N a Ha Hp)|exact B].
        -- tauto.
      * rewrite H5. split; (intros [A|(a & b & A)]; [left; exact A|right; exists a, b]); unfold in_rows in *.
        -- splits; try tauto; lia.
        -- destruct A as (A1 & A2 & A3). assert (b <> y) by (intros ->; exact (N a A1 A3)). splits; auto; lia.
Qed.

Lemma compute_rect_spec m : alpha_readable m ->
  rx0 (Rect m) <= rx1 (Rect m) -> ry0 (Rect m) <= ry1 (Rect m) ->
  exists r, ComputeRect m = Ok r /\
    ((forall x y, pixel m x y = 0) /\ r = mkRect 0 0 0 0 \/
     (exists x y, pixel m x y <> 0) /\ smallest_rect (fun x y => pixel m x y <> 0) r).
Proof.
  intros Hm Hw Hh. unfold ComputeRect.
  assert (IN : forall a b, in_rows m (ry0 (Rect m)) a b <-> pixel m a b <> 0).
  { intros a b. unfold in_rows. split; [tauto|]. intros Hp.
    destruct (insideb (Rect m) a b) eqn:E.
    - apply insideb_spec in E. destruct E. splits; auto; lia.
    - exfalso. apply Hp. apply pixel_outside. intros C. apply insideb_spec in C. congruence. }
  destruct (cr_rows_spec m Hm Hw (Z.to_nat (ry1 (Rect m) - ry0 (Rect m))) (ry0 (Rect m)) true
     (mkCR (rx1 (Rect m) + 1) (rx0 (Rect m) - 1) (ry1 (Rect m) + 1) (ry0 (Rect m) - 1)) ltac:(lia) ltac:(lia))
     as (emp & c & E & H1 & H2 & H3 & H4 & H5).
  rewrite E. cbn [bind]. cbn [minX maxX minY maxY] in *. destruct emp.
  - eexists. split; [reflexivity|]. left. split; [|reflexivity]. intros x y.
    destruct (Z.eq_dec (pixel m x y) 0) as [|N]; [assumption|]. exfalso.
    assert (true = false); [|discriminate]. apply H5. right. exists x, y. apply IN. exact N.
  - eexists. split; [reflexivity|]. right. destruct (proj1 H5 eq_refl) as [?|(a & b & Hab)]; [discriminate|].
    split; [exists a, b; apply (proj1 (IN a b)); exact Hab|].
    assert (A1 : minX c <= a) by (apply (proj1 (H1 (minX c)) (Z.le_refl _)) with (b := b); exact Hab).
    assert (A2 : a <= maxX c) by (apply (proj1 (H2 (maxX c)) (Z.le_refl _)) with (b := b); exact Hab).
    assert (A3 : minY c <= b) by (apply (proj1 (H3 (minY c)) (Z.le_refl _)) with (a := a); exact Hab).
    assert (A4 : b <= maxY c) by (apply (proj1 (H4 (maxY c)) (Z.le_refl _)) with (a := a); exact Hab).
    unfold image_Rect. rewrite !Z.min_l, !Z.max_r by lia. split.
    + intros x y Hp. apply IN in Hp.
      assert (minX c <= x) by (apply (proj1 (H1 (minX c)) (Z.le_refl _)) with (b := y); exact Hp).
      assert (x <= maxX c) by (apply (proj1 (H2 (maxX c)) (Z.le_refl _)) with (b := y); exact Hp).
      assert (minY c <= y) by (apply (proj1 (H3 (minY c)) (Z.le_refl _)) with (a := x); exact Hp).
      assert (y <= maxY c) by (apply (proj1 (H4 (maxY c)) (Z.le_refl _)) with (a := x); exact Hp).
      unfold inside. cbn [rx0 ry0 rx1 ry1]. lia.
    + intros R HR. pose proof (HR a b (proj1 (IN a b) Hab)) as (Rx & Ry). destruct Hab as (Hx & Hy & _).
      assert (B1 : rx0 R <= minX c).
      { apply H1. split; [lia|]. intros x y Hp. apply IN in Hp. apply HR in Hp. destruct Hp. lia. }
      assert (B2 : maxX c <= rx1 R - 1).
      { apply H2. split; [lia|]. intros x y Hp. apply IN in Hp. apply HR in Hp. destruct Hp. lia. }
      assert (B3 : ry0 R <= minY c).
      { apply H3. split; [lia|]. intros x y Hp. apply IN in Hp. apply HR in Hp. destruct Hp. lia. }
      assert (B4 : maxY c <= ry1 R - 1).
      { apply H4. split; [lia|]. intros x y Hp. apply IN in Hp. apply HR in Hp. destruct Hp. lia. }
      unfold incl_rect. cbn [rx0 ry0 rx1 ry1]. lia.
Qed.
