(** Proofs about mask/encoder.go, encoder_helper_funcs.go and raster_fragment.go. *)
From Verif Require Import Base BaseFacts Model_Mask Spec_Mask Proofs_Raster.
From Coq Require Import Permutation.

(** *** Neighbours *)

Lemma pixel_byte im a b : alpha_ok im -> byte (pixel im a b).
Proof.
  intros H. destruct (insideb (Rect im) a b) eqn:E.
  - apply insideb_spec in E. pose proof (pixel_get im a b H E) as G. destruct H as (_ & _ & _ & _ & HB).
    eapply bytes_get; eauto.
  - rewrite pixel_outside; [unfold byte; lia|]. intros C. apply insideb_spec in C. congruence.
Qed.

Lemma gpi_get im a b : alpha_ok im -> inside (Rect im) a b ->
  zget (Pix im) (getPixelIndex im a b) = Ok (pixel im a b).
Proof. intros H Hin. apply pixel_get; auto. Qed.

Lemma pix_is_at im cond index v a b : alpha_ok im -> v <> 0 ->
  (cond = true <-> inside (Rect im) a b) -> (cond = true -> index = getPixelIndex im a b) ->
  pix_is im cond index v = Ok (pixel im a b =? v).
Proof.
  intros H Hv Hc Hi. unfold pix_is. destruct cond.
  - rewrite (Hi eq_refl), gpi_get by (auto; apply Hc; reflexivity). reflexivity.
  - rewrite pixel_outside; [|intros C; apply Hc in C; discriminate].
    destruct (Z.eqb_spec 0 v); [congruence|reflexivity].
Qed.

Section Neighbours.
Variable im : alpha.
Hypothesis Him : alpha_ok im.
Variables x y v : Z.
Hypothesis Hin : inside (Rect im) x y.
Hypothesis Hv : v <> 0.

Lemma above_spec : above im y (getPixelIndex im x y) v = Ok (pixel im x (y - 1) =? v).
Proof. apply pix_is_at; auto; unfold getPixelIndex, inside in *; lia. Qed.
Lemma below_spec : below im y (getPixelIndex im x y) v = Ok (pixel im x (y + 1) =? v).
Proof. apply pix_is_at; auto; unfold getPixelIndex, inside in *; lia. Qed.
Lemma left_spec : left_of im x (getPixelIndex im x y) v = Ok (pixel im (x - 1) y =? v).
Proof. apply pix_is_at; auto; unfold getPixelIndex, inside in *; lia. Qed.
Lemma right_spec : right_of im x (getPixelIndex im x y) v = Ok (pixel im (x + 1) y =? v).
Proof. apply pix_is_at; auto; unfold getPixelIndex, inside in *; lia. Qed.

Definition nbs : Z :=
  b2z (pixel im x (y - 1) =? v) + b2z (pixel im x (y + 1) =? v) +
  b2z (pixel im (x - 1) y =? v) + b2z (pixel im (x + 1) y =? v).

Lemma countNeighbours_spec : countNeighbours im x y (getPixelIndex im x y) v = Ok nbs.
Proof.
  unfold countNeighbours. rewrite Z.eqb_refl. cbn [negb].
  rewrite above_spec, below_spec, left_spec, right_spec. reflexivity.
Qed.
End Neighbours.

(** *** Fragments *)

Definition cells (f : fragment) (a b : Z) : bool :=
  match fdiag f with
  | diagNone => (fx0 f <=? a) && (a <=? fx1 f) && (fy0 f <=? b) && (b <=? fy1 f)
  | diagAsc => (fx0 f <=? a) && (a <=? fx1 f) && (b =? fy0 f + (fx1 f - a))
  | diagDesc => (fx0 f <=? a) && (a <=? fx1 f) && (b =? fy0 f + (a - fx0 f))
  end.
Definition shape_ok (f : fragment) : Prop :=
  fx0 f <= fx1 f /\ fy0 f <= fy1 f /\ (fdiag f <> diagNone -> fx1 f - fx0 f = fy1 f - fy0 f).

(** all cells of f are pixels of im with f's value, and (x, y) is one of them *)
Definition frag_good (im : alpha) (x y : Z) (f : fragment) : Prop :=
  shape_ok f /\ cells f x y = true /\
  forall a b, cells f a b = true -> inside (Rect im) a b /\ pixel im a b = fvalue f.

(** *** findLine *)

Lemma scan_line_spec im v (loc : Z -> Z * Z) (ins : Z -> bool) dir step : alpha_ok im ->
  (forall p, inside (Rect im) (fst (loc p)) (snd (loc p)) ->
     (ins p = true <-> inside (Rect im) (fst (loc (p + dir))) (snd (loc (p + dir))))) ->
  (forall p, getPixelIndex im (fst (loc (p + dir))) (snd (loc (p + dir))) =
             getPixelIndex im (fst (loc p)) (snd (loc p)) + step) ->
  forall fuel p index,
  inside (Rect im) (fst (loc p)) (snd (loc p)) -> pixel im (fst (loc p)) (snd (loc p)) = v ->
  index = getPixelIndex im (fst (loc (p + dir))) (snd (loc (p + dir))) ->
  (1 <= fuel)%nat ->
  (forall j, 0 <= j -> (forall i, 0 <= i <= j -> ins (p + i * dir) = true) -> j + 1 < Z.of_nat fuel) ->
  exists k, 0 <= k /\ scan_line fuel im ins dir step p index v = Ok (p + k * dir) /\
    forall j, 0 <= j <= k ->
      inside (Rect im) (fst (loc (p + j * dir))) (snd (loc (p + j * dir))) /\
      pixel im (fst (loc (p + j * dir))) (snd (loc (p + j * dir))) = v.
Proof.
  intros Him Hins Hstep. induction fuel as [|fuel IH]; intros p index Hp Hv Hi H1 Hf; [lia|].
  cbn [scan_line]. unfold pix_is. destruct (ins p) eqn:Ei.
  - pose proof (proj1 (Hins p Hp) Ei) as Hn. rewrite Hi, gpi_get by assumption. cbn [bind].
    destruct (Z.eqb_spec (pixel im (fst (loc (p + dir))) (snd (loc (p + dir)))) v) as [E|E].
    + assert (Hf0 := Hf 0 ltac:(lia)). destruct (IH (p + dir) (getPixelIndex im (fst (loc (p + dir))) (snd (loc (p + dir))) + step) Hn E) as (k & Hk & Ek & Hall).
      * symmetry. apply Hstep.
      * assert (0 + 1 < Z.of_nat (S fuel)); [|lia]. apply Hf0. intros i Hi'. replace (p + i * dir) with p by (replace i with 0 by lia; lia). exact Ei.
      * intros j Hj Hall. assert (j + 1 + 1 < Z.of_nat (S fuel)); [|lia]. apply Hf; [lia|].
        intros i Hi'. destruct (Z.eq_dec i 0) as [->|].
        -- rewrite Z.mul_0_l, Z.add_0_r. exact Ei.
        -- replace (p + i * dir) with (p + dir + (i - 1) * dir) by lia. apply Hall. lia.
      * exists (k + 1). split; [lia|]. split; [rewrite Ek; f_equal; lia|].
        intros j Hj. destruct (Z.eq_dec j 0) as [->|].
        -- rewrite Z.mul_0_l, Z.add_0_r. auto.
        -- replace (p + j * dir) with (p + dir + (j - 1) * dir) by lia. apply Hall. lia.
    + exists 0. split; [lia|]. split; [f_equal; lia|]. intros j Hj. replace j with 0 by lia.
      rewrite Z.mul_0_l, Z.add_0_r. auto.
  - cbn [bind]. exists 0. split; [lia|]. split; [f_equal; lia|]. intros j Hj. replace j with 0 by lia.
    rewrite Z.mul_0_l, Z.add_0_r. auto.
Qed.

Lemma panic_if_false : panic_if (Ok false) = Ok tt.
Proof. reflexivity. Qed.

Lemma findLine_spec im x y v : alpha_ok im -> inside (Rect im) x y -> v <> 0 ->
  pixel im x y = v -> nbs im x y v = 1 ->
  exists f, findLine im x y (getPixelIndex im x y) v = Ok f /\ frag_good im x y f /\ fvalue f = v.
Proof.
  intros Him Hin Hv Hp Hn. unfold findLine. rewrite Z.eqb_refl. cbn [negb].
  rewrite gpi_get by assumption. cbn [bind]. rewrite Hp, Z.eqb_refl. cbn [negb].
  rewrite countNeighbours_spec by assumption. cbn [bind]. rewrite Hn. change (1 =? 1) with true. cbn [negb].
  rewrite left_spec by assumption. cbn [bind].
  unfold nbs in Hn.
  rewrite !above_spec, !below_spec, !right_spec by assumption.
  assert (Hx : rx0 (Rect im) <= x < rx1 (Rect im)) by (destruct Hin; assumption).
  assert (Hy : ry0 (Rect im) <= y < ry1 (Rect im)) by (destruct Hin; assumption).
  destruct (Z.eqb_spec (pixel im (x - 1) y) v) as [EL|EL].
  - destruct (pixel im x (y - 1) =? v); [exfalso; cbn [b2z] in Hn; destruct (pixel im x (y + 1) =? v), (pixel im (x + 1) y =? v); cbn [b2z] in Hn; lia|].
    destruct (pixel im x (y + 1) =? v); [exfalso; cbn [b2z] in Hn; destruct (pixel im (x + 1) y =? v); cbn [b2z] in Hn; lia|].
    destruct (pixel im (x + 1) y =? v); [exfalso; cbn [b2z] in Hn; lia|].
    rewrite panic_if_false. cbn [bind].
    assert (IL : inside (Rect im) (x - 1) y).
    { destruct (insideb (Rect im) (x - 1) y) eqn:E; [apply insideb_spec; exact E|].
      rewrite pixel_outside in EL; [congruence|]. intros C; apply insideb_spec in C; congruence. }
    destruct (scan_line_spec im v (fun p => (p, y)) (fun p => p >? rx0 (Rect im)) (-1) (-1) Him) with
      (fuel := line_fuel im) (p := x - 1) (index := getPixelIndex im x y - 2) as (k & Hk & Ek & Hall);
      cbn [fst snd]; auto.
    + intros p (Hp1 & Hp2). unfold inside. lia.
    + intros p. unfold getPixelIndex. lia.
    + unfold getPixelIndex. lia.
    + unfold line_fuel. lia.
    + intros j Hj HA. specialize (HA j ltac:(lia)). unfold line_fuel, inside in *. lia.
    + rewrite Ek. cbn [bind]. eexists. split; [reflexivity|]. split; [|reflexivity].
      unfold frag_good, shape_ok, cells. cbn [fx0 fy0 fx1 fy1 fvalue fdiag]. splits; try lia; try congruence.
      intros a b Hab. assert (b = y) by lia. subst b. destruct (Z.eq_dec a x) as [->|].
      * auto.
      * specialize (Hall (x - 1 - a) ltac:(lia)). cbn [fst snd] in Hall.
        replace (x - 1 + (x - 1 - a) * -1) with a in Hall by lia. exact Hall.
  - cbn [b2z] in Hn. destruct (Z.eqb_spec (pixel im x (y - 1)) v) as [EU|EU]; cbn [bind].
    + destruct (pixel im x (y + 1) =? v); [exfalso; cbn [b2z] in Hn; destruct (pixel im (x + 1) y =? v); cbn [b2z] in Hn; lia|].
      destruct (pixel im (x + 1) y =? v); [exfalso; cbn [b2z] in Hn; lia|].
      rewrite panic_if_false. cbn [bind].
      assert (IU : inside (Rect im) x (y - 1)).
      { destruct (insideb (Rect im) x (y - 1)) eqn:E; [apply insideb_spec; exact E|].
        rewrite pixel_outside in EU; [congruence|]. intros C; apply insideb_spec in C; congruence. }
      destruct (scan_line_spec im v (fun p => (x, p)) (fun p => p >? ry0 (Rect im)) (-1) (- Stride im) Him) with
        (fuel := line_fuel im) (p := y - 1) (index := getPixelIndex im x y - Stride im * 2) as (k & Hk & Ek & Hall);
        cbn [fst snd]; auto.
      * intros p (Hp1 & Hp2). unfold inside. lia.
      * intros p. unfold getPixelIndex. lia.
      * unfold getPixelIndex. lia.
      * unfold line_fuel. lia.
      * intros j Hj HA. specialize (HA j ltac:(lia)). unfold line_fuel, inside in *. lia.
      * rewrite Ek. cbn [bind]. eexists. split; [reflexivity|]. split; [|reflexivity].
        unfold frag_good, shape_ok, cells. cbn [fx0 fy0 fx1 fy1 fvalue fdiag]. splits; try lia; try congruence.
        intros a b Hab. assert (a = x) by lia. subst a. destruct (Z.eq_dec b y) as [->|].
        -- auto.
        -- specialize (Hall (y - 1 - b) ltac:(lia)). cbn [fst snd] in Hall.
           replace (y - 1 + (y - 1 - b) * -1) with b in Hall by lia. exact Hall.
    + destruct (Z.eqb_spec (pixel im x (y + 1)) v) as [ED|ED]; cbn [bind].
      * destruct (pixel im (x + 1) y =? v); [exfalso; cbn [b2z] in Hn; lia|].
        rewrite panic_if_false. cbn [bind].
        assert (ID : inside (Rect im) x (y + 1)).
        { destruct (insideb (Rect im) x (y + 1)) eqn:E; [apply insideb_spec; exact E|].
          rewrite pixel_outside in ED; [congruence|]. intros C; apply insideb_spec in C; congruence. }
        destruct (scan_line_spec im v (fun p => (x, p)) (fun p => p + 1 <? ry1 (Rect im)) 1 (Stride im) Him) with
          (fuel := line_fuel im) (p := y + 1) (index := getPixelIndex im x y + Stride im * 2) as (k & Hk & Ek & Hall);
          cbn [fst snd]; auto.
        -- intros p (Hp1 & Hp2). unfold inside. lia.
        -- intros p. unfold getPixelIndex. lia.
        -- unfold getPixelIndex. lia.
        -- unfold line_fuel. lia.
        -- intros j Hj HA. specialize (HA j ltac:(lia)). unfold line_fuel, inside in *. lia.
        -- rewrite Ek. cbn [bind]. eexists. split; [reflexivity|]. split; [|reflexivity].
           unfold frag_good, shape_ok, cells. cbn [fx0 fy0 fx1 fy1 fvalue fdiag]. splits; try lia; try congruence.
           intros a b Hab. assert (a = x) by lia. subst a. destruct (Z.eq_dec b y) as [->|].
           ++ auto.
           ++ specialize (Hall (b - (y + 1)) ltac:(lia)). cbn [fst snd] in Hall.
              replace (y + 1 + (b - (y + 1)) * 1) with b in Hall by lia. exact Hall.
      * destruct (Z.eqb_spec (pixel im (x + 1) y) v) as [ER|ER]; cbn [b2z] in Hn; [|lia].
        assert (IR : inside (Rect im) (x + 1) y).
        { destruct (insideb (Rect im) (x + 1) y) eqn:E; [apply insideb_spec; exact E|].
          rewrite pixel_outside in ER; [congruence|]. intros C; apply insideb_spec in C; congruence. }
        cbn [bind].
        destruct (scan_line_spec im v (fun p => (p, y)) (fun p => p + 1 <? rx1 (Rect im)) 1 1 Him) with
          (fuel := line_fuel im) (p := x + 1) (index := getPixelIndex im x y + 2) as (k & Hk & Ek & Hall);
          cbn [fst snd]; auto.
        -- intros p (Hp1 & Hp2). unfold inside. lia.
        -- intros p. unfold getPixelIndex. lia.
        -- unfold getPixelIndex. lia.
        -- unfold line_fuel. lia.
        -- intros j Hj HA. specialize (HA j ltac:(lia)). unfold line_fuel, inside in *. lia.
        -- rewrite Ek. cbn [bind]. eexists. split; [reflexivity|]. split; [|reflexivity].
           unfold frag_good, shape_ok, cells. cbn [fx0 fy0 fx1 fy1 fvalue fdiag]. splits; try lia; try congruence.
           intros a b Hab. assert (b = y) by lia. subst b. destruct (Z.eq_dec a x) as [->|].
           ++ auto.
           ++ specialize (Hall (a - (x + 1)) ltac:(lia)). cbn [fst snd] in Hall.
              replace (x + 1 + (a - (x + 1)) * 1) with a in Hall by lia. exact Hall.
Qed.

(** *** findRect *)

Lemma all_equal_spec im step v (loc : Z -> Z * Z) : alpha_ok im ->
  (forall p, getPixelIndex im (fst (loc (p + 1))) (snd (loc (p + 1))) =
             getPixelIndex im (fst (loc p)) (snd (loc p)) + step) ->
  forall n p index,
  (forall j, 0 <= j < Z.of_nat n -> inside (Rect im) (fst (loc (p + j))) (snd (loc (p + j)))) ->
  index = getPixelIndex im (fst (loc p)) (snd (loc p)) ->
  exists e, all_equal n im index step v = Ok e /\
    (e = true -> forall j, 0 <= j < Z.of_nat n -> pixel im (fst (loc (p + j))) (snd (loc (p + j))) = v).
Proof.
  intros Him Hstep. induction n as [|n IH]; intros p index Hin Hi; cbn [all_equal].
  - exists true. split; [reflexivity|]. intros; lia.
  - assert (H0 : inside (Rect im) (fst (loc p)) (snd (loc p))) by (specialize (Hin 0); rewrite Z.add_0_r in Hin; apply Hin; lia).
    rewrite Hi, gpi_get by assumption. cbn [bind].
    destruct (Z.eqb_spec (pixel im (fst (loc p)) (snd (loc p))) v) as [E|E].
    + destruct (IH (p + 1) (getPixelIndex im (fst (loc p)) (snd (loc p)) + step)) as (e & Ee & He).
      * intros j Hj. replace (p + 1 + j) with (p + (j + 1)) by lia. apply Hin. lia.
      * symmetry. apply Hstep.
      * exists e. split; [exact Ee|]. intros -> j Hj. destruct (Z.eq_dec j 0) as [->|].
        -- rewrite Z.add_0_r. exact E.
        -- replace (p + j) with (p + 1 + (j - 1)) by lia. apply He; [reflexivity|lia].
    + exists false. split; [reflexivity|]. congruence.
Qed.

Definition rect_inv (im : alpha) (x y v : Z) (f : fragment) : Prop :=
  fdiag f = diagNone /\ fvalue f = v /\ fx0 f = x /\ fy0 f = y /\ x <= fx1 f /\ y <= fy1 f /\
  forall a b, x <= a <= fx1 f -> y <= b <= fy1 f -> inside (Rect im) a b /\ pixel im a b = v.

Lemma rect_expand_spec im x y v : alpha_ok im -> inside (Rect im) x y ->
  forall fuel f sd sr, rect_inv im x y v f ->
  (sd = false -> fy1 f + 1 < ry1 (Rect im)) -> (sr = false -> fx1 f + 1 < rx1 (Rect im)) ->
  (rx1 (Rect im) - fx1 f) + (ry1 (Rect im) - fy1 f) + b2z (negb sd) + b2z (negb sr) <= Z.of_nat fuel ->
  exists f', rect_expand fuel im f sd sr = Ok f' /\ rect_inv im x y v f'.
Proof.
  intros Him Hin. induction fuel as [|fuel IH]; intros f sd sr (Hd & Hv & H0 & H1 & H2 & H3 & HP) Hsd Hsr Hf.
  - exfalso. specialize (HP (fx1 f) (fy1 f) ltac:(lia) ltac:(lia)). unfold inside in HP.
    destruct sd, sr; cbn [negb b2z] in Hf; lia.
  - cbn [rect_expand]. destruct (sd && sr) eqn:Es.
    + exists f. split; [reflexivity|]. unfold rect_inv. auto 10.
    + assert (DOWN : exists f2 sd2,
        (if negb sd then
           do e <- all_equal (Z.to_nat (fx1 f + 1 - fx0 f)) im
             ((fy1 f + 1 - ry0 (Rect im)) * Stride im + (fx0 f - rx0 (Rect im))) 1 (fvalue f);
           if (e : bool) then
             Ok (mkFrag (fx0 f) (fy0 f) (fx1 f) (fy1 f + 1) (fvalue f) (fdiag f), fy1 f + 1 + 1 >=? ry1 (Rect im))
           else Ok (f, true)
         else Ok (f, sd)) = Ok (f2, sd2) /\ rect_inv im x y v f2 /\
        (sd2 = false -> fy1 f2 + 1 < ry1 (Rect im)) /\ fx1 f2 = fx1 f /\
        (ry1 (Rect im) - fy1 f2) + b2z (negb sd2) <= (ry1 (Rect im) - fy1 f) + b2z (negb sd) - b2z (negb sd)).
      { destruct sd; cbn [negb].
        - exists f, true. split; [reflexivity|]. split; [unfold rect_inv; auto 10|]. cbn [b2z negb]. splits; discriminate || lia.
        - destruct (all_equal_spec im 1 (fvalue f) (fun p => (p, fy1 f + 1)) Him) with
            (n := Z.to_nat (fx1 f + 1 - fx0 f)) (p := fx0 f)
            (index := (fy1 f + 1 - ry0 (Rect im)) * Stride im + (fx0 f - rx0 (Rect im))) as (e & Ee & He).
          + intros p. unfold getPixelIndex. cbn [fst snd]. lia.
          + intros j Hj. cbn [fst snd]. specialize (Hsd eq_refl).
            specialize (HP (fx0 f + j) (fy1 f) ltac:(lia) ltac:(lia)). unfold inside in *. lia.
          + unfold getPixelIndex. cbn [fst snd]. lia.
          + rewrite Ee. cbn [bind]. destruct e.
            * eexists _, _. split; [reflexivity|]. cbn [fx0 fy0 fx1 fy1 fvalue fdiag]. splits; try lia.
              -- unfold rect_inv. cbn [fx0 fy0 fx1 fy1 fvalue fdiag]. splits; auto; try lia.
                 intros a b Ha Hb. destruct (Z.eq_dec b (fy1 f + 1)) as [->|].
                 ++ specialize (He eq_refl (a - fx0 f) ltac:(lia)). cbn [fst snd] in He.
                    replace (fx0 f + (a - fx0 f)) with a in He by lia. split; [|congruence].
                    specialize (HP a (fy1 f) ltac:(lia) ltac:(lia)). specialize (Hsd eq_refl). unfold inside in *. lia.
                 ++ apply HP; lia.
              -- destruct (fy1 f + 1 + 1 >=? ry1 (Rect im)); cbn [b2z negb]; lia.
            * exists f, true. split; [reflexivity|]. split; [unfold rect_inv; auto 10|].
              cbn [b2z negb]. splits; discriminate || lia. }
      destruct DOWN as (f2 & sd2 & E2 & (Gd & Gv & G0 & G1 & G2 & G3 & GP) & Gsd & Gx & Gm).
      cbv zeta. rewrite E2. cbn [bind].
      assert (RIGHT : exists f3 sr3,
        (if negb sr then
           do e <- all_equal (Z.to_nat (fy1 f2 + 1 - fy0 f2)) im
             ((fy0 f2 - ry0 (Rect im)) * Stride im + (fx1 f2 - rx0 (Rect im)) + 1) (Stride im) (fvalue f2);
           if (e : bool) then
             Ok (mkFrag (fx0 f2) (fy0 f2) (fx1 f2 + 1) (fy1 f2) (fvalue f2) (fdiag f2), fx1 f2 + 1 + 1 >=? rx1 (Rect im))
           else Ok (f2, true)
         else Ok (f2, sr)) = Ok (f3, sr3) /\ rect_inv im x y v f3 /\
        (sr3 = false -> fx1 f3 + 1 < rx1 (Rect im)) /\ fy1 f3 = fy1 f2 /\
        (rx1 (Rect im) - fx1 f3) + b2z (negb sr3) <= (rx1 (Rect im) - fx1 f) + b2z (negb sr) - b2z (negb sr)).
      { destruct sr; cbn [negb].
        - exists f2, true. split; [reflexivity|]. split; [unfold rect_inv; auto 10|]. cbn [b2z negb]. splits; discriminate || lia.
        - specialize (Hsr eq_refl). destruct (all_equal_spec im (Stride im) (fvalue f2) (fun p => (fx1 f2 + 1, p)) Him) with
            (n := Z.to_nat (fy1 f2 + 1 - fy0 f2)) (p := fy0 f2)
            (index := (fy0 f2 - ry0 (Rect im)) * Stride im + (fx1 f2 - rx0 (Rect im)) + 1) as (e & Ee & He).
          + intros p. unfold getPixelIndex. cbn [fst snd]. lia.
          + intros j Hj. cbn [fst snd]. 
            specialize (GP (fx1 f2) (fy0 f2 + j) ltac:(lia) ltac:(lia)). unfold inside in *. lia.
          + unfold getPixelIndex. cbn [fst snd]. lia.
          + rewrite Ee. cbn [bind]. destruct e.
            * eexists _, _. split; [reflexivity|]. cbn [fx0 fy0 fx1 fy1 fvalue fdiag]. splits; try lia.
              -- unfold rect_inv. cbn [fx0 fy0 fx1 fy1 fvalue fdiag]. splits; auto; try lia.
                 intros a b Ha Hb. destruct (Z.eq_dec a (fx1 f2 + 1)) as [->|].
                 ++ specialize (He eq_refl (b - fy0 f2) ltac:(lia)). cbn [fst snd] in He.
                    replace (fy0 f2 + (b - fy0 f2)) with b in He by lia. split; [|congruence].
                    specialize (GP (fx1 f2) b ltac:(lia) ltac:(lia)). unfold inside in *. lia.
                 ++ apply GP; lia.
              -- destruct (fx1 f2 + 1 + 1 >=? rx1 (Rect im)); cbn [b2z negb]; lia.
            * exists f2, true. split; [reflexivity|]. split; [unfold rect_inv; auto 10|].
              cbn [b2z negb]. splits; discriminate || lia. }
      destruct RIGHT as (f3 & sr3 & E3 & I3 & Gsr & Gy & Gm3). rewrite E3. cbn [bind].
      apply IH; auto.
      * intros Hs. rewrite Gy. auto.
      * destruct sd, sr; cbn [andb negb b2z] in *; try discriminate; lia.
Qed.

Lemma findRect_spec im x y v : alpha_ok im -> inside (Rect im) x y -> pixel im x y = v ->
  exists f, findRect im x y v = Ok f /\ frag_good im x y f /\ fvalue f = v.
Proof.
  intros Him Hin Hp. unfold findRect. rewrite gpi_get by assumption. cbn [bind]. rewrite Hp, Z.eqb_refl. cbn [negb].
  destruct (rect_expand_spec im x y v Him Hin (S (S (line_fuel im))) (mkFrag x y x y v diagNone)
    (y + 1 >=? ry1 (Rect im)) (x + 1 >=? rx1 (Rect im))) as (f & Ef & (Hd & Hv & H0 & H1 & H2 & H3 & HP)).
  - unfold rect_inv. cbn [fx0 fy0 fx1 fy1 fvalue fdiag]. splits; auto; try lia.
    intros a b Ha Hb. replace a with x by lia. replace b with y by lia. auto.
  - cbn [fy1]. lia.
  - cbn [fx1]. lia.
  - cbn [fx1 fy1]. unfold line_fuel, inside in *.
    destruct (y + 1 >=? ry1 (Rect im)), (x + 1 >=? rx1 (Rect im)); cbn [b2z negb]; lia.
  - exists f. split; [exact Ef|]. split; [|exact Hv]. unfold frag_good, shape_ok, cells. rewrite Hd. splits; try lia; try congruence.
    intros a b Hab. rewrite Hv. apply HP; lia.
Qed.

(** *** findDiagonal *)

Lemma diag_scan_spec im v dx : alpha_ok im -> v <> 0 -> (dx = 1 \/ dx = -1) ->
  forall n x y, inside (Rect im) x y -> pixel im x y = v ->
  (forall j, 0 <= j <= Z.of_nat n -> inside (Rect im) (x + j * dx) (y + j)) ->
  exists k, 0 <= k <= Z.of_nat n /\
    diag_scan n im dx x y (getPixelIndex im x y) v = Ok (x + k * dx, y + k) /\
    forall j, 0 <= j <= k -> inside (Rect im) (x + j * dx) (y + j) /\ pixel im (x + j * dx) (y + j) = v.
Proof.
  intros Him Hv Hdx. induction n as [|n IH]; intros x y Hin Hp HA; cbn [diag_scan].
  - exists 0. splits; try lia. + okpair. + intros j Hj. replace j with 0 by lia. rewrite Z.mul_0_l, !Z.add_0_r. auto.
  - assert (STOP : exists k, 0 <= k <= Z.of_nat (S n) /\ Ok (x, y) = Ok (x + k * dx, y + k) /\
      forall j, 0 <= j <= k -> inside (Rect im) (x + j * dx) (y + j) /\ pixel im (x + j * dx) (y + j) = v).
    { exists 0. splits; try lia. + okpair. + intros j Hj. replace j with 0 by lia. rewrite Z.mul_0_l, !Z.add_0_r. auto. }
    assert (In1 : inside (Rect im) (x + dx) (y + 1)) by (specialize (HA 1 ltac:(lia)); rewrite Z.mul_1_l in HA; exact HA).
    replace (getPixelIndex im x y + Stride im + dx) with (getPixelIndex im (x + dx) (y + 1)) by (unfold getPixelIndex; lia).
    rewrite gpi_get by assumption. cbn [bind].
    destruct (Z.eqb_spec (pixel im (x + dx) (y + 1)) v) as [E|E]; cbn [negb]; [|exact STOP].
    rewrite countNeighbours_spec by assumption. cbn [bind].
    destruct (nbs im (x + dx) (y + 1) v =? 0); cbn [negb]; [|exact STOP].
    destruct (IH (x + dx) (y + 1) In1 E) as (k & Hk & Ek & Hall).
    { intros j Hj. specialize (HA (j + 1) ltac:(lia)). replace (x + dx + j * dx) with (x + (j + 1) * dx) by lia.
      replace (y + 1 + j) with (y + (j + 1)) by lia. exact HA. }
    exists (k + 1). splits; try lia.
    + rewrite Ek. okpair.
    + intros j Hj. destruct (Z.eq_dec j 0) as [->|].
      * rewrite Z.mul_0_l, !Z.add_0_r. auto.
      * specialize (Hall (j - 1) ltac:(lia)). replace (x + dx + (j - 1) * dx) with (x + j * dx) in Hall by lia.
        replace (y + 1 + (j - 1)) with (y + j) in Hall by lia. exact Hall.
Qed.

Lemma diag_try_spec im v dx ms x y : alpha_ok im -> v <> 0 -> (dx = 1 \/ dx = -1) ->
  inside (Rect im) x y -> pixel im x y = v ->
  (forall j, 0 <= j <= ms -> inside (Rect im) (x + j * dx) (y + j)) ->
  diag_try im ms dx x y (getPixelIndex im x y) v = Ok None \/
  exists k, 0 <= k /\ diag_try im ms dx x y (getPixelIndex im x y) v = Ok (Some (x + k * dx, y + k)) /\
    forall j, 0 <= j <= k -> inside (Rect im) (x + j * dx) (y + j) /\ pixel im (x + j * dx) (y + j) = v.
Proof.
  intros Him Hv Hdx Hin Hp HA. unfold diag_try. destruct (ms >? 0) eqn:Em; [|left; reflexivity].
  assert (In1 : inside (Rect im) (x + dx) (y + 1)) by (specialize (HA 1 ltac:(lia)); rewrite Z.mul_1_l in HA; exact HA).
  replace (getPixelIndex im x y + Stride im + dx) with (getPixelIndex im (x + dx) (y + 1)) by (unfold getPixelIndex; lia).
  cbv zeta. rewrite gpi_get by assumption. cbn [bind].
  destruct (Z.eqb_spec (pixel im (x + dx) (y + 1)) v) as [E|E]; [|left; reflexivity].
  rewrite countNeighbours_spec by assumption. cbn [bind].
  destruct (nbs im (x + dx) (y + 1) v =? 0); [|left; reflexivity].
  destruct (diag_scan_spec im v dx Him Hv Hdx (Z.to_nat (ms - 1)) (x + dx) (y + 1) In1 E) as (k & Hk & Ek & Hall).
  { intros j Hj. specialize (HA (j + 1) ltac:(lia)). replace (x + dx + j * dx) with (x + (j + 1) * dx) by lia.
    replace (y + 1 + j) with (y + (j + 1)) by lia. exact HA. }
  rewrite Ek. cbn [bind]. right. exists (k + 1). splits; try lia.
  - do 2 f_equal; f_equal; lia.
  - intros j Hj. destruct (Z.eq_dec j 0) as [->|].
    + rewrite Z.mul_0_l, !Z.add_0_r. auto.
    + specialize (Hall (j - 1) ltac:(lia)). replace (x + dx + (j - 1) * dx) with (x + j * dx) in Hall by lia.
      replace (y + 1 + (j - 1)) with (y + j) in Hall by lia. exact Hall.
Qed.

Lemma findDiagonal_spec im x y v : alpha_ok im -> inside (Rect im) x y -> v <> 0 ->
  pixel im x y = v -> nbs im x y v = 0 ->
  findDiagonal im x y (getPixelIndex im x y) v = Ok None \/
  exists f, findDiagonal im x y (getPixelIndex im x y) v = Ok (Some f) /\ frag_good im x y f /\ fvalue f = v.
Proof.
  intros Him Hin Hv Hp Hn. unfold findDiagonal. rewrite Z.eqb_refl. cbn [negb].
  rewrite gpi_get by assumption. cbn [bind]. rewrite Hp, Z.eqb_refl. cbn [negb].
  rewrite countNeighbours_spec by assumption. cbn [bind]. rewrite Hn. change (0 =? 0) with true. cbn [negb].
  cbv zeta.
  destruct (diag_try_spec im v 1 (Z.min (rx1 (Rect im) - 1 - x) (ry1 (Rect im) - 1 - y)) x y) as [E|(k & Hk & E & HA)]; auto.
  { intros j Hj. unfold inside in *. lia. }
  - rewrite E. cbn [bind].
    destruct (diag_try_spec im v (-1) (Z.min (x - rx0 (Rect im)) (ry1 (Rect im) - 1 - y)) x y) as [E2|(k & Hk & E2 & HA)]; auto.
    { intros j Hj. unfold inside in *. lia. }
    + rewrite E2. left. reflexivity.
    + rewrite E2. cbn [bind]. right. eexists. split; [reflexivity|]. split; [|reflexivity].
      unfold frag_good, shape_ok, cells. cbn [fx0 fy0 fx1 fy1 fvalue fdiag]. splits; try lia.
      intros a b Hab. specialize (HA (x - a) ltac:(lia)). replace (x + (x - a) * -1) with a in HA by lia.
      replace (y + (x - a)) with b in HA by lia. exact HA.
  - rewrite E. cbn [bind]. right. eexists. split; [reflexivity|]. split; [|reflexivity].
    unfold frag_good, shape_ok, cells. cbn [fx0 fy0 fx1 fy1 fvalue fdiag]. splits; try lia.
    intros a b Hab. specialize (HA (a - x) ltac:(lia)). replace (x + (a - x) * 1) with a in HA by lia.
    replace (y + (a - x)) with b in HA by lia. exact HA.
Qed.

(** *** ClearFrom *)

Lemma clear_row_spec dx dy : (dx = 1 \/ dx = -1) -> (dy = 0 \/ dy = 1) ->
  forall n im x y, alpha_ok im ->
  (forall j, 0 <= j < Z.of_nat n -> inside (Rect im) (x + j * dx) (y + j * dy)) ->
  exists pix, clear_row n (Pix im) (getPixelIndex im x y) (dy * Stride im + dx) = Ok pix /\
    painted im (mkAlpha pix (Stride im) (Rect im))
      (fun a b => (0 <=? (a - x) * dx) && ((a - x) * dx <? Z.of_nat n) && (b =? y + (a - x) * dx * dy)) 0.
Proof.
  intros Hdx Hdy. induction n as [|n IH]; intros im x y Him HA; cbn [clear_row].
  - exists (Pix im). split; [reflexivity|]. replace (mkAlpha (Pix im) (Stride im) (Rect im)) with im by (destruct im; reflexivity).
    apply painted_none; [exact Him|]. intros; lia.
  - assert (H0 : inside (Rect im) x y) by (specialize (HA 0 ltac:(lia)); rewrite !Z.mul_0_l, !Z.add_0_r in HA; exact HA).
    destruct (SetAlpha_spec im x y 0 Him ltac:(unfold byte; lia)) as (m1 & E1 & P1).
    unfold SetAlpha in E1. apply insideb_spec in H0 as H0'. unfold insideb in H0'. rewrite H0' in E1.
    change ((y - ry0 (Rect im)) * Stride im + (x - rx0 (Rect im))) with (getPixelIndex im x y) in E1.
    destruct (zset (Pix im) (getPixelIndex im x y) 0) as [p| | |] eqn:Ez; try discriminate.
    cbn [bind] in E1. injection E1 as <-. cbn [bind].
    destruct (IH (mkAlpha p (Stride im) (Rect im)) (x + dx) (y + dy)) as (pix & Ep & Pp).
    + apply P1.
    + cbn [Rect]. intros j Hj. specialize (HA (j + 1) ltac:(lia)).
      replace (x + dx + j * dx) with (x + (j + 1) * dx) by lia. replace (y + dy + j * dy) with (y + (j + 1) * dy) by lia. exact HA.
    + exists pix. cbn [Pix Stride Rect] in Ep, Pp.
      replace (getPixelIndex im x y + (dy * Stride im + dx)) with (getPixelIndex (mkAlpha p (Stride im) (Rect im)) (x + dx) (y + dy))
        by (unfold getPixelIndex; cbn [Stride Rect]; lia).
      split; [exact Ep|]. eapply painted_trans; [exact P1|exact Pp|]. intros a b. cbn beta.
      apply Bool.eq_true_iff_eq. rewrite orb_true_iff, !andb_true_iff, !Z.leb_le, !Z.ltb_lt, !Z.eqb_eq.
      destruct Hdx as [-> | ->], Hdy as [-> | ->]; lia.
Qed.
