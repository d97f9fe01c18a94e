(** Enumerating the colors of any palette of a builder. *)
From Verif Require Import Base BaseFacts Spec_Helpers Model_Helpers Model_Date Spec_Names Spec_Mask Model_Mask Model_Font Model_Words Model_Parse Model_Builder Spec_Builder Proofs_Builder Proofs_Colors.

Lemma firstn_step {A} (l : list A) i j d : nth_error l i = Some d -> firstn (S j) (skipn i l) = d :: firstn j (skipn (S i) l).
Proof.
  revert l. induction i as [|i IH]; intros [|x l] H; cbn [nth_error] in H; try discriminate; [injection H as ->; reflexivity|]. cbn [skipn]. apply IH. exact H.
Qed.
Lemma zget_nth {A} (l : list A) i : zget l (Z.of_nat i) = match nth_error l i with Some x => Ok x | None => Panic end.
Proof. unfold zget. replace (Z.of_nat i <? 0) with false by lia. rewrite Nat2Z.id. reflexivity. Qed.

Section Loop.
  Variables (name : list Z) (dyes : list (list Z * list Z)) (cs : list rgba) (post : list (list Z * list rgba)).
  Hypothesis Hpost : ~ In name (map fst post).
  Definition room_at (c : Z) (i j : nat) : Z := c - zlen (concat (map snd (firstn j (skipn i dyes)))).
  Lemma room_0 c i : room_at c i 0 = c.
  Proof. unfold room_at. cbn. rewrite zlen_nil. lia. Qed.
  Lemma room_S c i j d : nth_error dyes i = Some d -> room_at c i (S j) = room_at (c - zlen (snd d)) (S i) j.
  Proof. intros H. unfold room_at. rewrite (firstn_step _ _ _ _ H), concat_len. lia. Qed.

  Lemma palette_found : forall pre i c calls, ~ In name (map fst pre) -> c <= 255 -> (i + length pre <= length dyes)%nat ->
    (forall j p, nth_error (pre ++ [(name, cs)]) j = Some p -> zlen (snd p) <= room_at c i j) ->
    fst (EachPaletteColor_loop name dyes (Z.of_nat i) (pre ++ (name, cs) :: post) c calls) = calls ++ down (room_at c i (length pre)) cs.
  Proof.
    induction pre as [|q pre IH]; intros i c calls Hn Hc Hl Hf; cbn [app EachPaletteColor_loop fst snd length].
    - pose proof (Hf O _ eq_refl) as F. rewrite room_0 in *. cbn [snd] in F. replace (zlen cs >? c) with false by lia. rewrite list_eqb_refl.
      rewrite palettes_none by exact Hpost. rewrite calls_ok by lia. rewrite Z.sub_0_r. reflexivity.
    - pose proof (Hf O _ eq_refl) as F. rewrite room_0 in F. cbn [snd] in F. replace (zlen (snd q) >? c) with false by lia.
      destruct (list_eqb (fst q) name) eqn:E; [apply list_eqb_true in E; destruct Hn; left; exact E|].
      cbn [length] in Hl. rewrite zget_nth. destruct (nth_error dyes i) as [d|] eqn:D; [|apply nth_error_None in D; lia].
      replace (Z.of_nat i + 1) with (Z.of_nat (S i)) by lia. pose proof (zlen_nonneg (snd d)). rewrite (room_S _ _ _ _ D). apply IH; [intros H'; apply Hn; right; exact H'|lia|lia|].
      intros j p Hj. rewrite <- (room_S _ _ _ _ D). apply (Hf (S j)). exact Hj.
  Qed.
  Lemma palette_crowded : forall pre i c calls j p, ~ In name (map fst pre) -> nth_error (pre ++ [(name, cs)]) j = Some p -> room_at c i j < zlen (snd p) ->
    fst (EachPaletteColor_loop name dyes (Z.of_nat i) (pre ++ (name, cs) :: post) c calls) = calls.
  Proof.
    induction pre as [|q pre IH]; intros i c calls j p Hn Hj Hf; cbn [app EachPaletteColor_loop fst snd].
    - destruct j as [|j]; [|destruct j; discriminate]. injection Hj as <-. rewrite room_0 in Hf. cbn [snd] in Hf. replace (zlen cs >? c) with true by lia. reflexivity.
    - destruct (zlen (snd q) >? c) eqn:F; [reflexivity|]. destruct (list_eqb (fst q) name) eqn:E; [apply list_eqb_true in E; destruct Hn; left; exact E|].
      destruct j as [|j]; [injection Hj as <-; rewrite room_0 in Hf; lia|]. rewrite zget_nth. destruct (nth_error dyes i) as [d|] eqn:D; [|reflexivity].
      replace (Z.of_nat i + 1) with (Z.of_nat (S i)) by lia. rewrite (room_S _ _ _ _ D) in Hf. apply (IH _ _ _ j p); [intros H'; apply Hn; right; exact H'|exact Hj|exact Hf].
  Qed.
  Lemma palette_beyond : forall pre i c calls, ~ In name (map fst pre) -> (i <= length dyes < i + length pre)%nat ->
    fst (EachPaletteColor_loop name dyes (Z.of_nat i) (pre ++ (name, cs) :: post) c calls) = calls.
  Proof.
    induction pre as [|q pre IH]; intros i c calls Hn Hl; [cbn [length] in Hl; lia|]. cbn [app EachPaletteColor_loop fst snd].
    destruct (zlen (snd q) >? c); [reflexivity|]. destruct (list_eqb (fst q) name) eqn:E; [apply list_eqb_true in E; destruct Hn; left; exact E|].
    rewrite zget_nth. destruct (nth_error dyes i) as [d|] eqn:D; [|reflexivity]. assert (nth_error dyes i <> None) as X by congruence. apply nth_error_Some in X.
    replace (Z.of_nat i + 1) with (Z.of_nat (S i)) by lia. cbn [length] in Hl. apply IH; [intros H'; apply Hn; right; exact H'|lia].
  Qed.
  Lemma palette_panics : forall pre i c calls, ~ In name (map fst pre) -> (i <= length dyes < i + length pre)%nat ->
    (forall j p, (i + j <= length dyes)%nat -> nth_error pre j = Some p -> zlen (snd p) <= room_at c i j) ->
    EachPaletteColor_loop name dyes (Z.of_nat i) (pre ++ (name, cs) :: post) c calls = (calls, Panic).
  Proof.
    induction pre as [|q pre IH]; intros i c calls Hn Hl Hf; [cbn [length] in Hl; lia|]. cbn [app EachPaletteColor_loop fst snd].
    pose proof (Hf O q ltac:(lia) eq_refl) as F. rewrite room_0 in F. replace (zlen (snd q) >? c) with false by lia.
    destruct (list_eqb (fst q) name) eqn:E; [apply list_eqb_true in E; destruct Hn; left; exact E|].
    rewrite zget_nth. destruct (nth_error dyes i) as [d|] eqn:D; [|reflexivity]. assert (nth_error dyes i <> None) as X by congruence. apply nth_error_Some in X.
    replace (Z.of_nat i + 1) with (Z.of_nat (S i)) by lia. cbn [length] in Hl. apply IH; [intros H'; apply Hn; right; exact H'|lia|].
    intros j p Hj Hp. rewrite <- (room_S _ _ _ _ D). apply (Hf (S j)); [lia|exact Hp].
  Qed.
End Loop.

Lemma palette_names b pre name cs post : colors_ok b -> b_palettes b = pre ++ (name, cs) :: post -> ~ In name (map fst pre) /\ ~ In name (map fst post).
Proof.
  intros [N _] E. unfold color_names in N. rewrite E, map_app in N. cbn [map fst] in N. rewrite app_assoc in N. apply NoDup_remove_2 in N.
  split; intros H; apply N; apply in_or_app; [left; apply in_or_app; right; exact H|right; exact H].
Qed.
Lemma palette_start b : colors_ok b -> forall name, EachPaletteColor b name = EachPaletteColor_loop name (b_dyes b) (Z.of_nat 0) (b_palettes b) (255 - zlen (concat (map snd (b_dyes b)))) [].
Proof.
  intros [_ C] name. unfold EachPaletteColor. rewrite after_dyes. unfold color_count in C. pose proof (zlen_nonneg (concat (map snd (b_palettes b)))). replace (_ <? 0) with false by lia. reflexivity.
Qed.
