(** Decision trees of rules whose elements are single elements or sets that are one range: the
    ranges of given rules as letters, and what the trees answer. *)
From Verif Require Import Base BaseFacts Spec_Helpers Model_Helpers Proofs_Helpers Spec_Layout Model_Font Model_Rewrites Proofs_Rewrites
  Model_Scanner Model_Tree Spec_Tree Spec_TreeSets Proofs_Tree Proofs_Tree2 Proofs_Tree3 Proofs_Tree4.

(** ** The letters of non-overlapping ranges *)
Section Ranges.
  Variable R : list (Z * Z).
  Definition range_hi (a : Z) : Z := match find (fun r => fst r =? a) R with Some r => snd r | None => a end.
  Definition range_letter (a : Z) : Prop := In a (map fst R).
  Definition outside : Z := fold_right Z.max 0 (map fst R) + 1.
  Definition range_name (x : Z) : Z := match find (fun r => (fst r <=? x) && (x <=? snd r)) R with Some r => fst r | None => outside end.
  Lemma outside_not : ~ range_letter outside.
  Proof.
    unfold range_letter, outside. assert (H : forall l a, In a l -> a <= fold_right Z.max 0 l).
    { induction l as [|y l IH]; intros a; [intros []|]. cbn [fold_right]. intros [->|Hin]; [lia|]. specialize (IH _ Hin). lia. }
    intros Hin. specialize (H _ _ Hin). lia.
  Qed.
  Hypotheses (Hap : apart R) (Hle : forall r, In r R -> fst r <= snd r).
  Lemma range_hi_in r : In r R -> range_hi (fst r) = snd r.
  Proof.
    intros Hin. unfold range_hi. destruct (find _ R) as [q|] eqn:E.
    - apply find_some in E. destruct E as [Hq E]. cbv beta in E. apply Z.eqb_eq in E. destruct (Hap q r Hq Hin) as [->|H]; [reflexivity|].
      pose proof (Hle _ Hq). pose proof (Hle _ Hin). lia.
    - pose proof (find_none _ _ E _ Hin) as H. cbv beta in H. rewrite Z.eqb_refl in H. discriminate.
  Qed.
  Lemma range_name_in r x : In r R -> fst r <= x <= snd r -> range_name x = fst r.
  Proof.
    intros Hin Hx. unfold range_name. destruct (find _ R) as [q|] eqn:E.
    - apply find_some in E. destruct E as [Hq E]. cbv beta in E. destruct (Hap q r Hq Hin) as [->|H]; [reflexivity|lia].
    - pose proof (find_none _ _ E _ Hin) as H. cbv beta in H. lia.
  Qed.
  Lemma ranges_letter_hi a : range_letter a -> a <= range_hi a.
  Proof. intros H. apply in_map_iff in H. destruct H as (r & <- & Hr). rewrite range_hi_in by exact Hr. exact (Hle _ Hr). Qed.
  Lemma ranges_name_in a x : range_letter a -> a <= x <= range_hi a -> range_name x = a.
  Proof. intros H. apply in_map_iff in H. destruct H as (r & <- & Hr). rewrite range_hi_in by exact Hr. intros Hx. exact (range_name_in _ _ Hr Hx). Qed.
  Lemma ranges_name_out x : range_letter (range_name x) -> range_name x <= x <= range_hi (range_name x).
  Proof.
    unfold range_name. destruct (find _ R) as [q|] eqn:E; [|intros H; exfalso; exact (outside_not H)].
    apply find_some in E. destruct E as [Hq E]. cbv beta in E. intros _. rewrite range_hi_in by exact Hq. lia.
  Qed.
  Definition ranges_alphabet : alphabet := {| hi := range_hi; letter := range_letter; name := range_name;
    letter_hi := ranges_letter_hi; name_in := ranges_name_in; name_out := ranges_name_out |}.

  (** Patterns of letters and patterns of ranges *)
  Lemma named_prefix (Q : list (Z -> Prop)) rs input : Forall2 (fun (q : Z -> Prop) r => In r R /\ forall x, q x <-> fst r <= x <= snd r) Q rs ->
    is_prefix (map fst rs) (map range_name input) <-> fits Q input.
  Proof.
    intros HQ. revert input. induction HQ as [|q r Q rs [Hr Hq] _ IH]; intros input.
    - split; intros _; [exists [], input; split; [reflexivity|constructor]|exists (map range_name input); reflexivity].
    - split.
      + intros (w & E). destruct input as [|x input]; cbn [map app] in E; [discriminate|]. injection E as E1 E2.
        destruct (proj1 (IH input)) as (pre & rest & -> & HF); [exists w; exact E2|]. exists (x :: pre), rest. split; [reflexivity|].
        constructor; [|exact HF]. apply Hq. assert (Hx : range_letter (range_name x)) by (rewrite E1; apply in_map; exact Hr).
        pose proof (ranges_name_out x Hx) as H. rewrite E1, range_hi_in in H by exact Hr. exact H.
      + intros (pre & rest & -> & HF). inversion HF as [|? x ? pre' Hx HF' E1 E2]. subst. cbn [app map].
        destruct (proj2 (IH (pre' ++ rest))) as (w & E); [exists pre', rest; auto|]. exists w. cbn [app]. rewrite (range_name_in r x Hr) by (apply Hq; exact Hx).
        rewrite E. reflexivity.
  Qed.
  (** the rules with letters, given the rules with sets and the ranges these are *)
  Definition lettered {A} (rules : list (list A * Z)) (ranges : list (list (Z * Z))) : list (list Z * Z) :=
    map (fun p => (map fst (snd p), snd (fst p))) (combine rules ranges).
  Lemma lettered_best {A} (pat : A -> Z -> Prop) (rules : list (list A * Z)) ranges input m :
    Forall2 (fun e rs => Forall2 (fun a r => In r R /\ forall x, pat a x <-> fst r <= x <= snd r) (fst e) rs) rules ranges ->
    best_match (lettered rules ranges) (map range_name input) m -> best_fit (map (fun e => (map pat (fst e), snd e)) rules) input m.
  Proof.
    intros HF.
    assert (K : forall a b (e : list A * Z) rs, Forall2 (fun a r => In r R /\ forall x, pat a x <-> fst r <= x <= snd r) (fst e) rs -> (map fst rs, snd e) = (a, b) ->
      (is_prefix a (map range_name input) <-> fits (map pat (fst e)) input) /\ length a = length (map pat (fst e))).
    { intros a b e rs H [= <- _]. split.
      - apply named_prefix. clear - H. induction H as [|x y l l' H _ IH]; cbn [map]; constructor; assumption.
      - rewrite !map_length. symmetry. clear - H. induction H; cbn; congruence. }
    intros [[-> H]|(before & xs & after & E & H1 & H2 & H3)].
    - left. split; [reflexivity|]. intros Q i Hin Hfit. apply in_map_iff in Hin. destruct Hin as (e & [= <- <-] & Hin).
      apply in_split in Hin. destruct Hin as (l1 & l2 & ->). apply Forall2_app_inv_l in HF. destruct HF as (r1 & r2 & F1 & F2 & ->).
      inversion F2 as [|? rs ? r3 Hrs F3 E1 E2]. subst. apply (H (map fst rs) (snd e)); [|apply (K _ _ e rs Hrs eq_refl); exact Hfit].
      unfold lettered. apply in_map_iff. exists (e, rs). split; [reflexivity|]. clear - F1. revert r1 F1.
      induction l1 as [|z l1 IH]; intros r1 F1; inversion F1; subst; cbn [app combine]; [left; reflexivity|right]. apply IH. assumption.
    - right. assert (Hsplit : exists b1 e rs b2, rules = b1 ++ e :: b2 /\ Forall2 (fun a r => In r R /\ forall x, pat a x <-> fst r <= x <= snd r) (fst e) rs /\ (map fst rs, snd e) = (xs, m) /\
        forall e', In e' b1 -> exists rs', Forall2 (fun a r => In r R /\ forall x, pat a x <-> fst r <= x <= snd r) (fst e') rs' /\ In (map fst rs', snd e') before).
      { clear H1 H2 H3. revert ranges before HF E. induction rules as [|e rules IH]; intros ranges before HF E; inversion HF as [|? rs ? ranges' Hrs HF' E1 E2]; subst; unfold lettered in E; cbn [combine map fst snd] in E.
        - destruct before; discriminate.
        - destruct before as [|b before]; cbn [app] in E; injection E as E1 E2.
          + exists [], e, rs, rules. split; [reflexivity|]. split; [exact Hrs|]. split; [congruence|]. intros e' [].
          + destruct (IH _ _ HF' E2) as (b1 & e2 & rs2 & b2 & -> & G1 & G2 & G3). exists (e :: b1), e2, rs2, b2. split; [reflexivity|]. split; [exact G1|]. split; [exact G2|].
            intros e' [<-|Hin]; [exists rs; split; [exact Hrs|left; congruence]|]. destruct (G3 _ Hin) as (rs' & G4 & G5). exists rs'. split; [exact G4|right; exact G5]. }
      destruct Hsplit as (b1 & e & rs & b2 & -> & G1 & G2 & G3). destruct (K _ _ _ _ G1 G2) as [K1 K2].
      exists (map (fun e => (map pat (fst e), snd e)) b1), (map pat (fst e)), (map (fun e => (map pat (fst e), snd e)) b2). rewrite map_app. cbn [map].
      split; [injection G2 as _ ->; reflexivity|]. split; [apply K1; exact H1|]. rewrite <- K2. split.
      + intros Q i Hin Hfit. assert (Hin' : In (Q, i) (map (fun e => (map pat (fst e), snd e)) (b1 ++ e :: b2))) by (rewrite map_app; exact Hin).
        apply in_map_iff in Hin'. destruct Hin' as (e' & [= <- <-] & Hin'). apply in_split in Hin'. destruct Hin' as (l1 & l2 & El). rewrite El in HF, E, H2.
        apply Forall2_app_inv_l in HF. destruct HF as (r1 & r2 & F1 & F2 & ->). inversion F2 as [|? rs' ? r3 Hrs F3 E1 E2]. subst.
        destruct (K _ _ e' rs' Hrs eq_refl) as [K3 K4]. rewrite <- K4. apply (H2 (map fst rs') (snd e')); [|apply K3; exact Hfit].
        unfold lettered. apply in_map_iff. exists (e', rs'). split; [reflexivity|]. clear - F1. revert r1 F1.
        induction l1 as [|z l1 IH]; intros r1 F1; inversion F1; subst; cbn [app combine]; [left; reflexivity|right]. apply IH. assumption.
      + intros Q i Hin Hfit. apply in_map_iff in Hin. destruct Hin as (e' & [= <- <-] & Hin). destruct (G3 _ Hin) as (rs' & G4 & G5).
        destruct (K _ _ e' rs' G4 eq_refl) as [K3 K4]. rewrite <- K4. apply (H3 _ _ G5). apply K3. exact Hfit.
  Qed.
End Ranges.

(** ** Compiling *)
Section Compile.
  Variables (k : kind) (sets : set_reader) (pat : element -> Z -> Prop).
  (** an element whose elements are those of a range *)
  Definition covers (e : element) (r : Z * Z) : Prop :=
    fst r <= snd r /\ snd r < k_succ k (snd r) /\ (forall x, pat e x <-> fst r <= x <= snd r) /\
    match e with Single x => r = (x, x) | InSet s => s <> 255 /\ forall each c, sets s each c = fst (each (Ok c) r) end.
  Variables (data : list (list Z * Z)) (rules : list (list element * Z)) (ranges : list (list (Z * Z))).
  Hypotheses (Hscan : Forall2 (fun d e => scan k (fst d) = Ok (fst e) /\ snd d = snd e /\ fst e <> []) data rules)
    (Hcov : Forall2 (fun e rs => Forall2 covers (fst e) rs) rules ranges) (Hap : apart (concat ranges)) (Hinc : increasing 0 (map snd rules)).

  Lemma covers_le : forall r, In r (concat ranges) -> fst r <= snd r.
  Proof.
    intros r Hr. apply in_concat in Hr. destruct Hr as (rs & Hrs & Hr). pose proof Hcov as C. clear Hscan Hap Hinc Hcov. induction C as [|e rs' es rss H _ IH]; [destruct Hrs|].
    destruct Hrs as [->|Hrs]; [|exact (IH Hrs)]. clear - H Hr. induction H as [|x y l l' H _ IH]; [destruct Hr|]. destruct Hr as [->|Hr]; [exact (proj1 H)|exact (IH Hr)].
  Qed.
  Let AB : alphabet := ranges_alphabet (concat ranges) Hap covers_le.

  Lemma lettered_snd : map snd (lettered rules ranges) = map snd rules.
  Proof.
    pose proof Hcov as C. clear AB. clear Hscan Hap Hinc Hcov. unfold lettered. induction C as [|e rs es rss H _ IH]; cbn [combine map fst snd]; [reflexivity|]. f_equal. exact IH.
  Qed.
  Lemma covers_stand e r : In r (concat ranges) -> covers e r -> @stands AB k sets e (fst r).
  Proof.
    intros Hr (H1 & H2 & _ & H3). unfold stands. cbn [letter hi AB ranges_alphabet]. rewrite (range_hi_in _ Hap covers_le r Hr).
    split; [apply in_map; exact Hr|]. split; [exact H2|]. destruct e as [s|x]; [|subst r; auto]. destruct H3 as [H3 H4]. split; [exact H3|].
    intros each c. rewrite H4. destruct r. reflexivity.
  Qed.
  Lemma lettered_patterns : Forall2 (@pattern_of AB k sets) data (lettered rules ranges).
  Proof.
    pose proof covers_stand as Hst. unfold lettered. revert Hst. generalize AB. clear AB. clear Hinc. intros AB Hst.
    assert (Hin : forall rs, In rs ranges -> forall r, In r rs -> In r (concat ranges)) by (intros rs H1 r H2; apply in_concat; eauto).
    revert Hst Hin. generalize (concat ranges). clear Hap. intros R Hst Hin. pose proof Hcov as C. clear Hcov. revert data Hscan. induction C as [|e rs es rss H _ IH]; intros ds Hs; inversion Hs as [|d ? ds' ? (S1 & S2 & S3) Hs' E1 E2]; subst; cbn [combine map fst snd]; constructor.
    - split; [|split; [exact S2|]].
      + exists (fst e). split; [exact S1|]. cbn [fst]. specialize (Hin rs (or_introl eq_refl)). clear - H Hst Hin. induction H as [|x r l l' H _ IH]; cbn [map]; constructor.
        * apply Hst; [apply Hin; left; reflexivity|exact H].
        * apply IH. intros r' Hr'. apply Hin. right. exact Hr'.
      + cbn [fst]. inversion H as [E1 E2|x r l l' _ _ E1 E2]; [congruence|discriminate].
    - apply IH; [intros rs' Hrs; apply Hin; right; exact Hrs|exact Hs'].
  Qed.
  Lemma lettered_limits : within_limits (lettered rules ranges) <-> within_limits rules.
  Proof.
    assert (E : steps (lettered rules ranges) = steps rules /\ zlen (lettered rules ranges) = zlen rules).
    { pose proof Hcov as C. clear AB. clear Hscan Hap Hinc Hcov. unfold lettered. induction C as [|e rs es rss H _ IH]; cbn [combine map fst snd]; [split; reflexivity|]. rewrite !zlen_cons. destruct IH as [IH1 IH2].
      split; [|lia]. cbn [steps fold_right fst]. fold (@steps Z). fold (@steps element). unfold steps in IH1 |- *. rewrite IH1. f_equal. f_equal. unfold zlen. rewrite map_length. f_equal.
      clear - H. induction H; cbn; congruence. }
    unfold within_limits. destruct E as [-> ->]. tauto.
  Qed.
  Lemma ranged_right states : data <> [] -> compile k sets data = Ok states ->
    forall input index best, exists m, tree_Match (mkTree states index best false) input = Ok m /\ best_fit (map (fun e => (map pat (fst e), snd e)) rules) input m.
  Proof.
    intros Hne Hc input index best.
    destruct (@trees_right AB k sets data (lettered rules ranges) states lettered_patterns Hne ltac:(rewrite lettered_snd; exact Hinc) Hc input index best) as (m & H1 & H2).
    exists m. split; [exact H1|]. apply (lettered_best (concat ranges) Hap covers_le pat rules ranges); [|exact H2].
    assert (Hin : forall rs, In rs ranges -> forall r, In r rs -> In r (concat ranges)) by (intros rs G1 r G2; apply in_concat; eauto).
    revert Hin. generalize (concat ranges). clear - Hcov. intros R Hin. pose proof Hcov as C. clear Hcov. induction C as [|e rs es rss H _ IH]; constructor.
    - specialize (Hin rs (or_introl eq_refl)). clear - H Hin. induction H as [|x r l l' H _ IH]; constructor.
      + split; [apply Hin; left; reflexivity|exact (proj1 (proj2 (proj2 H)))].
      + apply IH. intros r' Hr'. apply Hin. right. exact Hr'.
    - apply IH. intros rs' Hrs. apply Hin. right. exact Hrs.
  Qed.
  Lemma ranged_compile : compile k sets data = Err "DecisionTreeCompiler hit a limit" /\ ~ within_limits rules \/
    exists states, compile k sets data = Ok states /\ zlen states <= 254.
  Proof.
    destruct (@trees_compile AB k sets data (lettered rules ranges) lettered_patterns ltac:(rewrite lettered_snd; exact Hinc)) as [[H1 H2]|H]; [left|right; exact H].
    rewrite lettered_limits in H2. auto.
  Qed.
End Compile.

(** ** The sets of fonts *)
Section Fonts.
  Variable f : Font.
  Lemma glyph_range_covers e r : glyph_range f e r -> (forall x, e = Single x -> x < k_succ glyph_kind x) -> covers glyph_kind (glyph_sets f) (element_pattern f) e r.
  Proof.
    destruct e as [s|x]; intros H Hx.
    - destruct H as (Hs & st & Hd & Hst & Hr & Hb). split; [lia|].
      assert (Hnn : 0 <= fst r).
      { destruct Hst as [S1 S2]. destruct Hr as [[E1 _]|(_ & E2 & _)]; [rewrite E1 in S1; pose proof (Forall_inv S1) as S; cbn in S; lia|rewrite E2 in S2; pose proof (Forall_inv S2) as S; cbn in S; lia]. }
      split; [cbn [k_succ glyph_kind]; unfold u16; rewrite Z.mod_small by lia; lia|].
      assert (ER : forall T (each : T -> Z * Z -> T * option unit) a, glyph_set_EachRange each (set_bytes 2 st) a = Ok (each_of each a (match set_ranges st with [] => [] | _ => [r] end))).
      { intros T each a. rewrite glyph_ranges by exact Hst. destruct Hr as [[-> _]|(-> & _)]; cbn [map fst snd]; [|reflexivity]. replace (fst r + (snd r - fst r)) with (snd r) by lia.
        unfold u16. rewrite Z.mod_small by lia. destruct r; reflexivity. }
      assert (EL : forall T (each : T -> Z -> T * option unit) a, glyph_set_EachListGlyph each (set_bytes 2 st) a = Ok (each_of each a (match set_ranges st with [] => [fst r] | _ => [] end))).
      { intros T each a. rewrite glyph_elements by exact Hst. destruct Hr as [[-> ->]|(-> & -> & _)]; reflexivity. }
      split; [|split; [exact Hs|]].
      + intros x. cbn [element_pattern]. unfold in_glyph_set. rewrite Hd. split.
        * intros (d & rs & gs & [= <-] & H1 & H2 & H3). rewrite ER in H1. rewrite EL in H2. destruct Hr as [[E1 E2]|(E1 & E2 & E3)]; rewrite E1 in H1, H2; cbn [each_of app] in H1, H2;
            injection H1 as <-; injection H2 as <-; cbn [In] in H3.
          -- destruct H3 as [[]|(a & b & [H3|[]] & H4)]. subst r. exact H4.
          -- destruct H3 as [[<-|[]]|(a & b & [] & _)]. lia.
        * intros Hx'. exists (set_bytes 2 st), (match set_ranges st with [] => [] | _ => [r] end), (match set_ranges st with [] => [fst r] | _ => [] end). split; [reflexivity|]. rewrite ER, EL. destruct Hr as [[E1 E2]|(E1 & E2 & E3)]; rewrite E1; cbn [each_of app].
          -- split; [reflexivity|]. split; [reflexivity|]. right. exists (fst r), (snd r). split; [left; destruct r; reflexivity|exact Hx'].
          -- split; [reflexivity|]. split; [reflexivity|]. left. left. lia.
      + intros each c. unfold glyph_sets. rewrite Hd. cbn [bind]. rewrite ER. cbn [bind].
        destruct Hr as [[E1 E2]|(E1 & E2 & E3)]; rewrite E1; cbn [each_of].
        * destruct (each (Ok c) r) as [c' [u|]]; [reflexivity|]. rewrite EL, E1. reflexivity.
        * rewrite EL, E1. cbn [each_of bind]. replace (fst r, fst r) with r by (destruct r; cbn in *; congruence). destruct (each (Ok c) r) as [c' [u|]]; reflexivity.
    - cbn [glyph_range] in H. subst r. split; [cbn; lia|]. split; [apply Hx; reflexivity|]. split; [|reflexivity]. intros y. cbn. lia.
  Qed.

  Lemma rune_covers e y : rune_element f e y -> (forall x, e = Single x -> x < k_succ utf8_kind x) -> covers utf8_kind (utf8_sets f) (rune_pattern f) e (y, y).
  Proof.
    destruct e as [s|x]; intros H Hx.
    - destruct H as (Hs & st & Hd & Hst & Hy). split; [cbn; lia|].
      assert (Hr : 0 <= y < 16777216).
      { destruct Hst as [S1 S2]. destruct (set_ranges st) as [|q [|q' qs]] eqn:E1; destruct (set_elements st) as [|z zs] eqn:E2; cbn [map app] in Hy; try discriminate; injection Hy as Hy.
        - subst z zs. pose proof (Forall_inv S2) as S. cbv beta in S. lia.
        - pose proof (Forall_inv S1) as S. cbv beta in S. destruct S as [S _]. rewrite Hy in S. exact S. }
      split; [cbn [k_succ utf8_kind fst snd]; rewrite i32_id by lia; lia|].
      assert (Hst' : set_in_range 2147483648 st).
      { destruct Hst as [S1 S2]. split; [eapply Forall_impl; [|exact S1]; cbv beta; intros q [G1 G2]; split; [lia|exact G2]|eapply Forall_impl; [|exact S2]; cbv beta; intros; lia]. }
      assert (ER : forall T (each : T -> Z * Z -> T * option unit) a, utf8_set_EachRange each (set_bytes 4 st) a = Ok (each_of each a (match set_ranges st with [] => [] | _ => [(y, y)] end))).
      { intros T each a. rewrite utf8_ranges by exact Hst. destruct (set_ranges st) as [|q [|q' qs]]; cbn [map app] in Hy |- *; [reflexivity| |discriminate]. injection Hy as -> _. reflexivity. }
      assert (EL : forall T (each : T -> Z -> T * option unit) a, utf8_set_EachListRune each (set_bytes 4 st) a = Ok (each_of each a (match set_ranges st with [] => [y] | _ => [] end))).
      { intros T each a. rewrite utf8_elements by exact Hst'. destruct (set_ranges st) as [|q qs]; cbn [map app] in Hy; [rewrite Hy; reflexivity|]. injection Hy as _ Hy.
        apply app_eq_nil in Hy. destruct Hy as [_ ->]. reflexivity. }
      split; [|split; [exact Hs|]].
      + intros x. cbn [rune_pattern fst snd]. unfold in_utf8_set. rewrite Hd. split.
        * intros (d & rs & gs & [= <-] & H1 & H2 & H3). rewrite ER in H1. rewrite EL in H2. destruct (set_ranges st); cbn [each_of app] in H1, H2; injection H1 as <-; injection H2 as <-; cbn [In] in H3.
          -- destruct H3 as [[<-|[]]|(a & b & [] & _)]. lia.
          -- destruct H3 as [[]|(a & b & [[= <- <-]|[]] & H4)]. exact H4.
        * intros Hx'. exists (set_bytes 4 st), (match set_ranges st with [] => [] | _ => [(y, y)] end), (match set_ranges st with [] => [y] | _ => [] end). split; [reflexivity|]. rewrite ER, EL. destruct (set_ranges st); cbn [each_of app].
          -- split; [reflexivity|]. split; [reflexivity|]. left. left. lia.
          -- split; [reflexivity|]. split; [reflexivity|]. right. exists y, y. split; [left; reflexivity|exact Hx'].
      + intros each c. unfold utf8_sets. rewrite Hd. cbn [bind]. rewrite ER. cbn [bind]. destruct (set_ranges st) eqn:E1; cbn [each_of].
        * rewrite EL, ?E1. cbn [each_of bind]. destruct (each (Ok c) (y, y)) as [c' [u|]]; reflexivity.
        * destruct (each (Ok c) (y, y)) as [c' [u|]]; [reflexivity|]. rewrite EL, ?E1. reflexivity.
    - cbn [rune_element] in H. subst y. split; [cbn; lia|]. split; [apply Hx; reflexivity|]. split; [|reflexivity]. intros y. cbn. lia.
  Qed.
End Fonts.

Lemma glyph_rules_cover f (data : list (list Z * Z)) (rules : list (list element * Z)) ranges :
  Forall2 (fun d e => bytes (fst d) /\ scan glyph_kind (fst d) = Ok (fst e) /\ snd d = snd e /\ fst e <> []) data rules ->
  Forall2 (fun e rs => Forall2 (glyph_range f) (fst e) rs) rules ranges ->
  Forall2 (fun d e => scan glyph_kind (fst d) = Ok (fst e) /\ snd d = snd e /\ fst e <> []) data rules /\
  Forall2 (fun e rs => Forall2 (covers glyph_kind (glyph_sets f) (element_pattern f)) (fst e) rs) rules ranges.
Proof.
  intros H. revert ranges. induction H as [|d e ds es (H1 & H2 & H3 & H4) _ IH]; intros ranges HR; inversion HR as [|? rs ? rss Hrs HR' E1 E2]; subst; [split; constructor|].
  destruct (IH _ HR') as [G1 G2]. split; constructor; auto. assert (Hx : forall x, In (Single x) (fst e) -> x < k_succ glyph_kind x) by (intros x Hx; exact (glyph_succ _ _ x H1 H2 Hx)).
  clear - Hrs Hx. induction Hrs as [|a r l l' H _ IH]; constructor.
  - apply glyph_range_covers; [exact H|]. intros x ->. apply Hx. left. reflexivity.
  - apply IH. intros x Hin. apply Hx. right. exact Hin.
Qed.
Lemma glyph_ranges_right f (data : list (list Z * Z)) (rules : list (list element * Z)) ranges states :
  Forall2 (fun d e => bytes (fst d) /\ scan glyph_kind (fst d) = Ok (fst e) /\ snd d = snd e /\ fst e <> []) data rules ->
  Forall2 (fun e rs => Forall2 (glyph_range f) (fst e) rs) rules ranges -> apart (concat ranges) ->
  data <> [] -> increasing 0 (map snd rules) -> compile glyph_kind (glyph_sets f) data = Ok states ->
  forall input index best, exists m, tree_Match (mkTree states index best false) input = Ok m /\
    best_fit (map (fun e => (map (element_pattern f) (fst e), snd e)) rules) input m.
Proof.
  intros H HR Hap Hne Hi Hc. destruct (glyph_rules_cover _ _ _ _ H HR) as [G1 G2].
  exact (ranged_right glyph_kind (glyph_sets f) (element_pattern f) data rules ranges G1 G2 Hap Hi states Hne Hc).
Qed.
Lemma glyph_ranges_compile f (data : list (list Z * Z)) (rules : list (list element * Z)) ranges :
  Forall2 (fun d e => bytes (fst d) /\ scan glyph_kind (fst d) = Ok (fst e) /\ snd d = snd e /\ fst e <> []) data rules ->
  Forall2 (fun e rs => Forall2 (glyph_range f) (fst e) rs) rules ranges -> apart (concat ranges) -> increasing 0 (map snd rules) ->
  compile glyph_kind (glyph_sets f) data = Err "DecisionTreeCompiler hit a limit" /\ ~ within_limits rules \/
  exists states, compile glyph_kind (glyph_sets f) data = Ok states /\ zlen states <= 254.
Proof.
  intros H HR Hap Hi. destruct (glyph_rules_cover _ _ _ _ H HR) as [G1 G2].
  exact (ranged_compile glyph_kind (glyph_sets f) (element_pattern f) data rules ranges G1 G2 Hap Hi).
Qed.

Lemma rune_rules_cover f (data : list (list Z * Z)) (rules : list (list element * Z)) runes :
  Forall2 (fun d e => scan utf8_kind (fst d) = Ok (fst e) /\ snd d = snd e /\ fst e <> [] /\ ~ In (Single 2147483647) (fst e)) data rules ->
  Forall2 (fun e rs => Forall2 (rune_element f) (fst e) rs) rules runes ->
  Forall2 (fun d e => scan utf8_kind (fst d) = Ok (fst e) /\ snd d = snd e /\ fst e <> []) data rules /\
  Forall2 (fun e rs => Forall2 (covers utf8_kind (utf8_sets f) (rune_pattern f)) (fst e) rs) rules (map (map (fun y => (y, y))) runes).
Proof.
  intros H. revert runes. induction H as [|d e ds es (H1 & H2 & H3 & H4) _ IH]; intros runes HR; inversion HR as [|? rs ? rss Hrs HR' E1 E2]; subst; [split; constructor|].
  destruct (IH _ HR') as [G1 G2]. cbn [map]. split; constructor; auto.
  assert (Hx : forall x, In (Single x) (fst e) -> x < k_succ utf8_kind x).
  { intros x Hx. apply (utf8_succ _ _ x H1 Hx). intros ->. contradiction. }
  clear - Hrs Hx. induction Hrs as [|a r l l' H _ IH]; cbn [map]; constructor.
  - apply rune_covers; [exact H|]. intros x ->. apply Hx. left. reflexivity.
  - apply IH. intros x Hin. apply Hx. right. exact Hin.
Qed.
Lemma runes_apart runes : apart (concat (map (map (fun y => (y, y))) runes)).
Proof.
  assert (H : forall r : Z * Z, In r (concat (map (map (fun y => (y, y))) runes)) -> fst r = snd r).
  { intros r Hr. apply in_concat in Hr. destruct Hr as (l & Hl & Hr). apply in_map_iff in Hl. destruct Hl as (l0 & <- & _). apply in_map_iff in Hr. destruct Hr as (y & <- & _). reflexivity. }
  intros a b Ha Hb. apply H in Ha. apply H in Hb. destruct a as [a1 a2], b as [b1 b2]. cbn [fst snd] in *. subst.
  destruct (Z.lt_trichotomy a2 b2) as [G|[->|G]]; [right; left; exact G|left; reflexivity|right; right; exact G].
Qed.
Lemma utf8_runes_right f (data : list (list Z * Z)) (rules : list (list element * Z)) runes states :
  Forall2 (fun d e => scan utf8_kind (fst d) = Ok (fst e) /\ snd d = snd e /\ fst e <> [] /\ ~ In (Single 2147483647) (fst e)) data rules ->
  Forall2 (fun e rs => Forall2 (rune_element f) (fst e) rs) rules runes ->
  data <> [] -> increasing 0 (map snd rules) -> compile utf8_kind (utf8_sets f) data = Ok states ->
  forall input index best, exists m, tree_Match (mkTree states index best false) input = Ok m /\
    best_fit (map (fun e => (map (rune_pattern f) (fst e), snd e)) rules) input m.
Proof.
  intros H HR Hne Hi Hc. destruct (rune_rules_cover _ _ _ _ H HR) as [G1 G2].
  exact (ranged_right utf8_kind (utf8_sets f) (rune_pattern f) data rules _ G1 G2 (runes_apart runes) Hi states Hne Hc).
Qed.
Lemma utf8_runes_compile f (data : list (list Z * Z)) (rules : list (list element * Z)) runes :
  Forall2 (fun d e => scan utf8_kind (fst d) = Ok (fst e) /\ snd d = snd e /\ fst e <> [] /\ ~ In (Single 2147483647) (fst e)) data rules ->
  Forall2 (fun e rs => Forall2 (rune_element f) (fst e) rs) rules runes -> increasing 0 (map snd rules) ->
  compile utf8_kind (utf8_sets f) data = Err "DecisionTreeCompiler hit a limit" /\ ~ within_limits rules \/
  exists states, compile utf8_kind (utf8_sets f) data = Ok states /\ zlen states <= 254.
Proof.
  intros H HR Hi. destruct (rune_rules_cover _ _ _ _ H HR) as [G1 G2].
  exact (ranged_compile utf8_kind (utf8_sets f) (rune_pattern f) data rules _ G1 G2 (runes_apart runes) Hi).
Qed.
