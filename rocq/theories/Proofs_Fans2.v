(** Decision trees of rules no two of which can start with the same element: the ranges of the
    elements as letters, the sets of fonts, and what the trees answer. *)
From Verif Require Import Base BaseFacts Spec_Helpers Model_Helpers Proofs_Helpers Spec_Layout Model_Font Model_Rewrites Proofs_Rewrites
  Model_Scanner Model_Tree Spec_Tree Spec_TreeSets Proofs_Tree Proofs_Tree2 Proofs_Tree3 Proofs_Tree4 Proofs_Tree5 Spec_Fans Proofs_Fans.

Lemma fan_nodup_map {A B} (f : A -> B) : forall l, NoDup l -> (forall x y, In x l -> In y l -> f x = f y -> x = y) -> NoDup (map f l).
Proof.
  induction l as [|x l IH]; intros Hnd H; cbn [map]; [constructor|]. inversion Hnd as [|? ? H1 H2]; subst. constructor.
  - intros Hin. apply in_map_iff in Hin. destruct Hin as (y & E & Hy). apply H1. rewrite (H x y (or_introl eq_refl) (or_intror Hy) (eq_sym E)). exact Hy.
  - apply IH; [exact H2|]. intros y z Hy Hz. apply H; right; assumption.
Qed.

Section Compile.
  Variables (k : kind) (sets : set_reader) (pat : element -> Z -> Prop).
  (** an element whose elements are those of some ranges *)
  Definition covers_all (e : element) (rs : list (Z * Z)) : Prop :=
    Forall (fun r => fst r <= snd r /\ snd r < k_succ k (snd r)) rs /\ rs <> [] /\ (forall x, pat e x <-> exists r, In r rs /\ fst r <= x <= snd r) /\
    match e with
    | Single x => rs = [(x, x)]
    | InSet s => s <> 255 /\ forall state m c, sets s (append_callback k state m) c = ofold (fun c r => AppendRange k c state (fst r) (snd r) m) rs c
    end.
  Variables (data : list (list Z * Z)) (rules : list (list element * Z)) (members : list (list (list (Z * Z)))).
  Hypotheses (Hscan : Forall2 (fun d e => scan k (fst d) = Ok (fst e) /\ snd d = snd e /\ fst e <> []) data rules)
    (Hcov : Forall2 (fun e rss => Forall2 covers_all (fst e) rss) rules members) (Hfan : fanned members) (Hinc : increasing 0 (map snd rules)).

  Definition fan_letters (p : (list element * Z) * list (list (Z * Z))) : list (list Z) * Z := (map (map fst) (snd p), snd (fst p)).
  Definition fan_rules : list (list (list Z) * Z) := map fan_letters (combine rules members).
  Lemma fan_in_range : forall r, In r (concat (concat members)) -> fst r <= snd r /\ snd r < k_succ k (snd r).
  Proof.
    intros r Hr. apply in_concat in Hr. destruct Hr as (rs & Hrs & Hr). apply in_concat in Hrs. destruct Hrs as (rss & Hrss & Hrs).
    pose proof Hcov as C. clear Hscan Hfan Hinc Hcov. induction C as [|e rss' es l H _ IH]; [destruct Hrss|].
    destruct Hrss as [->|Hrss]; [|exact (IH Hrss)]. clear IH. induction H as [|x rs' l1 l2 H _ IH]; [destruct Hrs|]. destruct Hrs as [->|Hrs]; [|exact (IH Hrs)].
    destruct H as [H _]. rewrite Forall_forall in H. exact (H r Hr).
  Qed.
  Lemma fan_le : forall r, In r (concat (concat members)) -> fst r <= snd r.
  Proof. intros r H. apply fan_in_range. exact H. Qed.
  Let AB : alphabet := ranges_alphabet (concat (concat members)) (proj1 Hfan) fan_le.
  Lemma fan_member rss rs r : In rss members -> In rs rss -> In r rs -> In r (concat (concat members)).
  Proof. intros H1 H2 H3. apply in_concat. exists rs. split; [|exact H3]. apply in_concat. exists rss. auto. Qed.
  Lemma fan_fst a b : In a (concat (concat members)) -> In b (concat (concat members)) -> fst a = fst b -> a = b.
  Proof. intros Ha Hb E. destruct (proj1 Hfan a b Ha Hb) as [H|H]; [exact H|]. pose proof (fan_le a Ha). pose proof (fan_le b Hb). lia. Qed.

  Lemma fan_snd : map snd fan_rules = map snd rules.
  Proof.
    pose proof Hcov as C. clear AB. clear Hscan Hfan Hinc Hcov. unfold fan_rules. induction C as [|e rs es rss H _ IH]; cbn [combine map fst snd fan_letters]; [reflexivity|]. f_equal. exact IH.
  Qed.
  Lemma fan_append state m rs : (forall r, In r rs -> In r (concat (concat members))) -> forall c,
    ofold (fun c r => AppendRange k c state (fst r) (snd r) m) rs c = @append_all AB k state m (map fst rs) c.
  Proof.
    unfold append_all. induction rs as [|r rs IH]; intros Hin c; [reflexivity|]. cbn [map ofold].
    replace (@hi AB (fst r)) with (snd r) by (symmetry; apply (range_hi_in _ (proj1 Hfan) fan_le); apply Hin; left; reflexivity).
    destruct (AppendRange k c state (fst r) (snd r) m); cbn [bind]; try reflexivity. apply IH. intros r' Hr'. apply Hin. right. exact Hr'.
  Qed.
  Lemma fan_stands e rs : (forall r, In r rs -> In r (concat (concat members))) -> NoDup rs -> covers_all e rs -> @stands_all AB k sets e (map fst rs).
  Proof.
    intros Hin Hnd (H1 & H2 & _ & H3). split; [|split; [|split]].
    - apply Forall_forall. intros y Hy. apply in_map_iff in Hy. destruct Hy as (r & <- & Hr). split; [apply in_map; apply Hin; exact Hr|].
      replace (@hi AB (fst r)) with (snd r) by (symmetry; apply (range_hi_in _ (proj1 Hfan) fan_le); apply Hin; exact Hr). apply fan_in_range. apply Hin. exact Hr.
    - apply fan_nodup_map; [exact Hnd|]. intros a b Ha Hb. apply fan_fst; apply Hin; assumption.
    - destruct rs; [congruence|discriminate].
    - destruct e as [s|x].
      + destruct H3 as [H3 H4]. split; [exact H3|]. intros state m c. rewrite H4. apply fan_append. exact Hin.
      + subst rs. split; [reflexivity|]. apply (range_hi_in _ (proj1 Hfan) fan_le (x, x)). apply Hin. left. reflexivity.
  Qed.
  Lemma fan_patterns : Forall2 (@fan_of AB k sets) data fan_rules.
  Proof.
    unfold fan_rules. pose proof fan_stands as Hst. revert Hst. generalize AB. clear AB. clear Hinc. intros AB Hst.
    pose proof fan_member as Hin. revert Hst Hin. generalize (concat (concat members)). pose proof (proj1 (proj2 Hfan)) as Hnd. clear Hfan. intros R Hst Hin. pose proof Hcov as C. clear Hcov.
    revert data Hscan. induction C as [|e rss es l H _ IH]; intros ds Hs; inversion Hs as [|d ? ds' ? (S1 & S2 & S3) Hs' E1 E2]; subst; cbn [combine map]; constructor.
    - split; [|split; [exact S2|]].
      + exists (fst e). split; [exact S1|]. cbn [fst snd fan_letters]. apply Forall_inv in Hnd. assert (Hin' : forall rs r, In rs rss -> In r rs -> In r R) by (intros rs r; apply Hin; left; reflexivity).
        clear - H Hst Hin' Hnd. induction H as [|x rs l l' H _ IH]; cbn [map]; constructor.
        * apply Hst; [intros r; apply Hin'; left; reflexivity|exact (Forall_inv Hnd)|exact H].
        * apply IH; [exact (Forall_inv_tail Hnd)|]. intros rs' r Hr. apply Hin'. right. exact Hr.
      + cbn [fst snd fan_letters]. inversion H as [E1 E2|x r l1 l2 _ _ E1 E2]; [congruence|discriminate].
    - apply IH; [exact (Forall_inv_tail Hnd)|intros rs' r r' Hrs; apply Hin; right; exact Hrs|exact Hs'].
  Qed.
  Lemma fan_sizes : fan_total fan_rules = fan_steps members /\ fan_heads fan_rules = map fst (firsts members) /\ (fan_room fan_rules <-> Forall (fun l => Forall (fun N => zlen N <= 254) (tl l)) members).
  Proof.
    pose proof Hcov as C. clear AB. clear Hscan Hfan Hinc Hcov. unfold fan_rules, fan_heads, firsts, fan_room. induction C as [|e rss es l H _ (IH1 & IH2 & IH3)]; cbn [combine map fan_letters fst snd concat]; [split; [reflexivity|split; [reflexivity|split; constructor]]|].
    split; [|split].
    - unfold fan_total, fan_steps. cbn [fold_right fst]. unfold fan_total, fan_steps in IH1. rewrite IH1. f_equal. f_equal. unfold zlen. cbn [fst snd fan_letters]. rewrite map_length. reflexivity.
    - rewrite IH2, map_app. f_equal. destruct rss; reflexivity.
    - assert (E : forall m : list (list (Z * Z)), Forall (fun N => zlen N <= 254) (map (map fst) m) <-> Forall (fun N : list (Z * Z) => zlen N <= 254) m).
      { intros m. rewrite !Forall_forall. split; intros K N HN.
        - specialize (K (map fst N) ltac:(apply in_map; exact HN)). unfold zlen in *. rewrite map_length in K. exact K.
        - apply in_map_iff in HN. destruct HN as (N0 & <- & HN). specialize (K N0 HN). unfold zlen in *. rewrite map_length. exact K. }
      assert (Et : tl (map (map (@fst Z Z)) rss) = map (map fst) (tl rss)) by (destruct rss; reflexivity).
      split; intros K; pose proof (Forall_inv K) as K1; apply Forall_inv_tail in K; (constructor; [|apply IH3; exact K]); cbv beta in K1 |- *; cbn [fan_letters fst snd] in K1 |- *.
      + apply E. rewrite <- Et. exact K1.
      + rewrite Et. apply E. exact K1.
  Qed.
  Lemma fan_heads_nodup : NoDup (fan_heads fan_rules).
  Proof.
    destruct fan_sizes as (_ & -> & _). apply fan_nodup_map; [exact (proj2 (proj2 Hfan))|].
    assert (K : forall r, In r (firsts members) -> In r (concat (concat members))).
    { intros r Hr. unfold firsts in Hr. apply in_concat in Hr. destruct Hr as (rs & Hrs & Hr). apply in_map_iff in Hrs. destruct Hrs as (rss & E & Hrss).
      destruct rss as [|rs' rss]; cbn [hd] in E; subst; [destruct Hr|]. apply (fan_member _ rs r Hrss); [left; reflexivity|exact Hr]. }
    intros a b Ha Hb. apply fan_fst; apply K; assumption.
  Qed.

  (** fitting letters and fitting sets *)
  Lemma fan_fits_same es rss input : Forall2 covers_all es rss -> (forall rs r, In rs rss -> In r rs -> In r (concat (concat members))) ->
    fan_fits (map (map fst) rss) (map (@name AB) input) <-> fits (map pat es) input.
  Proof.
    intros H. revert input. induction H as [|e rs es rss H _ IH]; intros input Hin; cbn [map fan_fits].
    - split; [intros _; exists [], input; split; [reflexivity|constructor]|intros; destruct input; exact I].
    - destruct H as (_ & _ & H & _). destruct input as [|x input]; cbn [map].
      + split; [intros []|]. intros (pre & rest & E & F). inversion F; subst. discriminate.
      + rewrite IH by (intros rs' r Hrs; apply Hin; right; exact Hrs).
        assert (K : In (@name AB x) (map fst rs) <-> pat e x).
        { rewrite H. split.
          - intros Hx. apply in_map_iff in Hx. destruct Hx as (r & E & Hr). exists r. split; [exact Hr|].
            assert (Hl : @letter AB (@name AB x)) by (rewrite <- E; apply in_map; apply (Hin rs r); [left; reflexivity|exact Hr]).
            pose proof (@name_out AB x Hl) as Ho. rewrite <- E in Ho. replace (@hi AB (fst r)) with (snd r) in Ho; [exact Ho|].
            symmetry. apply (range_hi_in _ (proj1 Hfan) fan_le). apply (Hin rs r); [left; reflexivity|exact Hr].
          - intros (r & Hr & Hx). apply in_map_iff. exists r. split; [|exact Hr]. symmetry. apply (range_name_in _ (proj1 Hfan) fan_le r x); [apply (Hin rs r); [left; reflexivity|exact Hr]|exact Hx]. }
        rewrite K. split.
        * intros [K1 (pre & rest & -> & F)]. exists (x :: pre), rest. split; [reflexivity|constructor; assumption].
        * intros (pre & rest & E & F). inversion F as [|? y ? pre' F1 F2 E1 E2]; subst. cbn [app] in E. injection E as -> ->. split; [exact F1|]. exists pre', rest. auto.
  Qed.
  Definition fan_pattern (e : list element * Z) : list (Z -> Prop) * Z := (map pat (fst e), snd e).
  Lemma fan_best input m : only_fit fan_rules (map (@name AB) input) m -> best_fit (map fan_pattern rules) input m.
  Proof.
    assert (Hsame : forall es rss, Forall2 covers_all es rss -> In rss members -> fan_fits (map (map fst) rss) (map (@name AB) input) <-> fits (map pat es) input).
    { intros es rss H Hin. apply fan_fits_same; [exact H|]. intros rs r. apply fan_member. exact Hin. }
    revert Hsame. generalize (map (@name AB) input). clear AB. intros xs Hsame.
    assert (HF : Forall2 (fun e f => snd e = snd f /\ (fan_fits (fst f) xs <-> fits (map pat (fst e)) input)) rules fan_rules).
    { unfold fan_rules. pose proof Hcov as C. clear Hcov Hscan Hfan Hinc. induction C as [|e rss es l H _ IH]; cbn [combine map]; constructor.
      - cbn [fan_letters fst snd]. split; [reflexivity|]. apply Hsame; [exact H|left; reflexivity].
      - apply IH. intros es' rss' G1 G2. apply Hsame; [exact G1|right; exact G2]. }
    revert HF. generalize fan_rules. clear. intros P HF.
    assert (K : forall a b, Forall2 (fun e f => snd e = snd f /\ (fan_fits (fst f) xs <-> fits (map pat (fst e)) input)) a b -> (forall Ms i, In (Ms, i) b -> ~ fan_fits Ms xs) ->
      forall Q i, In (Q, i) (map fan_pattern a) -> ~ fits Q input).
    { induction 1 as [|e f a b [_ H] _ IH]; intros Hb Q i; cbn [map]; [intros []|]. intros [E|Hin]; [|apply (IH (fun Ms j Hin => Hb Ms j (or_intror Hin)) Q i Hin)].
      injection E as <- <-. rewrite <- H. apply (Hb (fst f) (snd f)). left. destruct f; reflexivity. }
    intros [[-> H]|(before & Ns & after & -> & H1 & H2)].
    - left. split; [reflexivity|]. exact (K _ _ HF H).
    - right. apply Forall2_app_inv_r in HF. destruct HF as (b1 & b2 & F1 & F2 & ->). inversion F2 as [|e ? b3 ? [Fe1 Fe2] F3 E1 E2]; subst. cbn [fst snd] in *.
      assert (K1 := K _ _ F1 (fun Ms i Hin => H2 Ms i (in_or_app _ _ _ (or_introl Hin)))). assert (K2 := K _ _ F3 (fun Ms i Hin => H2 Ms i (in_or_app _ _ _ (or_intror Hin)))).
      exists (map fan_pattern b1), (map pat (fst e)), (map fan_pattern b3). rewrite map_app. cbn [map]. split; [unfold fan_pattern at 2; rewrite Fe1; reflexivity|]. split; [apply Fe2; exact H1|]. split.
      + intros Q i Hin Hf. apply in_app_or in Hin. destruct Hin as [Hin|[E|Hin]]; [exfalso; exact (K1 _ _ Hin Hf)|injection E as <- <-; lia|exfalso; exact (K2 _ _ Hin Hf)].
      + intros Q i Hin Hf. exfalso. exact (K1 _ _ Hin Hf).
  Qed.
  Lemma fan_limits_same : 1 + fan_total fan_rules <= 254 /\ zlen (fan_heads fan_rules) <= 254 /\ fan_room fan_rules <-> fan_limits members.
  Proof. destruct fan_sizes as (-> & -> & ->). unfold fan_limits. replace (zlen (map fst (firsts members))) with (zlen (firsts members)) by (unfold zlen; rewrite map_length; reflexivity). tauto. Qed.
  Lemma fans_compiled : data <> [] ->
    (compile k sets data = Err "DecisionTreeCompiler hit a limit" /\ ~ fan_limits members) \/
    exists states, compile k sets data = Ok states /\ fan_limits members /\
      forall input index best, exists m, tree_Match (mkTree states index best false) input = Ok m /\ best_fit (map fan_pattern rules) input m.
  Proof.
    intros Hne. destruct (@fans_right AB k sets data fan_rules fan_patterns Hne ltac:(rewrite fan_snd; exact Hinc) fan_heads_nodup) as [[H1 H2]|(states & H1 & H2 & H3)].
    - left. split; [exact H1|]. rewrite <- fan_limits_same. exact H2.
    - right. exists states. split; [exact H1|]. split; [apply fan_limits_same; exact H2|]. intros input index best. destruct (H3 input index best) as (m & E & F). exists m. split; [exact E|].
      apply fan_best. exact F.
  Qed.
End Compile.

(** ** The sets of fonts *)
Lemma each_append k state m : forall rs c, fst (each_of (append_callback k state m) (Ok c) rs) = ofold (fun c r => AppendRange k c state (fst r) (snd r) m) rs c /\
  (snd (each_of (append_callback k state m) (Ok c) rs) = None -> exists c', fst (each_of (append_callback k state m) (Ok c) rs) = Ok c') /\
  (snd (each_of (append_callback k state m) (Ok c) rs) <> None -> forall c', fst (each_of (append_callback k state m) (Ok c) rs) <> Ok c').
Proof.
  induction rs as [|r rs IH]; intros c; cbn [each_of ofold]; [split; [reflexivity|]; split; [intros _; exists c; reflexivity|intros K; exfalso; apply K; reflexivity]|].
  assert (E : append_callback k state m (Ok c) r = (AppendRange k c state (fst r) (snd r) m, if is_ok (AppendRange k c state (fst r) (snd r) m) then None else Some tt)) by reflexivity.
  rewrite E. destruct (AppendRange k c state (fst r) (snd r) m) as [c'| | |]; cbn [is_ok bind fst snd]; [apply IH|..]; (split; [reflexivity|]; split; [discriminate|intros _ c'; discriminate]).
Qed.
Lemma each_single k state m c gs : each_of (fun s g => append_callback k state m s (g, g)) (Ok c) gs = each_of (append_callback k state m) (Ok c) (map (fun g => (g, g)) gs).
Proof.
  generalize (Ok c). induction gs as [|g gs IH]; intros o; cbn [each_of map]; [reflexivity|]. destruct (append_callback k state m o (g, g)) as [o' [u|]]; [reflexivity|]. apply IH.
Qed.
Lemma ofold_app {A B} (f : A -> B -> outcome A) : forall l l' a, ofold f (l ++ l') a = (do a <- ofold f l a; ofold f l' a).
Proof. induction l as [|x l IH]; intros l' a; cbn [app ofold bind]; [reflexivity|]. destruct (f a x); cbn [bind]; try reflexivity. apply IH. Qed.
Lemma each_all {T A} (l : list A) : forall acc, each_of (fun s r => (s ++ [r], @None T)) acc l = (acc ++ l, None).
Proof. induction l as [|x l IH]; intros acc; cbn [each_of]; [rewrite app_nil_r; reflexivity|]. rewrite IH, <- app_assoc. reflexivity. Qed.
Lemma sets_append k state m c rs gs :
  (do ' (r, stop) <- Ok (each_of (append_callback k state m) (Ok c) rs);
   match stop with
   | Some _ => r
   | None => do ' (r, _) <- Ok (each_of (fun s g => append_callback k state m s (g, g)) r gs); r
   end) = ofold (fun c r => AppendRange k c state (fst r) (snd r) m) (rs ++ map (fun g => (g, g)) gs) c.
Proof.
  cbn [bind]. rewrite ofold_app. destruct (each_append k state m rs c) as (E1 & E2 & E3). destruct (each_of (append_callback k state m) (Ok c) rs) as [o [u|]]; cbn [fst snd] in *.
  - rewrite <- E1. specialize (E3 ltac:(discriminate)). destruct o as [c'| | |]; cbn [bind]; try reflexivity. exfalso. exact (E3 c' eq_refl).
  - destruct (E2 eq_refl) as (c' & ->). rewrite <- E1. cbn [bind]. rewrite each_single. destruct (each_append k state m (map (fun g => (g, g)) gs) c') as (E4 & _).
    destruct (each_of (append_callback k state m) (Ok c') (map (fun g => (g, g)) gs)) as [o w]. exact E4.
Qed.

Section Fonts.
  Variable f : Font.
  Lemma glyph_members_covers e rs : glyph_members f e rs -> (forall x, e = Single x -> x < k_succ glyph_kind x) -> covers_all glyph_kind (glyph_sets f) (element_pattern f) e rs.
  Proof.
    destruct e as [s|x]; intros H Hx.
    - destruct H as (Hs & Hne & st & Hd & Hst & Hr & Hb).
      assert (Eu : map (fun r => (fst r, u16 (fst r + snd r))) (set_ranges st) = map (fun r : Z * Z => (fst r, fst r + snd r)) (set_ranges st)).
      { apply map_ext_in. intros r Hin. destruct Hst as [S1 _]. rewrite Forall_forall in S1, Hb. specialize (S1 r Hin). cbv beta in S1. unfold byte in S1.
        specialize (Hb (fst r, fst r + snd r)). cbn [snd] in Hb. unfold u16. rewrite Z.mod_small; [reflexivity|]. split; [lia|].
        assert (fst r + snd r < 65535); [|lia]. apply Hb. rewrite Hr. apply in_or_app. left. apply in_map_iff. exists r. auto. }
      assert (ER : forall T E (each : T -> Z * Z -> T * option E) a, glyph_set_EachRange each (set_bytes 2 st) a = Ok (each_of each a (map (fun r : Z * Z => (fst r, fst r + snd r)) (set_ranges st)))).
      { intros T E each a. rewrite glyph_ranges by exact Hst. rewrite Eu. reflexivity. }
      split; [|split; [exact Hne|split; [|split; [exact Hs|]]]].
      + rewrite Forall_forall in Hb |- *. intros r Hin. specialize (Hb r Hin). cbv beta in Hb. cbn [k_succ glyph_kind].
        assert (0 <= fst r <= snd r).
        { destruct Hst as [S1 S2]. rewrite Forall_forall in S1, S2. rewrite Hr in Hin. apply in_app_or in Hin. destruct Hin as [Hin|Hin]; apply in_map_iff in Hin; destruct Hin as (q & <- & Hq); cbn [fst snd].
          - specialize (S1 q Hq). cbv beta in S1. unfold byte in S1. lia.
          - specialize (S2 q Hq). cbv beta in S2. lia. }
        unfold u16. rewrite Z.mod_small by lia. lia.
      + intros x. cbn [element_pattern]. unfold in_glyph_set. rewrite Hd. split.
        * intros (d & rs' & gs & [= <-] & H1 & H2 & H3). rewrite ER, each_all in H1. rewrite glyph_elements, each_all in H2 by exact Hst. cbn [app] in H1, H2. injection H1 as <-. injection H2 as <-.
          rewrite Hr. destruct H3 as [H3|(a & b & H3 & H4)].
          -- exists (x, x). split; [|cbn; lia]. apply in_or_app. right. apply in_map_iff. exists x. auto.
          -- exists (a, b). split; [|exact H4]. apply in_or_app. left. exact H3.
        * intros (r & Hin & Hx'). exists (set_bytes 2 st), (map (fun r : Z * Z => (fst r, fst r + snd r)) (set_ranges st)), (set_elements st). split; [reflexivity|].
          rewrite ER, each_all, glyph_elements, each_all by exact Hst. cbn [app]. split; [reflexivity|]. split; [reflexivity|]. rewrite Hr in Hin. apply in_app_or in Hin. destruct Hin as [Hin|Hin].
          -- right. exists (fst r), (snd r). split; [destruct r; exact Hin|exact Hx'].
          -- left. apply in_map_iff in Hin. destruct Hin as (g & <- & Hg). cbn [fst snd] in Hx'. replace x with g by lia. exact Hg.
      + intros state m c. unfold glyph_sets. rewrite Hd. cbn [bind]. rewrite ER. rewrite Hr. rewrite <- (sets_append glyph_kind state m c). cbn [bind].
        destruct (each_of (append_callback glyph_kind state m) (Ok c) _) as [o [u|]]; [reflexivity|]. rewrite glyph_elements by exact Hst. reflexivity.
    - cbn [glyph_members] in H. subst rs. split; [constructor; [cbn [fst snd]; split; [lia|apply Hx; reflexivity]|constructor]|]. split; [discriminate|]. split; [|reflexivity].
      intros y. cbn [element_pattern]. split; [intros ->; exists (x, x); cbn; split; [auto|lia]|]. intros (r & [<-|[]] & Hy). cbn in Hy. lia.
  Qed.
  Lemma rune_members_covers e rs : rune_members f e rs -> (forall x, e = Single x -> x < k_succ utf8_kind x) -> covers_all utf8_kind (utf8_sets f) (rune_pattern f) e rs.
  Proof.
    destruct e as [s|x]; intros H Hx.
    - destruct H as (Hs & Hne & st & Hd & Hst & Hr).
      assert (Hst' : set_in_range 2147483648 st).
      { destruct Hst as [S1 S2]. split; [eapply Forall_impl; [|exact S1]; cbv beta; intros q [G1 G2]; split; [lia|exact G2]|eapply Forall_impl; [|exact S2]; cbv beta; intros; lia]. }
      assert (Er : rs = map (fun r : Z * Z => (fst r, fst r)) (set_ranges st) ++ map (fun y => (y, y)) (set_elements st)) by (rewrite Hr, map_app, map_map; reflexivity).
      assert (ER : forall T E (each : T -> Z * Z -> T * option E) a, utf8_set_EachRange each (set_bytes 4 st) a = Ok (each_of each a (map (fun r : Z * Z => (fst r, fst r)) (set_ranges st)))).
      { intros T E each a. apply utf8_ranges. exact Hst. }
      split; [|split; [exact Hne|split; [|split; [exact Hs|]]]].
      + rewrite Forall_forall. intros r Hin. cbn [k_succ utf8_kind].
        assert (0 <= fst r < 16777216 /\ snd r = fst r).
        { destruct Hst as [S1 S2]. rewrite Forall_forall in S1, S2. rewrite Er in Hin. apply in_app_or in Hin. destruct Hin as [Hin|Hin]; apply in_map_iff in Hin; destruct Hin as (q & <- & Hq); cbn [fst snd].
          - specialize (S1 q Hq). cbv beta in S1. lia.
          - specialize (S2 q Hq). cbv beta in S2. lia. }
        rewrite i32_id by lia. lia.
      + intros x. cbn [rune_pattern]. unfold in_utf8_set. rewrite Hd. split.
        * intros (d & rs' & gs & [= <-] & H1 & H2 & H3). rewrite ER, each_all in H1. rewrite utf8_elements, each_all in H2 by exact Hst'. cbn [app] in H1, H2. injection H1 as <-. injection H2 as <-.
          rewrite Er. destruct H3 as [H3|(a & b & H3 & H4)].
          -- exists (x, x). split; [|cbn; lia]. apply in_or_app. right. apply in_map_iff. exists x. auto.
          -- exists (a, b). split; [|exact H4]. apply in_or_app. left. exact H3.
        * intros (r & Hin & Hx'). exists (set_bytes 4 st), (map (fun r : Z * Z => (fst r, fst r)) (set_ranges st)), (set_elements st). split; [reflexivity|].
          rewrite ER, each_all, utf8_elements, each_all by exact Hst'. cbn [app]. split; [reflexivity|]. split; [reflexivity|]. rewrite Er in Hin. apply in_app_or in Hin. destruct Hin as [Hin|Hin].
          -- right. exists (fst r), (snd r). split; [destruct r; exact Hin|exact Hx'].
          -- left. apply in_map_iff in Hin. destruct Hin as (g & <- & Hg). cbn [fst snd] in Hx'. replace x with g by lia. exact Hg.
      + intros state m c. unfold utf8_sets. rewrite Hd. cbn [bind]. rewrite ER. rewrite Er. rewrite <- (sets_append utf8_kind state m c). cbn [bind].
        destruct (each_of (append_callback utf8_kind state m) (Ok c) _) as [o [u|]]; [reflexivity|]. rewrite utf8_elements by exact Hst'. reflexivity.
    - cbn [rune_members] in H. subst rs. split; [constructor; [cbn [fst snd]; split; [lia|apply Hx; reflexivity]|constructor]|]. split; [discriminate|]. split; [|reflexivity].
      intros y. cbn [rune_pattern]. split; [intros ->; exists (x, x); cbn; split; [auto|lia]|]. intros (r & [<-|[]] & Hy). cbn in Hy. lia.
  Qed.
End Fonts.

Lemma glyph_fans f (data : list (list Z * Z)) (rules : list (list element * Z)) members :
  Forall2 (fun d e => bytes (fst d) /\ scan glyph_kind (fst d) = Ok (fst e) /\ snd d = snd e /\ fst e <> []) data rules ->
  Forall2 (fun e rss => Forall2 (glyph_members f) (fst e) rss) rules members -> fanned members -> data <> [] -> increasing 0 (map snd rules) ->
  compile glyph_kind (glyph_sets f) data = Err "DecisionTreeCompiler hit a limit" /\ ~ fan_limits members \/
  exists states, compile glyph_kind (glyph_sets f) data = Ok states /\ fan_limits members /\
    forall input index best, exists m, tree_Match (mkTree states index best false) input = Ok m /\
      best_fit (map (fun e => (map (element_pattern f) (fst e), snd e)) rules) input m.
Proof.
  intros H HR Hfan Hne Hi. apply (fans_compiled glyph_kind (glyph_sets f) (element_pattern f) data rules members); [| |exact Hfan|exact Hi|exact Hne].
  - clear - H. induction H as [|d e ds es (_ & H1 & H2 & H3) _ IH]; constructor; auto.
  - clear - H HR. revert members HR. induction H as [|d e ds es (H1 & H2 & H3 & H4) _ IH]; intros members HR; inversion HR as [|? rss ? l Hrs HR' E1 E2]; subst; constructor; [|apply IH; exact HR'].
    assert (Hx : forall x, In (Single x) (fst e) -> x < k_succ glyph_kind x) by (intros x Hx; exact (glyph_succ _ _ x H1 H2 Hx)).
    clear - Hrs Hx. induction Hrs as [|a r l l' H _ IH]; constructor.
    + apply glyph_members_covers; [exact H|]. intros x ->. apply Hx. left. reflexivity.
    + apply IH. intros x Hin. apply Hx. right. exact Hin.
Qed.
Lemma rune_fans f (data : list (list Z * Z)) (rules : list (list element * Z)) members :
  Forall2 (fun d e => scan utf8_kind (fst d) = Ok (fst e) /\ snd d = snd e /\ fst e <> [] /\ ~ In (Single 2147483647) (fst e)) data rules ->
  Forall2 (fun e rss => Forall2 (rune_members f) (fst e) rss) rules members -> fanned members -> data <> [] -> increasing 0 (map snd rules) ->
  compile utf8_kind (utf8_sets f) data = Err "DecisionTreeCompiler hit a limit" /\ ~ fan_limits members \/
  exists states, compile utf8_kind (utf8_sets f) data = Ok states /\ fan_limits members /\
    forall input index best, exists m, tree_Match (mkTree states index best false) input = Ok m /\
      best_fit (map (fun e => (map (rune_pattern f) (fst e), snd e)) rules) input m.
Proof.
  intros H HR Hfan Hne Hi. apply (fans_compiled utf8_kind (utf8_sets f) (rune_pattern f) data rules members); [| |exact Hfan|exact Hi|exact Hne].
  - clear - H. induction H as [|d e ds es (H1 & H2 & H3 & _) _ IH]; constructor; auto.
  - clear - H HR. revert members HR. induction H as [|d e ds es (H1 & H2 & H3 & H4) _ IH]; intros members HR; inversion HR as [|? rss ? l Hrs HR' E1 E2]; subst; constructor; [|apply IH; exact HR'].
    assert (Hx : forall x, In (Single x) (fst e) -> x < k_succ utf8_kind x).
    { intros x Hx. apply (utf8_succ _ _ x H1 Hx). intros ->. contradiction. }
    clear - Hrs Hx. induction Hrs as [|a r l l' H _ IH]; constructor.
    + apply rune_members_covers; [exact H|]. intros x ->. apply Hx. left. reflexivity.
    + apply IH. intros x Hin. apply Hx. right. exact Hin.
Qed.
