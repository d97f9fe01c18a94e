(** What each part of Build appends: words, settings and switches. *)
From Coq Require Import Permutation.
From Verif Require Import Base BaseFacts Spec_Helpers Model_Helpers Proofs_Helpers Spec_Names Model_Names Proofs_Names Model_Date
  Model_Mask Spec_Mask Model_Font Model_Words Model_Parse Spec_Format Proofs_Format Spec_Layout Spec_LayoutFont
  Model_Builder Spec_Builder Proofs_Builder Proofs_Build.


(** ** Built-in words *)
Definition builtin_words : list (list Z * Z) := Eval vm_compute in match builtinWords with Ok m => m | _ => [] end.
Lemma builtin_ok : builtinWords = Ok builtin_words.
Proof. vm_compute. reflexivity. Qed.
Lemma builtin_facts w i : In (w, i) builtin_words -> 10 <= i < 256 /\ GetPredefinedWord i = Ok w.
Proof.
  assert (C : forallb (fun e => (10 <=? snd e) && (snd e <? 256) &&
     match GetPredefinedWord (snd e) with Ok w => list_eqb w (fst e) | _ => false end) builtin_words = true) by (vm_compute; reflexivity).
  rewrite forallb_forall in C. intros H. apply C in H. cbn [fst snd] in H. apply andb_true_iff in H. destruct H as [H1 H2].
  destruct (GetPredefinedWord i) eqn:E; try discriminate. apply list_eqb_true in H2. subst. split; [lia|reflexivity].
Qed.
Definition builtin_get (w : list Z) (i : Z) : Prop := m_get list_eqb builtin_words w = Some i.
Lemma builtin_get_facts w i : builtin_get w i -> 10 <= i < 256 /\ GetPredefinedWord i = Ok w.
Proof. intros H. apply (m_get_in _ list_eqb_true) in H. apply builtin_facts. exact H. Qed.

(** ** Assigning indices. [C] are the words with their own index, in order, [B] the others. *)
Record assigned (words : list (list Z * Z)) (C B : list (list Z)) (custom minb : Z) : Prop := {
  as_custom : custom = zlen C;
  as_nodup : NoDup (map fst words);
  as_C : NoDup C;
  as_disj : forall w, In w C -> ~ In w B;
  as_own : forall i w, zget C i = Ok w -> In (w, i) words;
  as_built : forall w, In w B -> exists i, builtin_get w i /\ In (w, - i) words /\ minb <= i;
  as_min : minb = 65535 \/ exists w, In w B /\ builtin_get w minb }.

Lemma m_set_in_other {K V} (eqb : K -> K -> bool) (eqb_true : forall a b, eqb a b = true <-> a = b) (m : list (K * V)) k v k' v' :
  k' <> k -> In (k', v') m -> In (k', v') (m_set eqb m k v).
Proof.
  intros N. induction m as [|[k0 v0] r IH]; [easy|]. cbn. intros [H|H].
  - inversion H. subst. destruct (eqb k k') eqn:E; [apply eqb_true in E; congruence|]. left. reflexivity.
  - destruct (eqb k k0); right; auto.
Qed.
Lemma m_set_in_same {K V} (eqb : K -> K -> bool) (eqb_true : forall a b, eqb a b = true <-> a = b) (m : list (K * V)) k v :
  In (k, v) (m_set eqb m k v).
Proof. apply (m_get_in eqb eqb_true). rewrite (m_get_set eqb eqb_true). rewrite (eqb_rfl eqb eqb_true). reflexivity. Qed.
Lemma m_set_keys_in (m : list (list Z * Z)) k v : In k (map fst m) -> map fst (m_set list_eqb m k v) = map fst m.
Proof.
  intros H. rewrite (m_set_keys _ list_eqb_true). apply (m_has_true _ list_eqb_true) in H. rewrite H. reflexivity.
Qed.
Lemma zget_snoc {A} (l : list A) x i y : zget (l ++ [x]) i = Ok y -> zget l i = Ok y \/ (i = zlen l /\ y = x).
Proof.
  intros H. pose proof (zget_ok_range _ _ _ H) as R. rewrite zlen_app, zlen_cons, zlen_nil in R.
  destruct (Z.eq_dec i (zlen l)) as [->|N].
  - rewrite zget_app_r, Z.sub_diag in H by lia. cbn in H. inversion H. auto.
  - rewrite zget_app_l in H by lia. auto.
Qed.

(** giving a new word its own index *)
Lemma assigned_own words C B custom minb w : assigned words C B custom minb -> In w (map fst words) -> ~ In w C -> ~ In w B ->
  assigned (m_set list_eqb words w custom) (C ++ [w]) B (custom + 1) minb.
Proof.
  intros [A1 A2 A3 A4 A5 A6 A7] HK HC HB. constructor.
  - rewrite zlen_app, zlen_cons, zlen_nil. lia.
  - apply (m_set_nodup _ list_eqb_true). exact A2.
  - apply NoDup_snoc; assumption.
  - intros x Hx. apply in_app_or in Hx. destruct Hx as [Hx|[<-|[]]]; auto.
  - intros i x Hx. apply zget_snoc in Hx. destruct Hx as [Hx|[-> ->]].
    + apply (m_set_in_other _ list_eqb_true); [|apply A5; exact Hx]. intros ->. apply zget_in in Hx. contradiction.
    + rewrite <- A1. apply (m_set_in_same _ list_eqb_true).
  - intros x Hx. destruct (A6 x Hx) as (i & I1 & I2 & I3). exists i. split; [exact I1|]. split; [|exact I3].
    apply (m_set_in_other _ list_eqb_true); [|exact I2]. intros ->. contradiction.
  - exact A7.
Qed.
Lemma assign_loop : forall entries words C B custom minb words' custom' minb',
  assigned words C B custom minb -> NoDup (map fst entries) ->
  (forall w, In w (map fst entries) -> In w (map fst words) /\ ~ In w C /\ ~ In w B) ->
  fold_left (assign_word builtin_words) entries (words, custom, minb) = (words', custom', minb') ->
  exists C' B', assigned words' C' B' custom' minb' /\ map fst words' = map fst words /\
    forall w, In w C' \/ In w B' <-> In w C \/ In w B \/ In w (map fst entries).
Proof.
  induction entries as [|[w v] r IH]; intros words C B custom minb words' custom' minb' HA ND HN; cbn [fold_left map].
  { intros H. inversion H. subst. exists C, B. split; [exact HA|]. split; [reflexivity|]. cbn. tauto. }
  apply NoDup_cons_iff in ND. destruct ND as [N1 N2]. cbn [fst] in *.
  destruct (HN w (or_introl eq_refl)) as (K1 & K2 & K3).
  unfold assign_word at 2. cbn [fst]. destruct (m_get list_eqb builtin_words w) as [i|] eqn:G.
  - set (m' := if i <? minb then i else minb).
    assert (HA' : assigned (m_set list_eqb words w (- i)) C (B ++ [w]) custom m').
    { destruct HA as [A1 A2 A3 A4 A5 A6 A7]. assert (M : m' <= i /\ m' <= minb) by (unfold m'; destruct (Z.ltb_spec i minb); lia). constructor.
      - exact A1.
      - apply (m_set_nodup _ list_eqb_true). exact A2.
      - exact A3.
      - intros x Hx Hx'. apply in_app_or in Hx'. destruct Hx' as [Hx'|[<-|[]]]; [eapply A4; eassumption|contradiction].
      - intros k x Hx. apply (m_set_in_other _ list_eqb_true); [|apply A5; exact Hx]. intros ->. apply zget_in in Hx. contradiction.
      - intros x Hx. apply in_app_or in Hx. destruct Hx as [Hx|[<-|[]]].
        + destruct (A6 x Hx) as (j & I1 & I2 & I3). exists j. split; [exact I1|]. split; [|lia].
          apply (m_set_in_other _ list_eqb_true); [|exact I2]. intros ->. contradiction.
        + exists i. split; [exact G|]. split; [apply (m_set_in_same _ list_eqb_true)|lia].
      - unfold m'. destruct (Z.ltb_spec i minb); [right; exists w; split; [apply in_or_app; right; left; reflexivity|exact G]|].
        destruct A7 as [A7|(x & X1 & X2)]; [left; exact A7|]. right. exists x. split; [apply in_or_app; left; exact X1|exact X2]. }
    intros H. apply (IH _ _ _ _ _ _ _ _ HA' N2) in H.
    + destruct H as (C' & B' & H1 & H2 & H3). exists C', B'. split; [exact H1|]. split; [rewrite H2; apply m_set_keys_in; exact K1|].
      intros x. rewrite H3, in_app_iff. cbn. tauto.
    + intros x Hx. destruct (HN x (or_intror Hx)) as (X1 & X2 & X3). split; [rewrite m_set_keys_in; assumption|]. split; [exact X2|].
      intros Hx'. apply in_app_or in Hx'. destruct Hx' as [Hx'|[<-|[]]]; contradiction.
  - pose proof (assigned_own _ _ _ _ _ w HA K1 K2 K3) as HA'. intros H. apply (IH _ _ _ _ _ _ _ _ HA' N2) in H.
    + destruct H as (C' & B' & H1 & H2 & H3). exists C', B'. split; [exact H1|]. split; [rewrite H2; apply m_set_keys_in; exact K1|].
      intros x. rewrite H3, in_app_iff. cbn. tauto.
    + intros x Hx. destruct (HN x (or_intror Hx)) as (X1 & X2 & X3). split; [rewrite m_set_keys_in; assumption|]. split; [|exact X3].
      intros Hx'. apply in_app_or in Hx'. destruct Hx' as [Hx'|[<-|[]]]; contradiction.
Qed.

(** ** Moving built-in words whose index is needed *)
Lemma move_loop w0 t : forall entries words custom m words' custom' m',
  NoDup (map fst entries) -> (forall w, In (w, - t) entries -> w = w0) ->
  fold_left (move_word (- t)) entries (words, custom, m) = (words', custom', m') ->
  (In (w0, - t) entries -> words' = m_set list_eqb words w0 custom /\ custom' = custom + 1) /\
  (~ In (w0, - t) entries -> words' = words /\ custom' = custom) /\
  m' <= m /\ (forall w i, In (w, i) entries -> i < 0 -> i <> - t -> m' <= - i) /\
  (m' = m \/ exists w, In (w, - m') entries /\ - m' < 0 /\ - m' <> - t).
Proof.
  induction entries as [|[w i] r IH]; intros words custom m words' custom' m' ND HU; cbn [fold_left].
  { intros H. inversion H. subst. repeat split; try easy; try lia. }
  cbn [map fst] in ND. apply NoDup_cons_iff in ND. destruct ND as [N1 N2].
  assert (HU' : forall x, In (x, - t) r -> x = w0) by (intros x Hx; apply HU; right; exact Hx).
  unfold move_word at 2. destruct (Z.eqb_spec i (- t)) as [->|Ni].
  - assert (W : w = w0) by (apply HU; left; reflexivity). subst w. intros H. apply IH in H; [|exact N2|exact HU'].
    destruct H as (H1 & H2 & H3 & H4 & H5).
    assert (NI : ~ In (w0, - t) r) by (intros X; apply N1; apply in_map_iff; exists (w0, - t); auto).
    destruct (H2 NI) as [-> ->]. split; [intros _; split; reflexivity|]. split; [intros X; exfalso; apply X; left; reflexivity|].
    split; [exact H3|]. split.
    + intros x j [X|X] Hj1 Hj2; [inversion X; congruence|]. eapply H4; eassumption.
    + destruct H5 as [->|(x & X1 & X2)]; [left; reflexivity|]. right. exists x. split; [right; exact X1|exact X2].
  - destruct (Z.ltb_spec i 0) as [L|L].
    + set (m1 := if - i <? m then - i else m). assert (M1 : m1 <= m /\ m1 <= - i) by (unfold m1; destruct (Z.ltb_spec (- i) m); lia).
      intros H. apply IH in H; [|exact N2|exact HU']. destruct H as (H1 & H2 & H3 & H4 & H5).
      split; [intros [X|X]; [inversion X; congruence|auto]|]. split; [intros X; apply H2; intros Y; apply X; right; exact Y|].
      split; [lia|]. split.
      * intros x j [X|X] Hj1 Hj2; [inversion X; subst; lia|]. eapply H4; eassumption.
      * destruct H5 as [->|(x & X1 & X2)]; [|right; exists x; split; [right; exact X1|exact X2]].
        unfold m1. destruct (Z.ltb_spec (- i) m); [|left; reflexivity]. right. exists w.
        rewrite Z.opp_involutive. split; [left; reflexivity|]. split; [exact L|exact Ni].
    + intros H. apply IH in H; [|exact N2|exact HU']. destruct H as (H1 & H2 & H3 & H4 & H5).
      split; [intros [X|X]; [inversion X; congruence|auto]|]. split; [intros X; apply H2; intros Y; apply X; right; exact Y|].
      split; [lia|]. split.
      * intros x j [X|X] Hj1 Hj2; [inversion X; subst; lia|]. eapply H4; eassumption.
      * destruct H5 as [->|(x & X1 & X2)]; [left; reflexivity|right; exists x; split; [right; exact X1|exact X2]].
Qed.
(** every word is accounted for *)
Definition covered (words : list (list Z * Z)) (C B : list (list Z)) : Prop :=
  forall w, In w (map fst words) <-> In w C \/ In w B.
Lemma covered_value words C B custom minb w i : assigned words C B custom minb -> covered words C B -> In (w, i) words ->
  (0 <= i < custom /\ zget C i = Ok w) \/ (In w B /\ i < 0 /\ builtin_get w (- i)).
Proof.
  intros [A1 A2 A3 A4 A5 A6 A7] HC H.
  assert (U : forall j, In (w, j) words -> j = i).
  { intros j Hj. apply (m_get_unique _ list_eqb_true) in H; [|exact A2]. apply (m_get_unique _ list_eqb_true) in Hj; [|exact A2]. congruence. }
  assert (K : In w (map fst words)) by (apply in_map_iff; exists (w, i); auto). apply HC in K. destruct K as [K|K].
  - left. apply In_nth_error in K. destruct K as (n & K).
    assert (X : zget C (Z.of_nat n) = Ok w) by (apply zget_some; split; [lia|rewrite Nat2Z.id; exact K]).
    pose proof (zget_ok_range _ _ _ X). assert (Y := X). apply A5 in Y. apply U in Y. subst i. split; [lia|exact X].
  - right. split; [exact K|]. destruct (A6 w K) as (j & I1 & I2 & I3). apply U in I2. subst i.
    pose proof (builtin_get_facts _ _ I1). split; [lia|]. rewrite Z.opp_involutive. exact I1.
Qed.
Lemma NoDup_perm_map {A B} (f : A -> B) l l' : Permutation l l' -> NoDup (map f l') -> NoDup (map f l).
Proof. intros P. apply Permutation_NoDup. apply Permutation_map. symmetry. exact P. Qed.
Definition not_word (w : list Z) (x : list Z) : bool := negb (list_eqb w x).
Lemma in_remove w B x : In x (filter (not_word w) B) <-> In x B /\ x <> w.
Proof.
  rewrite filter_In. unfold not_word. rewrite negb_true_iff. rewrite <- (eqb_false list_eqb list_eqb_true).
  split; intros [H1 H2]; (split; [exact H1|]); [destruct (list_eqb x w) eqn:E|destruct (list_eqb w x) eqn:E]; try reflexivity;
  apply list_eqb_true in E; subst; rewrite list_eqb_refl in H2; discriminate.
Qed.
Lemma move_words_ok o : perm_order o -> forall fuel n words C B custom minb words',
  assigned words C B custom minb -> covered words C B -> zlen words <= 255 ->
  move_words fuel o n (words, custom, minb) = Ok words' ->
  exists C' B' minb', assigned words' C' B' (zlen C') minb' /\ covered words' C' B' /\ map fst words' = map fst words /\
    (forall w, In w B' -> exists i, builtin_get w i /\ zlen C' <= i).
Proof.
  intros HO. induction fuel as [|fuel IH]; intros n words C B custom minb words' HA HC HL; cbn [move_words];
    (destruct (Z.ltb_spec minb custom) as [L|L]; [|intros H; inversion H; subst words';
      exists C, B, minb; rewrite <- (as_custom _ _ _ _ _ HA); split; [exact HA|]; split; [exact HC|]; split; [reflexivity|];
      intros w Hw; destruct (as_built _ _ _ _ _ HA w Hw) as (i & I1 & I2 & I3); exists i; split; [exact I1|lia]]).
  { discriminate. }
  intros H.
  assert (CL : custom <= zlen words).
  { rewrite (as_custom _ _ _ _ _ HA). unfold zlen. rewrite <- (map_length fst words). apply inj_le. apply NoDup_incl_length; [exact (as_C _ _ _ _ _ HA)|].
    intros w Hw. apply HC. left. exact Hw. }
  destruct (as_min _ _ _ _ _ HA) as [->|(w0 & W1 & W2)]; [lia|].
  destruct (fold_left (move_word (- minb)) (o n _ words) (words, custom, 65535)) as [[w1 c1] m1] eqn:F.
  pose proof (HO n _ words) as P.
  assert (IN : forall e, In e (o n _ words) <-> In e words) by (intros e; split; apply Permutation_in; [exact P|symmetry; exact P]).
  assert (I0 : In (w0, - minb) words).
  { destruct (as_built _ _ _ _ _ HA w0 W1) as (i & I1 & I2 & I3). unfold builtin_get in *. rewrite W2 in I1. inversion I1. exact I2. }
  pose proof (builtin_get_facts _ _ W2) as R0.
  apply (move_loop w0 minb) in F.
  - destruct F as (F1 & _ & _ & F4 & F5). destruct (F1 (proj2 (IN _) I0)) as [-> ->]. clear F1.
    assert (K0 : In w0 (map fst words)) by (apply HC; right; exact W1).
    assert (NC : ~ In w0 C) by (intros X; exact (as_disj _ _ _ _ _ HA w0 X W1)).
    eapply (IH _ _ (C ++ [w0]) (filter (not_word w0) B)) in H.
    + destruct H as (C' & B' & m' & H1 & H2 & H3 & H4). exists C', B', m'. split; [exact H1|]. split; [exact H2|].
      split; [rewrite H3; apply m_set_keys_in; exact K0|exact H4].
    + destruct HA as [A1 A2 A3 A4 A5 A6 A7].
      constructor.
      * rewrite zlen_app, zlen_cons, zlen_nil. lia.
      * apply (m_set_nodup _ list_eqb_true). exact A2.
      * apply NoDup_snoc; assumption.
      * intros x Hx Hx'. apply in_remove in Hx'. destruct Hx' as [X1 X2]. apply in_app_or in Hx.
        destruct Hx as [Hx|[<-|[]]]; [eapply A4; eassumption|congruence].
      * intros i x Hx. apply zget_snoc in Hx. destruct Hx as [Hx|[-> ->]].
        -- apply (m_set_in_other _ list_eqb_true); [|apply A5; exact Hx]. intros ->. apply zget_in in Hx. contradiction.
        -- rewrite <- A1. apply (m_set_in_same _ list_eqb_true).
      * intros x Hx. apply in_remove in Hx. destruct Hx as [X1 X2]. destruct (A6 x X1) as (i & I1 & I2 & I3). exists i. split; [exact I1|].
        split; [apply (m_set_in_other _ list_eqb_true); assumption|]. pose proof (builtin_get_facts _ _ I1) as [G1 G2].
        assert (i <> minb) by (intros ->; destruct R0 as [_ G3]; congruence).
        apply IN in I2. specialize (F4 x (- i) I2 ltac:(lia) ltac:(lia)). lia.
      * destruct F5 as [->|(x & X1 & X2 & X3)]; [left; reflexivity|]. right. exists x. apply IN in X1.
        assert (HA : assigned words C B custom minb) by (constructor; assumption).
        destruct (covered_value _ _ _ _ _ _ _ HA HC X1) as [[X _]|(Y1 & Y2 & Y3)]; [lia|]. rewrite Z.opp_involutive in Y3.
        split; [|exact Y3]. apply in_remove. split; [exact Y1|]. intros ->. unfold builtin_get in *. rewrite W2 in Y3. inversion Y3. lia.
    + intros w. rewrite m_set_keys_in by exact K0. rewrite (HC w), in_app_iff, in_remove. cbn. split.
      * intros [X|X]; [tauto|]. destruct (list_eq_dec Z.eq_dec w0 w) as [->|N]; [tauto|]. right. split; [exact X|congruence].
      * intros [[X|[<-|[]]]|[X _]]; tauto.
    + rewrite (m_set_len _ list_eqb_true). apply (m_has_true _ list_eqb_true) in K0. rewrite K0. lia.
  - eapply NoDup_perm_map; [exact P|exact (as_nodup _ _ _ _ _ HA)].
  - intros w Hw. apply IN in Hw. destruct (covered_value _ _ _ _ _ _ _ HA HC Hw) as [[X _]|(X1 & X2 & X3)]; [lia|].
    rewrite Z.opp_involutive in X3. destruct (builtin_get_facts _ _ X3) as [_ G1]. destruct R0 as [_ G2]. congruence.
Qed.

(** ** The words that are stored *)
Lemma organize_ok o words final : perm_order o -> NoDup (map fst words) -> organizeWords o builtin_words words = Ok final ->
  zlen words <= 255 /\ NoDup (map fst final) /\ Permutation (map snd final) (zseq (zlen final)) /\
  (forall w, In w (map fst final) -> In w (map fst words)) /\
  (forall w, In w (map fst words) -> In w (map fst final) \/
     (~ In w (map fst final) /\ exists i, builtin_get w i /\ zlen final <= i)).
Proof.
  intros HO ND H. unfold organizeWords in H. destruct (zlen words >? 255) eqn:L; [discriminate|]. cbv zeta in H.
  destruct (fold_left (assign_word builtin_words) (o 0%nat _ words) (words, 0, 65535)) as [[w1 c1] m1] eqn:F.
  pose proof (HO 0%nat _ words) as P.
  assert (INK : forall w, In w (map fst (o 0%nat _ words)) <-> In w (map fst words)).
  { intros w. split; apply Permutation_in; apply Permutation_map; [exact P|symmetry; exact P]. }
  assert (A0 : assigned words [] [] 0 65535).
  { constructor; try easy; [constructor|intros i w Hw; apply zget_ok_range in Hw; rewrite zlen_nil in Hw; lia|left; reflexivity]. }
  apply (assign_loop _ _ _ _ _ _ _ _ _ A0) in F; [|eapply NoDup_perm_map; eassumption|intros w Hw; split; [apply INK; exact Hw|split; intros []]].
  destruct F as (C1 & B1 & HA & HK & HC).
  assert (CV : covered w1 C1 B1) by (intros w; rewrite HK, HC, INK; cbn; tauto).
  apply bind_ok_inv in H. destruct H as (w2 & E & H). inversion H. subst final. clear H.
  assert (ZL : zlen w1 = zlen words) by (unfold zlen; rewrite <- (map_length fst w1), HK, map_length; reflexivity).
  apply (move_words_ok o HO _ _ _ _ _ _ _ _ HA CV) in E; [|lia]. destruct E as (C & B & m & HA2 & CV2 & HK2 & HB).
  set (final := filter (fun e => negb (snd e <? 0)) w2).
  set (Q := map (fun i => (nth (Z.to_nat i) C [], i)) (zseq (zlen C))).
  assert (IF : forall w i, In (w, i) final <-> zget C i = Ok w).
  { intros w i. unfold final. rewrite filter_In. cbn [snd]. rewrite negb_true_iff. split.
    - intros [H1 H2]. destruct (covered_value _ _ _ _ _ _ _ HA2 CV2 H1) as [[_ X]|(_ & X & _)]; [exact X|lia].
    - intros X. split; [exact (as_own _ _ _ _ _ HA2 _ _ X)|]. apply zget_ok_range in X. lia. }
  assert (IQ : forall w i, In (w, i) Q <-> zget C i = Ok w).
  { intros w i. unfold Q. rewrite in_map_iff. split.
    - intros (j & X1 & X2). inversion X1. subst. apply in_zseq in X2. apply zget_nth. exact X2.
    - intros X. pose proof (zget_ok_range _ _ _ X) as R. exists i. split; [|apply in_zseq; exact R]. f_equal.
      rewrite (zget_nth C i []) in X by exact R. inversion X. reflexivity. }
  assert (NF : NoDup (map fst final)).
  { pose proof (as_nodup _ _ _ _ _ HA2) as N. unfold final. clear - N. induction w2 as [|[w i] r IH]; [constructor|].
    cbn [map fst] in N. apply NoDup_cons_iff in N. destruct N as [N1 N2]. cbn [filter snd]. destruct (negb (i <? 0)); [|auto].
    cbn [map fst]. constructor; [|auto]. intros X. apply N1. apply in_map_iff in X. destruct X as (e & <- & X).
    apply filter_In in X. apply in_map. tauto. }
  assert (PQ : Permutation final Q).
  { apply NoDup_Permutation.
    - eapply NoDup_map_inv. exact NF.
    - unfold Q. apply (NoDup_map_inv snd). rewrite map_map. cbn [snd]. rewrite map_id. unfold zseq.
      apply FinFun.Injective_map_NoDup; [intros x y; lia|apply seq_NoDup].
    - intros [w i]. rewrite IF, IQ. reflexivity. }
  assert (ZF : zlen final = zlen C).
  { unfold zlen at 1. rewrite (Permutation_length PQ). unfold Q. rewrite map_length. fold (zlen (zseq (zlen C))). apply zlen_zseq. apply zlen_nonneg. }
  split; [lia|]. split; [exact NF|]. split.
  { rewrite ZF. apply (Permutation_map snd) in PQ. unfold Q in PQ. rewrite map_map in PQ. cbn [snd] in PQ. rewrite map_id in PQ. exact PQ. }
  assert (KF : forall w, In w (map fst final) <-> In w C).
  { intros w. rewrite in_map_iff. split.
    - intros ([x i] & <- & X). apply IF in X. apply zget_in in X. exact X.
    - intros X. apply In_nth_error in X. destruct X as (n & X). exists (w, Z.of_nat n). split; [reflexivity|]. apply IF.
      apply zget_some. split; [lia|]. rewrite Nat2Z.id. exact X. }
  split.
  - intros w Hw. apply KF in Hw. rewrite <- HK, <- HK2. apply CV2. left. exact Hw.
  - intros w Hw. rewrite <- HK, <- HK2 in Hw. apply CV2 in Hw. rewrite KF. destruct Hw as [Hw|Hw]; [left; exact Hw|].
    right. split; [intros X; exact (as_disj _ _ _ _ _ HA2 w X Hw)|]. destruct (HB w Hw) as (i & I1 & I2). exists i. split; [exact I1|lia].
Qed.

Lemma collect_ok opts : forall words, NoDup (map fst words) ->
  let res := fold_left (fun words opt => if m_has list_eqb words opt then words else m_set list_eqb words opt 0) opts words in
  NoDup (map fst res) /\ forall w, In w (map fst res) <-> In w (map fst words) \/ In w opts.
Proof.
  induction opts as [|x r IH]; intros words ND; cbv zeta in *; cbn [fold_left]; [split; [exact ND|cbn; tauto]|].
  destruct (m_has list_eqb words x) eqn:E.
  - specialize (IH words ND). destruct IH as [H1 H2]. split; [exact H1|]. intros w. rewrite H2. cbn.
    apply (m_has_true _ list_eqb_true) in E. split; [tauto|]. intros [?|[<-|?]]; tauto.
  - specialize (IH (m_set list_eqb words x 0) (m_set_nodup _ list_eqb_true _ _ _ ND)). destruct IH as [H1 H2]. split; [exact H1|].
    intros w. rewrite H2, (m_set_keys _ list_eqb_true), E, in_app_iff. cbn. tauto.
Qed.
Definition options (b : builder) : list (list Z) := concat (map snd (b_settings b)).
Lemma collect_words_ok b : NoDup (map fst (collect_words b)) /\ forall w, In w (map fst (collect_words b)) <-> In w (options b).
Proof.
  destruct (collect_ok (options b) [] ltac:(constructor)) as [H1 H2]. split; [exact H1|]. intros w. unfold collect_words. fold (options b).
  rewrite H2. cbn. tauto.
Qed.
Lemma offsets_lens {A B} w (l : list (list A)) (l' : list (list B)) : map zlen l = map zlen l' -> offsets w l = offsets w l'.
Proof.
  intros H. unfold offsets. f_equal. f_equal. generalize 0. revert l' H. induction l as [|x r IH]; intros [|y r'] H acc; try discriminate; [reflexivity|].
  cbn in *. inversion H. rewrite H1. f_equal. apply IH. assumption.
Qed.
Lemma recut {A} lens : forall (t : list A), Forall (fun n => 0 <= n) lens -> fold_right Z.add 0 lens = zlen t ->
  exists l, map zlen l = lens /\ concat l = t.
Proof.
  induction lens as [|n r IH]; intros t F E; cbn in E.
  { exists []. split; [reflexivity|]. symmetry. apply zlen_0_nil. lia. }
  pose proof (Forall_inv F) as Hn. cbn in Hn. apply Forall_inv_tail in F.
  assert (R : 0 <= fold_right Z.add 0 r).
  { clear - F. induction r as [|x r IH]; cbn; [lia|]. pose proof (Forall_inv F). specialize (IH (Forall_inv_tail F)). cbn in *. lia. }
  destruct (IH (skipn (Z.to_nat n) t) F) as (l & L1 & L2); [rewrite zlen_skipn; lia|].
  exists (firstn (Z.to_nat n) t :: l). cbn. rewrite L1, L2, zlen_firstn, firstn_skipn. split; [f_equal; lia|reflexivity].
Qed.
Lemma sum_lens {A} (l : list (list A)) : fold_right Z.add 0 (map zlen l) = zlen (concat l).
Proof. induction l as [|x r IH]; cbn; [reflexivity|]. rewrite IH, zlen_app. reflexivity. Qed.
Lemma sum_perm l l' : Permutation l l' -> fold_right Z.add 0 l = fold_right Z.add 0 l'.
Proof. induction 1; cbn; lia. Qed.
(** the words with their indices, and how the iteration orders lay them out *)
Definition words_from (o : order) (b : builder) (words : list (list Z * Z)) (l : list (list Z)) : Prop :=
  ((collect_words b = [] /\ words = []) \/ organizeWords o builtin_words (collect_words b) = Ok words) /\
  map zlen l = map (fun e => zlen (fst e)) (o 2%nat _ words) /\ concat l = concat (map fst (o 3%nat _ words)).
Lemma build_words_ok o b data builtin words data' : perm_order o -> build_words o b data = Ok (builtin, words, data') ->
  exists l, words_described words l /\ words_from o b words l /\ zlen l = zlen words /\ data' = data ++ words_bytes l /\ zlen words <= 255 /\
    (forall w, In w (map fst words) -> In w (options b)) /\
    forall w, In w (options b) -> In w (map fst words) \/
      (~ In w (map fst words) /\ exists i, m_get list_eqb builtin w = Some i /\ builtin_get w i /\ zlen words <= i).
Proof.
  intros HO H. unfold build_words in H. destruct (collect_words_ok b) as [C1 C2].
  apply bind_ok_inv in H. destruct H as ([bw ws] & E & H).
  assert (Q : ((collect_words b = [] /\ ws = []) \/ organizeWords o builtin_words (collect_words b) = Ok ws) /\
    NoDup (map fst ws) /\ Permutation (map snd ws) (zseq (zlen ws)) /\
    (forall w, In w (map fst ws) -> In w (options b)) /\
    forall w, In w (options b) -> In w (map fst ws) \/
      (~ In w (map fst ws) /\ exists i, m_get list_eqb bw w = Some i /\ builtin_get w i /\ zlen ws <= i)).
  { destruct (zlen (collect_words b) >? 0) eqn:G.
    - rewrite builtin_ok in E. cbn [bind] in E. apply bind_ok_inv in E. destruct E as (ws' & E & X). inversion X. subst bw ws'. clear X.
      split; [right; exact E|].
      apply organize_ok in E; [|exact HO|exact C1]. destruct E as (_ & E1 & E2 & E3 & E4). split; [exact E1|]. split; [exact E2|]. split.
      + intros w Hw. apply C2. auto.
      + intros w Hw. apply C2 in Hw. destruct (E4 w Hw) as [X|(X & i & X1 & X2)]; [left; exact X|]. right. split; [exact X|]. exists i. auto.
    - inversion E. subst bw ws. assert (Z0 : collect_words b = []) by (pose proof (zlen_nonneg (collect_words b)); apply zlen_0_nil; lia).
      rewrite Z0 in *. split; [left; auto|]. split; [exact C1|]. split; [reflexivity|]. split; [easy|]. intros w Hw. apply C2 in Hw. destruct Hw. }
  destruct Q as (Q0 & Q1 & Q2 & Q3 & Q4). destruct (zlen ws >? 255) eqn:L; [discriminate|]. cbv zeta in H.
  pose proof (zlen_nonneg ws).
  assert (X : exists l, (map zlen l = map (fun e => zlen (fst e)) (o 2%nat _ ws)) /\ concat l = concat (map fst (o 3%nat _ ws)) /\ words = ws /\ builtin = bw /\
     data' = data ++ words_bytes l).
  { pose proof (HO 2%nat _ ws) as P2. pose proof (HO 3%nat _ ws) as P3.
    destruct (recut (map (fun e => zlen (fst e)) (o 2%nat _ ws)) (concat (map fst (o 3%nat _ ws)))) as (l & L1 & L2).
    - apply Forall_forall. intros n Hn. apply in_map_iff in Hn. destruct Hn as (e & <- & _). apply zlen_nonneg.
    - rewrite <- sum_lens. apply sum_perm. rewrite map_map. apply (Permutation_map (fun e : list Z * Z => zlen (fst e))).
      rewrite P2, P3. reflexivity.
    - exists l. split; [exact L1|]. split; [exact L2|].
      assert (LL : zlen l = zlen ws).
      { pose proof (f_equal zlen L1) as Y. rewrite !zlen_map in Y. rewrite Y. unfold zlen. rewrite (Permutation_length P2). reflexivity. }
      destruct (zlen ws >? 0) eqn:G.
      + apply bind_ok_inv in H. destruct H as (wl & _ & H). inversion H. subst builtin words data'. split; [reflexivity|]. split; [reflexivity|].
        rewrite append_all_spec, (ends16_0 (fun e : list Z * Z => fst e)). unfold words_bytes, indexed.
        rewrite (offsets_lens 2 l (map fst (o 2%nat _ ws))) by (rewrite L1, map_map; reflexivity).
        rewrite L2, LL, u8_id by (unfold byte; lia). rewrite <- !app_assoc. reflexivity.
      + inversion H. subst builtin words data'. split; [reflexivity|]. split; [reflexivity|].
        assert (L0 : l = []) by (apply zlen_0_nil; lia). assert (W0 : ws = []) by (apply zlen_0_nil; lia). rewrite L0, W0. reflexivity. }
  destruct X as (l & X1 & X2 & -> & -> & ->). exists l.
  assert (LL : zlen l = zlen ws).
  { pose proof (f_equal zlen X1) as Y. rewrite !zlen_map in Y. rewrite Y. unfold zlen. rewrite (Permutation_length (HO 2%nat _ ws)). reflexivity. }
  split; [|split; [split; [exact Q0|split; assumption]|repeat split; auto; lia]]. split; [exact Q1|]. split; [exact Q2|].
  exists (o 2%nat _ ws), (o 3%nat _ ws). repeat split; auto.
Qed.

(** ** Settings and switches *)
Lemma append_options_ok builtin words : NoDup (map fst words) -> Permutation (map snd words) (zseq (zlen words)) -> zlen words <= 255 ->
  forall opts data data',
  (forall w, In w opts -> In w (map fst words) \/
      (~ In w (map fst words) /\ exists i, m_get list_eqb builtin w = Some i /\ builtin_get w i /\ zlen words <= i)) ->
  ofold (append_option builtin words) opts data = Ok data' ->
  exists idxs, data' = data ++ idxs /\ Forall2 (option_described words) opts idxs /\ bytes idxs.
Proof.
  intros ND P L. induction opts as [|w r IH]; intros data data' HW; cbn [ofold].
  { intros H. inversion H. exists []. rewrite app_nil_r. repeat constructor. }
  intros H. apply bind_ok_inv in H. destruct H as (d1 & E & H). unfold append_option in E. apply bind_ok_inv in E. destruct E as (i & Ei & E).
  destruct (i >? 255) eqn:G; [discriminate|]. inversion E. subst d1. clear E.
  apply IH in H; [|intros x Hx; apply HW; right; exact Hx]. destruct H as (idxs & -> & H1 & H2).
  assert (X : 0 <= i /\ option_described words w i).
  { destruct (HW w (or_introl eq_refl)) as [K|(K & j & J1 & J2 & J3)].
    - destruct (m_get list_eqb words w) as [v|] eqn:M; [|apply (m_get_none _ list_eqb_true) in M; contradiction]. inversion Ei. subst v.
      apply (m_get_in _ list_eqb_true) in M. split; [|left; exact M].
      assert (I : In i (map snd words)) by (apply in_map_iff; exists (w, i); auto). apply (Permutation_in _ P) in I. apply in_zseq in I. lia.
    - pose proof K as K'. apply (m_get_none _ list_eqb_true) in K'. rewrite K', J1 in Ei. inversion Ei. subst j.
      pose proof (builtin_get_facts _ _ J2) as [R1 R2]. split; [lia|]. right. split; [exact K|]. split; [lia|exact R2]. }
  destruct X as [X1 X2]. exists (i :: idxs). rewrite u8_id by (unfold byte; lia). rewrite <- app_assoc. split; [reflexivity|].
  split; [constructor; assumption|]. constructor; [unfold byte; lia|exact H2].
Qed.
Lemma split_settings words : forall (ss : list (list Z * list (list Z))) idxs, Forall2 (option_described words) (concat (map snd ss)) idxs ->
  exists ts, Forall2 (setting_described words) ss ts /\ concat (map snd ts) = idxs /\ map fst ts = map fst ss /\
    map zlen (map snd ts) = map zlen (map snd ss).
Proof.
  induction ss as [|[n os] r IH]; intros idxs H; cbn [map concat snd fst] in *.
  { inversion H. exists []. repeat constructor. }
  apply Forall2_app_inv_l in H. destruct H as (l1 & l2 & H1 & H2 & ->). destruct (IH l2 H2) as (ts & T1 & T2 & T3 & T4).
  exists ((n, l1) :: ts). cbn [map concat snd fst]. rewrite T2, T3, T4. split; [constructor; [split; [reflexivity|exact H1]|exact T1]|].
  split; [reflexivity|]. split; [reflexivity|]. f_equal. unfold zlen. rewrite (Forall2_len _ _ _ H1). reflexivity.
Qed.
Lemma build_settings_ok b builtin words data defs data' :
  NoDup (map fst words) -> Permutation (map snd words) (zseq (zlen words)) -> zlen words <= 255 ->
  (forall w, In w (options b) -> In w (map fst words) \/
      (~ In w (map fst words) /\ exists i, m_get list_eqb builtin w = Some i /\ builtin_get w i /\ zlen words <= i)) ->
  build_settings b builtin words data = Ok (defs, data') ->
  exists ts, Forall2 (setting_described words) (b_settings b) ts /\ defs = data ++ setting_names_bytes ts /\ data' = defs ++ setting_defs_bytes ts /\
    bytes (concat (map snd ts)).
Proof.
  intros ND P L HW H. unfold build_settings in H. destruct (zlen (b_settings b) >? 255) eqn:G; [discriminate|]. cbv zeta in H.
  pose proof (zlen_nonneg (b_settings b)). rewrite u8_id in H by (unfold byte; lia). destruct (zlen (b_settings b) >? 0) eqn:G0.
  - apply bind_ok_inv in H. destruct H as (d1 & E & H). inversion H. subst defs d1. clear H.
    apply (append_options_ok _ _ ND P L) in E; [|exact HW]. destruct E as (idxs & -> & E1 & E2).
    apply split_settings in E1. destruct E1 as (ts & T1 & T2 & T3 & T4). exists ts. split; [exact T1|].
    rewrite append_all_spec, (ends16_0 (fun s : list Z * list (list Z) => fst s)), (ends16_0 (fun s : list Z * list (list Z) => snd s)).
    unfold setting_names_bytes, setting_defs_bytes, indexed. rewrite T2, T3.
    rewrite (offsets_lens 2 (map snd ts) (map snd (b_settings b)) T4).
    assert (LT : zlen ts = zlen (b_settings b)) by (rewrite <- (zlen_map fst ts), T3, zlen_map; reflexivity).
    rewrite LT, <- !app_assoc. cbn [app]. repeat split. exact E2.
  - inversion H. subst defs data'. assert (S0 : b_settings b = []) by (apply zlen_0_nil; lia). exists [].
    rewrite S0. repeat split; try constructor. cbn. rewrite app_nil_r. reflexivity.
Qed.
Lemma switch_ends_ok n l : forall acc data data', switch_ends n l (u16 acc) data = Ok data' ->
  data' = data ++ ends_bytes 2 acc l /\ Forall (fun s => zlen s <= n) l.
Proof.
  induction l as [|x r IH]; intros acc data data'; cbn [switch_ends].
  { intros H. inversion H. unfold ends_bytes. cbn. rewrite app_nil_r. split; [reflexivity|constructor]. }
  destruct (zlen x >? n) eqn:G; [discriminate|].
  assert (E : u16 (u16 acc + u16 (zlen x)) = u16 (acc + zlen x)) by (unfold u16; rewrite <- Z.add_mod by lia; reflexivity).
  rewrite E. intros H. apply IH in H. destruct H as [-> F]. rewrite append16_spec, digits2_u16, <- app_assoc.
  split; [reflexivity|constructor; [lia|exact F]].
Qed.
Lemma build_switches_ok b data data' : build_switches b data = Ok data' ->
  data' = data ++ switches_bytes (b_switches b) /\ zlen (b_switches b) <= 255 /\
  Forall (fun s => zlen s <= u8 (zlen (b_settings b))) (b_switches b).
Proof.
  intros H. unfold build_switches in H. destruct (zlen (b_switches b) >? 255) eqn:G; [discriminate|]. cbv zeta in H.
  apply bind_ok_inv in H. destruct H as (d1 & E & H). inversion H. subst data'. clear H.
  apply (switch_ends_ok _ _ 0) in E. destruct E as [-> F]. pose proof (zlen_nonneg (b_switches b)).
  rewrite append_all_spec, u8_id by (unfold byte; lia). unfold switches_bytes, indexed. rewrite <- !app_assoc. split; [reflexivity|]. split; [lia|exact F].
Qed.
