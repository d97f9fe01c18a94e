(** Proofs about dates. *)
From Verif Require Import Base BaseFacts Model_Helpers Proofs_Helpers Model_Date Spec_Date.

Lemma isLeapYear_spec y : 0 <= y -> isLeapYear y = true <-> leap y.
Proof.
  intros Hy. unfold isLeapYear, leap.
  change 3 with (Z.ones 2). rewrite Z.land_ones by lia. change (2 ^ 2) with 4.
  rewrite <- !Z.mod_divide by lia.
  destruct (y mod 4 =? 0) eqn:E4; cbn [negb].
  - destruct (y mod 100 =? 0) eqn:E1; cbn [negb]; split; intros H; try lia.
  - split; intros H; [discriminate|lia].
Qed.

Lemma month_cases m : 1 <= m <= 12 ->
  m = 1 \/ m = 2 \/ m = 3 \/ m = 4 \/ m = 5 \/ m = 6 \/ m = 7 \/ m = 8 \/ m = 9 \/ m = 10 \/ m = 11 \/ m = 12.
Proof. lia. Qed.

Lemma monthDays_spec d : 0 <= Year d -> 1 <= Month d <= 12 ->
  exists n, monthDays d = Ok n /\ 28 <= n <= 31 /\
    forall k, 1 <= k -> (k <= n <-> has_day (Year d) (Month d) k).
Proof.
  destruct d as [y m d]. cbn [Year Month]. intros Hy Hm. unfold monthDays. cbn [Year Month].
  assert (L : forall k, In m [1; 3; 5; 7; 8; 10; 12] -> 1 <= k -> (k <= 31 <-> has_day y m k)).
  { intros k Hin Hk. split; [intros; apply Long; auto; lia|].
    intros H. inversion H; subst; lia. }
  assert (S : forall k, In m [4; 6; 9; 11] -> 1 <= k -> (k <= 30 <-> has_day y m k)).
  { intros k Hin Hk. split; [intros; apply Short; auto; lia|].
    intros H. inversion H; subst; try lia. cbn in Hin, H0. lia. }
  destruct (Z.eqb_spec m 2) as [->|Hn2]; cbn [andb].
  - destruct (isLeapYear y) eqn:EL.
    + exists 29. split; [reflexivity|]. split; [lia|]. intros k Hk. split; intros H.
      * destruct (Z.eq_dec k 29) as [->|]; [apply Feb29, isLeapYear_spec; auto|apply Feb; lia].
      * inversion H; subst; try lia; cbn in H0; lia.
    + exists 28. split; [reflexivity|]. split; [lia|]. intros k Hk. split; intros H.
      * apply Feb; lia.
      * inversion H as [? ? Hin|? ? Hin| |Hl]; subst; try lia; try (cbn in Hin; lia).
        apply isLeapYear_spec in Hl; [congruence|auto].
  - destruct (month_cases m Hm) as [->|[->|[->|[->|[->|[->|[->|[->|[->|[->|[->| ->]]]]]]]]]]]; try lia;
      eexists; (split; [reflexivity|]); (split; [lia|]); intros k Hk;
      first [apply L; [cbn; tauto|lia] | apply S; [cbn; tauto|lia]].
Qed.

Lemma valid_date_inv d : date_fields d -> Month d <> 0 ->
  (valid_date d <-> Year d <> 0 /\ 1 <= Month d <= 12 /\
     (Day d = 0 \/ has_day (Year d) (Month d) (Day d))).
Proof.
  intros (Hy & Hm & Hd) H0. split.
  - intros H. destruct H as [|y H|y m H1 H2|y m k H1 H2]; cbn [Year Month Day] in *; try lia.
    split; [lia|]. split; [|auto]. inversion H2 as [? ? Hin|? ? Hin| |]; subst; try lia; cbn in Hin; lia.
  - destruct d as [y m k]. cbn [Year Month Day] in *. intros (H1 & H2 & [->|H3]).
    + apply YearMonth; auto.
    + apply Complete; auto.
Qed.

Lemma isvalid_spec d : date_fields d -> Month d <> 0 ->
  exists b, date_IsValid d = Ok b /\ (b = true <-> valid_date d).
Proof.
  intros Hf H0. enough (G : exists b, date_IsValid d = Ok b /\
    (b = true <-> (Year d <> 0 /\ 1 <= Month d <= 12 /\
     (Day d = 0 \/ has_day (Year d) (Month d) (Day d))))).
  { destruct G as (b & E & G). exists b. rewrite (valid_date_inv d Hf H0). auto. }
  destruct Hf as (Hy & Hm & Hd).
  unfold date_IsValid.
  destruct (Z.eqb_spec (Month d) 0) as [|_]; [lia|]. cbn [andb negb orb].
  rewrite Bool.andb_true_r.
  destruct (Z.eqb_spec (Year d) 0) as [E|E].
  - exists false. split; [reflexivity|]. split; [discriminate|lia].
  - destruct (Z.gtb_spec (Month d) 12).
    + exists false. split; [reflexivity|]. split; [discriminate|lia].
    + destruct (monthDays_spec d) as (n & En & Hn & Hk); [lia|lia|]. rewrite En. cbn [bind].
      destruct (Z.gtb_spec (Day d) n).
      * exists false. split; [reflexivity|]. split; [discriminate|]. intros (_ & _ & [H2|H2]); [lia|].
        apply Hk in H2; lia.
      * exists true. split; [reflexivity|]. split; [|reflexivity]. intros _. split; [auto|]. split; [lia|].
        destruct (Z.eq_dec (Day d) 0); [auto|]. right. apply Hk; lia.
Qed.

Lemma isvalid_month0_day d : Month d = 0 -> Day d <> 0 -> date_IsValid d = Ok false.
Proof.
  intros H1 H2. unfold date_IsValid. rewrite H1. destruct (Z.eqb_spec (Day d) 0); [lia|reflexivity].
Qed.
Lemma isvalid_month0 d : Month d = 0 -> Day d = 0 -> valid_date d /\ date_IsValid d = Panic.
Proof.
  destruct d as [y m k]. cbn. intros -> ->. split.
  - destruct (Z.eq_dec y 0) as [->|]; [apply Undefined|apply OnlyYear; auto].
  - unfold date_IsValid. cbn [Year Month Day]. change (0 =? 0) with true. cbn [andb negb orb]. rewrite Bool.andb_false_r.
    reflexivity.
Qed.

(** String never panics and names the right month *)
Lemma monthName_total d : date_fields d -> exists s, date_MonthName d = Ok s.
Proof.
  intros (Hy & Hm & Hd). unfold date_MonthName.
  destruct (Z.eqb_spec (Month d) 0); [eexists; reflexivity|].
  destruct (Z.gtb_spec (Month d) 12); [eexists; reflexivity|]. cbn [orb].
  assert (Hr : 1 <= Month d <= 12) by lia. clear - Hr. revert Hr. generalize (Month d). intros m Hr.
  destruct (month_cases m Hr) as [->|[->|[->|[->|[->|[->|[->|[->|[->|[->|[->| ->]]]]]]]]]]]; eexists; reflexivity.
Qed.
Lemma date_string_total d : date_fields d -> exists t, date_String d = Ok t.
Proof.
  intros H. destruct (monthName_total d H) as (s & E). unfold date_String. rewrite E.
  destruct (Day d =? 0), (Month d =? 0), (Year d =? 0); eexists; reflexivity.
Qed.

Lemma iscomplete_spec d : date_IsComplete d = true <-> Year d <> 0 /\ Month d <> 0 /\ Day d <> 0.
Proof. unfold date_IsComplete. rewrite !andb_true_iff, !negb_true_iff, !Z.eqb_neq. tauto. Qed.

Lemma complete_text d : date_fields d -> date_IsComplete d = true ->
  exists b, date_IsValid d = Ok b /\ (b = true <-> has_day (Year d) (Month d) (Day d)) /\
  exists m, date_MonthName d = Ok m /\ date_String d = Ok (FullText (Day d) m (Year d)).
Proof.
  intros F C. apply iscomplete_spec in C as (Y & M & D).
  destruct (isvalid_spec d F M) as (b & E & V). exists b. split; [exact E|]. split.
  - rewrite V. destruct d as [y m dd]. cbn [Year Month Day] in *. split.
    + intros H. inversion H; subst; try contradiction. assumption.
    + intros H. apply Complete; assumption.
  - destruct (date_string_total d F) as (t & T). unfold date_String in *.
    destruct (Z.eqb_spec (Day d) 0); [contradiction|].
    destruct (date_MonthName d) as [m| | |]; try discriminate T. exists m. auto.
Qed.
