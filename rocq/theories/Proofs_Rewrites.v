(** Conditions, rules and sets. *)
From Verif Require Import Base BaseFacts Spec_Helpers Model_Helpers Proofs_Helpers Model_Font Model_Rewrites
  Spec_Format Spec_Layout Proofs_Format Proofs_Font Proofs_Font2 Proofs_Font3 Proofs_Font4.

(** ** conditions *)
Lemma condition_induction (P : condition -> Prop) :
  (forall ts, Forall P ts -> P (COr ts)) -> (forall ts, Forall P ts -> P (CAnd ts)) ->
  (forall op a b, P (CSettings op a b)) -> (forall op a b, P (CConst op a b)) -> (forall op a b, P (CQuick op a b)) ->
  forall c, P c.
Proof.
  intros H1 H2 H3 H4 H5. fix IH 1. intros [ts|ts|op a b|op a b|op a b]; [apply H1|apply H2|apply H3|apply H4|apply H5].
  - induction ts as [|t ts IHt]; constructor; [apply IH|exact IHt].
  - induction ts as [|t ts IHt]; constructor; [apply IH|exact IHt].
Qed.
Lemma terms_ok n ts : fold_right (fun t P => condition_ok n t /\ P) True ts <-> Forall (condition_ok n) ts.
Proof.
  induction ts as [|t ts IH]; cbn [fold_right]; [split; auto|]. rewrite IH. split.
  - intros [A B]. now constructor.
  - intros H. inversion H. auto.
Qed.

Definition is_leaf (c : condition) : bool := match c with COr _ | CAnd _ => false | _ => true end.
Lemma leaf_len c : is_leaf c = true -> 2 <= zlen (condition_bytes c) <= 3.
Proof. destruct c; cbn [is_leaf condition_bytes]; try discriminate; intros _; vm_compute; split; discriminate. Qed.
Lemma condition_len c n : condition_ok n c -> 2 <= zlen (condition_bytes c).
Proof.
  revert n. induction c as [ts IH|ts IH|op a b|op a b|op a b] using condition_induction; intros n Hok; cbn [condition_bytes];
    try (vm_compute; discriminate).
  - destruct Hok as [H1 H2]. apply terms_ok in H2. destruct ts as [|t ts]; [cbn in H1; rewrite zlen_nil in H1; lia|].
    inversion IH; subst. inversion H2; subst. specialize (H3 n H5). cbn [map concat]. rewrite zlen_cons, zlen_app.
    pose proof (zlen_nonneg (concat (map condition_bytes ts))). lia.
  - destruct Hok as [H1 H2]. apply terms_ok in H2. destruct ts as [|t ts]; [cbn in H1; rewrite zlen_nil in H1; lia|].
    inversion IH; subst. inversion H2; subst. specialize (H3 n H5). cbn [map concat]. rewrite zlen_cons, zlen_app.
    pose proof (zlen_nonneg (concat (map condition_bytes ts))). lia.
Qed.

(** the control bytes *)
Lemma ctrl_group n : 0 <= n < 32 -> Z.land n 224 = 0 /\ Z.land n 31 = n /\ Z.land (32 + n) 224 = 32 /\ Z.land (32 + n) 31 = n.
Proof.
  intros H. assert (F : forallb (fun n => (Z.land n 224 =? 0) && (Z.land n 31 =? n) && (Z.land (32 + n) 224 =? 32) && (Z.land (32 + n) 31 =? n)) (zseq 32) = true) by (vm_compute; reflexivity).
  rewrite forallb_forall in F. specialize (F n ltac:(apply in_zseq; lia)). lia.
Qed.
Lemma ctrl_compare op : Z.land (64 + operator_code op) 224 = 64 /\ Z.land (80 + operator_code op) 224 = 64 /\
  Z.land (64 + operator_code op) 16 = 0 /\ Z.land (80 + operator_code op) 16 = 16 /\
  Z.land (64 + operator_code op) 15 = operator_code op /\ Z.land (80 + operator_code op) 15 = operator_code op.
Proof. destruct op; vm_compute; auto 10. Qed.
Lemma ctrl_quick op const : quick_operator op -> 0 <= const < 32 ->
  Z.land (quick_code op + const) 224 = quick_code op /\ Z.land (quick_code op + const) 31 = const.
Proof.
  intros Hop H. assert (F : forallb (fun n => forallb (fun q => (Z.land (q + n) 224 =? q) && (Z.land (q + n) 31 =? n)) [96; 128; 160; 192]) (zseq 32) = true) by (vm_compute; reflexivity).
  rewrite forallb_forall in F. specialize (F const ltac:(apply in_zseq; lia)). rewrite forallb_forall in F.
  assert (In (quick_code op) [96; 128; 160; 192]) by (destruct op; try contradiction; cbn; auto).
  specialize (F _ H0). cbv beta in F. lia.
Qed.

(** *** skipping *)
Lemma skip_leaf k d mx n c idx : is_leaf c = true -> condition_ok n c -> stored d idx (condition_bytes c) -> idx <= mx ->
  skipConditionSubexpr (S k) d mx n idx = Ok (idx + zlen (condition_bytes c)).
Proof.
  intros Hl Hok HS Hi. cbn [skipConditionSubexpr]. destruct (Z.gtb_spec idx mx); [lia|].
  destruct c as [ts|ts|op a b|op a b|op a b]; cbn [is_leaf] in Hl; try discriminate; cbn [condition_bytes] in *.
  - apply stored_cons in HS. destruct HS as [-> HS]. apply stored_cons in HS. destruct HS as [Ha HS]. apply stored_cons in HS. destruct HS as [Hb _].
    replace (idx + 1 + 1) with (idx + 2) in Hb by lia.
    cbn [bind]. cbv zeta. destruct (ctrl_compare op) as (-> & _ & -> & _ & -> & _).
    cbn [condition_ok] in Hok. change ((64 =? 0) || (64 =? 32)) with false. change (64 =? 64) with true. cbv iota.
    rewrite Ha. cbn [bind]. destruct (Z.gtb_spec a n); [lia|]. change (0 =? 0) with true. cbv iota. rewrite Hb. cbn [bind].
    destruct (Z.gtb_spec b n); [lia|]. cbn [bind]. replace (operator_code op <=? 5) with true by (destruct op; reflexivity).
    rewrite !zlen_cons, zlen_nil. f_equal; lia.
  - apply stored_cons in HS. destruct HS as [-> HS]. apply stored_cons in HS. destruct HS as [Ha HS].
    cbn [bind]. cbv zeta. destruct (ctrl_compare op) as (_ & -> & _ & -> & _ & ->).
    cbn [condition_ok] in Hok. change ((64 =? 0) || (64 =? 32)) with false. change (64 =? 64) with true. cbv iota.
    rewrite Ha. cbn [bind]. destruct (Z.gtb_spec a n); [lia|]. change (16 =? 0) with false. cbv iota. cbn [bind].
    replace (operator_code op <=? 5) with true by (destruct op; reflexivity).
    rewrite !zlen_cons, zlen_nil. f_equal; lia.
  - apply stored_cons in HS. destruct HS as [-> HS]. apply stored_cons in HS. destruct HS as [Ha HS].
    cbn [bind]. cbv zeta. destruct Hok as (Hq & Hn & Hc). destruct (ctrl_quick op b Hq Hc) as [-> _].
    assert (E : ((quick_code op =? 0) || (quick_code op =? 32) = false) /\ (quick_code op =? 64) = false /\
      ((quick_code op =? 96) || (quick_code op =? 128) || (quick_code op =? 160) || (quick_code op =? 192)) = true)
      by (destruct op; try contradiction; auto).
    destruct E as (-> & -> & ->). rewrite Ha. cbn [bind]. destruct (Z.gtb_spec a n); [lia|].
    rewrite !zlen_cons, zlen_nil. f_equal; lia.
Qed.

Lemma skip_group_unfold k d mx n ts c idx : (c = COr ts \/ c = CAnd ts) -> 2 <= zlen ts <= 31 ->
  stored d idx (condition_bytes c) -> idx <= mx ->
  skipConditionSubexpr (S k) d mx n idx =
    skip_terms (length ts) true mx (skipConditionSubexpr k d mx n) (idx + 1).
Proof.
  intros Hc Hn HS Hi. cbn [skipConditionSubexpr]. destruct (Z.gtb_spec idx mx); [lia|].
  destruct (ctrl_group (zlen ts) ltac:(lia)) as (A & B & C & D).
  destruct Hc as [-> | ->]; cbn [condition_bytes] in HS; apply stored_cons in HS; destruct HS as [-> _]; cbn [bind]; cbv zeta.
  - rewrite A, B. change ((0 =? 0) || (0 =? 32)) with true. cbv iota. f_equal. unfold zlen. lia.
  - rewrite C, D. change ((32 =? 0) || (32 =? 32)) with true. cbv iota. f_equal. unfold zlen. lia.
Qed.

Lemma skip_ok d mx n : forall c, condition_ok n c -> forall k idx, stored d idx (condition_bytes c) ->
  zlen (condition_bytes c) <= Z.of_nat k -> idx + zlen (condition_bytes c) <= mx ->
  skipConditionSubexpr k d mx n idx = Ok (idx + zlen (condition_bytes c)).
Proof.
  assert (HT : forall ts, Forall (condition_ok n) ts ->
    Forall (fun c => condition_ok n c -> forall k idx, stored d idx (condition_bytes c) ->
      zlen (condition_bytes c) <= Z.of_nat k -> idx + zlen (condition_bytes c) <= mx ->
      skipConditionSubexpr k d mx n idx = Ok (idx + zlen (condition_bytes c))) ts ->
    forall k idx, stored d idx (concat (map condition_bytes ts)) -> zlen (concat (map condition_bytes ts)) <= Z.of_nat k ->
      idx + zlen (concat (map condition_bytes ts)) <= mx ->
      skip_terms (length ts) true mx (skipConditionSubexpr k d mx n) idx = Ok (idx + zlen (concat (map condition_bytes ts)))).
  { induction ts as [|t ts IH]; intros Hok HI k idx HS Hk Hm.
    - cbn. rewrite zlen_nil. f_equal; lia.
    - inversion Hok; subst. inversion HI; subst. cbn [map concat] in *. rewrite zlen_app in *. apply stored_app in HS. destruct HS as [S1 S2].
      pose proof (zlen_nonneg (concat (map condition_bytes ts))). pose proof (zlen_nonneg (condition_bytes t)).
      cbn [length skip_terms]. rewrite H3 by (auto; lia). cbn [bind]. destruct (Z.gtb_spec (idx + zlen (condition_bytes t)) mx); [lia|]. cbn [andb].
      rewrite IH by (auto; lia). f_equal; lia. }
  induction c as [ts IH|ts IH|op a b|op a b|op a b] using condition_induction; intros Hok k idx HS Hk Hm.
  - pose proof (condition_len _ _ Hok). destruct k as [|k]; [lia|]. destruct Hok as [H1 H2]. apply terms_ok in H2.
    rewrite (skip_group_unfold k d mx n ts (COr ts)) by (auto; lia). cbn [condition_bytes] in *. apply stored_cons in HS. destruct HS as [_ HS].
    rewrite zlen_cons in *. rewrite HT by (auto; lia). f_equal; lia.
  - pose proof (condition_len _ _ Hok). destruct k as [|k]; [lia|]. destruct Hok as [H1 H2]. apply terms_ok in H2.
    rewrite (skip_group_unfold k d mx n ts (CAnd ts)) by (auto; lia). cbn [condition_bytes] in *. apply stored_cons in HS. destruct HS as [_ HS].
    rewrite zlen_cons in *. rewrite HT by (auto; lia). f_equal; lia.
  - pose proof (condition_len _ _ Hok). destruct k as [|k]; [lia|]. apply skip_leaf; auto; lia.
  - pose proof (condition_len _ _ Hok). destruct k as [|k]; [lia|]. apply skip_leaf; auto; lia.
  - pose proof (condition_len _ _ Hok). destruct k as [|k]; [lia|]. apply skip_leaf; auto; lia.
Qed.

(** *** evaluating *)
(** the value of a setting *)
(** what the code computes for a single comparison: generic comparisons use the index of the
    first setting instead of its value *)
Definition leaf_result (settings : list Z) (c : condition) : bool :=
  match c with
  | CSettings op a b => holds op a (value_of settings b)
  | CConst op a const => holds op a const
  | CQuick op a const => holds op (value_of settings a) const
  | _ => false
  end.
Lemma compare_holds c op a b : Z.land c 15 = operator_code op -> compare_op c a b = Ok (holds op a b).
Proof.
  intros H. unfold compare_op. cbv zeta. rewrite H. destruct op; cbn; try reflexivity; f_equal; rewrite ?Z.gtb_ltb, ?Z.geb_leb; reflexivity.
Qed.
Lemma eval_leaf k d settings mx c idx : is_leaf c = true -> condition_ok (zlen settings) c -> stored d idx (condition_bytes c) -> idx <= mx ->
  evalConditionSubexpr (S k) d settings mx idx = Ok (idx + zlen (condition_bytes c), leaf_result settings c).
Proof.
  intros Hl Hok HS Hi. cbn [evalConditionSubexpr]. destruct (Z.gtb_spec idx mx); [lia|].
  destruct c as [ts|ts|op a b|op a b|op a b]; cbn [is_leaf] in Hl; try discriminate; cbn [condition_bytes leaf_result] in *.
  - apply stored_cons in HS. destruct HS as [-> HS]. apply stored_cons in HS. destruct HS as [Ha HS]. apply stored_cons in HS. destruct HS as [Hb _].
    replace (idx + 1 + 1) with (idx + 2) in Hb by lia.
    cbn [bind]. cbv zeta. destruct (ctrl_compare op) as (-> & _ & -> & _ & E & _).
    cbn [condition_ok] in Hok. change ((64 =? 0) || (64 =? 32)) with false. change (64 =? 64) with true. cbv iota.
    rewrite Ha. cbn [bind]. destruct (Z.gtb_spec a (zlen settings)); [lia|]. rewrite Hb. cbn [bind]. change (0 =? 0) with true. cbv iota.
    destruct (Z.gtb_spec b (zlen settings)); [lia|]. rewrite (zget_nth settings b 0) by lia. cbn [bind].
    rewrite (compare_holds _ op) by exact E. cbn [bind]. rewrite !zlen_cons, zlen_nil. do 2 f_equal; lia.
  - apply stored_cons in HS. destruct HS as [-> HS]. apply stored_cons in HS. destruct HS as [Ha HS]. apply stored_cons in HS. destruct HS as [Hb _].
    replace (idx + 1 + 1) with (idx + 2) in Hb by lia.
    cbn [bind]. cbv zeta. destruct (ctrl_compare op) as (_ & -> & _ & -> & _ & E).
    cbn [condition_ok] in Hok. change ((64 =? 0) || (64 =? 32)) with false. change (64 =? 64) with true. cbv iota.
    rewrite Ha. cbn [bind]. destruct (Z.gtb_spec a (zlen settings)); [lia|]. rewrite Hb. cbn [bind]. change (16 =? 0) with false. cbv iota. cbn [bind].
    rewrite (compare_holds _ op) by exact E. cbn [bind]. rewrite !zlen_cons, zlen_nil. do 2 f_equal; lia.
  - apply stored_cons in HS. destruct HS as [-> HS]. apply stored_cons in HS. destruct HS as [Ha HS].
    cbn [bind]. cbv zeta. destruct Hok as (Hq & Hn & Hc). destruct (ctrl_quick op b Hq Hc) as [-> ->].
    assert (Hv : quick_value d settings idx = Ok (value_of settings a)).
    { unfold quick_value. rewrite Ha. cbn [bind]. destruct (Z.gtb_spec a (zlen settings)); [lia|]. apply zget_nth. lia. }
    rewrite Hv. rewrite !zlen_cons, zlen_nil. replace (idx + (1 + (1 + 0))) with (idx + 2) by lia.
    destruct op; try contradiction; cbn; rewrite ?Z.gtb_ltb; reflexivity.
Qed.
Lemma eval_group_unfold k d settings mx ts c idx : (c = COr ts \/ c = CAnd ts) -> 2 <= zlen ts <= 31 ->
  stored d idx (condition_bytes c) -> idx <= mx ->
  evalConditionSubexpr (S k) d settings mx idx =
    eval_terms (length ts) (match c with COr _ => true | _ => false end) mx (evalConditionSubexpr k d settings mx)
      (skipConditionSubexpr k d mx (Z.min (zlen settings) 255)) (idx + 1).
Proof.
  intros Hc Hn HS Hi. cbn [evalConditionSubexpr]. destruct (Z.gtb_spec idx mx); [lia|].
  destruct (ctrl_group (zlen ts) ltac:(lia)) as (A & B & C & D).
  destruct Hc as [-> | ->]; cbn [condition_bytes] in HS; apply stored_cons in HS; destruct HS as [-> _]; cbn [bind]; cbv zeta.
  - rewrite A, B. change ((0 =? 0) || (0 =? 32)) with true. cbv iota. change (0 =? 0) with true. f_equal. unfold zlen. lia.
  - rewrite C, D. change ((32 =? 0) || (32 =? 32)) with true. cbv iota. change (32 =? 0) with false. f_equal. unfold zlen. lia.
Qed.

Lemma eval_straight d settings mx : forall c, condition_ok (zlen settings) c -> straight settings c ->
  forall k idx, stored d idx (condition_bytes c) -> zlen (condition_bytes c) <= Z.of_nat k -> idx + zlen (condition_bytes c) <= mx ->
  evalConditionSubexpr k d settings mx idx = Ok (idx + zlen (condition_bytes c), truth (value_of settings) c).
Proof.
  assert (HT : forall stop ts, Forall (condition_ok (zlen settings)) ts ->
    Forall (fun c => condition_ok (zlen settings) c -> straight settings c ->
      forall k idx, stored d idx (condition_bytes c) -> zlen (condition_bytes c) <= Z.of_nat k -> idx + zlen (condition_bytes c) <= mx ->
      evalConditionSubexpr k d settings mx idx = Ok (idx + zlen (condition_bytes c), truth (value_of settings) c)) ts ->
    fold_right (fun t P => truth (value_of settings) t = negb stop /\ straight settings t /\ P) True ts ->
    forall k sk idx, stored d idx (concat (map condition_bytes ts)) -> zlen (concat (map condition_bytes ts)) <= Z.of_nat k ->
      idx + zlen (concat (map condition_bytes ts)) <= mx ->
      eval_terms (length ts) stop mx (evalConditionSubexpr k d settings mx) sk idx = Ok (idx + zlen (concat (map condition_bytes ts)), negb stop)).
  { intros stop. induction ts as [|t ts IH]; intros Hok HI Hst k sk idx HS Hk Hm.
    - cbn. rewrite zlen_nil. do 2 f_equal; lia.
    - inversion Hok; subst. inversion HI as [|? ? Ht HI']; subst. cbn [map concat fold_right] in *. rewrite zlen_app in *. apply stored_app in HS. destruct HS as [S1 S2].
      destruct Hst as (Hv & Hs & Hst).
      pose proof (zlen_nonneg (concat (map condition_bytes ts))). pose proof (zlen_nonneg (condition_bytes t)).
      cbn [length eval_terms]. rewrite Ht by (auto; lia). cbn [bind]. destruct (Z.gtb_spec (idx + zlen (condition_bytes t)) mx); [lia|].
      rewrite Hv. replace (Bool.eqb (negb stop) stop) with false by (destruct stop; reflexivity).
      rewrite IH by (auto; lia). do 2 f_equal; lia. }
  induction c as [ts IH|ts IH|op a b|op a b|op a b] using condition_induction; intros Hok Hst k idx HS Hk Hm.
  - pose proof (condition_len _ _ Hok). destruct k as [|k]; [lia|]. destruct Hok as [H1 H2]. apply terms_ok in H2.
    rewrite (eval_group_unfold k d settings mx ts (COr ts)) by (auto; lia). cbn [condition_bytes] in *. apply stored_cons in HS. destruct HS as [_ HS].
    rewrite zlen_cons in *. rewrite HT by (auto; lia). f_equal. f_equal; [lia|]. cbn [truth straight negb] in *. clear - Hst. induction ts as [|t ts IH]; [reflexivity|].
    cbn [fold_right existsb] in *. destruct Hst as (-> & _ & Hst). cbn [orb]. now apply IH.
  - pose proof (condition_len _ _ Hok). destruct k as [|k]; [lia|]. destruct Hok as [H1 H2]. apply terms_ok in H2.
    rewrite (eval_group_unfold k d settings mx ts (CAnd ts)) by (auto; lia). cbn [condition_bytes] in *. apply stored_cons in HS. destruct HS as [_ HS].
    rewrite zlen_cons in *. rewrite HT by (auto; lia). f_equal. f_equal; [lia|]. cbn [truth straight negb] in *. clear - Hst. induction ts as [|t ts IH]; [reflexivity|].
    cbn [fold_right forallb] in *. destruct Hst as (-> & _ & Hst). cbn [andb]. now apply IH.
  - pose proof (condition_len _ _ Hok). destruct k as [|k]; [lia|]. rewrite (eval_leaf k d settings mx (CSettings op a b)) by (auto; lia). cbn [leaf_result truth straight] in *. now rewrite Hst.
  - pose proof (condition_len _ _ Hok). destruct k as [|k]; [lia|]. rewrite (eval_leaf k d settings mx (CConst op a b)) by (auto; lia). cbn [leaf_result truth straight] in *. now rewrite Hst.
  - pose proof (condition_len _ _ Hok). destruct k as [|k]; [lia|]. rewrite (eval_leaf k d settings mx (CQuick op a b)) by (auto; lia). reflexivity.
Qed.

(** *** the first condition of a font never evaluates *)
Section Panics.
  Variables (d settings : list Z) (E : Z).
  Hypothesis Hn : zlen settings <= 255.
  (** [p] starts a sequence of terms reaching to the end [E] of the condition *)
  Definition boundary (p : Z) : Prop := exists ts, Forall (condition_ok (zlen settings)) ts /\
    stored d p (concat (map condition_bytes ts)) /\ p + zlen (concat (map condition_bytes ts)) = E.
  Lemma boundary_end p : boundary p -> p <> E - 1.
  Proof.
    intros ([|t ts] & Hok & _ & He).
    - cbn in He. rewrite zlen_nil in He. lia.
    - pose proof (Forall_inv Hok) as Hok1. pose proof (condition_len _ _ Hok1). cbn [map concat] in *. rewrite zlen_app in *. pose proof (zlen_nonneg (concat (map condition_bytes ts))). lia.
  Qed.
  Lemma boundary_next p t ts : Forall (condition_ok (zlen settings)) (t :: ts) -> stored d p (concat (map condition_bytes (t :: ts))) ->
    p + zlen (concat (map condition_bytes (t :: ts))) = E -> boundary (p + zlen (condition_bytes t)).
  Proof.
    intros Hok HS He. exists ts. pose proof (Forall_inv_tail Hok) as Hok2. cbn [map concat] in *. rewrite zlen_app in *. apply stored_app in HS. destruct HS.
    repeat split; auto. lia.
  Qed.
  Lemma boundary_enter p t us ts : (t = COr us \/ t = CAnd us) -> Forall (condition_ok (zlen settings)) (t :: ts) -> stored d p (concat (map condition_bytes (t :: ts))) ->
    p + zlen (concat (map condition_bytes (t :: ts))) = E -> boundary (p + 1) /\ 2 <= zlen us <= 31.
  Proof.
    intros Ht Hok HS He. pose proof (Forall_inv Hok) as Hok1. pose proof (Forall_inv_tail Hok) as Hok2.
    assert (Hu : 2 <= zlen us <= 31 /\ Forall (condition_ok (zlen settings)) us).
    { destruct Ht as [-> | ->]; destruct Hok1 as [Hu1 Hu2]; apply terms_ok in Hu2; auto. }
    destruct Hu as [Hu1 Hu2]. split; [|exact Hu1]. exists (us ++ ts). split; [apply Forall_app; auto|].
    rewrite map_app, concat_app. cbn [map concat] in *.
    destruct Ht as [-> | ->]; cbn [condition_bytes] in *; cbn [app] in *; apply stored_cons in HS; rewrite zlen_cons in *; (split; [tauto|lia]).
  Qed.
  Let mx := E - 1.
  Definition settles {A} (p : Z) (pos : A -> Z) (o : outcome A) : Prop :=
    o = Panic \/ exists r, o = Ok r /\ boundary (pos r) /\ p < pos r.
  Lemma skip_settles : forall k p, boundary p -> mx - p + 1 < Z.of_nat k -> settles p (fun j => j) (skipConditionSubexpr k d mx (zlen settings) p).
  Proof.
    induction k as [|k IH]; intros p HB Hk.
    - destruct HB as ([|t ts] & Hok & HS & He).
      + exfalso. cbn in He. rewrite zlen_nil in He. unfold mx in Hk. lia.
      + exfalso. pose proof (Forall_inv Hok) as Hok1. pose proof (condition_len _ _ Hok1). cbn [map concat] in He. rewrite zlen_app in *.
        pose proof (zlen_nonneg (concat (map condition_bytes ts))). unfold mx in Hk. lia.
    - assert (HT : forall m c q, boundary q -> p < q -> settles p (fun j => j) (skip_terms m c mx (skipConditionSubexpr k d mx (zlen settings)) q)).
      { induction m as [|m IHm]; intros c q Hq Hpq; cbn [skip_terms]; [right; exists q; auto|].
        destruct (IH q Hq ltac:(lia)) as [-> | (r & -> & Hr & Hlt)]; [now left|]. cbn [bind].
        destruct (c && (r >? mx)); [now left|]. apply IHm; auto. lia. }
      pose proof HB as HB'. destruct HB as ([|t ts] & Hok & HS & He).
      + left. cbn in He. rewrite zlen_nil in He. cbn [skipConditionSubexpr]. destruct (Z.gtb_spec p mx); [reflexivity|unfold mx in *; lia].
      + pose proof (Forall_inv Hok) as Hok1. pose proof (Forall_inv_tail Hok) as Hok2. pose proof (condition_len _ _ Hok1) as Hlen. pose proof HS as HS0. cbn [map concat] in HS0. apply stored_app in HS0.
        destruct HS0 as [HSt _]. assert (p <= mx).
        { cbn [map concat] in He. rewrite zlen_app in He. pose proof (zlen_nonneg (concat (map condition_bytes ts))). unfold mx. lia. }
        destruct (is_leaf t) eqn:Hl.
        * right. rewrite (skip_leaf k d mx (zlen settings) t p Hl Hok1 HSt) by lia. eexists. split; [reflexivity|].
          split; [apply (boundary_next p t ts Hok HS He)|lia].
        * assert (Hg : exists us, t = COr us \/ t = CAnd us) by (destruct t; try discriminate; eauto).
          destruct Hg as [us Hg]. destruct (boundary_enter p t us ts Hg Hok HS He) as [Hb Hu].
          rewrite (skip_group_unfold k d mx (zlen settings) us t p Hg Hu HSt) by lia. apply HT; auto. lia.
  Qed.
  Lemma eval_settles : forall k p, boundary p -> mx - p + 1 < Z.of_nat k -> settles p fst (evalConditionSubexpr k d settings mx p).
  Proof.
    induction k as [|k IH]; intros p HB Hk.
    - destruct HB as ([|t ts] & Hok & HS & He).
      + exfalso. cbn in He. rewrite zlen_nil in He. unfold mx in Hk. lia.
      + exfalso. pose proof (Forall_inv Hok) as Hok1. pose proof (condition_len _ _ Hok1). cbn [map concat] in He. rewrite zlen_app in *.
        pose proof (zlen_nonneg (concat (map condition_bytes ts))). unfold mx in Hk. lia.
    - assert (HT : forall m q, boundary q -> p < q -> settles p (fun j => j) (skip_terms m false mx (skipConditionSubexpr k d mx (zlen settings)) q)).
      { induction m as [|m IHm]; intros q Hq Hpq; cbn [skip_terms]; [right; exists q; auto|].
        destruct (skip_settles k q Hq ltac:(lia)) as [-> | (r & -> & Hr & Hlt)]; [now left|]. cbn [bind andb]. apply IHm; auto. lia. }
      assert (HV : forall m stop q, boundary q -> p < q -> settles p fst (eval_terms m stop mx (evalConditionSubexpr k d settings mx) (skipConditionSubexpr k d mx (zlen settings)) q)).
      { induction m as [|m IHm]; intros stop q Hq Hpq; cbn [eval_terms]; [right; exists (q, negb stop); auto|].
        destruct (IH q Hq ltac:(lia)) as [-> | ([r v] & -> & Hr & Hlt)]; [now left|]. cbn [bind fst] in *.
        destruct (r >? mx); [now left|]. destruct (Bool.eqb v stop); [|apply IHm; auto; lia].
        destruct (HT (S m) r Hr ltac:(lia)) as [E1 | (j & E1 & Hj & Hjlt)].
        - left. rewrite E1. reflexivity.
        - right. rewrite E1. cbn [bind]. exists (j, stop). auto. }
      pose proof HB as HB'. destruct HB as ([|t ts] & Hok & HS & He).
      + left. cbn in He. rewrite zlen_nil in He. cbn [evalConditionSubexpr]. destruct (Z.gtb_spec p mx); [reflexivity|unfold mx in *; lia].
      + pose proof (Forall_inv Hok) as Hok1. pose proof (Forall_inv_tail Hok) as Hok2. pose proof (condition_len _ _ Hok1) as Hlen. pose proof HS as HS0. cbn [map concat] in HS0. apply stored_app in HS0.
        destruct HS0 as [HSt _]. assert (p <= mx).
        { cbn [map concat] in He. rewrite zlen_app in He. pose proof (zlen_nonneg (concat (map condition_bytes ts))). unfold mx. lia. }
        destruct (is_leaf t) eqn:Hl.
        * right. rewrite (eval_leaf k d settings mx t p Hl Hok1 HSt) by lia. eexists. split; [reflexivity|]. cbn [fst].
          split; [apply (boundary_next p t ts Hok HS He)|lia].
        * assert (Hg : exists us, t = COr us \/ t = CAnd us) by (destruct t; try discriminate; eauto).
          destruct Hg as [us Hg]. destruct (boundary_enter p t us ts Hg Hok HS He) as [Hb Hu].
          rewrite (eval_group_unfold k d settings mx us t p Hg Hu HSt) by lia. rewrite Z.min_l by lia. apply HV; auto. lia.
  Qed.
End Panics.

Lemma first_condition_panics f settings cs c : stored (Data f) (OffsetToRewriteConditions f) (conditions_bytes (c :: cs)) ->
  zlen (concat (map condition_bytes (c :: cs))) < 65536 -> condition_ok (zlen settings) c -> zlen settings <= 255 ->
  rewrites_EvaluateCondition f 0 settings = Panic.
Proof.
  intros HS HL Hok Hn. unfold rewrites_EvaluateCondition, rewrites_NumConditions. unfold conditions_bytes in HS.
  apply stored_cons in HS. destruct HS as [-> HS]. cbn [bind]. rewrite zlen_cons. pose proof (zlen_nonneg cs).
  destruct (Z.geb_spec 0 (1 + zlen cs)); [lia|]. cbv zeta. apply stored_indexed in HS. destruct HS as [H1 H2]. rewrite zlen_map, zlen_cons in H2.
  pose proof (condition_len _ _ Hok) as Hlen.
  assert (E0 : zget (map condition_bytes (c :: cs)) 0 = Ok (condition_bytes c)) by reflexivity.
  rewrite <- (bind_assoc (zfrom _ _) DecodeUint16LE). rewrite (end16 _ _ _ _ _ _ H1 E0 HL) by lia. cbn [bind].
  rewrite start_0. change (0 >? 0) with false. cbv iota. cbn [bind].
  destruct (Z.leb_spec (0 + zlen (condition_bytes c)) 0); [lia|].
  destruct (Z.geb_spec (OffsetToRewriteConditions f + 1 + Z.shiftl (1 + zlen cs) 1 + (0 + zlen (condition_bytes c) - 1)) (zlen (Data f))) as [|Hin]; [reflexivity|].
  rewrite shiftl_mul in * by lia. change (2 ^ 1) with 2 in *.
  cbn [map concat] in H2. apply stored_app in H2. destruct H2 as [H2 _].
  set (B := OffsetToRewriteConditions f + 1 + (1 + zlen cs) * 2) in *.
  assert (HB : boundary (Data f) settings (B + zlen (condition_bytes c)) (B + 0)).
  { exists [c]. split; [repeat constructor; exact Hok|]. cbn [map concat]. rewrite app_nil_r. split; [eapply stored_at; [exact H2|lia]|lia]. }
  replace (B + (0 + zlen (condition_bytes c) - 1)) with (B + zlen (condition_bytes c) - 1) in * by lia.
  pose proof (stored_range _ _ _ H2) as HR.
  destruct (eval_settles (Data f) settings (B + zlen (condition_bytes c)) Hn (S (length (Data f))) (B + 0) HB) as [-> | ([j v] & -> & Hj & _)].
  - unfold zlen in *. lia.
  - reflexivity.
  - cbn [bind fst] in *. pose proof (boundary_end _ _ _ _ Hj). destruct (Z.eqb_spec j (B + zlen (condition_bytes c) - 1)); [contradiction|reflexivity].
Qed.

(** *** termination on arbitrary data: the fuel used never runs out *)
Definition advances {A} (p : Z) (pos : A -> Z) (o : outcome A) : Prop := o <> Hang /\ forall r, o = Ok r -> p < pos r.
Lemma zget_not_hang {A} (l : list A) i : zget l i <> Hang.
Proof. destruct (zget_cases l i) as [[a ->] | ->]; discriminate. Qed.
Lemma advances_panic {A} p (pos : A -> Z) : advances p pos Panic.
Proof. split; [discriminate|intros r H; discriminate]. Qed.
Lemma advances_ok {A} p (pos : A -> Z) r : p < pos r -> advances p pos (Ok r).
Proof. intros H. split; [discriminate|]. intros r' E. assert (r = r') by congruence. now subst. Qed.
Lemma advances_zget {A} p (pos : A -> Z) d i (k : Z -> outcome A) : (forall v, advances p pos (k v)) -> advances p pos (do v <- zget d i; k v).
Proof. intros H. destruct (zget_cases d i) as [[a ->] | ->]; cbn [bind]; [apply H|apply advances_panic]. Qed.

Lemma skip_total d n mx : forall k p, 0 < Z.of_nat k -> mx - p + 1 < Z.of_nat k -> advances p (fun j => j) (skipConditionSubexpr k d mx n p).
Proof.
  induction k as [|k IH]; intros p H0 Hk; [lia|]. cbn [skipConditionSubexpr].
  destruct (Z.gtb_spec p mx); [apply advances_panic|]. apply advances_zget. intros ctrl. cbv zeta.
  destruct ((Z.land ctrl 224 =? 0) || (Z.land ctrl 224 =? 32)).
  - assert (HT : forall m q, p < q -> advances p (fun j => j) (skip_terms m true mx (skipConditionSubexpr k d mx n) q)).
    { induction m as [|m IHm]; intros q Hq; cbn [skip_terms]; [now apply advances_ok|].
      destruct (IH q ltac:(lia) ltac:(lia)) as [N1 N2]. destruct (skipConditionSubexpr k d mx n q) as [r| | |] eqn:Eq; cbn [bind]; try apply advances_panic; try (now destruct N1).
      - destruct (true && (r >? mx)); [apply advances_panic|]. apply IHm. specialize (N2 r eq_refl). lia.
      - split; [discriminate|intros ? ?; discriminate]. }
    apply HT. lia.
  - destruct (Z.land ctrl 224 =? 64).
    + apply advances_zget. intros a. destruct (a >? n); [apply advances_panic|].
      destruct (Z.land ctrl 16 =? 0).
      * rewrite bind_assoc. apply advances_zget. intros b. destruct (b >? n); cbn [bind]; [apply advances_panic|].
        destruct (Z.land ctrl 15 <=? 5); [apply advances_ok; lia|apply advances_panic].
      * cbn [bind]. destruct (Z.land ctrl 15 <=? 5); [apply advances_ok; lia|apply advances_panic].
    + destruct ((Z.land ctrl 224 =? 96) || (Z.land ctrl 224 =? 128) || (Z.land ctrl 224 =? 160) || (Z.land ctrl 224 =? 192)); [|apply advances_panic].
      apply advances_zget. intros a. destruct (a >? n); [apply advances_panic|apply advances_ok; lia].
Qed.

Lemma eval_total d settings mx : forall k p, 0 < Z.of_nat k -> mx - p + 1 < Z.of_nat k -> advances p fst (evalConditionSubexpr k d settings mx p).
Proof.
  induction k as [|k IH]; intros p H0 Hk; [lia|]. cbn [evalConditionSubexpr].
  destruct (Z.gtb_spec p mx); [apply advances_panic|]. apply advances_zget. intros ctrl. cbv zeta.
  destruct ((Z.land ctrl 224 =? 0) || (Z.land ctrl 224 =? 32)).
  - generalize (Z.min (zlen settings) 255). intros n.
    assert (HS : forall m q, p < q -> advances p (fun j => j) (skip_terms m false mx (skipConditionSubexpr k d mx n) q)).
    { induction m as [|m IHm]; intros q Hq; cbn [skip_terms]; [now apply advances_ok|].
      destruct (skip_total d n mx k q ltac:(lia) ltac:(lia)) as [N1 N2]. destruct (skipConditionSubexpr k d mx n q) as [r| | |] eqn:Eq; cbn [bind]; try apply advances_panic; try (now destruct N1).
      - cbn [andb]. apply IHm. specialize (N2 r eq_refl). lia.
      - split; [discriminate|intros ? ?; discriminate]. }
    assert (HT : forall m stop q, p < q -> advances p fst (eval_terms m stop mx (evalConditionSubexpr k d settings mx) (skipConditionSubexpr k d mx n) q)).
    { induction m as [|m IHm]; intros stop q Hq; cbn [eval_terms]; [now apply advances_ok|].
      destruct (IH q ltac:(lia) ltac:(lia)) as [N1 N2]. destruct (evalConditionSubexpr k d settings mx q) as [[r v]| | |] eqn:Eq; cbn [bind]; try apply advances_panic; try (now destruct N1).
      - specialize (N2 _ eq_refl). cbn [fst] in N2. destruct (r >? mx); [apply advances_panic|]. destruct (Bool.eqb v stop); [|apply IHm; lia].
        destruct (HS (S m) r ltac:(lia)) as [M1 M2]. destruct (skip_terms (S m) false mx (skipConditionSubexpr k d mx n) r) as [j| | |]; cbn [bind].
        + apply advances_ok. cbn [fst]. now apply M2.
        + split; [discriminate|intros ? ?; discriminate].
        + apply advances_panic.
        + now destruct M1.
      - split; [discriminate|intros ? ?; discriminate]. }
    apply HT. lia.
  - assert (HQ : forall g : Z -> bool, advances p fst (do v <- quick_value d settings p; Ok (p + 2, g v))).
    { intros g. unfold quick_value. rewrite bind_assoc. apply advances_zget. intros a. destruct (a >? zlen settings); cbn [bind]; [apply advances_panic|].
      apply advances_zget. intros v. apply advances_ok. cbn [fst]. lia. }
    destruct (Z.land ctrl 224 =? 64).
    + apply advances_zget. intros a. destruct (a >? zlen settings); [apply advances_panic|]. apply advances_zget. intros b.
      assert (HC : forall o, advances p fst (do r <- compare_op ctrl a o; Ok (p + 3, r))).
      { intros o. unfold compare_op. cbv zeta. repeat match goal with |- context [if ?c then _ else _] => destruct c end; cbn [bind]; try apply advances_panic; apply advances_ok; cbn [fst]; lia. }
      destruct (Z.land ctrl 16 =? 0); [|apply HC]. destruct (b >? zlen settings); cbn [bind]; [apply advances_panic|]. apply advances_zget. exact HC.
    + destruct (Z.land ctrl 224 =? 96); [apply HQ|]. destruct (Z.land ctrl 224 =? 128); [apply (HQ (fun v => negb (v =? Z.land ctrl 31)))|].
      destruct (Z.land ctrl 224 =? 160); [apply HQ|]. destruct (Z.land ctrl 224 =? 192); [apply HQ|apply advances_panic].
Qed.
Lemma evaluate_not_hang f key settings : 0 <= OffsetToRewriteConditions f -> 0 <= key -> bytes (Data f) -> rewrites_EvaluateCondition f key settings <> Hang.
Proof.
  intros Hoff Hkey HB. unfold rewrites_EvaluateCondition, rewrites_NumConditions. destruct (zget_cases (Data f) (OffsetToRewriteConditions f)) as [[n En] | ->]; [|discriminate].
  rewrite En. cbn [bind]. destruct (key >=? n); [discriminate|]. cbv zeta.
  assert (Hn : 0 <= n) by (unfold bytes in HB; pose proof (forall_get _ _ _ _ HB En) as Hn; unfold byte in Hn; lia).
  assert (HF : forall i, 0 <= i -> (do b <- zfrom (Data f) i; DecodeUint16LE b) = Panic \/ exists v, (do b <- zfrom (Data f) i; DecodeUint16LE b) = Ok v /\ 0 <= v).
  { intros i Hi. unfold zfrom. match goal with |- context [if ?c then _ else _] => destruct c end; cbn [bind]; [|now left].
    match goal with |- context [DecodeUint16LE ?x] => set (b := x) end. assert (Hb : bytes b). { unfold b. apply bytes_skipn. exact HB. }
    unfold DecodeUint16LE. destruct (zlen b <? 2); [now left|]. destruct (zget_cases b 0) as [[x0 E0] | ->]; [|now left]. destruct (zget_cases b 1) as [[x1 E1] | E1]; rewrite E0; cbn [bind]; rewrite E1; cbn [bind]; [|now left].
    right. eexists. split; [reflexivity|]. unfold bytes in Hb. pose proof (forall_get _ _ _ _ Hb E0) as B0. pose proof (forall_get _ _ _ _ Hb E1) as B1. unfold byte in *.
    apply Z.lor_nonneg. split; [lia|]. apply Z.mod_pos_bound. lia. }
  rewrite <- (bind_assoc (zfrom _ _) (fun b => DecodeUint16LE b)).
  destruct (HF (OffsetToRewriteConditions f + 1 + key) ltac:(lia)) as [-> | (e & -> & He)]; cbn [bind]; [discriminate|].
  assert (HS : (if key >? 0 then do b <- zfrom (Data f) (OffsetToRewriteConditions f + key); DecodeUint16LE b else Ok 0) = Panic \/
    exists s, (if key >? 0 then do b <- zfrom (Data f) (OffsetToRewriteConditions f + key); DecodeUint16LE b else Ok 0) = Ok s /\ 0 <= s).
  { destruct (key >? 0); [apply HF; lia|right; exists 0; split; [reflexivity|lia]]. }
  destruct HS as [-> | (s & -> & Hs)]; cbn [bind]; [discriminate|].
  destruct (e <=? s); [discriminate|]. rewrite shiftl_mul by lia. change (2 ^ 1) with 2.
  match goal with |- context [?a >=? ?b] => destruct (Z.geb_spec a b) as [|Hlt] end; [discriminate|].
  match goal with |- context [evalConditionSubexpr ?k ?d ?s ?m ?p] => destruct (eval_total d s m k p) as [N _]; [lia| |destruct (evalConditionSubexpr k d s m p) as [[j v]| | |]] end.
  - unfold zlen in Hlt. lia.
  - cbn [bind]. match goal with |- context [if ?c then _ else _] => destruct c end; discriminate.
  - discriminate.
  - discriminate.
  - now destruct N.
Qed.

(** ** rules *)
Lemma rule_fields w r : let d := rule_bytes w r in
  rule_Condition d = Ok (rule_condition r) /\ rule_HeadLen d = Ok (block_length (rule_head r)) /\
  rule_BodyLen d = Ok (block_length (rule_body r)) /\ rule_TailLen d = Ok (block_length (rule_tail r)) /\
  rule_OutLen d = Ok (zlen (rule_out r)) /\
  (0 <= block_length (rule_head r) + block_length (rule_body r) + block_length (rule_tail r) < 256 ->
   rule_InLen d = Ok (block_length (rule_head r) + block_length (rule_body r) + block_length (rule_tail r))).
Proof.
  cbv zeta. repeat (split; [reflexivity|]). intros H.
  change (rule_InLen (rule_bytes w r)) with (Ok (u8 (u8 (block_length (rule_head r) + block_length (rule_body r)) + block_length (rule_tail r)))).
  unfold u8. rewrite Zplus_mod_idemp_l. f_equal. now apply Z.mod_small.
Qed.
Lemma rule_outs_at w r post : stored (rule_bytes w r ++ post) 5 (concat (map (le_digits w) (rule_out r))).
Proof.
  unfold rule_bytes. eexists [_; _; _; _; _]. eexists. split; [|reflexivity]. cbn [app]. do 5 f_equal. rewrite <- !app_assoc. reflexivity.
Qed.
Lemma glyph_outs r : Forall (fun g => 0 <= g < 65536) (rule_out r) ->
  glyph_rule_EachOut (rule_bytes 2 r) = Ok (firstn (Z.to_nat ((zlen (rule_out r) + 1) / 2)) (rule_out r)).
Proof.
  intros HR. unfold glyph_rule_EachOut. replace (zget (rule_bytes 2 r) 4) with (Ok (zlen (rule_out r))) by reflexivity. cbn [bind].
  pose proof (zlen_nonneg (rule_out r)) as Hn.
  assert (Hq : (zlen (rule_out r) + 1) / 2 <= zlen (rule_out r)) by (destruct (Z.eq_dec (zlen (rule_out r)) 0) as [->|]; [vm_compute; discriminate|apply Z.div_le_upper_bound; lia]).
  assert (Hq0 : 0 <= (zlen (rule_out r) + 1) / 2) by (apply Z.div_pos; lia).
  apply omap_range; [unfold zlen in *; rewrite firstn_length; lia|].
  intros i g E. assert (Ri := zget_ok_range _ _ _ E). assert (E' : zget (rule_out r) i = Ok g).
  { rewrite <- (firstn_skipn (Z.to_nat ((zlen (rule_out r) + 1) / 2)) (rule_out r)). rewrite zget_app_l by lia. exact E. }
  pose proof (rule_outs_at 2 r []) as S. rewrite app_nil_r in S.
  pose proof (stored_array (le_digits 2) 2 _ _ _ _ _ (zlen_le_digits 2) S E') as S2. apply from16; [exact S2|]. exact (forall_get _ _ _ _ HR E').
Qed.
Lemma i32_id v : 0 <= v < 2147483648 -> i32 v = v.
Proof. intros H. unfold i32, u32. rewrite Z.mod_small by lia. destruct (Z.ltb_spec v 2147483648); lia. Qed.
Lemma utf8_outs_short r : Forall (fun g => 0 <= g < 2147483648) (rule_out r) -> zlen (rule_out r) <= 1 ->
  utf8_rule_EachOut (rule_bytes 4 r) = Ok (rule_out r).
Proof.
  intros HR Hn. unfold utf8_rule_EachOut. replace (zget (rule_bytes 4 r) 4) with (Ok (zlen (rule_out r))) by reflexivity. cbn [bind].
  pose proof (zlen_nonneg (rule_out r)) as H0.
  assert (Hq : (zlen (rule_out r) + 1) / 2 = zlen (rule_out r)).
  { assert (C : zlen (rule_out r) = 0 \/ zlen (rule_out r) = 1) by lia. destruct C as [-> | ->]; reflexivity. }
  rewrite Hq. apply omap_range; [reflexivity|]. intros i g E. pose proof (zget_ok_range _ _ _ E). assert (i = 0) by lia. subst i.
  pose proof (rule_outs_at 4 r []) as S. rewrite app_nil_r in S.
  pose proof (stored_array (le_digits 4) 4 _ _ _ _ _ (zlen_le_digits 4) S E) as S2. pose proof (forall_get _ _ _ _ HR E) as Hg. cbv beta in Hg.
  rewrite <- (bind_assoc (zfrom _ _) (fun b => DecodeUint32LE b)). rewrite (from32 _ _ g); [cbn [bind]; f_equal; now apply i32_id|exact S2|lia].
Qed.
(** with two or more outputs some are never passed on *)
Lemma omap_length {A B} (f : A -> outcome B) l r : omap f l = Ok r -> length r = length l.
Proof.
  revert r. induction l as [|a l IH]; intros r H; cbn [omap] in H.
  - injection H as <-. reflexivity.
  - apply bind_ok in H. destruct H as (b & _ & H). apply bind_ok in H. destruct H as (r' & E & H). injection H as <-. cbn. now rewrite (IH r' E).
Qed.
Lemma utf8_outs_few r l : 2 <= zlen (rule_out r) -> utf8_rule_EachOut (rule_bytes 4 r) = Ok l -> zlen l < zlen (rule_out r).
Proof.
  intros Hn H. unfold utf8_rule_EachOut in H. replace (zget (rule_bytes 4 r) 4) with (Ok (zlen (rule_out r))) in H by reflexivity. cbn [bind] in H.
  apply omap_length in H. assert (E : zlen l = zlen (zseq ((zlen (rule_out r) + 1) / 2))) by (unfold zlen; rewrite H; reflexivity).
  rewrite zlen_zseq in E by (apply Z.div_pos; lia). rewrite E. apply Z.div_lt_upper_bound; lia.
Qed.
Lemma glyph_outs_few r : 2 <= zlen (rule_out r) -> zlen (firstn (Z.to_nat ((zlen (rule_out r) + 1) / 2)) (rule_out r)) < zlen (rule_out r).
Proof.
  intros Hn. assert ((zlen (rule_out r) + 1) / 2 < zlen (rule_out r)) by (apply Z.div_lt_upper_bound; lia).
  unfold zlen at 1. rewrite firstn_length. pose proof (Z.div_pos (zlen (rule_out r) + 1) 2 ltac:(lia) ltac:(lia)). lia.
Qed.

Lemma equal_bytes_spec a : forall b pre pre', length a = length b -> zlen pre = zlen pre' ->
  exists r, equal_bytes (length a) (zlen pre) (pre ++ a) (pre' ++ b) = Ok r /\ (r = true <-> a = b).
Proof.
  induction a as [|x a IH]; intros [|y b] pre pre' Hl Hp; try discriminate; cbn [length equal_bytes].
  - exists true. split; [reflexivity|split; auto].
  - rewrite skip_prefix. cbn [bind]. replace (zget (pre' ++ y :: b) (zlen pre)) with (Ok y) by (rewrite Hp; symmetry; apply skip_prefix). cbn [bind]. destruct (Z.eqb_spec x y) as [->|Hne]; cbn [negb].
    + destruct (IH b (pre ++ [y]) (pre' ++ [y])) as (r & E & Hr); [cbn in Hl; lia|rewrite !zlen_app; lia|].
      rewrite <- !app_assoc in E. cbn [app] in E. rewrite zlen_app, zlen_cons, zlen_nil in E. replace (zlen pre + (1 + 0)) with (zlen pre + 1) in E by lia.
      exists r. split; [exact E|]. rewrite Hr. split; [intros ->; reflexivity|intros H; injection H; auto].
    + exists false. split; [reflexivity|]. split; [discriminate|]. intros H. injection H. intros. contradiction.
Qed.
Lemma equals_spec a b : exists r, rule_Equals a b = Ok r /\ (r = true <-> a = b).
Proof.
  unfold rule_Equals. destruct (Z.eqb_spec (zlen a) (zlen b)) as [E|E]; cbn [negb].
  - apply (equal_bytes_spec a b [] []); [unfold zlen in E; lia|reflexivity].
  - exists false. split; [reflexivity|]. split; [discriminate|]. intros ->. contradiction.
Qed.

(** the i-th rule *)
Lemma rule_located d off l : stored d off (le_digits 2 (zlen l) ++ indexed 3 l) ->
  zlen l < 65536 -> zlen (concat l) < 16777216 -> forall i, 0 <= i -> get_rule d off i = zget l i.
Proof.
  intros HS HC HL i Hi. apply stored_app in HS. destruct HS as [H0 HS]. rewrite zlen_le_digits in HS. change (Z.of_nat 2) with 2 in HS.
  apply stored_indexed in HS. destruct HS as [H1 H2]. pose proof (zlen_nonneg l). unfold get_rule.
  rewrite (from16 _ _ _ H0) by lia. cbn [bind]. destruct (Z.geb_spec i (zlen l)).
  - symmetry. apply zget_panic. lia.
  - destruct (zget_in_range l i ltac:(lia)) as [b E]. rewrite E. cbv zeta. rewrite !shiftl_mul by lia. change (2 ^ 1) with 2.
    destruct (end24 _ _ _ _ _ H1 E HL) as [S R]. rewrite <- (bind_assoc (zslice _ _ _) (fun b => DecodeUint24LE b)).
    replace (off + 2 + (i * 2 + i)) with (off + 2 + 3 * i) by lia. rewrite (slice24 _ _ _ _ S eq_refl R). cbn [bind].
    assert (Hs : (if i >? 0 then do b <- zslice d (off + 2 + 3 * i - 3) (off + 2 + 3 * i); DecodeUint24LE b else Ok 0) = Ok (start_of l i)).
    { destruct (Z.gtb_spec i 0).
      - destruct (start24 _ _ _ _ _ H1 E HL ltac:(lia)) as [S2 R2]. replace (off + 2 + 3 * i) with (off + 2 + 3 * (i - 1) + 3) by lia.
        replace (off + 2 + 3 * (i - 1) + 3 - 3) with (off + 2 + 3 * (i - 1)) by lia. apply slice24; [exact S2|lia|exact R2].
      - replace i with 0 by lia. now rewrite start_0. }
    rewrite Hs. cbn [bind]. pose proof (stored_blob _ _ _ _ _ H2 E) as SB.
    eapply stored_slice_eq; [eapply stored_at; [exact SB|lia]|lia].
Qed.
Lemma set_located d off l : stored d off (zlen l :: indexed 2 l) ->
  zlen (concat l) < 65536 -> Forall (fun b => b <> []) l -> forall i, 0 <= i -> get_set d off i = zget l i.
Proof.
  intros HS HL HN i Hi. apply stored_cons in HS. destruct HS as [H0 HS].
  apply stored_indexed in HS. destruct HS as [H1 H2]. pose proof (zlen_nonneg l). unfold get_set. rewrite H0. cbn [bind].
  destruct (Z.geb_spec i (zlen l)).
  - symmetry. apply zget_panic. lia.
  - destruct (zget_in_range l i ltac:(lia)) as [b E]. rewrite E. cbv zeta. rewrite !shiftl_mul by lia. change (2 ^ 1) with 2.
    pose proof (stored_blob _ _ _ _ _ H2 E) as SB. pose proof (end_le _ _ _ E) as He. pose proof (start_nonneg l i) as Hs0. pose proof (zlen_nonneg b) as Hb0.
    pose proof (stored_end 2 l d (off + 1) i b H1 E) as S. change (Z.of_nat 2) with 2 in S.
    rewrite <- (bind_assoc (zslice _ _ _) (fun b => DecodeUint16LE b)). rewrite (slice16 _ (off + 1 + i * 2) _ (start_of l i + zlen b)); [|eapply stored_at; [exact S|lia]|lia|lia]. cbn [bind].
    destruct (Z.eqb_spec i 0) as [Ei|Ei].
    + subst i. rewrite start_0 in *. eapply stored_slice_eq; [eapply stored_at; [exact SB|lia]|lia].
    + pose proof (stored_start 2 l d (off + 1) i b H1 E ltac:(lia)) as S2. change (Z.of_nat 2) with 2 in S2.
      rewrite <- (bind_assoc (zslice _ _ _) (fun b => DecodeUint16LE b)). rewrite (slice16 _ (off + 1 + (i - 1) * 2) _ (start_of l i)); [|eapply stored_at; [exact S2|lia]|lia|lia]. cbn [bind].
      pose proof (nonempty_len b (forall_get _ _ _ _ HN E)). destruct (Z.geb_spec (start_of l i) (start_of l i + zlen b)); [lia|].
      eapply stored_slice_eq; [eapply stored_at; [exact SB|lia]|lia].
Qed.

(** ** sets *)
Lemma each_loop_spec {T A E} (each : T -> A -> T * option E) step (next : Z -> outcome A) l : forall i s,
  (forall k a, zget l k = Ok a -> next (i + step * k) = Ok a) ->
  each_loop each (length l) step i next s = Ok (each_of each s l).
Proof.
  induction l as [|a l IH]; intros i s H; cbn [length each_loop each_of]; [reflexivity|].
  pose proof (H 0 a eq_refl) as H0. replace (i + step * 0) with i in H0 by lia. rewrite H0. cbn [bind].
  destruct (each s a) as [s' [err|]]; [reflexivity|]. apply IH. intros k b Hk. pose proof (zget_ok_range _ _ _ Hk).
  replace (i + step + step * k) with (i + step * (k + 1)) by lia. apply H. rewrite zget_cons_S by lia. now replace (k + 1 - 1) with k by lia.
Qed.
Lemma zget_map_inv {A B} (f : A -> B) l i b : zget (map f l) i = Ok b -> exists a, zget l i = Ok a /\ b = f a.
Proof. rewrite zget_map. destruct (zget l i) as [a| | |] eqn:E; cbn [bind]; intros H; try discriminate. exists a. split; congruence. Qed.
Section Sets.
  Variables (w : nat) (st : rewrite_set) (post : list Z).
  Let d := set_bytes w st ++ post.
  Lemma set_parts : zget d 0 = Ok (zlen (set_ranges st)) /\
    stored d 1 (concat (map (fun r => le_digits w (fst r) ++ [snd r]) (set_ranges st))) /\
    zget d (1 + zlen (set_ranges st) * (Z.of_nat w + 1)) = Ok (zlen (set_elements st)) /\
    stored d (1 + zlen (set_ranges st) * (Z.of_nat w + 1) + 1) (concat (map (le_digits w) (set_elements st))).
  Proof.
    assert (S : stored d 0 (set_bytes w st)) by (exists [], post; split; reflexivity).
    unfold set_bytes in S. apply stored_cons in S. destruct S as [S0 S]. apply stored_app in S. destruct S as [S1 S].
    rewrite (zlen_concat_fixed (fun r => le_digits w (fst r) ++ [snd r]) (Z.of_nat w + 1)) in S by (intros; rewrite zlen_app, zlen_le_digits, zlen_cons, zlen_nil; lia).
    apply stored_cons in S. destruct S as [S2 S3]. replace (0 + 1 + (Z.of_nat w + 1) * zlen (set_ranges st)) with (1 + zlen (set_ranges st) * (Z.of_nat w + 1)) in * by lia. auto.
  Qed.
  Lemma range_at k r : zget (set_ranges st) k = Ok r -> stored d (1 + (Z.of_nat w + 1) * k) (le_digits w (fst r)) /\ zget d (1 + (Z.of_nat w + 1) * k + Z.of_nat w) = Ok (snd r).
  Proof.
    intros E. destruct set_parts as (_ & S & _).
    assert (HL : forall r : Z * Z, zlen (le_digits w (fst r) ++ [snd r]) = Z.of_nat w + 1) by (intros; rewrite zlen_app, zlen_le_digits, zlen_cons, zlen_nil; lia).
    pose proof (stored_array (fun r => le_digits w (fst r) ++ [snd r]) (Z.of_nat w + 1) _ _ _ _ _ HL S E) as S2.
    apply stored_app in S2. rewrite zlen_le_digits in S2. destruct S2 as [A B]. apply stored_cons in B. tauto.
  Qed.
  Lemma element_at k x : zget (set_elements st) k = Ok x -> stored d (1 + zlen (set_ranges st) * (Z.of_nat w + 1) + 1 + Z.of_nat w * k) (le_digits w x).
  Proof. intros E. destruct set_parts as (_ & _ & _ & S). exact (stored_array (le_digits w) (Z.of_nat w) _ _ _ _ _ (zlen_le_digits w) S E). Qed.
End Sets.

Lemma glyph_ranges {T E} (each : T -> Z * Z -> T * option E) st s : set_in_range 65536 st ->
  glyph_set_EachRange each (set_bytes 2 st) s = Ok (each_of each s (map (fun r => (fst r, u16 (fst r + snd r))) (set_ranges st))).
Proof.
  intros [HR _]. pose proof (set_parts 2 st []) as P. rewrite app_nil_r in P. destruct P as (P0 & _). unfold glyph_set_EachRange. rewrite P0. cbn [bind].
  replace (Z.to_nat (zlen (set_ranges st))) with (length (map (fun r => (fst r, u16 (fst r + snd r))) (set_ranges st))) by (rewrite map_length; unfold zlen; lia).
  apply each_loop_spec. intros k a Hk. apply zget_map_inv in Hk. destruct Hk as (r & Er & ->).
  destruct (range_at 2 st [] k r Er) as [A B]. rewrite app_nil_r in A, B. change (Z.of_nat 2 + 1) with 3 in *. change (Z.of_nat 2) with 2 in *.
  pose proof (forall_get _ _ _ _ HR Er) as Hr. cbv beta in Hr.
  rewrite <- (bind_assoc (zslice _ _ _) (fun b => DecodeUint16LE b)). rewrite (slice16 _ _ _ (fst r)) by (try exact A; lia). cbn [bind]. rewrite B. reflexivity.
Qed.
Lemma glyph_elements {T E} (each : T -> Z -> T * option E) st s : set_in_range 65536 st ->
  glyph_set_EachListGlyph each (set_bytes 2 st) s = Ok (each_of each s (set_elements st)).
Proof.
  intros [_ HE]. pose proof (set_parts 2 st []) as P. rewrite app_nil_r in P. destruct P as (P0 & _ & P1 & _). change (Z.of_nat 2 + 1) with 3 in *.
  unfold glyph_set_EachListGlyph. rewrite P0. cbn [bind]. cbv zeta. rewrite P1. cbn [bind].
  replace (Z.to_nat (zlen (set_elements st))) with (length (set_elements st)) by (unfold zlen; lia).
  apply each_loop_spec. intros k x Hk. pose proof (zget_ok_range _ _ _ Hk). pose proof (element_at 2 st [] k x Hk) as A. rewrite app_nil_r in A.
  change (Z.of_nat 2 + 1) with 3 in *. change (Z.of_nat 2) with 2 in *.
  rewrite !shiftl_mul by lia. change (2 ^ 1) with 2. apply slice16; [eapply stored_at; [exact A|lia]|lia|]. exact (forall_get _ _ _ _ HE Hk).
Qed.
Lemma utf8_ranges {T E} (each : T -> Z * Z -> T * option E) st s : set_in_range 16777216 st ->
  utf8_set_EachRange each (set_bytes 4 st) s = Ok (each_of each s (map (fun r => (fst r, fst r)) (set_ranges st))).
Proof.
  intros [HR _]. pose proof (set_parts 4 st []) as P. rewrite app_nil_r in P. destruct P as (P0 & _). unfold utf8_set_EachRange. rewrite P0. cbn [bind].
  replace (Z.to_nat (zlen (set_ranges st))) with (length (map (fun r : Z * Z => (fst r, fst r)) (set_ranges st))) by (rewrite map_length; unfold zlen; lia).
  apply each_loop_spec. intros k a Hk. apply zget_map_inv in Hk. destruct Hk as (r & Er & ->).
  destruct (range_at 4 st [] k r Er) as [A _]. rewrite app_nil_r in A. change (Z.of_nat 4 + 1) with 5 in *. change (Z.of_nat 4) with 4 in *.
  pose proof (forall_get _ _ _ _ HR Er) as Hr. cbv beta in Hr.
  rewrite <- (bind_assoc (zslice _ _ _) (fun b => DecodeUint32LE b)). rewrite (slice32 _ _ _ (fst r)) by (try exact A; lia). cbn [bind]. cbv zeta.
  rewrite i32_id by lia. cbn [le_digits] in A. do 3 (apply stored_cons in A; destruct A as [_ A]). apply stored_cons in A. destruct A as [A _].
  replace (1 + 5 * k + 1 + 1 + 1) with (1 + 5 * k + 3) in A by lia. rewrite A. cbn [bind].
  replace (fst r / 256 / 256 / 256) with 0; [|rewrite !Z.div_div by lia; symmetry; apply Z.div_small; lia].
  change (0 mod 256) with 0. rewrite Z.add_0_r. now rewrite i32_id by lia.
Qed.
Lemma utf8_elements {T E} (each : T -> Z -> T * option E) st s : set_in_range 2147483648 st ->
  utf8_set_EachListRune each (set_bytes 4 st) s = Ok (each_of each s (set_elements st)).
Proof.
  intros [_ HE]. pose proof (set_parts 4 st []) as P. rewrite app_nil_r in P. destruct P as (P0 & _ & P1 & _). change (Z.of_nat 4 + 1) with 5 in *.
  unfold utf8_set_EachListRune. rewrite P0. cbn [bind]. cbv zeta. rewrite P1. cbn [bind].
  replace (Z.to_nat (zlen (set_elements st))) with (length (set_elements st)) by (unfold zlen; lia).
  apply each_loop_spec. intros k x Hk. pose proof (zget_ok_range _ _ _ Hk). pose proof (element_at 4 st [] k x Hk) as A. rewrite app_nil_r in A.
  change (Z.of_nat 4 + 1) with 5 in *. change (Z.of_nat 4) with 4 in *. pose proof (forall_get _ _ _ _ HE Hk) as Hx. cbv beta in Hx.
  rewrite !shiftl_mul by lia. change (2 ^ 2) with 4. rewrite <- (bind_assoc (zslice _ _ _) (fun b => DecodeUint32LE b)).
  rewrite (slice32 _ _ _ x); [cbn [bind]; now rewrite i32_id by lia|eapply stored_at; [exact A|lia]|lia|lia].
Qed.

Lemma later_sets_nonempty d off i s : 0 < i -> get_set d off i = Ok s -> s <> [].
Proof.
  intros Hi E. unfold get_set in E.
  apply bind_ok in E as (n & _ & E). destruct (Z.geb_spec i n); [discriminate|].
  apply bind_ok in E as (b & _ & E). apply bind_ok in E as (e & _ & E).
  destruct (Z.eqb_spec i 0); [lia|].
  apply bind_ok in E as (b' & _ & E). apply bind_ok in E as (s0 & _ & E).
  rewrite Z.geb_leb in E. destruct (Z.leb_spec e s0); [discriminate|].
  apply zslice_ok_inv in E as (_ & _ & _ & E). intros ->. unfold zlen in E. cbn in E. lia.
Qed.
