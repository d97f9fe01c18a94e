(** Printing rewrite conditions. *)
From Verif Require Import Base BaseFacts Spec_Helpers Model_Helpers Proofs_Helpers Model_Words Spec_Format Spec_Layout Proofs_Format
  Proofs_Rewrites Proofs_Accept Model_Conditions Spec_Conditions.

(** ** The text printed *)
Definition digits (n : Z) : list Z := AppendByteDigits n [].
Lemma digits_app n str : AppendByteDigits n str = str ++ digits n.
Proof.
  unfold digits, AppendByteDigits. destruct (n >? 99), (n >? 9); cbn [app]; rewrite <- ?app_assoc; reflexivity.
Qed.
Lemma digits_numeral n : byte n -> numeral (digits n) n.
Proof. intros H. destruct (digits_spec n [] H) as (d & E & H1 & H2 & H3 & _). unfold digits. rewrite E. cbn [app]. split; [exact H2|]. split; [exact H1|]. congruence. Qed.

Fixpoint join (sep : list Z) (l : list (list Z)) : list Z :=
  match l with
  | [] => []
  | [x] => x
  | x :: rest => x ++ sep ++ join sep rest
  end.
Lemma join_cons sep x y l : join sep (x :: y :: l) = x ++ sep ++ join sep (y :: l).
Proof. reflexivity. Qed.
Definition word_or := str_bytes " OR ".
Definition word_and := str_bytes " AND ".
Fixpoint sub_text (c : condition) : list Z :=
  match c with
  | COr l => [40] ++ join word_or (map sub_text l) ++ [41]
  | CAnd l => [40] ++ join word_and (map sub_text l) ++ [41]
  | CSettings op a b => [35] ++ digits a ++ [32] ++ operator_chars op ++ [32; 35] ++ digits b
  | CConst op a k | CQuick op a k => [35] ++ digits a ++ [32] ++ operator_chars op ++ [32] ++ digits k
  end.
Definition full_text (c : condition) : list Z :=
  match c with
  | COr l => join word_or (map sub_text l)
  | CAnd l => join word_and (map sub_text l)
  | _ => sub_text c
  end.

Lemma space_ok : spaces [32].
Proof. repeat constructor. Qed.
Lemma sub_text_ok : forall c, condition_ok 256 c -> text true (expr_of c) (sub_text c) /\ text false (expr_of c) (full_text c).
Proof.
  assert (J : forall word l, Forall (fun c => condition_ok 256 c -> text true (expr_of c) (sub_text c) /\ text false (expr_of c) (full_text c)) l ->
    Forall (condition_ok 256) l -> l <> [] -> joined word (map expr_of l) (join ([32] ++ word ++ [32]) (map sub_text l))).
  { intros word l. induction l as [|c l IH]; intros HI Hok Hne; [contradiction|]. inversion HI as [|? ? H1 H2]; subst. inversion Hok as [|? ? H3 H4]; subst.
    destruct l as [|c' l]; [cbn; constructor; apply H1; assumption|]. cbn [map]. rewrite join_cons. specialize (IH H2 H4 ltac:(discriminate)). cbn [map] in IH.
    replace (sub_text c ++ ([32] ++ word ++ [32]) ++ join ([32] ++ word ++ [32]) (sub_text c' :: map sub_text l))
      with (sub_text c ++ [32] ++ word ++ [32] ++ join ([32] ++ word ++ [32]) (sub_text c' :: map sub_text l)) by (rewrite <- !app_assoc; reflexivity).
    constructor; try exact space_ok; try discriminate; [apply H1; exact H3|exact IH]. }
  induction c as [l IH|l IH|op a b|op a b|op a b] using condition_induction; intros Hok.
  - destruct Hok as [H1 H2]. apply terms_ok in H2. assert (K : text false (expr_of (COr l)) (full_text (COr l))).
    { constructor; [rewrite map_length; unfold zlen in H1; lia|]. apply (J [79; 82] l IH H2). intros ->. rewrite zlen_nil in H1. lia. }
    split; [|exact K]. exact (text_paren true _ _ [] [] K (Forall_nil _) (Forall_nil _)).
  - destruct Hok as [H1 H2]. apply terms_ok in H2. assert (K : text false (expr_of (CAnd l)) (full_text (CAnd l))).
    { constructor; [rewrite map_length; unfold zlen in H1; lia|]. apply (J [65; 78; 68] l IH H2). intros ->. rewrite zlen_nil in H1. lia. }
    split; [|exact K]. exact (text_paren true _ _ [] [] K (Forall_nil _) (Forall_nil _)).
  - cbn [condition_ok] in Hok. assert (K : forall i, text i (Term a op (Setting b)) (sub_text (CSettings op a b))); [|split; apply K].
    intros i. constructor. exists (digits a), [32], [32], (35 :: digits b). split; [apply digits_numeral; unfold byte; lia|]. split; [exact space_ok|]. split; [exact space_ok|].
    split; [|reflexivity]. exists (digits b). split; [reflexivity|]. apply digits_numeral. unfold byte. lia.
  - cbn [condition_ok] in Hok. assert (K : forall i, text i (Term a op (Constant b)) (sub_text (CConst op a b))); [|split; apply K].
    intros i. constructor. exists (digits a), [32], [32], (digits b). split; [apply digits_numeral; unfold byte in *; lia|]. split; [exact space_ok|]. split; [exact space_ok|].
    split; [|reflexivity]. apply digits_numeral. apply Hok.
  - cbn [condition_ok] in Hok. assert (K : forall i, text i (Term a op (Constant b)) (sub_text (CQuick op a b))); [|split; apply K].
    intros i. constructor. exists (digits a), [32], [32], (digits b). split; [apply digits_numeral; unfold byte in *; lia|]. split; [exact space_ok|]. split; [exact space_ok|].
    split; [|reflexivity]. apply digits_numeral. unfold byte. lia.
Qed.

(** ** Control bytes *)
Lemma byte_cases (P : Z -> bool) : forallb P (zseq 256) = true -> forall x, byte x -> P x = true.
Proof. intros H x Hx. rewrite forallb_forall in H. apply H. apply in_zseq. exact Hx. Qed.
Lemma kind_group n : 0 <= n < 32 -> Z.shiftr n 5 = 0 /\ Z.shiftr (32 + n) 5 = 1.
Proof. intros H. rewrite !Z.shiftr_div_pow2 by lia. change (2 ^ 5) with 32. split; lia. Qed.
Lemma kind_compare op : Z.shiftr (64 + operator_code op) 5 = 2 /\ Z.shiftr (80 + operator_code op) 5 = 2.
Proof. destruct op; split; reflexivity. Qed.
Lemma kind_quick op k : quick_operator op -> 0 <= k < 32 ->
  Z.shiftr (quick_code op + k) 5 = match op with Equal => 3 | Different => 4 | Less => 5 | _ => 6 end.
Proof. intros Hq H. rewrite Z.shiftr_div_pow2 by lia. change (2 ^ 5) with 32. destruct op; try contradiction; cbn [quick_code]; lia. Qed.
Lemma operator_text_ok op : operator_text (operator_code op) = Ok (operator_chars op).
Proof. destruct op; reflexivity. Qed.

(** ** String prints it *)
Definition term_prints (term : Z -> list Z -> outcome (Z * list Z)) (d : list Z) (c : condition) : Prop :=
  forall i str, stored d i (condition_bytes c) -> term i str = Ok (i + zlen (condition_bytes c), str ++ sub_text c).
Lemma terms_print term d sep last : forall l i str, Forall (term_prints term d) l -> l <> [] -> stored d i (concat (map condition_bytes l)) ->
  append_terms term (length l) sep last i str = Ok (i + zlen (concat (map condition_bytes l)), str ++ join sep (map sub_text l) ++ last).
Proof.
  induction l as [|c l IH]; intros i str Hl Hne HS; [contradiction|]. inversion Hl as [|? ? H1 H2]; subst. cbn [map concat] in HS |- *. apply stored_app in HS. destruct HS as [S1 S2].
  cbn [length append_terms]. rewrite (H1 i str S1). cbn [bind]. destruct l as [|c' l].
  - cbn [length append_terms map concat join]. rewrite app_nil_r, <- app_assoc. reflexivity.
  - cbn [length]. change (append_terms term (S (length l)) sep last) with (append_terms term (length (c' :: l)) sep last). rewrite (IH _ _ H2 ltac:(discriminate) S2).
    cbn [map]. rewrite join_cons, !zlen_app, <- !app_assoc. f_equal. f_equal. lia.
Qed.
Lemma sub_prints d : forall c, condition_ok 256 c -> forall k, zlen (condition_bytes c) <= Z.of_nat k -> term_prints (appendSubTerm k d) d c.
Proof.
  assert (T : forall l k, Forall (fun c => condition_ok 256 c -> forall k, zlen (condition_bytes c) <= Z.of_nat k -> term_prints (appendSubTerm k d) d c) l ->
    Forall (condition_ok 256) l -> zlen (concat (map condition_bytes l)) <= Z.of_nat k -> Forall (term_prints (appendSubTerm k d) d) l).
  { induction l as [|c l IH]; intros k HI Hok Hk; [constructor|]. inversion HI as [|? ? H1 H2]; subst. inversion Hok as [|? ? H3 H4]; subst. cbn [map concat] in Hk. rewrite zlen_app in Hk.
    pose proof (zlen_nonneg (condition_bytes c)). pose proof (zlen_nonneg (concat (map condition_bytes l))). constructor; [apply H1; [exact H3|lia]|apply IH; auto; lia]. }
  induction c as [l IH|l IH|op a b|op a b|op a b] using condition_induction; intros Hok k Hk i str HS; pose proof (condition_len _ _ Hok) as Hl2; (destruct k as [|k]; [lia|]); cbn [appendSubTerm];
    pose proof (stored_range _ _ _ HS) as Hr; replace (i >=? zlen d) with false by (rewrite Z.geb_leb; symmetry; apply Z.leb_gt; lia).
  - destruct Hok as [H1 H2]. apply terms_ok in H2. cbn [condition_bytes] in HS, Hk |- *. rewrite zlen_cons in *. apply stored_cons in HS. destruct HS as [-> HS]. cbn [bind]. cbv zeta.
    destruct (kind_group (zlen l) ltac:(lia)) as [-> _]. destruct (ctrl_group (zlen l) ltac:(lia)) as (_ & -> & _). change (0 =? 0) with true. cbv iota.
    replace (zlen l <? 2) with false by lia. replace (Z.to_nat (zlen l)) with (length l) by (unfold zlen; lia).
    rewrite (terms_print _ d) by (try exact HS; try (intros ->; rewrite zlen_nil in H1; lia); apply T; auto; lia).
    cbn [sub_text]. rewrite <- !app_assoc. f_equal. f_equal. lia.
  - destruct Hok as [H1 H2]. apply terms_ok in H2. cbn [condition_bytes] in HS, Hk |- *. rewrite zlen_cons in *. apply stored_cons in HS. destruct HS as [-> HS]. cbn [bind]. cbv zeta.
    destruct (kind_group (zlen l) ltac:(lia)) as [_ ->]. destruct (ctrl_group (zlen l) ltac:(lia)) as (_ & _ & _ & ->). change (1 =? 0) with false. change (1 =? 1) with true. cbv iota.
    replace (zlen l <? 2) with false by lia. replace (Z.to_nat (zlen l)) with (length l) by (unfold zlen; lia).
    rewrite (terms_print _ d) by (try exact HS; try (intros ->; rewrite zlen_nil in H1; lia); apply T; auto; lia).
    cbn [sub_text]. rewrite <- !app_assoc. f_equal. f_equal. lia.
  - cbn [condition_bytes] in *. apply stored_cons in HS. destruct HS as [-> HS]. apply stored_cons in HS. destruct HS as [Ga HS]. apply stored_cons in HS. destruct HS as [Gb _].
    cbn [bind]. cbv zeta. destruct (kind_compare op) as [-> _]. destruct (ctrl_compare op) as (_ & _ & E1 & _ & E2 & _). rewrite E1, E2.
    change (2 =? 0) with false. change (2 =? 1) with false. change (2 =? 2) with true. cbv iota. rewrite Ga. cbn [bind]. rewrite operator_text_ok. cbn [bind].
    change (0 =? 0) with true. cbv iota. replace (i + 2) with (i + 1 + 1) by lia. rewrite Gb. cbn [bind]. rewrite !digits_app. cbn [sub_text]. rewrite <- !app_assoc. reflexivity.
  - cbn [condition_bytes] in *. apply stored_cons in HS. destruct HS as [-> HS]. apply stored_cons in HS. destruct HS as [Ga HS]. apply stored_cons in HS. destruct HS as [Gb _].
    cbn [bind]. cbv zeta. destruct (kind_compare op) as [_ ->]. destruct (ctrl_compare op) as (_ & _ & _ & E1 & _ & E2). rewrite E1, E2.
    change (2 =? 0) with false. change (2 =? 1) with false. change (2 =? 2) with true. cbv iota. rewrite Ga. cbn [bind]. rewrite operator_text_ok. cbn [bind].
    change (16 =? 0) with false. cbv iota. replace (i + 2) with (i + 1 + 1) by lia. rewrite Gb. cbn [bind]. rewrite !digits_app. cbn [sub_text]. rewrite <- !app_assoc. reflexivity.
  - cbn [condition_bytes condition_ok] in *. destruct Hok as (Hq & Ha & Hk2). apply stored_cons in HS. destruct HS as [-> HS]. apply stored_cons in HS. destruct HS as [Ga _].
    cbn [bind]. cbv zeta. rewrite (kind_quick op b Hq Hk2). unfold append_quick. rewrite Ga. cbn [bind]. destruct (ctrl_quick op b Hq Hk2) as (_ & ->).
    destruct op; try contradiction; cbv [Z.eqb Pos.eqb]; rewrite !digits_app; cbn [sub_text]; rewrite <- !app_assoc; reflexivity.
Qed.
Lemma sub_text_ne c : sub_text c <> [].
Proof. destruct c; discriminate. Qed.
Lemma full_text_ne c : condition_ok 256 c -> full_text c <> [].
Proof.
  destruct c as [l|l|op a b|op a b|op a b]; try discriminate; intros [H _]; cbn [full_text]; destruct l as [|x [|y l]]; try (unfold zlen in H; cbn in H; lia); cbn [map]; rewrite join_cons;
    intros E; apply app_eq_nil in E; exact (sub_text_ne _ (proj1 E)).
Qed.
Lemma string_prints c : condition_ok 256 c -> condition_String (condition_bytes c) = Ok (full_text c).
Proof.
  intros Hok. pose proof (condition_len _ _ Hok) as Hl2.
  assert (K : (do x <- zget (full_text c) 0; Ok (full_text c)) = Ok (full_text c)).
  { pose proof (full_text_ne _ Hok) as Hne. destruct (full_text c); [contradiction|]. reflexivity. }
  assert (Self : stored (condition_bytes c) 0 (condition_bytes c)) by (exists [], []; split; [rewrite app_nil_r; reflexivity|reflexivity]).
  unfold condition_String. destruct c as [l|l|op a b|op a b|op a b].
  - set (d := condition_bytes (COr l)) in *. assert (Hd : d = zlen l :: concat (map condition_bytes l)) by reflexivity. destruct Hok as [H1 H2]. apply terms_ok in H2. rewrite Hd in Self at 2. apply stored_cons in Self. destruct Self as [G HS]. rewrite G.
    cbn [bind]. cbv zeta. destruct (kind_group (zlen l) ltac:(lia)) as [-> _]. destruct (ctrl_group (zlen l) ltac:(lia)) as (_ & -> & _). change (0 =? 0) with true. cbv iota.
    replace (zlen l <? 2) with false by lia. replace (Z.to_nat (zlen l)) with (length l) by (unfold zlen; lia).
    assert (Hlen : zlen d = 1 + zlen (concat (map condition_bytes l))) by (rewrite Hd, zlen_cons; lia).
    rewrite (terms_print _ d); [|apply Forall_forall; intros c Hc; apply sub_prints; [exact (proj1 (Forall_forall _ _) H2 c Hc)|]|intros ->; rewrite zlen_nil in H1; lia|exact HS].
    + cbn [bind]. rewrite <- Hlen, Z.eqb_refl. cbn [negb]. rewrite app_nil_r. cbn [app]. exact K.
    + change (Z.of_nat (length d)) with (zlen d). rewrite Hlen. clear - Hc. induction l as [|x l IH]; [destruct Hc|]. cbn [map concat]. rewrite zlen_app. destruct Hc as [->|Hc].
      * pose proof (zlen_nonneg (concat (map condition_bytes l))). lia.
      * specialize (IH Hc). pose proof (zlen_nonneg (condition_bytes x)). lia.
  - set (d := condition_bytes (CAnd l)) in *. assert (Hd : d = (32 + zlen l) :: concat (map condition_bytes l)) by reflexivity. destruct Hok as [H1 H2]. apply terms_ok in H2. rewrite Hd in Self at 2. apply stored_cons in Self. destruct Self as [G HS]. rewrite G.
    cbn [bind]. cbv zeta. destruct (kind_group (zlen l) ltac:(lia)) as [_ ->]. destruct (ctrl_group (zlen l) ltac:(lia)) as (_ & _ & _ & ->). change (1 =? 0) with false. change (1 =? 1) with true. cbv iota.
    replace (zlen l <? 2) with false by lia. replace (Z.to_nat (zlen l)) with (length l) by (unfold zlen; lia).
    assert (Hlen : zlen d = 1 + zlen (concat (map condition_bytes l))) by (rewrite Hd, zlen_cons; lia).
    rewrite (terms_print _ d); [|apply Forall_forall; intros c Hc; apply sub_prints; [exact (proj1 (Forall_forall _ _) H2 c Hc)|]|intros ->; rewrite zlen_nil in H1; lia|exact HS].
    + cbn [bind]. rewrite <- Hlen, Z.eqb_refl. cbn [negb]. rewrite app_nil_r. cbn [app]. exact K.
    + change (Z.of_nat (length d)) with (zlen d). rewrite Hlen. clear - Hc. induction l as [|x l IH]; [destruct Hc|]. cbn [map concat]. rewrite zlen_app. destruct Hc as [->|Hc].
      * pose proof (zlen_nonneg (concat (map condition_bytes l))). lia.
      * specialize (IH Hc). pose proof (zlen_nonneg (condition_bytes x)). lia.
  - pose proof (sub_prints _ _ Hok (length (condition_bytes (CSettings op a b))) ltac:(unfold zlen; lia) 0 [] Self) as E. rewrite E.
    cbn [condition_bytes]. rewrite zget_cons_0. cbn [bind]. cbv zeta. destruct (kind_compare op) as [-> _]. change (2 =? 0) with false. change (2 =? 1) with false. cbv iota. cbn [bind]. rewrite Z.add_0_l, Z.eqb_refl. exact K.
  - pose proof (sub_prints _ _ Hok (length (condition_bytes (CConst op a b))) ltac:(unfold zlen; lia) 0 [] Self) as E. rewrite E.
    cbn [condition_bytes]. rewrite zget_cons_0. cbn [bind]. cbv zeta. destruct (kind_compare op) as [_ ->]. change (2 =? 0) with false. change (2 =? 1) with false. cbv iota. cbn [bind]. rewrite Z.add_0_l, Z.eqb_refl. exact K.
  - pose proof (sub_prints _ _ Hok (length (condition_bytes (CQuick op a b))) ltac:(unfold zlen; lia) 0 [] Self) as E. rewrite E.
    cbn [condition_bytes]. rewrite zget_cons_0. cbn [bind]. cbv zeta. destruct Hok as (Hq & _ & Hk). rewrite (kind_quick op b Hq Hk).
    destruct op; try contradiction; (replace (_ =? 0) with false by reflexivity); (replace (_ =? 1) with false by reflexivity); cbv iota; cbn [bind]; rewrite Z.add_0_l, Z.eqb_refl; exact K.
Qed.
Lemma string_right c : condition_ok 256 c -> exists t, condition_String (condition_bytes c) = Ok t /\ text false (expr_of c) t.
Proof. intros H. exists (full_text c). split; [apply string_prints; exact H|]. apply sub_text_ok. exact H. Qed.

(** ** It prints nothing else *)
Lemma sub_converse d : bytes d -> forall k i str j s, 0 <= i -> appendSubTerm k d i str = Ok (j, s) ->
  exists c, condition_ok 256 c /\ stored d i (condition_bytes c) /\ j = i + zlen (condition_bytes c).
Proof.
  intros Hd. induction k as [|k IH]; intros i str j s Hi E; [discriminate|]. cbn [appendSubTerm] in E.
  destruct (Z.geb_spec i (zlen d)) as [|Hlt]; [discriminate|]. destruct (zget d i) as [ctrl| | |] eqn:G; cbn [bind] in E; try discriminate. cbv zeta in E.
  assert (Hb : forall n x, zget d n = Ok x -> byte x) by (intros n x H; exact (proj1 (Forall_forall _ _) Hd x (zget_in _ _ _ H))).
  assert (Ones : forall n x, zget d n = Ok x -> 0 <= n -> stored d n [x]).
  { intros n x H Hn. pose proof (zget_ok_range _ _ _ H) as Hr. exists (firstn (Z.to_nat n) d), (skipn (S (Z.to_nat n)) d). split; [|unfold zlen in *; rewrite firstn_length; lia].
    unfold zget in H. destruct (n <? 0); [discriminate|]. destruct (nth_error d (Z.to_nat n)) as [y|] eqn:N; [|discriminate]. injection H as ->.
    rewrite <- (firstn_skipn (Z.to_nat n) d) at 1. f_equal. clear - N. revert N. generalize (Z.to_nat n). intros m. revert d. induction m as [|m IH]; intros [|y d] N; try discriminate; cbn in *; [congruence|]. apply IH. exact N. }
  assert (App : forall n a b, stored d n a -> stored d (n + zlen a) b -> stored d n (a ++ b)).
  { intros n a b. apply stored_join. }
  pose proof (Hb _ _ G) as Hc.
  assert (Terms : forall n sep last i str j s, 0 <= i -> append_terms (appendSubTerm k d) n sep last i str = Ok (j, s) ->
    exists l, length l = n /\ Forall (condition_ok 256) l /\ (n <> O -> stored d i (concat (map condition_bytes l))) /\ j = i + zlen (concat (map condition_bytes l))).
  { induction n as [|n IHn]; intros sep last i0 str0 j0 s0 Hi0 E0; cbn [append_terms] in E0.
    - injection E0 as <- <-. exists []. split; [reflexivity|]. split; [constructor|]. split; [congruence|]. cbn [map concat]. rewrite zlen_nil. lia.
    - destruct (appendSubTerm k d i0 str0) as [[i1 str1]| | |] eqn:E1; cbn [bind] in E0; try discriminate. destruct (IH _ _ _ _ Hi0 E1) as (c & H1 & H2 & ->).
      pose proof (zlen_nonneg (condition_bytes c)). assert (Hi1 : 0 <= i0 + zlen (condition_bytes c)) by lia. destruct (IHn _ _ _ _ _ _ Hi1 E0) as (l & L1 & L2 & L3 & ->). exists (c :: l). split; [cbn; congruence|]. split; [constructor; assumption|].
      cbn [map concat]. rewrite zlen_app. split; [|lia]. intros _. apply App; [exact H2|]. destruct n; [|apply L3; discriminate]. destruct l; [|discriminate]. cbn [map concat].
      destruct H2 as (p & q & Ed & Lp). exists (p ++ condition_bytes c), q. split; [rewrite Ed, <- app_assoc; reflexivity|rewrite zlen_app; lia]. }
  assert (Group : forall (isOr : bool), (if isOr then Z.shiftr ctrl 5 = 0 else Z.shiftr ctrl 5 = 1) -> ctrl = (if isOr then 0 else 32) + Z.land ctrl 31).
  { intros isOr H. pose proof (byte_cases (fun x => (negb (Z.shiftr x 5 =? 0) || (x =? Z.land x 31)) && (negb (Z.shiftr x 5 =? 1) || (x =? 32 + Z.land x 31))) ltac:(vm_compute; reflexivity) ctrl Hc) as F. cbv beta in F.
    destruct isOr; rewrite H in F; [change (0 =? 0) with true in F|change (1 =? 1) with true in F]; cbn [negb orb andb] in F; lia. }
  assert (Hn31 : 0 <= Z.land ctrl 31 < 32).
  { pose proof (byte_cases (fun x => (0 <=? Z.land x 31) && (Z.land x 31 <? 32)) ltac:(vm_compute; reflexivity) ctrl Hc) as F. cbv beta in F. lia. }
  destruct (Z.eqb_spec (Z.shiftr ctrl 5) 0) as [K0|K0].
  { destruct (Z.ltb_spec (Z.land ctrl 31) 2); [discriminate|]. destruct (Terms _ _ _ (i + 1) _ _ _ ltac:(lia) E) as (l & L1 & L2 & L3 & ->). exists (COr l).
    assert (Hz : zlen l = Z.land ctrl 31) by (unfold zlen; lia). split; [split; [lia|apply terms_ok; exact L2]|]. cbn [condition_bytes]. rewrite zlen_cons. split; [|lia].
    change (zlen l :: concat (map condition_bytes l)) with ([zlen l] ++ concat (map condition_bytes l)). apply App; [|apply L3; lia].
    rewrite Hz. pose proof (Group true K0) as Gc. cbv iota in Gc. rewrite Z.add_0_l in Gc. rewrite <- Gc. apply Ones; assumption. }
  destruct (Z.eqb_spec (Z.shiftr ctrl 5) 1) as [K1|K1].
  { destruct (Z.ltb_spec (Z.land ctrl 31) 2); [discriminate|]. destruct (Terms _ _ _ (i + 1) _ _ _ ltac:(lia) E) as (l & L1 & L2 & L3 & ->). exists (CAnd l).
    assert (Hz : zlen l = Z.land ctrl 31) by (unfold zlen; lia). split; [split; [lia|apply terms_ok; exact L2]|]. cbn [condition_bytes]. rewrite zlen_cons. split; [|lia].
    change ((32 + zlen l) :: concat (map condition_bytes l)) with ([32 + zlen l] ++ concat (map condition_bytes l)). apply App; [|apply L3; lia].
    rewrite Hz, <- (Group false K1). apply Ones; assumption. }
  destruct (Z.eqb_spec (Z.shiftr ctrl 5) 2) as [K2|K2].
  { destruct (zget d (i + 1)) as [a| | |] eqn:Ga; cbn [bind] in E; try discriminate. destruct (operator_text (Z.land ctrl 15)) as [t| | |] eqn:Eo; cbn [bind] in E; try discriminate.
    destruct (zget d (i + 2)) as [b| | |] eqn:Gb; cbn [bind] in E; try discriminate. injection E as <- _.
    assert (O : exists op, ctrl = (if Z.land ctrl 16 =? 0 then 64 else 80) + operator_code op).
    { pose proof (byte_cases (fun x => negb (Z.shiftr x 5 =? 2) || negb (Z.land x 15 <=? 5) || (x =? (if Z.land x 16 =? 0 then 64 else 80) + Z.land x 15)) ltac:(vm_compute; reflexivity) ctrl Hc) as F. cbv beta in F.
      rewrite K2 in F. change (2 =? 2) with true in F. cbn [negb orb] in F. unfold operator_text in Eo.
      assert (Hp : 0 <= Z.land ctrl 15) by (apply Z.land_nonneg; right; lia).
      destruct (Z.eqb_spec (Z.land ctrl 15) 0) as [Q|]; [exists Equal; rewrite Q in F; cbn [operator_code]; lia|].
      destruct (Z.eqb_spec (Z.land ctrl 15) 1) as [Q|]; [exists Different; rewrite Q in F; cbn [operator_code]; lia|].
      destruct (Z.eqb_spec (Z.land ctrl 15) 2) as [Q|]; [exists Less; rewrite Q in F; cbn [operator_code]; lia|].
      destruct (Z.eqb_spec (Z.land ctrl 15) 3) as [Q|]; [exists Greater; rewrite Q in F; cbn [operator_code]; lia|].
      destruct (Z.eqb_spec (Z.land ctrl 15) 4) as [Q|]; [exists AtMost; rewrite Q in F; cbn [operator_code]; lia|].
      destruct (Z.eqb_spec (Z.land ctrl 15) 5) as [Q|]; [exists AtLeast; rewrite Q in F; cbn [operator_code]; lia|discriminate]. }
    destruct O as (op & O). assert (HS : stored d i ([ctrl] ++ [a] ++ [b])).
    { apply App; [apply Ones; assumption|]. apply App; [apply Ones; [exact Ga|unfold zlen; cbn; lia]|]. apply Ones; [|unfold zlen; cbn; lia]. replace (i + zlen [ctrl] + zlen [a]) with (i + 2) by (unfold zlen; cbn; lia). exact Gb. }
    pose proof (Hb _ _ Ga) as Ha. pose proof (Hb _ _ Gb) as Hb'. unfold byte in Ha, Hb'. destruct (Z.land ctrl 16 =? 0).
    - exists (CSettings op a b). cbn [condition_ok condition_bytes]. rewrite <- O. repeat split; try lia. exact HS.
    - exists (CConst op a b). cbn [condition_ok condition_bytes]. rewrite <- O. repeat split; try lia. exact HS. }
  assert (Quick : forall op kd t, quick_operator op -> Z.shiftr ctrl 5 = kd -> quick_code op = 32 * kd -> append_quick d i ctrl t str = Ok (j, s) ->
    exists c, condition_ok 256 c /\ stored d i (condition_bytes c) /\ j = i + zlen (condition_bytes c)).
  { intros op kd t Hq Hk Hcode E0. unfold append_quick in E0. destruct (zget d (i + 1)) as [a| | |] eqn:Ga; cbn [bind] in E0; try discriminate. injection E0 as <- _.
    pose proof (byte_cases (fun x => x =? 32 * Z.shiftr x 5 + Z.land x 31) ltac:(vm_compute; reflexivity) ctrl Hc) as F. cbv beta in F. exists (CQuick op a (Z.land ctrl 31)).
    cbn [condition_ok condition_bytes]. pose proof (Hb _ _ Ga) as Ha. unfold byte in Ha. split; [repeat split; try assumption; lia|].
    replace (quick_code op + Z.land ctrl 31) with ctrl by lia. split; [|reflexivity]. change [ctrl; a] with ([ctrl] ++ [a]). apply App; apply Ones; try assumption. unfold zlen; cbn; lia. }
  destruct (Z.eqb_spec (Z.shiftr ctrl 5) 3) as [K3|K3]; [exact (Quick Equal 3 _ I K3 eq_refl E)|].
  destruct (Z.eqb_spec (Z.shiftr ctrl 5) 4) as [K4|K4]; [exact (Quick Different 4 _ I K4 eq_refl E)|].
  destruct (Z.eqb_spec (Z.shiftr ctrl 5) 5) as [K5|K5]; [exact (Quick Less 5 _ I K5 eq_refl E)|].
  destruct (Z.eqb_spec (Z.shiftr ctrl 5) 6) as [K6|K6]; [exact (Quick Greater 6 _ I K6 eq_refl E)|]. discriminate.
Qed.
Lemma terms_converse d (term : Z -> list Z -> outcome (Z * list Z)) :
  (forall i str j s, 0 <= i -> term i str = Ok (j, s) -> exists c, condition_ok 256 c /\ stored d i (condition_bytes c) /\ j = i + zlen (condition_bytes c)) ->
  forall n sep last i str j s, 0 <= i <= zlen d -> append_terms term n sep last i str = Ok (j, s) ->
  exists l, length l = n /\ Forall (condition_ok 256) l /\ stored d i (concat (map condition_bytes l)) /\ j = i + zlen (concat (map condition_bytes l)).
Proof.
  intros IH. induction n as [|n IHn]; intros sep last i str j s Hi E; cbn [append_terms] in E.
  - injection E as <- <-. exists []. split; [reflexivity|]. split; [constructor|]. cbn [map concat]. rewrite zlen_nil. split; [|lia].
    exists (firstn (Z.to_nat i) d), (skipn (Z.to_nat i) d). cbn [app]. split; [symmetry; apply firstn_skipn|]. unfold zlen in *. rewrite firstn_length. lia.
  - destruct (term i str) as [[i1 str1]| | |] eqn:E1; cbn [bind] in E; try discriminate. destruct (IH _ _ _ _ (proj1 Hi) E1) as (c & H1 & H2 & ->).
    pose proof (stored_range _ _ _ H2). pose proof (zlen_nonneg (condition_bytes c)). assert (Hi1 : 0 <= i + zlen (condition_bytes c) <= zlen d) by lia.
    destruct (IHn _ _ _ _ _ _ Hi1 E) as (l & L1 & L2 & L3 & ->). exists (c :: l). split; [cbn; congruence|]. split; [constructor; assumption|].
    cbn [map concat]. rewrite zlen_app. split; [|lia]. apply stored_join; assumption.
Qed.
Lemma stored_all d b : stored d 0 b -> zlen b = zlen d -> d = b.
Proof.
  intros (p & q & E & L) H. destruct p as [|x p]; [|rewrite zlen_cons in L; pose proof (zlen_nonneg p); lia]. cbn [app] in E. subst d. rewrite zlen_app in H.
  destruct q as [|x q]; [rewrite app_nil_r; reflexivity|]. rewrite zlen_cons in H. pose proof (zlen_nonneg q). lia.
Qed.
Lemma string_converse d t : bytes d -> condition_String d = Ok t -> exists c, condition_ok 256 c /\ d = condition_bytes c.
Proof.
  intros Hd E. unfold condition_String in E. destruct (zget d 0) as [ctrl| | |] eqn:G; cbn [bind] in E; try discriminate. cbv zeta in E.
  pose proof (proj1 (Forall_forall _ _) Hd _ (zget_in _ _ _ G)) as Hc. cbv beta in Hc. pose proof (zget_ok_range _ _ _ G) as Hr.
  pose proof (byte_cases (fun x => (negb (Z.shiftr x 5 =? 0) || (x =? Z.land x 31)) && (negb (Z.shiftr x 5 =? 1) || (x =? 32 + Z.land x 31)) && (0 <=? Z.land x 31) && (Z.land x 31 <? 32))
    ltac:(vm_compute; reflexivity) ctrl Hc) as F. cbv beta in F.
  assert (S0 : forall b, stored d 1 b -> stored d 0 (ctrl :: b)).
  { intros b Hb. change (ctrl :: b) with ([ctrl] ++ b). apply stored_join; [|exact Hb]. destruct d as [|x d]; [discriminate|]. rewrite zget_cons_0 in G. injection G as ->. exists [], d. split; reflexivity. }
  destruct (Z.eqb_spec (Z.shiftr ctrl 5) 0) as [K0|K0]; cbn [negb orb andb] in F.
  { destruct (Z.ltb_spec (Z.land ctrl 31) 2); [discriminate|]. destruct (append_terms _ _ _ _ _ _) as [[i s]| | |] eqn:Ea; cbn [bind] in E; try discriminate.
    destruct (terms_converse d _ (sub_converse d Hd (length d)) _ _ _ 1 _ _ _ ltac:(lia) Ea) as (l & L1 & L2 & L3 & ->).
    assert (Hz : zlen l = Z.land ctrl 31) by (unfold zlen; lia). destruct (Z.eqb_spec (1 + zlen (concat (map condition_bytes l))) (zlen d)); [|discriminate].
    exists (COr l). split; [split; [lia|apply terms_ok; exact L2]|]. cbn [condition_bytes]. replace (zlen l) with ctrl by lia. apply stored_all; [apply S0; exact L3|rewrite zlen_cons; lia]. }
  destruct (Z.eqb_spec (Z.shiftr ctrl 5) 1) as [K1|K1]; cbn [negb orb andb] in F.
  { destruct (Z.ltb_spec (Z.land ctrl 31) 2); [discriminate|]. destruct (append_terms _ _ _ _ _ _) as [[i s]| | |] eqn:Ea; cbn [bind] in E; try discriminate.
    destruct (terms_converse d _ (sub_converse d Hd (length d)) _ _ _ 1 _ _ _ ltac:(lia) Ea) as (l & L1 & L2 & L3 & ->).
    assert (Hz : zlen l = Z.land ctrl 31) by (unfold zlen; lia). destruct (Z.eqb_spec (1 + zlen (concat (map condition_bytes l))) (zlen d)); [|discriminate].
    exists (CAnd l). split; [split; [lia|apply terms_ok; exact L2]|]. cbn [condition_bytes]. replace (32 + zlen l) with ctrl by lia. apply stored_all; [apply S0; exact L3|rewrite zlen_cons; lia]. }
  destruct (appendSubTerm (length d) d 0 []) as [[i s]| | |] eqn:Ea; cbn [bind] in E; try discriminate.
  destruct (sub_converse d Hd _ 0 _ _ _ ltac:(lia) Ea) as (c & H1 & H2 & ->). destruct (Z.eqb_spec (0 + zlen (condition_bytes c)) (zlen d)); [|discriminate].
  exists c. split; [exact H1|]. apply stored_all; [exact H2|lia].
Qed.
(** *** and always ends *)
Definition settles {A} (o : outcome A) : Prop := match o with Ok _ | Panic => True | _ => False end.
Lemma zget_settles {A} (l : list A) i : settles (zget l i).
Proof. unfold zget. destruct (i <? 0); [exact I|]. destruct (nth_error l (Z.to_nat i)); exact I. Qed.
Lemma bind_settles {A B} (o : outcome A) (f : A -> outcome B) : settles o -> (forall a, o = Ok a -> settles (f a)) -> settles (bind o f).
Proof. destruct o; cbn; auto; intros []. Qed.
Lemma quick_settles d i c t str : settles (append_quick d i c t str).
Proof. unfold append_quick. apply bind_settles; [apply zget_settles|]. intros; exact I. Qed.
Lemma terms_settle (term : Z -> list Z -> outcome (Z * list Z)) :
  (forall i str j s, 0 <= i -> term i str = Ok (j, s) -> i <= j) ->
  forall from, (forall i str, from <= i -> settles (term i str)) ->
  forall n sep last i str, 0 <= i -> from <= i -> settles (append_terms term n sep last i str).
Proof.
  intros Hup from Ht. induction n as [|n IH]; intros sep last i str Hi Hf; cbn [append_terms]; [exact I|]. apply bind_settles; [apply Ht; exact Hf|].
  intros [j s] E. specialize (Hup _ _ _ _ Hi E). apply IH; lia.
Qed.
Lemma sub_settles d : bytes d -> forall k i str, 0 <= i -> zlen d - i <= Z.of_nat k -> settles (appendSubTerm (S k) d i str).
Proof.
  intros Hd. assert (Up : forall k i str j s, 0 <= i -> appendSubTerm k d i str = Ok (j, s) -> i <= j).
  { intros k i str j s Hi E. destruct (sub_converse d Hd k i str j s Hi E) as (c & _ & _ & ->). pose proof (zlen_nonneg (condition_bytes c)). lia. }
  induction k as [|k IH]; intros i str Hi Hk; cbn [appendSubTerm]; destruct (Z.geb_spec i (zlen d)) as [G|G]; try exact I; [lia|].
  assert (T : forall n sep last str, settles (append_terms (appendSubTerm (S k) d) n sep last (i + 1) str)).
  { intros n sep last str'. apply (terms_settle _ (Up (S k)) (i + 1)); [|lia|lia]. intros i' str'' Hi'. apply IH; lia. }
  apply bind_settles; [apply zget_settles|]. intros ctrl _. cbv zeta.
  destruct (Z.shiftr ctrl 5 =? 0); [destruct (_ <? 2); [exact I|apply T]|]. destruct (Z.shiftr ctrl 5 =? 1); [destruct (_ <? 2); [exact I|apply T]|].
  destruct (Z.shiftr ctrl 5 =? 2).
  { apply bind_settles; [apply zget_settles|]. intros a _. apply bind_settles.
    - unfold operator_text. repeat match goal with |- settles (if ?b then _ else _) => destruct b end; exact I.
    - intros op _. apply bind_settles; [apply zget_settles|]. intros; exact I. }
  destruct (Z.shiftr ctrl 5 =? 3); [apply quick_settles|]. destruct (Z.shiftr ctrl 5 =? 4); [apply quick_settles|].
  destruct (Z.shiftr ctrl 5 =? 5); [apply quick_settles|]. destruct (Z.shiftr ctrl 5 =? 6); [apply quick_settles|exact I].
Qed.
Lemma string_settles d : bytes d -> settles (condition_String d).
Proof.
  intros Hd. unfold condition_String. apply bind_settles; [apply zget_settles|]. intros ctrl G. cbv zeta. pose proof (zget_ok_range _ _ _ G) as Hr.
  apply bind_settles; [|intros [i s] _; destruct (negb _); [exact I|]; apply bind_settles; [apply zget_settles|intros; exact I]].
  destruct (length d) as [|n] eqn:Hn; [unfold zlen in Hr; lia|].
  assert (Up : forall k i str j s, 0 <= i -> appendSubTerm k d i str = Ok (j, s) -> i <= j).
  { intros k i str j s Hi E. destruct (sub_converse d Hd k i str j s Hi E) as (c & _ & _ & ->). pose proof (zlen_nonneg (condition_bytes c)). lia. }
  assert (T : forall m sep last str, settles (append_terms (appendSubTerm (S n) d) m sep last 1 str)).
  { intros m sep last str'. apply (terms_settle _ (Up (S n)) 1); [|lia|lia]. intros i' str'' Hi'. apply sub_settles; [exact Hd|lia|unfold zlen; lia]. }
  destruct (Z.eqb_spec (Z.shiftr ctrl 5) 0) as [K0|K0]; [destruct (_ <? 2); [exact I|apply T]|].
  destruct (Z.eqb_spec (Z.shiftr ctrl 5) 1) as [K1|K1]; [destruct (_ <? 2); [exact I|apply T]|].
  cbn [appendSubTerm]. destruct (0 >=? zlen d); [exact I|]. rewrite G. cbn [bind]. cbv zeta.
  destruct (Z.eqb_spec (Z.shiftr ctrl 5) 0); [contradiction|]. destruct (Z.eqb_spec (Z.shiftr ctrl 5) 1); [contradiction|].
  destruct (Z.shiftr ctrl 5 =? 2).
  { apply bind_settles; [apply zget_settles|]. intros a _. apply bind_settles.
    - unfold operator_text. repeat match goal with |- settles (if ?b then _ else _) => destruct b end; exact I.
    - intros op _. apply bind_settles; [apply zget_settles|]. intros; exact I. }
  destruct (Z.shiftr ctrl 5 =? 3); [apply quick_settles|]. destruct (Z.shiftr ctrl 5 =? 4); [apply quick_settles|].
  destruct (Z.shiftr ctrl 5 =? 5); [apply quick_settles|]. destruct (Z.shiftr ctrl 5 =? 6); [apply quick_settles|exact I].
Qed.
Lemma string_panics d : bytes d -> (forall c, condition_ok 256 c -> d <> condition_bytes c) -> condition_String d = Panic.
Proof.
  intros Hd H. pose proof (string_settles d Hd) as Hs. destruct (condition_String d) as [t|m| |] eqn:E; try contradiction; [exfalso|reflexivity].
  destruct (string_converse d t Hd E) as (c & H1 & H2). exact (H c H1 H2).
Qed.
