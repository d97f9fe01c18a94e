(** Proofs about name validation. *)
From Verif Require Import Base BaseFacts Model_Names Spec_Names.

Lemma isAZaz09_spec c : isAZaz09 c = true <-> alnum c.
Proof. unfold isAZaz09, alnum, letter. lia. Qed.

Lemma hyphen_not_alnum : ~ alnum hyphen.
Proof. unfold alnum, letter, hyphen. lia. Qed.

Lemma basic_loop_spec s : forall b,
  (Forall (fun c => alnum c \/ c = hyphen) s /\
     exists r, basic_name_loop b s = Ok r /\
       (r = true <-> (s = [] /\ b = true) \/ (s <> [] /\ last s 0 = hyphen))) \/
  (~ Forall (fun c => alnum c \/ c = hyphen) s /\ exists m, basic_name_loop b s = Err m).
Proof.
  induction s as [|c s IH]; intros b; cbn [basic_name_loop].
  - left. split; [constructor|]. exists b. split; [reflexivity|]. split; intros H.
    + left. auto.
    + destruct H as [[_ H]|[H _]]; [exact H|congruence].
  - assert (step : forall b', (b' = true <-> c = hyphen) -> alnum c \/ c = hyphen ->
       basic_name_loop b (c :: s) = basic_name_loop b' s ->
      (Forall (fun c => alnum c \/ c = hyphen) (c :: s) /\
       exists r, basic_name_loop b' s = Ok r /\
         (r = true <-> (c :: s = [] /\ b = true) \/ (c :: s <> [] /\ last (c :: s) 0 = hyphen))) \/
      (~ Forall (fun c => alnum c \/ c = hyphen) (c :: s) /\ exists m, basic_name_loop b' s = Err m)).
    { intros b' Hb Hc _. destruct (IH b') as [(F & r & E & Hr)|(F & m & E)].
      - left. split; [constructor; auto|]. exists r. split; [exact E|]. rewrite Hr.
        destruct s as [|d s].
        + cbn [last]. split; intros H.
          * destruct H as [[_ H]|[H _]]; [|congruence]. right. split; [congruence|]. apply Hb, H.
          * destruct H as [[H _]|[_ H]]; [congruence|]. left. split; [reflexivity|]. apply Hb, H.
        + cbn [last] in *. split; intros H; destruct H as [[H _]|[_ H]]; try congruence;
            right; (split; [congruence|exact H]).
      - right. split; [intros H; inversion H; contradiction|]. exists m. exact E. }
    cbn [basic_name_loop] in step.
    destruct (isAZaz09 c) eqn:Ec.
    + apply step; auto.
      * apply isAZaz09_spec in Ec. split; [discriminate|]. intros ->. destruct (hyphen_not_alnum Ec).
      * left. apply isAZaz09_spec. exact Ec.
    + destruct (Z.eqb_spec c 45) as [->|Hn].
      * apply step; auto. split; reflexivity.
      * right. split; [|eexists; reflexivity]. intros H. inversion H as [|? ? [Hc|Hc] ?]; subst.
        -- apply isAZaz09_spec in Hc. congruence.
        -- apply Hn. reflexivity.
Qed.

Lemma validate_spec s : (exists m, ValidateBasicName s = Err m) \/ ValidateBasicName s = Ok tt.
Proof.
  unfold ValidateBasicName. destruct (zlen s >? 32); [left; eexists; reflexivity|].
  destruct (Z.eqb_spec (zlen s) 0) as [|Hl]; [left; eexists; reflexivity|].
  destruct s as [|c s]; [exfalso; apply Hl; reflexivity|]. cbn [zget]. change (zget (c :: s) 0) with (Ok c).
  cbn [bind]. destruct (c =? 45); [left; eexists; reflexivity|].
  destruct (basic_loop_spec (c :: s) false) as [(_ & r & E & _)|(_ & m & E)]; rewrite E; cbn [bind].
  - destruct r; [left; eexists; reflexivity|right; reflexivity].
  - left; eexists; reflexivity.
Qed.

Lemma validate_loose s : ValidateBasicName s = Ok tt <-> loose_name s.
Proof.
  unfold ValidateBasicName, loose_name. unfold zlen.
  destruct (Z.gtb_spec (Z.of_nat (length s)) 32) as [Hg|Hg].
  { split; [discriminate|]. intros (_ & H & _). lia. }
  destruct (Z.eqb_spec (Z.of_nat (length s)) 0) as [H0|H0].
  { split; [discriminate|]. intros (H & _). destruct s; [congruence|cbn in H0; lia]. }
  destruct s as [|c s]; [exfalso; apply H0; reflexivity|].
  change (zget (c :: s) 0) with (Ok c). cbn [bind hd].
  destruct (Z.eqb_spec c 45) as [->|Hn].
  { split; [discriminate|]. intros (_ & _ & _ & H & _). exfalso. apply H. reflexivity. }
  destruct (basic_loop_spec (c :: s) false) as [(F & r & E & Hr)|(F & m & E)]; rewrite E; cbn [bind].
  - destruct r.
    + split; [discriminate|]. intros (_ & _ & _ & _ & H). exfalso. apply H.
      destruct (proj1 Hr eq_refl) as [[H1 _]|[_ H1]]; [congruence|exact H1].
    + split; [|reflexivity]. intros _. repeat split; auto; try congruence; [lia|].
      intros H. assert (false = true); [|congruence]. apply Hr. right. split; [congruence|exact H].
  - split; [discriminate|]. intros (_ & _ & H & _). contradiction.
Qed.

(** The regular expression against the natural description. *)
Lemma last_app_ne {A} (l r : list A) d : r <> [] -> last (l ++ r) d = last r d.
Proof.
  intros H. induction l as [|x l IH]; [reflexivity|]. cbn [app].
  destruct (l ++ r) eqn:E; [destruct l; [cbn in E; congruence|discriminate]|]. cbn [last]. exact IH.
Qed.

Definition name_tail (prev : bool) (s : list Z) : Prop :=
  Forall (fun c => alnum c \/ c = hyphen) s /\ ~ double_hyphen s /\
  (s <> [] -> last s 0 <> hyphen) /\ (prev = true -> s <> [] /\ hd 0 s <> hyphen).

Lemma alnum_last r : r <> [] -> Forall alnum r -> last r 0 <> hyphen.
Proof.
  intros H F Hl. apply hyphen_not_alnum. rewrite <- Hl.
  rewrite Forall_forall in F. apply F. clear - H.
  induction r as [|x r IH]; [congruence|]. destruct r; [left; reflexivity|].
  right. apply IH. congruence.
Qed.

Lemma no_dh_cons c s : ~ double_hyphen s -> (c = hyphen -> hd 0 s <> hyphen) -> ~ double_hyphen (c :: s).
Proof.
  intros H1 H2 (a & b & E). destruct a as [|x a]; cbn in E; inversion E; subst.
  - apply H2; [reflexivity|]. reflexivity.
  - apply H1. exists a, b. reflexivity.
Qed.

Lemma no_dh_app r s : Forall alnum r -> ~ double_hyphen s -> ~ double_hyphen (r ++ s).
Proof.
  induction 1 as [|x r Hx _ IH]; intros H; [exact H|]. cbn [app]. apply no_dh_cons; auto.
  intros ->. destruct (hyphen_not_alnum Hx).
Qed.

Lemma chunks_ok s : name_chunks s ->
  Forall (fun c => alnum c \/ c = hyphen) s /\ ~ double_hyphen s /\ (s <> [] -> last s 0 <> hyphen).
Proof.
  induction 1 as [|w rest (r & Hr & Fr & Hw) _ (F & D & L)].
  - split; [constructor|]. split; [|congruence]. intros (a & b & E). destruct a; discriminate.
  - assert (Fr' : Forall (fun c => alnum c \/ c = hyphen) r) by (revert Fr; apply Forall_impl; auto).
    assert (D' : ~ double_hyphen (r ++ rest)) by (apply no_dh_app; auto).
    assert (L' : last (r ++ rest) 0 <> hyphen).
    { destruct rest as [|x rest]; [rewrite app_nil_r; apply alnum_last; auto|].
      rewrite last_app_ne by congruence. apply L. congruence. }
    destruct Hw as [->| ->].
    + split; [apply Forall_app; auto|]. split; auto.
    + cbn [app]. split; [constructor; [auto|apply Forall_app; auto]|]. split.
      * apply no_dh_cons; auto. intros _ H. destruct r as [|x r]; [congruence|]. cbn in H. subst.
        inversion Fr. destruct (hyphen_not_alnum H1).
      * intros _. destruct r as [|x r]; [congruence|]. cbn [app last] in *. exact L'.
Qed.

Lemma chunks_complete s : Forall (fun c => alnum c \/ c = hyphen) s -> ~ double_hyphen s ->
  (s <> [] -> last s 0 <> hyphen) -> name_chunks s.
Proof.
  induction s as [s IH] using (well_founded_induction (Wf_nat.well_founded_ltof _ (@length Z))).
  unfold Wf_nat.ltof in IH. intros F D L. destruct s as [|c s]; [constructor|].
  inversion F as [|? ? Hc F']; subst.
  assert (Ds : ~ double_hyphen s) by (intros (a & b & ->); apply D; exists (c :: a), b; reflexivity).
  assert (Ls : s <> [] -> last s 0 <> hyphen).
  { intros H. destruct s; [congruence|]. apply L. congruence. }
  destruct Hc as [Hc| ->].
  - change (c :: s) with ([c] ++ s). apply NCcons.
    + exists [c]. split; [congruence|]. split; [constructor; [auto|constructor]|auto].
    + apply IH; auto; cbn; lia.
  - destruct s as [|d s]; [exfalso; apply L; [congruence|reflexivity]|].
    inversion F' as [|? ? Hd F'']; subst. destruct Hd as [Hd| ->].
    + change (hyphen :: d :: s) with ([hyphen; d] ++ s). apply NCcons.
      * exists [d]. split; [congruence|]. split; [constructor; [auto|constructor]|auto].
      * apply IH; auto; [cbn; lia| |].
        -- intros (a & b & ->). apply Ds. exists (d :: a), b. reflexivity.
        -- intros H. destruct s; [congruence|]. apply Ls. congruence.
    + exfalso. apply D. exists [], s. reflexivity.
Qed.

Lemma basic_name_natural s : basic_name s <->
  loose_name s /\ letter (hd 0 s) /\ ~ double_hyphen s.
Proof.
  unfold basic_name, loose_name. split.
  - intros ((c & rest & -> & Hc & HN) & Hl). destruct (chunks_ok rest HN) as (F & D & L).
    assert (Hh : c <> hyphen) by (intros ->; unfold letter, hyphen in Hc; lia).
    cbn [hd]. split; [|split; [exact Hc|]].
    + split; [congruence|]. split; [exact Hl|]. split; [constructor; [left; left; exact Hc|exact F]|].
      split; [exact Hh|]. destruct rest as [|d rest]; [exact Hh|]. apply L. congruence.
    + apply no_dh_cons; auto.
  - intros ((H0 & Hl & F & Hh & HL) & Hc & D). split; [|exact Hl].
    destruct s as [|c rest]; [congruence|]. exists c, rest. split; [reflexivity|]. split; [exact Hc|].
    inversion F; subst. apply chunks_complete; auto.
    + intros (a & b & ->). apply D. exists (c :: a), b. reflexivity.
    + intros H. destruct rest; [congruence|]. exact HL.
Qed.

Lemma validate_basic s : letter (hd 0 s) -> ~ double_hyphen s ->
  (ValidateBasicName s = Ok tt <-> basic_name s).
Proof. intros H1 H2. rewrite validate_loose, basic_name_natural. tauto. Qed.
Lemma basic_accepted s : basic_name s -> ValidateBasicName s = Ok tt.
Proof. rewrite validate_loose, basic_name_natural. tauto. Qed.

Lemma spaced_spec s :
  (validateBasicSpacedName s = Ok tt <-> spaced_name s) /\
  (validateBasicSpacedName s = Ok tt \/ exists m, validateBasicSpacedName s = Err m).
Proof.
  assert (L : forall s, (spaced_name_loop s = Ok tt <-> Forall (fun c => alnum c \/ c = hyphen \/ c = 32) s) /\
     (spaced_name_loop s = Ok tt \/ exists m, spaced_name_loop s = Err m)).
  { clear s. induction s as [|c s (IH1 & IH2)]; cbn [spaced_name_loop].
    - split; [|left; reflexivity]. split; [constructor|reflexivity].
    - destruct (isAZaz09 c) eqn:E; cbn [orb].
      + apply isAZaz09_spec in E. split; [|exact IH2]. rewrite IH1. split; [constructor; auto|].
        intros H; inversion H; auto.
      + assert (NA : ~ alnum c) by (intros H; apply isAZaz09_spec in H; congruence).
        destruct ((c =? 45) || (c =? 32)) eqn:E2.
        * split; [|exact IH2]. rewrite IH1. split; [constructor; auto; right; unfold hyphen; lia|].
          intros H; inversion H; auto.
        * split; [|right; eexists; reflexivity]. split; [discriminate|]. intros H. inversion H as [|? ? Hc ?]; subst.
          destruct Hc as [Hc|Hc]; [contradiction|]. unfold hyphen in *. lia. }
  destruct (L s) as (L1 & L2). unfold validateBasicSpacedName, spaced_name, zlen.
  destruct (Z.gtb_spec (Z.of_nat (length s)) 32) as [Hg|Hg].
  { split; [|right; eexists; reflexivity]. split; [discriminate|]. intros (_ & H & _). lia. }
  destruct (Z.eqb_spec (Z.of_nat (length s)) 0) as [H0|H0].
  { split; [|right; eexists; reflexivity]. split; [discriminate|]. intros (H & _). destruct s; [congruence|cbn in H0; lia]. }
  split; [|exact L2]. rewrite L1. split; [|tauto]. intros F. repeat split; auto; [|lia].
  intros ->. apply H0. reflexivity.
Qed.
