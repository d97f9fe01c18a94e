(** The settings cache and lookups through it. *)
From Verif Require Import Base BaseFacts Model_Helpers Proofs_Helpers Model_Font Model_Rewrites Model_Caches Spec_Caches.

(** ** raw access to the bits of a BoolList *)
Lemma getu8_bit s i : bytes (bl_bools s) -> 0 <= i ->
  bl_GetU8 s i = if i / 8 <? zlen (bl_bools s) then Ok (bit_at (bl_bools s) i) else Panic.
Proof.
  intros HB Hi. unfold bl_GetU8. rewrite shr_3. pose proof (Z.div_pos i 8 Hi ltac:(lia)). destruct (Z.ltb_spec (i / 8) (zlen (bl_bools s))).
  - rewrite (zget_nth _ _ 0) by lia. cbn [bind]. f_equal. unfold bit_at. apply bl_read_bit.
    apply (bytes_get (bl_bools s) (i / 8)); [exact HB|]. apply zget_nth. lia.
  - rewrite zget_panic by lia. reflexivity.
Qed.
Lemma setu8_bit s i v : bytes (bl_bools s) -> 0 <= i -> i / 8 < zlen (bl_bools s) ->
  exists b, bl_SetU8 s i v = Ok (mkBoolList (bl_size s) b) /\ bytes b /\ zlen b = zlen (bl_bools s) /\
    forall j, 0 <= j -> bit_at b j = if j =? i then v else bit_at (bl_bools s) j.
Proof.
  intros HB Hi Hr. destruct (bl_raw_write (bl_bools s) i v HB Hi Hr) as (b & E & H). exists b. split; [|exact H].
  unfold bl_SetU8. destruct (zget (bl_bools s) (Z.shiftr i 3)); cbn [bind] in *; try discriminate. now rewrite E.
Qed.
Lemma setu8_panic s i v : 0 <= i -> zlen (bl_bools s) <= i / 8 -> bl_SetU8 s i v = Panic.
Proof. intros Hi H. unfold bl_SetU8. rewrite shr_3, zget_panic by lia. reflexivity. Qed.
Lemma bit_false (l : list Z) i : bit_at (map (fun _ : Z => 0) l) i = false.
Proof.
  unfold bit_at. replace (nth (Z.to_nat (i / 8)) (map (fun _ : Z => 0) l) 0) with 0; [apply Z.testbit_0_l|].
  symmetry. exact (map_nth (fun _ : Z => 0) l 0 (Z.to_nat (i / 8))).
Qed.
Lemma new_bools n : 0 <= n -> bytes (bl_bools (NewBoolList n)) /\ zlen (bl_bools (NewBoolList n)) = (n + 7) / 8 /\
  forall i, bit_at (bl_bools (NewBoolList n)) i = false.
Proof.
  intros Hn. destruct (bl_new_ref n) as ((A & B & C) & D & E). split; [exact C|]. unfold NewBoolList in *.
  destruct (Z.leb_spec n 0); cbn [bl_bools bl_size] in *.
  - replace n with 0 by lia. split; [reflexivity|]. intros i. unfold bit_at. destruct (Z.to_nat (i / 8)); apply Z.testbit_0_l.
  - split; [exact B|]. intros i. unfold bit_at. rewrite nth_repeat. apply Z.testbit_0_l.
Qed.
Lemma zlen_repeat {A} (a : A) n : 0 <= n -> zlen (repeat a (Z.to_nat n)) = n.
Proof. intros H. unfold zlen. rewrite repeat_length. lia. Qed.
Lemma bl_get_true n i : 0 <= i < n -> bl_Get (bl_SetAllTrue (NewBoolList n)) i = Ok true.
Proof.
  intros Hi. destruct (bl_new_ref n) as ((A & B & C) & D & E). unfold NewBoolList in *. destruct (Z.leb_spec n 0); [lia|]. cbn [bl_size bl_bools] in *.
  unfold bl_Get, bl_SetAllTrue. cbn [bl_size bl_bools]. replace ((i <? 0) || (i >=? n)) with false by lia. rewrite (shr_3 i).
  rewrite (zget_nth _ _ ((fun _ : Z => 255) 0)); [|rewrite zlen_map, B; lia]. cbn [bind].
  rewrite (map_nth (fun _ : Z => 255) _ 0). rewrite bl_read_bit by (unfold byte; lia). f_equal.
  assert (F : forallb (fun j => Z.testbit 255 j) (zseq 8) = true) by (vm_compute; reflexivity).
  rewrite forallb_forall in F. apply F. apply in_zseq. lia.
Qed.

(** ** the invariant *)
Record wf (ns nw nc : Z) (c : SettingsCache) : Prop := {
  wf_ns : 0 <= ns; wf_nw : 0 <= nw; wf_nc : 0 <= nc;
  wf_m : sc_mappingRelevance c = bl_SetAllTrue (NewBoolList ns);
  wf_r : sc_conditionRelevance c = bl_SetAllTrue (NewBoolList ns);
  wf_mf : bytes (bl_bools (sc_mappingFlags c)) /\ zlen (bl_bools (sc_mappingFlags c)) = (nw + 7) / 8;
  wf_cf : bytes (bl_bools (sc_conditionFlags c)) /\ zlen (bl_bools (sc_conditionFlags c)) = (nc + 7) / 8;
  wf_cb : bytes (bl_bools (sc_conditionBools c)) /\ zlen (bl_bools (sc_conditionBools c)) = (nc + 7) / 8;
  wf_cases : zlen (sc_mappingCases c) = nw;
  wf_settings : zlen (sc_settings c) = ns }.

Lemma new_wf f c : bytes (Data f) -> NewSettingsCache f = Ok c ->
  exists ns nw nc, wf ns nw nc c /\ settings_Count f = Ok ns /\ mapping_NumSwitchTypes f = Ok nw /\ rewrites_NumConditions f = Ok nc /\
    sc_settings c = repeat 0 (Z.to_nat ns) /\ (forall i, bit_at (bl_bools (sc_mappingFlags c)) i = false) /\
    (forall i, bit_at (bl_bools (sc_conditionFlags c)) i = false) /\ ns < 256 /\ nw < 256 /\ nc < 256.
Proof.
  intros HB H. unfold NewSettingsCache in H. apply bind_ok in H. destruct H as (ns & E1 & H). apply bind_ok in H. destruct H as (nw & E2 & H).
  apply bind_ok in H. destruct H as (nc & E3 & H). match type of H with Ok ?x = _ => assert (Ec : c = x) by congruence end. clear H. subst c.
  pose proof (bytes_get _ _ _ HB E1) as B1. pose proof (bytes_get _ _ _ HB E2) as B2. pose proof (bytes_get _ _ _ HB E3) as B3. unfold byte in *.
  destruct (new_bools nw ltac:(lia)) as (W1 & W2 & W3). destruct (new_bools nc ltac:(lia)) as (N1 & N2 & N3).
  exists ns, nw, nc. repeat apply conj; try assumption; try lia; try reflexivity.
  constructor; try lia; try reflexivity; auto; cbn [sc_mappingCases sc_settings]; apply zlen_repeat; lia.
Qed.

Lemma set_unknown ns nw nc c key o : wf ns nw nc c -> ns <= key -> sc_Set c key o = (c, Panic).
Proof.
  intros W H. unfold sc_Set. rewrite <- (wf_settings _ _ _ _ W) in H.
  unfold zset. replace ((0 <=? key) && (key <? zlen (sc_settings c))) with false by lia. reflexivity.
Qed.
Lemma set_known ns nw nc c key o : wf ns nw nc c -> 0 <= key < ns ->
  sc_Set c key o = (mkCache (sc_mappingRelevance c) (sc_conditionRelevance c) (bl_SetAllFalse (sc_mappingFlags c))
    (bl_SetAllFalse (sc_conditionFlags c)) (sc_mappingCases c) (sc_conditionBools c) (upd (sc_settings c) (Z.to_nat key) o), Ok (true, true)).
Proof.
  intros W H. unfold sc_Set. rewrite zset_ok by (rewrite (wf_settings _ _ _ _ W); lia).
  cbn [sc_mappingRelevance sc_conditionRelevance]. rewrite (wf_m _ _ _ _ W) at 1. rewrite bl_get_true by lia. cbn [sc_mappingRelevance sc_conditionRelevance].
  rewrite (wf_r _ _ _ _ W) at 1. rewrite bl_get_true by lia. reflexivity.
Qed.
Lemma set_wf ns nw nc c key o : wf ns nw nc c -> 0 <= key -> wf ns nw nc (fst (sc_Set c key o)).
Proof.
  intros W H. destruct (Z_lt_dec key ns).
  - rewrite (set_known _ _ _ _ _ _ W) by lia. destruct W. cbn [fst]. constructor; cbn; auto.
    + rewrite zlen_map. split; [|tauto]. apply Forall_map, Forall_forall. intros. unfold byte. lia.
    + rewrite zlen_map. split; [|tauto]. apply Forall_map, Forall_forall. intros. unfold byte. lia.
    + rewrite zlen_upd. assumption.
  - rewrite (set_unknown _ _ _ _ _ _ W) by lia. exact W.
Qed.

(** GetMappingCase in terms of bits *)
Lemma get_case ns nw nc c k : wf ns nw nc c -> 0 <= k < 254 ->
  sc_GetMappingCase c k = if k / 8 <? (nw + 7) / 8
    then if bit_at (bl_bools (sc_mappingFlags c)) k then do v <- zget (sc_mappingCases c) k; Ok (v, true) else Ok (0, false) else Panic.
Proof.
  intros W Hk. unfold sc_GetMappingCase. destruct (Z.geb_spec k 254); [lia|]. rewrite getu8_bit by (try apply W; lia).
  destruct (wf_mf _ _ _ _ W) as [_ ->]. destruct (k / 8 <? (nw + 7) / 8); [|reflexivity]. cbn [bind]. now destruct (bit_at _ _).
Qed.
Lemma get_condition ns nw nc c k : wf ns nw nc c -> 0 <= k < 255 ->
  sc_GetRewriteCondition c k = if k / 8 <? (nc + 7) / 8
    then if bit_at (bl_bools (sc_conditionFlags c)) k then Ok (bit_at (bl_bools (sc_conditionBools c)) k, true) else Ok (false, false) else Panic.
Proof.
  intros W Hk. unfold sc_GetRewriteCondition. destruct (Z.eqb_spec k 255); [lia|]. rewrite !getu8_bit by (try apply W; lia).
  destruct (wf_cf _ _ _ _ W) as [_ ->]. destruct (wf_cb _ _ _ _ W) as [_ ->]. destruct (k / 8 <? (nc + 7) / 8); [|reflexivity]. cbn [bind]. now destruct (bit_at _ _).
Qed.
Lemma cache_case ns nw nc c k v : wf ns nw nc c -> 0 <= k -> exists c' o, sc_CacheMappingCase c k v = (c', o) /\ wf ns nw nc c' /\
  sc_settings c' = sc_settings c /\ sc_conditionFlags c' = sc_conditionFlags c /\ sc_conditionBools c' = sc_conditionBools c /\
  (k < nw -> o = Ok tt) /\
  (forall j, 0 <= j -> bit_at (bl_bools (sc_mappingFlags c')) j = ((j =? k) && (k / 8 <? (nw + 7) / 8)) || bit_at (bl_bools (sc_mappingFlags c)) j) /\
  (forall j, zget (sc_mappingCases c') j = if (j =? k) && (k <? nw) then Ok v else zget (sc_mappingCases c) j).
Proof.
  intros W Hk. unfold sc_CacheMappingCase. pose proof (wf_nw _ _ _ _ W) as Hnw.
  destruct (Z_lt_dec (k / 8) ((nw + 7) / 8)) as [Hw|Hw].
  - destruct (setu8_bit (sc_mappingFlags c) k true) as (b & -> & HB & HL & Hbit); [apply W|lia|destruct (wf_mf _ _ _ _ W) as [_ ->]; lia|].
    cbn [sc_mappingCases sc_mappingRelevance sc_conditionRelevance sc_conditionFlags sc_conditionBools sc_settings].
    destruct (Z_lt_dec k nw) as [Hlt|Hlt].
    + rewrite zset_ok by (rewrite (wf_cases _ _ _ _ W); lia). eexists _, _. split; [reflexivity|].
      split. { destruct W. constructor; cbn; auto; [rewrite HL; tauto|now rewrite zlen_upd]. }
      do 4 (split; [reflexivity|]). split.
      * intros j Hj. cbn. rewrite Hbit by lia. replace (k / 8 <? (nw + 7) / 8) with true by lia. destruct (j =? k); reflexivity.
      * intros j. cbn [sc_mappingCases]. destruct (Z_lt_dec j 0) as [Hj|Hj].
        { rewrite !zget_panic by lia. replace (j =? k) with false by lia. reflexivity. }
        destruct (Z_lt_dec j nw) as [Hjn|Hjn].
        { rewrite (zget_nth _ _ 0) by (rewrite zlen_upd, (wf_cases _ _ _ _ W); lia).
          rewrite nth_upd by (pose proof (wf_cases _ _ _ _ W) as E; unfold zlen in E; lia).
          destruct (Z.eqb_spec j k) as [->|Hne].
          - rewrite Nat.eqb_refl. replace (k <? nw) with true by lia. reflexivity.
          - destruct (Nat.eqb_spec (Z.to_nat j) (Z.to_nat k)); [lia|]. cbn [andb]. symmetry. apply zget_nth. rewrite (wf_cases _ _ _ _ W). lia. }
        { rewrite !zget_panic by (rewrite ?zlen_upd, (wf_cases _ _ _ _ W); lia). destruct (Z.eqb_spec j k); [lia|]. reflexivity. }
    + unfold zset. rewrite (wf_cases _ _ _ _ W). replace ((0 <=? k) && (k <? nw)) with false by lia. eexists _, _. split; [reflexivity|].
      split. { destruct W. constructor; cbn; auto. rewrite HL. tauto. }
      do 3 (split; [reflexivity|]). split; [lia|]. split.
      * intros j Hj. cbn. rewrite Hbit by lia. replace (k / 8 <? (nw + 7) / 8) with true by lia. destruct (j =? k); reflexivity.
      * intros j. cbn. replace (k <? nw) with false by lia. now rewrite andb_false_r.
  - rewrite setu8_panic by (destruct (wf_mf _ _ _ _ W) as [_ ->] || idtac; lia). eexists _, _. split; [reflexivity|]. split; [exact W|].
    do 3 (split; [reflexivity|]). split; [lia|]. split.
    + intros j Hj. replace (k / 8 <? (nw + 7) / 8) with false by lia. now rewrite andb_false_r.
    + intros j. replace (k <? nw) with false by lia. now rewrite andb_false_r.
Qed.
Lemma cache_condition ns nw nc c k v : wf ns nw nc c -> 0 <= k -> exists c' o, sc_CacheRewriteCondition c k v = (c', o) /\ wf ns nw nc c' /\
  sc_settings c' = sc_settings c /\ sc_mappingFlags c' = sc_mappingFlags c /\ sc_mappingCases c' = sc_mappingCases c /\
  (k < nc -> o = Ok tt) /\
  (forall j, 0 <= j -> bit_at (bl_bools (sc_conditionFlags c')) j = ((j =? k) && (k / 8 <? (nc + 7) / 8)) || bit_at (bl_bools (sc_conditionFlags c)) j) /\
  (forall j, 0 <= j -> bit_at (bl_bools (sc_conditionBools c')) j = if (j =? k) && (k / 8 <? (nc + 7) / 8) then v else bit_at (bl_bools (sc_conditionBools c)) j).
Proof.
  intros W Hk. unfold sc_CacheRewriteCondition.
  destruct (Z_lt_dec (k / 8) ((nc + 7) / 8)) as [Hw|Hw].
  - destruct (setu8_bit (sc_conditionFlags c) k true) as (b & -> & HB & HL & Hbit); [apply W|lia|destruct (wf_cf _ _ _ _ W) as [_ ->]; lia|].
    cbn [sc_mappingCases sc_mappingRelevance sc_conditionRelevance sc_conditionFlags sc_conditionBools sc_settings].
    destruct (setu8_bit (sc_conditionBools c) k v) as (b' & -> & HB' & HL' & Hbit'); [apply W|lia|destruct (wf_cb _ _ _ _ W) as [_ ->]; lia|].
    eexists _, _. split; [reflexivity|]. replace (k / 8 <? (nc + 7) / 8) with true by lia.
    split. { destruct W. constructor; cbn; auto; [rewrite HL|rewrite HL']; tauto. }
    do 4 (split; [reflexivity|]). cbn. split; intros j Hj; [rewrite Hbit by lia|rewrite Hbit' by lia]; destruct (j =? k); reflexivity.
  - rewrite setu8_panic by (try (destruct (wf_cf _ _ _ _ W) as [_ ->]); lia). eexists _, _. split; [reflexivity|]. split; [exact W|].
    replace (k / 8 <? (nc + 7) / 8) with false by lia.
    do 3 (split; [reflexivity|]). split; [intros; exfalso; apply Hw; apply Z.div_lt_upper_bound; [lia|]; pose proof (Z.div_mod (nc + 7) 8 ltac:(lia)); pose proof (Z.mod_pos_bound (nc + 7) 8 ltac:(lia)); lia|].
    split; intros j Hj; now rewrite andb_false_r.
Qed.

(** ** C32 *)
Lemma upd_split {A} (l : list A) n v : (n < length l)%nat -> upd l n v = firstn n l ++ v :: skipn (S n) l.
Proof.
  revert n. induction l as [|a l IH]; intros n Hn; [cbn in Hn; lia|]. destruct n; [reflexivity|]. cbn [upd firstn skipn app]. f_equal. apply IH. cbn in Hn. lia.
Qed.
Lemma ideal_set i key o : 0 <= key < zlen (i_settings i) ->
  ideal_step i (USet key o) = mkIdeal (upd (i_settings i) (Z.to_nat key) o) [] [].
Proof.
  intros H. cbn [ideal_step]. replace (key <? zlen (i_settings i)) with true by lia. rewrite upd_split by (unfold zlen in H; lia). reflexivity.
Qed.
Lemma word_of k n : 0 <= k < n -> k / 8 < (n + 7) / 8.
Proof. intros H. apply Z.div_lt_upper_bound; [lia|]. pose proof (Z.div_mod (n + 7) 8 ltac:(lia)). pose proof (Z.mod_pos_bound (n + 7) 8 ltac:(lia)). lia. Qed.
Section Ideal.
  Variables (evalCase : list Z -> Z -> Z) (evalCondition : list Z -> Z -> bool).
  Record agrees (ns nw nc : Z) (c : SettingsCache) (i : ideal) : Prop := {
    ag_wf : wf ns nw nc c;
    ag_settings : sc_settings c = i_settings i;
    ag_mf : forall j, 0 <= j -> bit_at (bl_bools (sc_mappingFlags c)) j = mem j (i_cases i) && (j / 8 <? (nw + 7) / 8);
    ag_mc : forall j, 0 <= j < nw -> mem j (i_cases i) = true -> zget (sc_mappingCases c) j = Ok (evalCase (i_settings i) j);
    ag_cf : forall j, 0 <= j -> bit_at (bl_bools (sc_conditionFlags c)) j = mem j (i_conditions i) && (j / 8 <? (nc + 7) / 8);
    ag_cb : forall j, 0 <= j -> mem j (i_conditions i) = true -> j / 8 < (nc + 7) / 8 -> bit_at (bl_bools (sc_conditionBools c)) j = evalCondition (i_settings i) j }.
  Lemma step_agrees ns nw nc c i u : agrees ns nw nc c i -> use_in_range u -> agrees ns nw nc (sc_step evalCase evalCondition c u) (ideal_step i u).
  Proof.
    intros H Hu. pose proof (ag_wf _ _ _ _ _ H) as W. pose proof (ag_settings _ _ _ _ _ H) as ES. pose proof (wf_settings _ _ _ _ W) as EL.
    destruct u as [k o|k|k]; cbn [sc_step use_in_range] in *; unfold byte in Hu.
    - pose proof (set_wf ns nw nc c k o W ltac:(lia)) as W'. destruct (Z_lt_dec k ns).
      + rewrite ideal_set by (rewrite <- ES; lia). rewrite (set_known _ _ _ _ _ _ W) in * by lia. cbn [fst] in *.
        constructor; cbn [sc_settings sc_mappingFlags sc_conditionFlags sc_mappingCases sc_conditionBools i_settings i_cases i_conditions mem existsb]; auto.
        * now rewrite ES.
        * intros j Hj. apply bit_false.
        * discriminate.
        * intros j Hj. apply bit_false.
        * discriminate.
      + rewrite (set_unknown _ _ _ _ _ _ W) by lia. cbn [fst ideal_step]. replace (k <? zlen (i_settings i)) with false by (rewrite <- ES; lia). exact H.
    - destruct (cache_case ns nw nc c k (evalCase (sc_settings c) k) W ltac:(lia)) as (c' & r & -> & W' & S1 & S2 & S3 & _ & Hb & Hg). cbn [fst ideal_step].
      constructor; cbn [i_settings i_cases i_conditions].
      + exact W'.
      + congruence.
      + intros j Hj. rewrite Hb by lia. rewrite (ag_mf _ _ _ _ _ H j Hj). cbn [mem existsb]. fold (mem j (i_cases i)).
        destruct (Z.eqb_spec j k) as [->|]; [|reflexivity]. cbn [andb orb]. destruct (k / 8 <? (nw + 7) / 8), (mem k (i_cases i)); reflexivity.
      + intros j Hj Hm. rewrite Hg. cbn [mem existsb] in Hm. fold (mem j (i_cases i)) in Hm. destruct (Z.eqb_spec j k) as [->|].
        * replace (k <? nw) with true by lia. cbn [andb]. now rewrite ES.
        * cbn [andb orb] in *. now apply (ag_mc _ _ _ _ _ H).
      + intros j Hj. rewrite S2. now apply (ag_cf _ _ _ _ _ H).
      + intros j Hj Hm Hw. rewrite S3. now apply (ag_cb _ _ _ _ _ H).
    - destruct (cache_condition ns nw nc c k (evalCondition (sc_settings c) k) W ltac:(lia)) as (c' & r & -> & W' & S1 & S2 & S3 & _ & Hb & Hg). cbn [fst ideal_step].
      constructor; cbn [i_settings i_cases i_conditions].
      + exact W'.
      + congruence.
      + intros j Hj. rewrite S2. now apply (ag_mf _ _ _ _ _ H).
      + intros j Hj Hm. rewrite S3. now apply (ag_mc _ _ _ _ _ H).
      + intros j Hj. rewrite Hb by lia. rewrite (ag_cf _ _ _ _ _ H j Hj). cbn [mem existsb]. fold (mem j (i_conditions i)).
        destruct (Z.eqb_spec j k) as [->|]; [|reflexivity]. cbn [andb orb]. destruct (k / 8 <? (nc + 7) / 8), (mem k (i_conditions i)); reflexivity.
      + intros j Hj Hm Hw. rewrite Hg by lia. cbn [mem existsb] in Hm. fold (mem j (i_conditions i)) in Hm. destruct (Z.eqb_spec j k) as [->|].
        * replace (k / 8 <? (nc + 7) / 8) with true by lia. cbn [andb]. now rewrite ES.
        * cbn [andb orb] in *. now apply (ag_cb _ _ _ _ _ H).
  Qed.
  Lemma history_agrees ns nw nc : forall us c i, agrees ns nw nc c i -> Forall use_in_range us ->
    agrees ns nw nc (fold_left (sc_step evalCase evalCondition) us c) (fold_left ideal_step us i).
  Proof.
    induction us as [|u us IH]; intros c i H HF; [exact H|]. cbn [fold_left]. apply IH; [|exact (Forall_inv_tail HF)].
    apply step_agrees; [exact H|exact (Forall_inv HF)].
  Qed.
  Lemma new_agrees f c : bytes (Data f) -> NewSettingsCache f = Ok c -> exists ns nw nc, settings_Count f = Ok ns /\ mapping_NumSwitchTypes f = Ok nw /\
    rewrites_NumConditions f = Ok nc /\ agrees ns nw nc c (mkIdeal (repeat 0 (Z.to_nat ns)) [] []) /\ ns < 256 /\ nw < 256 /\ nc < 256.
  Proof.
    intros HB H. destruct (new_wf f c HB H) as (ns & nw & nc & W & E1 & E2 & E3 & ES & B1 & B2 & L). exists ns, nw, nc.
    split; [exact E1|]. split; [exact E2|]. split; [exact E3|]. split; [|exact L].
    constructor; cbn [i_settings i_cases i_conditions mem existsb]; auto; discriminate.
  Qed.
  Lemma agrees_get ns nw nc c i k : agrees ns nw nc c i -> 0 <= k -> sc_Get c k = Ok (nth (Z.to_nat k) (i_settings i) 0).
  Proof.
    intros H Hk. unfold sc_Get. rewrite (ag_settings _ _ _ _ _ H). destruct (Z.leb_spec (zlen (i_settings i)) k).
    - rewrite nth_overflow; [reflexivity|]. unfold zlen in *. lia.
    - apply zget_nth. lia.
  Qed.
  Lemma agrees_case ns nw nc c i k : agrees ns nw nc c i -> 0 <= k < nw -> k < 254 ->
    sc_GetMappingCase c k = Ok (if mem k (i_cases i) then (evalCase (i_settings i) k, true) else (0, false)).
  Proof.
    intros H Hk H4. rewrite (get_case ns nw nc c k (ag_wf _ _ _ _ _ H)) by lia. pose proof (word_of k nw Hk).
    replace (k / 8 <? (nw + 7) / 8) with true by lia. rewrite (ag_mf _ _ _ _ _ H) by lia. replace (k / 8 <? (nw + 7) / 8) with true by lia. rewrite andb_true_r.
    destruct (mem k (i_cases i)) eqn:E; [|reflexivity]. rewrite (ag_mc _ _ _ _ _ H k Hk E). reflexivity.
  Qed.
  Lemma agrees_no_case ns nw nc c i k : agrees ns nw nc c i -> nw <= k < 254 ->
    sc_GetMappingCase c k = Panic \/ sc_GetMappingCase c k = Ok (0, false).
  Proof.
    intros H Hk. pose proof (wf_nw _ _ _ _ (ag_wf _ _ _ _ _ H)). rewrite (get_case ns nw nc c k (ag_wf _ _ _ _ _ H)) by lia.
    destruct (k / 8 <? (nw + 7) / 8); [|auto]. destruct (bit_at _ _); [|auto]. rewrite zget_panic; [auto|]. rewrite (wf_cases _ _ _ _ (ag_wf _ _ _ _ _ H)). lia.
  Qed.
  Lemma agrees_condition ns nw nc c i k : agrees ns nw nc c i -> 0 <= k < nc -> k < 255 ->
    sc_GetRewriteCondition c k = Ok (if mem k (i_conditions i) then (evalCondition (i_settings i) k, true) else (false, false)).
  Proof.
    intros H Hk H4. rewrite (get_condition ns nw nc c k (ag_wf _ _ _ _ _ H)) by lia. pose proof (word_of k nc Hk).
    replace (k / 8 <? (nc + 7) / 8) with true by lia. rewrite (ag_cf _ _ _ _ _ H) by lia. replace (k / 8 <? (nc + 7) / 8) with true by lia. rewrite andb_true_r.
    destruct (mem k (i_conditions i)) eqn:E; [|reflexivity]. rewrite (ag_cb _ _ _ _ _ H k ltac:(lia) E ltac:(lia)). reflexivity.
  Qed.
  Lemma agrees_no_condition ns nw nc c i k v : agrees ns nw nc c i -> 0 <= k < 255 ->
    sc_GetRewriteCondition c k = Ok (v, true) -> v = evalCondition (i_settings i) k.
  Proof.
    intros H Hk. rewrite (get_condition ns nw nc c k (ag_wf _ _ _ _ _ H)) by lia. destruct (Z.ltb_spec (k / 8) ((nc + 7) / 8)); [|discriminate].
    destruct (bit_at (bl_bools (sc_conditionFlags c)) k) eqn:E; [|discriminate]. rewrite (ag_cf _ _ _ _ _ H) in E by lia. apply andb_true_iff in E. destruct E as [E _].
    rewrite (ag_cb _ _ _ _ _ H k ltac:(lia) E ltac:(lia)). intros X. congruence.
  Qed.
End Ideal.

(** ** C30 *)
(** every case reported as cached is the evaluation under the current settings *)
Definition sound (f : Font) (c : SettingsCache) : Prop := forall k v, 0 <= k < 254 ->
  bit_at (bl_bools (sc_mappingFlags c)) k = true -> zget (sc_mappingCases c) k = Ok v -> mapping_EvaluateSwitch f k (sc_settings c) = Ok v.
Lemma set_sound ns nw nc f c k o : wf ns nw nc c -> 0 <= k -> sound f c -> sound f (fst (sc_Set c k o)).
Proof.
  intros W Hk S. destruct (Z_lt_dec k ns).
  - rewrite (set_known _ _ _ _ _ _ W) by lia. intros j v Hj. cbn. rewrite bit_false. discriminate.
  - rewrite (set_unknown _ _ _ _ _ _ W) by lia. exact S.
Qed.
Lemma evaluate_inv f k settings v nw : mapping_NumSwitchTypes f = Ok nw -> mapping_EvaluateSwitch f k settings = Ok v -> k < nw.
Proof. intros E H. unfold mapping_EvaluateSwitch in H. rewrite E in H. cbn [bind] in H. destruct (Z.geb_spec k nw); [discriminate|lia]. Qed.
Lemma evaluate_out f k settings nw : mapping_NumSwitchTypes f = Ok nw -> nw <= k -> mapping_EvaluateSwitch f k settings = Panic.
Proof. intros E H. unfold mapping_EvaluateSwitch. rewrite E. cbn [bind]. destruct (Z.geb_spec k nw); [reflexivity|lia]. Qed.
Lemma cached_case_spec ns nw nc f c k : wf ns nw nc c -> mapping_NumSwitchTypes f = Ok nw -> sound f c -> 0 <= k < 254 ->
  exists c', cached_case f c k = (c', mapping_EvaluateSwitch f k (sc_settings c)) /\ wf ns nw nc c' /\ sound f c' /\ sc_settings c' = sc_settings c.
Proof.
  intros W EN S Hk. unfold cached_case. rewrite (get_case ns nw nc c k W Hk). pose proof (word_of k nw) as Hw.
  destruct (Z.ltb_spec (k / 8) ((nw + 7) / 8)) as [H1|H1].
  - destruct (bit_at (bl_bools (sc_mappingFlags c)) k) eqn:Eb.
    + destruct (zget_cases (sc_mappingCases c) k) as [[v Ev]|Ev]; rewrite Ev; cbn [bind].
      * exists c. rewrite (S k v Hk Eb Ev). auto.
      * exists c. rewrite (evaluate_out f k _ nw EN); [auto|]. destruct (Z_lt_dec k nw); [|lia].
        destruct (zget_in_range (sc_mappingCases c) k) as [v Ev']; [rewrite (wf_cases _ _ _ _ W); lia|]. congruence.
    + destruct (mapping_EvaluateSwitch f k (sc_settings c)) as [v| | |] eqn:Ee; try (exists c; auto; fail).
      pose proof (evaluate_inv f k _ v nw EN Ee). destruct (cache_case ns nw nc c k v W ltac:(lia)) as (c' & o & -> & W' & S1 & _ & _ & Ho & Hb & Hg).
      rewrite Ho by lia. cbn [bind]. exists c'. split; [reflexivity|]. split; [exact W'|]. split; [|exact S1].
      intros j x Hj. rewrite Hb by lia. rewrite Hg, S1. destruct (Z.eqb_spec j k) as [->|].
      * replace (k <? nw) with true by lia. cbn [andb]. intros _ X. congruence.
      * cbn [andb orb]. now apply S.
  - exists c. rewrite (evaluate_out f k _ nw EN); [auto|]. lia.
Qed.
Lemma entry_switch_byte f n i b s e k : bytes (Data f) -> mapping_entry f n i = Ok (b, s, e, k) -> byte k.
Proof.
  intros HB H. unfold mapping_entry in H. apply bind_ok in H. destruct H as (b1 & _ & H). apply bind_ok in H. destruct H as (e1 & _ & H).
  apply bind_ok in H. destruct H as (s1 & _ & H). destruct (e1 <=? s1); [discriminate|]. apply bind_ok in H. destruct H as (t & Et & H).
  assert (k = t) by congruence. subst k. exact (bytes_get _ _ _ HB Et).
Qed.
Lemma lookup_spec ns nw nc f c cp : bytes (Data f) -> wf ns nw nc c -> mapping_NumSwitchTypes f = Ok nw -> sound f c ->
  exists c', mapping_Utf8WithCache f cp c = (c', mapping_Utf8 f cp (sc_settings c)) /\ wf ns nw nc c' /\ sound f c' /\ sc_settings c' = sc_settings c.
Proof.
  intros HB W EN S. unfold mapping_Utf8WithCache, mapping_Utf8.
  destruct (mapping_NumEntries f) as [n| | |]; cbn [bind]; try (exists c; auto; fail).
  destruct (mapping_search f (u32 cp) n) as [[i|]| | |]; cbn [bind]; try (exists c; auto; fail).
  destruct (mapping_entry f n i) as [[[[b s] e] k]| | |] eqn:Ee; cbn [bind]; try (exists c; auto; fail).
  pose proof (entry_switch_byte _ _ _ _ _ _ _ HB Ee) as Hk. unfold byte in Hk.
  destruct (Z.eqb_spec k 255); [exists c; auto|]. destruct (Z.eqb_spec k 254); cbn [negb]; [exists c; auto|].
  destruct (cached_case_spec ns nw nc f c k W EN S ltac:(lia)) as (c' & -> & H). exists c'. split; [reflexivity|exact H].
Qed.
Lemma set_settings ns nw nc c k o : wf ns nw nc c -> 0 <= k -> sc_settings (fst (sc_Set c k o)) = i_settings (ideal_step (mkIdeal (sc_settings c) [] []) (USet k o)).
Proof.
  intros W Hk. pose proof (wf_settings _ _ _ _ W). destruct (Z_lt_dec k ns).
  - rewrite (set_known _ _ _ _ _ _ W) by lia. rewrite ideal_set by (cbn; lia). reflexivity.
  - rewrite (set_unknown _ _ _ _ _ _ W) by lia. cbn [ideal_step i_settings]. replace (k <? zlen (sc_settings c)) with false by lia. reflexivity.
Qed.
Lemma lookups_spec ns nw nc f : bytes (Data f) -> mapping_NumSwitchTypes f = Ok nw -> forall l c, wf ns nw nc c -> sound f c -> Forall request_in_range l ->
  fst (cached_lookups f c l) = plain_lookups (mapping_Utf8 f) (sc_settings c) l.
Proof.
  intros HB EN. induction l as [|[k o|cp] l IH]; intros c W S HF; cbn [cached_lookups plain_lookups]; [reflexivity| |].
  - pose proof (Forall_inv HF) as Hr. cbn in Hr. unfold byte in Hr. rewrite <- (set_settings ns nw nc) by (auto; lia).
    apply IH; [now apply set_wf|eapply set_sound; eauto; lia|exact (Forall_inv_tail HF)].
  - destruct (lookup_spec ns nw nc f c cp HB W EN S) as (c' & -> & W' & S' & ES). specialize (IH c' W' S' (Forall_inv_tail HF)).
    destruct (cached_lookups f c' l) as [a c'']. cbn [fst] in *. rewrite IH, ES. reflexivity.
Qed.
Lemma new_sound f c : bytes (Data f) -> NewSettingsCache f = Ok c -> sound f c.
Proof. intros HB H. destruct (new_wf f c HB H) as (ns & nw & nc & _ & _ & _ & _ & _ & B & _). intros k v Hk. rewrite B. discriminate. Qed.
