(** The mapping cache. *)
From Coq Require Import Permutation.
From Verif Require Import Base BaseFacts Model_Helpers Proofs_Helpers Model_Font Model_Rewrites Model_Caches Spec_Caches Proofs_Caches.

(** ** what a lookup depends on *)
Lemma group_case f cp st g : bytes (Data f) -> mapping_Utf8 f cp st = Ok (Some g) ->
  byte (gg_switchType g) /\
  (254 <= gg_switchType g -> gg_caseBranch g = 0 /\ forall st', mapping_Utf8 f cp st' = Ok (Some g)) /\
  (gg_switchType g < 254 -> mapping_EvaluateSwitch f (gg_switchType g) st = Ok (gg_caseBranch g) /\
     forall st', mapping_EvaluateSwitch f (gg_switchType g) st' = Ok (gg_caseBranch g) -> mapping_Utf8 f cp st' = Ok (Some g)) /\
  (forall st', mapping_Utf8 f cp st' <> Ok None).
Proof.
  intros HB. unfold mapping_Utf8. destruct (mapping_NumEntries f) as [n| | |]; cbn [bind]; try discriminate.
  destruct (mapping_search f (u32 cp) n) as [[i|]| | |]; cbn [bind]; try discriminate.
  destruct (mapping_entry f n i) as [[[[b s] e] k]| | |] eqn:Ee; cbn [bind]; try discriminate.
  pose proof (entry_switch_byte _ _ _ _ _ _ _ HB Ee) as Hk. pose proof Hk as Hk'. unfold byte in Hk'.
  destruct (Z.eqb_spec k 255) as [->|H5].
  - intros E. assert (Eg : g = mkGroup (b + s) 255 0 true) by congruence. subst g. cbn. split; [exact Hk|]. split; [auto|]. split; [lia|discriminate].
  - destruct (Z.eqb_spec k 254) as [->|H4]; cbn [negb bind].
    + destruct (skip_groups (Z.to_nat 0) f b s e) as [off| | |]; cbn [bind]; try discriminate.
      intros E. assert (Eg : g = mkGroup (b + off) 254 0 false) by congruence. subst g. cbn. split; [exact Hk|]. split; [auto|]. split; [lia|discriminate].
    + destruct (mapping_EvaluateSwitch f k st) as [t| | |] eqn:Et; cbn [bind]; try discriminate.
      destruct (skip_groups (Z.to_nat t) f b s e) as [off| | |] eqn:Eo; cbn [bind]; try discriminate.
      intros E. assert (Eg : g = mkGroup (b + off) k t false) by congruence. subst g. cbn. split; [exact Hk|]. split; [lia|]. split.
      * intros _. split; [exact Et|]. intros st' ->. cbn [bind]. rewrite Eo. reflexivity.
      * intros st'. destruct (mapping_EvaluateSwitch f k st') as [t'| | |]; cbn [bind]; try discriminate.
        destruct (skip_groups (Z.to_nat t') f b s e); cbn [bind]; discriminate.
Qed.

(** ** maps *)
Lemma map_get_delete m k j : map_get (map_delete m k) j = if j =? k then None else map_get m j.
Proof.
  unfold map_get, map_delete. induction m as [|[a b] m IH]; cbn [filter find fst].
  - now destruct (j =? k).
  - destruct (Z.eqb_spec a k) as [->|]; cbn [negb].
    + rewrite IH. destruct (Z.eqb_spec j k); [reflexivity|]. destruct (Z.eqb_spec k j); [lia|reflexivity].
    + cbn [find fst]. destruct (Z.eqb_spec a j); [|exact IH]. destruct (Z.eqb_spec j k); [lia|reflexivity].
Qed.
Lemma map_get_put m k v j : map_get (map_put m k v) j = if j =? k then Some v else map_get m j.
Proof.
  unfold map_put. unfold map_get at 1. cbn [find fst]. destruct (Z.eqb_spec k j) as [->|].
  - rewrite Z.eqb_refl. reflexivity.
  - fold (map_get (map_delete m k) j). rewrite map_get_delete. destruct (Z.eqb_spec j k); [lia|reflexivity].
Qed.

(** ** the entries *)
Definition data (e : mappingEntry) : mappingEntry := e_with_links e 0 0.
Definition link (n x : Z) : Prop := x = noEntry \/ 0 <= x < n.
Definition linked (l : list mappingEntry) : Prop := Forall (fun e => link (zlen l) (e_prev e) /\ link (zlen l) (e_next e)) l.
Lemma data_eq e e' : data e = data e' -> e_dropSignature e = e_dropSignature e' /\ e_codePoint e = e_codePoint e' /\ e_mappingOffset e = e_mappingOffset e' /\
  e_caseBranch e = e_caseBranch e' /\ e_directMapping e = e_directMapping e' /\ e_switchType e = e_switchType e'.
Proof. destruct e, e'. unfold data, e_with_links. cbn. intros H. injection H. auto 10. Qed.
Lemma data_get l l' i e : map data l' = map data l -> zget l i = Ok e -> exists e', zget l' i = Ok e' /\ data e' = data e.
Proof.
  intros H E. assert (E2 : zget (map data l') i = Ok (data e)) by (rewrite H, zget_map, E; reflexivity).
  rewrite zget_map in E2. destruct (zget l' i) as [e'| | |]; cbn [bind] in E2; try discriminate. exists e'. split; [reflexivity|congruence].
Qed.
Lemma map_upd {A B} (h : A -> B) l n v : map h (upd l n v) = upd (map h l) n (h v).
Proof. revert n. induction l as [|a l IH]; intros [|n]; cbn; auto. now rewrite IH. Qed.
Lemma upd_same {A} (l : list A) n a : nth_error l n = Some a -> upd l n a = l.
Proof. revert n. induction l as [|x l IH]; intros [|n] H; cbn in *; try discriminate; [congruence|]. now rewrite IH. Qed.
Lemma zget_nth_error {A} (l : list A) i a : zget l i = Ok a -> nth_error l (Z.to_nat i) = Some a.
Proof. intros H. pose proof (zget_ok_range _ _ _ H). rewrite (zget_nth l i a) in H by lia. rewrite (nth_error_nth' l a) by (unfold zlen in *; lia). congruence. Qed.
Lemma zget_upd {A} (l : list A) i j v : 0 <= i < zlen l -> zget (upd l (Z.to_nat i) v) j = if j =? i then Ok v else zget l j.
Proof.
  intros Hi. destruct (Z_lt_dec j 0) as [Hj|Hj]; [rewrite !zget_panic by lia; destruct (Z.eqb_spec j i); [lia|reflexivity]|].
  destruct (Z_lt_dec j (zlen l)) as [Hl|Hl].
  - rewrite (zget_nth _ _ v) by (rewrite zlen_upd; lia). rewrite nth_upd by (unfold zlen in *; lia).
    destruct (Z.eqb_spec j i) as [->|]; [now rewrite Nat.eqb_refl|]. destruct (Nat.eqb_spec (Z.to_nat j) (Z.to_nat i)); [lia|]. symmetry. apply zget_nth. lia.
  - rewrite !zget_panic by (rewrite ?zlen_upd; lia). destruct (Z.eqb_spec j i); [lia|reflexivity].
Qed.
Lemma forall_upd {A} (P : A -> Prop) l n v : Forall P l -> P v -> Forall P (upd l n v).
Proof. revert n. induction l as [|a l IH]; intros n H Hv; [exact H|]. destruct n; cbn; constructor; try exact (Forall_inv H); auto; try exact (Forall_inv_tail H). apply IH; auto. exact (Forall_inv_tail H). Qed.

Lemma entry_update_ok l i h : 0 <= i < zlen l -> (forall e, data (h e) = data e) ->
  (forall e, link (zlen l) (e_prev e) /\ link (zlen l) (e_next e) -> link (zlen l) (e_prev (h e)) /\ link (zlen l) (e_next (h e))) -> linked l ->
  exists l', entry_update l i h = Ok l' /\ map data l' = map data l /\ zlen l' = zlen l /\ linked l'.
Proof.
  intros Hi Hd Hh HL. unfold entry_update. destruct (zget_in_range l i Hi) as [e E]. rewrite E. cbn [bind]. rewrite zset_ok by lia.
  eexists. split; [reflexivity|]. split.
  - rewrite map_upd, Hd. apply upd_same. apply zget_nth_error in E. rewrite nth_error_map, E. reflexivity.
  - split; [apply zlen_upd|]. unfold linked. rewrite zlen_upd. apply forall_upd; [exact HL|]. apply Hh.
    unfold linked in HL. rewrite Forall_forall in HL. apply HL. exact (zget_in _ _ _ E).
Qed.
Lemma update_ok mru lru l index : linked l -> zlen l < noEntry -> 0 <= index < zlen l -> link (zlen l) mru -> 0 <= lru < zlen l ->
  exists mru' lru' l', updateMRU mru lru l index = Ok (mru', lru', l') /\ map data l' = map data l /\ zlen l' = zlen l /\ linked l' /\
    link (zlen l) mru' /\ 0 <= lru' < zlen l.
Proof.
  intros HL Hn Hi Hm Hl. unfold updateMRU. destruct (zget_in_range l index Hi) as [e E]. rewrite E. cbn [bind]. cbv zeta.
  assert (He : link (zlen l) (e_prev e) /\ link (zlen l) (e_next e)) by (unfold linked in HL; rewrite Forall_forall in HL; apply HL; exact (zget_in _ _ _ E)).
  destruct He as [Hp Hx]. destruct (Z.eqb_spec (e_next e) noEntry) as [E1|N1]; [exists mru, lru, l; auto 10|].
  assert (Hx' : 0 <= e_next e < zlen l) by (destruct Hx; [contradiction|assumption]).
  assert (D1 : forall p e, data (set_prev p e) = data e) by reflexivity. assert (D2 : forall p e, data (set_next p e) = data e) by reflexivity.
  assert (L1 : forall n p e, link n p -> link n (e_prev e) /\ link n (e_next e) -> link n (e_prev (set_prev p e)) /\ link n (e_next (set_prev p e))) by (cbn; tauto).
  assert (L2 : forall n p e, link n p -> link n (e_prev e) /\ link n (e_next e) -> link n (e_prev (set_next p e)) /\ link n (e_next (set_next p e))) by (cbn; tauto).
  assert (L0 : forall n, link n noEntry) by (left; reflexivity).
  assert (Li : link (zlen l) index) by (right; exact Hi).
  destruct (Z.eqb_spec (e_prev e) noEntry) as [E2|N2].
  - destruct (entry_update_ok l (e_next e) (set_prev noEntry)) as (l1 & -> & A1 & B1 & C1); auto. cbn [bind].
    destruct (entry_update_ok l1 index (set_next noEntry)) as (l2 & -> & A2 & B2 & C2); auto; [lia|]. cbn [bind].
    destruct (entry_update_ok l2 index (set_prev mru)) as (l3 & -> & A3 & B3 & C3); auto; [lia|intros; apply L1; auto; now rewrite B2, B1|]. cbn [bind].
    destruct (Z.eqb_spec mru noEntry) as [E3|N3]; cbn [negb bind].
    + exists index, (e_next e), l3. repeat apply conj; try lia; auto; congruence.
    + destruct Hm as [Hm|Hm]; [contradiction|].
      destruct (entry_update_ok l3 mru (set_next index)) as (l4 & -> & A4 & B4 & C4); auto; [lia|intros; apply L2; auto; now rewrite B3, B2, B1|]. cbn [bind].
      exists index, (e_next e), l4. repeat apply conj; try lia; auto; congruence.
  - assert (Hp' : 0 <= e_prev e < zlen l) by (destruct Hp; [contradiction|assumption]).
    assert (X : exists l1, (if negb (mru =? noEntry) then entry_update l mru (set_next index) else Ok l) = Ok l1 /\ map data l1 = map data l /\ zlen l1 = zlen l /\ linked l1).
    { destruct (Z.eqb_spec mru noEntry) as [E3|N3]; cbn [negb]; [exists l; auto|]. destruct Hm as [Hm|Hm]; [contradiction|]. apply entry_update_ok; auto. }
    destruct X as (l1 & -> & A1 & B1 & C1). cbn [bind].
    destruct (entry_update_ok l1 (e_prev e) (set_next (e_next e))) as (l2 & -> & A2 & B2 & C2); auto; [lia|intros; apply L2; auto; right; lia|]. cbn [bind].
    destruct (entry_update_ok l2 (e_next e) (set_prev (e_prev e))) as (l3 & -> & A3 & B3 & C3); auto; [lia|intros; apply L1; auto; right; lia|]. cbn [bind].
    destruct (entry_update_ok l3 index (set_next noEntry)) as (l4 & -> & A4 & B4 & C4); auto; [lia|]. cbn [bind].
    destruct (entry_update_ok l4 index (set_prev mru)) as (l5 & -> & A5 & B5 & C5); auto; [lia|intros; apply L1; auto; now rewrite B4, B3, B2, B1|]. cbn [bind].
    exists index, lru, l5. repeat apply conj; try lia; auto; congruence.
Qed.

(** ** the invariant *)
Definition group_of (e : mappingEntry) : GlyphMappingGroup := mkGroup (e_mappingOffset e) (e_switchType e) (e_caseBranch e) (e_directMapping e).
Record holds_for (f : Font) (m : MappingCache) (settings : list Z) (dirty : bool) (count : Z) : Prop := {
  h_font : mc_font m = f;
  h_count : mc_dropCounter m = count;
  h_size : 0 < zlen (mc_entries m) < noEntry;
  h_linked : linked (mc_entries m);
  h_mru : link (zlen (mc_entries m)) (mc_mru m);
  h_lru : 0 <= mc_lru m < zlen (mc_entries m);
  h_map : forall cp i, map_get (mc_cached m) cp = Some i -> exists e, zget (mc_entries m) i = Ok e /\ e_codePoint e = cp /\ e_dropSignature e <= count /\
    (exists st, mapping_Utf8 f cp st = Ok (Some (group_of e))) /\
    (e_dropSignature e = count -> dirty = false -> mapping_Utf8 f cp settings = Ok (Some (group_of e))) }.

Lemma group_of_data e e' : data e = data e' -> group_of e = group_of e'.
Proof. intros H. apply data_eq in H. destruct H as (_ & _ & H1 & H2 & H3 & H4). unfold group_of. congruence. Qed.

(** one entry replaced, links rearranged *)
Lemma entry_map f settings count (entries entries1 entries2 : list mappingEntry) (cached cached' : list (Z * Z)) index e1 :
  (forall cp i, map_get cached cp = Some i -> exists e, zget entries i = Ok e /\ e_codePoint e = cp /\ e_dropSignature e <= count /\
    (exists st, mapping_Utf8 f cp st = Ok (Some (group_of e))) /\
    (e_dropSignature e = count -> false = false -> mapping_Utf8 f cp settings = Ok (Some (group_of e)))) ->
  entries1 = upd entries (Z.to_nat index) e1 -> 0 <= index < zlen entries -> map data entries2 = map data entries1 ->
  e_dropSignature e1 = count -> mapping_Utf8 f (e_codePoint e1) settings = Ok (Some (group_of e1)) ->
  (forall cp i, map_get cached' cp = Some i -> (i = index -> e_codePoint e1 = cp) /\ (i <> index -> map_get cached cp = Some i)) ->
  (forall cp i, map_get cached' cp = Some i -> exists e, zget entries2 i = Ok e /\ e_codePoint e = cp /\ e_dropSignature e <= count /\
    (exists st, mapping_Utf8 f cp st = Ok (Some (group_of e))) /\
    (e_dropSignature e = count -> false = false -> mapping_Utf8 f cp settings = Ok (Some (group_of e)))).
Proof.
  intros H E1 Hi E2 Hs Hl Hm cp i Hg. destruct (Hm cp i Hg) as [M1 M2]. destruct (Z.eq_dec i index) as [->|Hne].
  - specialize (M1 eq_refl). subst cp. destruct (data_get entries1 entries2 index e1 E2) as (e2 & G2 & D2).
    { rewrite E1, zget_upd by lia. now rewrite Z.eqb_refl. }
    pose proof (data_eq _ _ D2) as (F1 & F2 & _). exists e2. rewrite (group_of_data _ _ D2), F1, F2. repeat split; eauto; try lia.
  - destruct (H cp i (M2 Hne)) as (e & G & C & S1 & X & Y). destruct (data_get entries1 entries2 i e E2) as (e2 & G2 & D2).
    { rewrite E1, zget_upd by lia. replace (i =? index) with false by lia. exact G. }
    pose proof (data_eq _ _ D2) as (F1 & F2 & _). exists e2. rewrite (group_of_data _ _ D2), F1, F2. auto.
Qed.
Lemma linked_upd l i e : linked l -> link (zlen l) (e_prev e) /\ link (zlen l) (e_next e) -> linked (upd l i e).
Proof. intros H He. unfold linked. rewrite zlen_upd. now apply forall_upd. Qed.
Lemma linked_get l i e : linked l -> zget l i = Ok e -> link (zlen l) (e_prev e) /\ link (zlen l) (e_next e).
Proof. intros H E. unfold linked in H. rewrite Forall_forall in H. apply H. exact (zget_in _ _ _ E). Qed.
Lemma zlen_data l l' : map data l = map data l' -> zlen l = zlen l'.
Proof. intros H. rewrite <- (zlen_map data l), <- (zlen_map data l'). now rewrite H. Qed.

Lemma get_spec ns nw nc f m c cp count : bytes (Data f) -> wf ns nw nc c -> mapping_NumSwitchTypes f = Ok nw -> sound f c ->
  holds_for f m (sc_settings c) false count ->
  exists m' c' o, mc_Get m cp c = (m', c', o) /\ visible o = visible (mapping_Utf8 f cp (sc_settings c)) /\
    wf ns nw nc c' /\ sound f c' /\ sc_settings c' = sc_settings c /\ holds_for f m' (sc_settings c) false count /\
    zlen (mc_entries m') = zlen (mc_entries m) /\
    (forall g, o = Ok (Some g) -> exists i, map_get (mc_cached m') cp = Some i).
Proof.
  intros HB W EN S H. unfold mc_Get. pose proof (h_size _ _ _ _ _ H) as Hsz. pose proof (h_lru _ _ _ _ _ H) as Hlru.
  destruct (map_get (mc_cached m) cp) as [idx|] eqn:Em.
  - destruct (h_map _ _ _ _ _ H cp idx Em) as (e & Ge & Ce & Se & (st & Xe) & Ye).
    pose proof (zget_ok_range _ _ _ Ge) as Hidx.
    destruct (update_ok (mc_mru m) (mc_lru m) (mc_entries m) idx) as (mru & lru & l & -> & D & L & LK & M & R); try apply H; try lia.
    destruct (data_get _ l idx e D Ge) as (e' & Ge' & De). rewrite Ge'. pose proof (data_eq _ _ De) as (F1 & F2 & F3 & F4 & F5 & F6).
    cbn [mc_dropCounter mc_font mc_cached]. rewrite (h_count _ _ _ _ _ H).
    assert (H' : holds_for f (mkMapping (mc_font m) count mru lru (mc_cached m) l) (sc_settings c) false count).
    { constructor; cbn [mc_font mc_dropCounter mc_entries mc_mru mc_lru mc_cached]; try rewrite L; auto; try apply H.
      intros cp' i' Hg'. destruct (h_map _ _ _ _ _ H cp' i' Hg') as (x & Gx & Cx & Sx & X1 & X2). destruct (data_get _ l i' x D Gx) as (x' & Gx' & Dx).
      pose proof (data_eq _ _ Dx) as (Q1 & Q2 & _). exists x'. rewrite (group_of_data _ _ Dx), Q1, Q2. auto. }
    rewrite F1. destruct (Z.eqb_spec (e_dropSignature e) count) as [Es|Es].
    + eexists _, c, _. split; [reflexivity|]. split.
      * rewrite (Ye Es eq_refl). unfold visible. f_equal. f_equal. unfold e_ToMappingGroup, without_switch, group_of. cbn. congruence.
      * do 4 (split; [now auto|]). split; [exact L|]. intros. exists idx. exact Em.
    + destruct (group_case f cp st (group_of e) HB Xe) as (Bk & K1 & K2 & K3). cbn [group_of gg_switchType gg_caseBranch] in *. unfold byte in Bk.
      assert (HN : exists v cd, sc_GetMappingCase c (e_switchType e) = Ok (v, cd) /\
        (cd = true -> v = e_caseBranch e -> mapping_Utf8 f cp (sc_settings c) = Ok (Some (group_of e)))).
      { destruct (Z_lt_dec (e_switchType e) 254) as [Hk|Hk].
        - destruct (K2 Hk) as [Ev Hv]. pose proof (evaluate_inv f _ _ _ nw EN Ev) as Hnw.
          pose proof (word_of (e_switchType e) nw ltac:(lia)) as Hw. rewrite (get_case ns nw nc c _ W) by lia.
          replace (e_switchType e / 8 <? (nw + 7) / 8) with true by lia.
          destruct (bit_at (bl_bools (sc_mappingFlags c)) (e_switchType e)) eqn:Eb; [|exists 0, false; split; [reflexivity|discriminate]].
          destruct (zget_in_range (sc_mappingCases c) (e_switchType e)) as [v Evv]; [rewrite (wf_cases _ _ _ _ W); lia|]. rewrite Evv. cbn [bind].
          exists v, true. split; [reflexivity|]. intros _ Hvc. apply Hv. rewrite <- Hvc. apply S; auto; lia.
        - exists 0, true. split; [unfold sc_GetMappingCase; destruct (Z.geb_spec (e_switchType e) 254); [reflexivity|lia]|]. intros _ _. apply K1. lia. }
      destruct HN as (v & cd & EG & HG). rewrite F6, EG, F4.
      destruct (cd && (v =? e_caseBranch e)) eqn:Ecd.
      * apply andb_true_iff in Ecd. destruct Ecd as [-> Ev]. assert (v = e_caseBranch e) by lia. specialize (HG eq_refl H0).
        rewrite zset_ok by lia. eexists _, c, _. split; [reflexivity|]. split.
        { rewrite HG. unfold visible. do 2 f_equal. unfold e_ToMappingGroup, without_switch, group_of, e_with_signature. cbn. congruence. }
        do 3 (split; [now auto|]). split; [|cbn [mc_entries mc_cached]; split; [rewrite zlen_upd; exact L|intros; exists idx; exact Em]].
        constructor; cbn [mc_font mc_dropCounter mc_entries mc_mru mc_lru mc_cached]; rewrite ?zlen_upd; try rewrite L; auto; try apply H.
        { apply linked_upd; [exact LK|]. exact (linked_get _ _ _ LK Ge'). }
        apply (entry_map f (sc_settings c) count l (upd l (Z.to_nat idx) (e_with_signature e' count)) _ (mc_cached m) (mc_cached m) idx (e_with_signature e' count)); auto; try lia.
        { exact (h_map _ _ _ _ _ H'). }
        { cbn [e_with_signature e_codePoint]. rewrite F2, Ce, HG. do 2 f_equal. unfold group_of, e_with_signature. cbn. congruence. }
        { intros cp' i' Hg'. split; [|auto]. intros ->. cbn [e_with_signature e_codePoint]. destruct (h_map _ _ _ _ _ H cp' idx Hg') as (x & Gx & Cx & _). congruence. }
      * destruct (lookup_spec ns nw nc f c cp HB W EN S) as (c' & EL & W' & S' & ES). rewrite (h_font _ _ _ _ _ H). rewrite EL.
        destruct (mapping_Utf8 f cp (sc_settings c)) as [[g|]| | |] eqn:EU; try (now destruct (K3 _ EU));
          try (eexists _, c', _; split; [reflexivity|]; split; [reflexivity|]; do 3 (split; [now auto|]); rewrite (h_font _ _ _ _ _ H) in H'; split; [exact H'|split; [exact L|discriminate]]).
        rewrite zset_ok by lia. eexists _, c', _. split; [reflexivity|]. split; [reflexivity|]. do 3 (split; [now auto|]).
        split; [|cbn [mc_entries mc_cached]; split; [rewrite zlen_upd; exact L|intros; exists idx; exact Em]].
        constructor; cbn [mc_font mc_dropCounter mc_entries mc_mru mc_lru mc_cached]; rewrite ?zlen_upd; try rewrite L; auto; try apply H.
        { apply linked_upd; [exact LK|]. exact (linked_get _ _ _ LK Ge'). }
        apply (entry_map f (sc_settings c) count l (upd l (Z.to_nat idx) (e_Update e' count g)) _ (mc_cached m) (mc_cached m) idx (e_Update e' count g)); auto; try lia.
        { exact (h_map _ _ _ _ _ H'). }
        { cbn [e_Update e_codePoint]. rewrite F2, Ce, EU. do 2 f_equal. now destruct g. }
        { intros cp' i' Hg'. split; [|auto]. intros ->. cbn [e_Update e_codePoint]. destruct (h_map _ _ _ _ _ H cp' idx Hg') as (x & Gx & Cx & _). congruence. }
  - destruct (lookup_spec ns nw nc f c cp HB W EN S) as (c' & EL & W' & S' & ES). rewrite (h_font _ _ _ _ _ H). rewrite EL.
    destruct (mapping_Utf8 f cp (sc_settings c)) as [[g|]| | |] eqn:EU;
      try (eexists _, c', _; split; [reflexivity|]; split; [reflexivity|]; do 4 (split; [now auto|]); split; [reflexivity|discriminate]).
    destruct (zget_in_range _ _ Hlru) as [e Ge]. rewrite Ge. rewrite zset_ok by lia. rewrite (h_count _ _ _ _ _ H).
    set (e1 := e_with_code (e_Update e count g) cp). set (l1 := upd (mc_entries m) (Z.to_nat (mc_lru m)) e1).
    assert (LK1 : linked l1). { apply linked_upd; [apply H|]. cbn. exact (linked_get _ _ _ (h_linked _ _ _ _ _ H) Ge). }
    assert (ZL : zlen l1 = zlen (mc_entries m)) by apply zlen_upd.
    destruct (update_ok (mc_mru m) (mc_lru m) l1 (mc_lru m)) as (mru & lru & l & -> & D & L & LK & M & R); rewrite ?ZL; auto; try lia; try apply H.
    eexists _, c', _. split; [reflexivity|]. split; [reflexivity|]. do 3 (split; [now auto|]). rewrite ZL in *.
    split; [|cbn [mc_entries mc_cached]; split; [exact L|intros; exists (mc_lru m); rewrite map_get_put, Z.eqb_refl; reflexivity]].
    constructor; cbn [mc_font mc_dropCounter mc_entries mc_mru mc_lru mc_cached]; rewrite ?L; auto; try apply H.
    apply (entry_map f (sc_settings c) count (mc_entries m) l1 l (mc_cached m) _ (mc_lru m) e1); auto; try lia.
    + exact (h_map _ _ _ _ _ H).
    + cbn [e1 e_with_code e_codePoint]. rewrite EU. do 2 f_equal. now destruct g.
    + intros cp' i'. rewrite map_get_put, map_get_delete. destruct (Z.eqb_spec cp' cp) as [->|N1].
      * intros E. assert (i' = mc_lru m) by congruence. subst i'. split; [reflexivity|congruence].
      * destruct (Z.eqb_spec cp' (e_codePoint e)) as [->|N2]; [discriminate|]. intros E. split; [|auto]. intros ->.
        destruct (h_map _ _ _ _ _ H cp' _ E) as (x & Gx & Cx & _). congruence.
Qed.

(** ** histories *)
Lemma zget_zseq n i : 0 <= i < n -> zget (zseq n) i = Ok i.
Proof.
  intros H. rewrite (zget_nth _ _ 0) by (rewrite zlen_zseq; lia). f_equal. unfold zseq.
  rewrite (nth_indep _ 0 (Z.of_nat 0)) by (rewrite map_length, seq_length; lia). rewrite map_nth, seq_nth by lia. lia.
Qed.
Lemma init_get n i : 0 <= i < n -> zget (init_entries n) i =
  Ok (e_with_links noMapping (if i =? 0 then noEntry else i - 1) (if i =? n - 1 then noEntry else i + 1)).
Proof. intros H. unfold init_entries. rewrite zget_map, zget_zseq by lia. reflexivity. Qed.
Lemma zlen_init n : 0 <= n -> zlen (init_entries n) = n.
Proof. intros H. unfold init_entries. rewrite zlen_map. now apply zlen_zseq. Qed.
Lemma init_linked n : 0 < n -> linked (init_entries n).
Proof.
  intros H. unfold linked. rewrite zlen_init by lia. unfold init_entries. apply Forall_map, Forall_forall. intros i Hi. apply in_zseq in Hi. cbn. unfold link. split.
  - destruct (Z.eqb_spec i 0); [auto|right; lia].
  - destruct (Z.eqb_spec i (n - 1)); [auto|right; lia].
Qed.
Lemma init_holds f n settings dirty count : 0 < n <= 65000 -> holds_for f (mkMapping f count noEntry 0 [] (init_entries n)) settings dirty count.
Proof.
  intros H. constructor; cbn [mc_font mc_dropCounter mc_entries mc_mru mc_lru mc_cached]; rewrite ?zlen_init by lia; auto.
  - unfold noEntry. lia.
  - apply init_linked. lia.
  - left. reflexivity.
  - lia.
  - intros cp i E. discriminate.
Qed.
Lemma new_holds f n m settings : NewMappingCache f n = Ok m -> holds_for f m settings false 0 /\ zlen (mc_entries m) = n /\ 0 < n <= 65000 /\ m = mkMapping f 0 noEntry 0 [] (init_entries n).
Proof.
  intros H. unfold NewMappingCache in H. destruct (Z.leb_spec n 0); [discriminate|]. destruct (Z.gtb_spec n 65000); [discriminate|].
  match type of H with Ok ?x = _ => assert (E : m = x) by congruence end. subst m. split; [apply init_holds; lia|]. split; [apply zlen_init; lia|]. split; [lia|reflexivity].
Qed.
Lemma drops_cons a l : drops (a :: l) = (match a with ADrop => 1 | _ => 0 end) + drops l.
Proof. unfold drops. destruct a; cbn [filter]; rewrite ?zlen_cons; lia. Qed.
Lemma answers_spec ns nw nc f : bytes (Data f) -> mapping_NumSwitchTypes f = Ok nw -> forall l m c dirty count,
  wf ns nw nc c -> sound f c -> holds_for f m (sc_settings c) dirty count -> zlen (mc_entries m) <= 65000 -> 0 <= count ->
  Forall action_in_range l -> drops_follow dirty l -> count + drops l < 4294967296 ->
  map visible (cached_answers m c l) = map visible (plain_answers (mapping_Utf8 f) (sc_settings c) l).
Proof.
  intros HB EN. induction l as [|a l IH]; intros m c dirty count W S H Hn Hc HF HD Hcount; [reflexivity|].
  pose proof (Forall_inv HF) as Ha. pose proof (Forall_inv_tail HF) as HF'. rewrite drops_cons in Hcount. pose proof (zlen_nonneg (filter (fun a => match a with ADrop => true | _ => false end) l)) as Hd. fold (drops l) in Hd.
  destruct a as [cp| |k o|]; cbn [cached_answers plain_answers drops_follow action_in_range] in *.
  - destruct HD as [-> HD]. destruct (get_spec ns nw nc f m c cp count HB W EN S H) as (m' & c' & r & -> & EV & W' & S' & ES & H' & L & _).
    cbn [map]. rewrite EV. f_equal. rewrite <- ES. apply (IH m' c' false count); auto; try lia. rewrite ES. exact H'.
  - apply (IH (mc_Drop m) c false (count + 1)); auto; try lia.
    assert (Eu : u32 (mc_dropCounter m + 1) = count + 1) by (rewrite (h_count _ _ _ _ _ H); unfold u32; apply Z.mod_small; lia).
    constructor; unfold mc_Drop; cbn [mc_font mc_dropCounter mc_entries mc_mru mc_lru mc_cached]; try apply H; [exact Eu|].
    intros cp i Em. destruct (h_map _ _ _ _ _ H cp i Em) as (e & G & C & Se & X & Y). exists e. repeat split; auto; lia.
  - unfold byte in Ha. rewrite <- (set_settings ns nw nc) by (auto; lia). apply (IH m (fst (sc_Set c k o)) true count); auto; try lia; try (now apply set_wf); [eapply set_sound; eauto; lia|].
    constructor; try apply H. intros cp i Em. destruct (h_map _ _ _ _ _ H cp i Em) as (e & G & C & Se & X & Y). exists e. repeat split; auto. discriminate.
  - apply (IH (mc_Reset m (mc_font m)) c false count); auto; try lia; unfold mc_Reset; cbn [mc_entries].
    + rewrite (h_font _ _ _ _ _ H), (h_count _ _ _ _ _ H). apply init_holds. pose proof (h_size _ _ _ _ _ H). lia.
    + pose proof (h_size _ _ _ _ _ H). rewrite zlen_init; lia.
Qed.

(** ** reachable caches (lookups only) *)
Definition mapped (f : Font) (settings : list Z) (cp : Z) : Prop := exists g, mapping_Utf8 f cp settings = Ok (Some g).
Lemma gets_holds ns nw nc f count : bytes (Data f) -> mapping_NumSwitchTypes f = Ok nw -> forall l m c,
  wf ns nw nc c -> sound f c -> holds_for f m (sc_settings c) false count ->
  let s := after_gets m c l in wf ns nw nc (snd s) /\ sound f (snd s) /\ sc_settings (snd s) = sc_settings c /\
    holds_for f (fst s) (sc_settings c) false count /\ zlen (mc_entries (fst s)) = zlen (mc_entries m).
Proof.
  intros HB EN. unfold after_gets. induction l as [|cp l IH]; intros m c W S H; [cbn; auto|]. cbn [fold_left fst snd]. cbv zeta.
  destruct (get_spec ns nw nc f m c cp count HB W EN S H) as (m' & c' & r & -> & _ & W' & S' & ES & H' & L & _). cbn [fst].
  rewrite <- ES in H'. destruct (IH m' c' W' S' H') as (A & B & C & D & E). rewrite ES in *. rewrite L in E. auto.
Qed.
Lemma after_gets_last m c l cp : after_gets m c (l ++ [cp]) = let s := after_gets m c l in fst (mc_Get (fst s) cp (snd s)).
Proof. unfold after_gets. rewrite fold_left_app. reflexivity. Qed.
Lemma last_cached ns nw nc f count m c l cp : bytes (Data f) -> mapping_NumSwitchTypes f = Ok nw ->
  wf ns nw nc c -> sound f c -> holds_for f m (sc_settings c) false count -> mapped f (sc_settings c) cp ->
  exists i, map_get (mc_cached (fst (after_gets m c (l ++ [cp])))) cp = Some i.
Proof.
  intros HB EN W S H [g Eg]. rewrite after_gets_last. cbv zeta. destruct (gets_holds ns nw nc f count HB EN l m c W S H) as (W1 & S1 & ES & H1 & _). cbv zeta in *.
  rewrite <- ES in H1, Eg. destruct (get_spec ns nw nc f _ _ cp count HB W1 EN S1 H1) as (m' & c' & r & -> & EV & _ & _ & _ & _ & _ & HG). cbn [fst].
  rewrite Eg in EV. destruct r as [[g'|]| | |]; cbn [visible] in EV; try discriminate. exact (HG _ eq_refl).
Qed.
Lemma cached_bound f m settings dirty count cps : holds_for f m settings dirty count -> NoDup cps ->
  Forall (fun cp => map_get (mc_cached m) cp <> None) cps -> zlen cps <= zlen (mc_entries m).
Proof.
  intros H ND HF. set (index := fun cp => match map_get (mc_cached m) cp with Some i => i | None => 0 end).
  assert (ND2 : NoDup (map index cps)).
  { rewrite Forall_forall in HF. clear - H ND HF. induction ND as [|cp l Hn ND IH]; cbn [map]; [constructor|]. constructor; [|apply IH; intros; apply HF; now right].
    intros Hin. apply in_map_iff in Hin. destruct Hin as (cp' & E & Hin). unfold index in E.
    pose proof (HF cp (or_introl eq_refl)) as N1. pose proof (HF cp' (or_intror Hin)) as N2.
    destruct (map_get (mc_cached m) cp) as [i|] eqn:E1; [|congruence]. destruct (map_get (mc_cached m) cp') as [j|] eqn:E2; [|congruence]. subst j.
    destruct (h_map _ _ _ _ _ H _ _ E1) as (x & Gx & Cx & _). destruct (h_map _ _ _ _ _ H _ _ E2) as (y & Gy & Cy & _). apply Hn. congruence. }
  assert (HI : incl (map index cps) (zseq (zlen (mc_entries m)))).
  { intros i Hi. apply in_map_iff in Hi. destruct Hi as (cp & <- & Hin). rewrite Forall_forall in HF. specialize (HF cp Hin). unfold index.
    destruct (map_get (mc_cached m) cp) as [i|] eqn:E; [|congruence]. destruct (h_map _ _ _ _ _ H _ _ E) as (x & Gx & _). apply in_zseq. exact (zget_ok_range _ _ _ Gx). }
  pose proof (NoDup_incl_length ND2 HI) as HL. rewrite map_length in HL. pose proof (zlen_zseq (zlen (mc_entries m)) (zlen_nonneg _)) as HZ. unfold zlen in *. lia.
Qed.

(** ** the order of eviction: for no size above one are the last two code points kept *)
Lemma zget_update l i h l' j : entry_update l i h = Ok l' -> zget l' j = if j =? i then do e <- zget l i; Ok (h e) else zget l j.
Proof.
  unfold entry_update. destruct (zget_cases l i) as [[e E]|E]; rewrite E; cbn [bind]; [|discriminate]. pose proof (zget_ok_range _ _ _ E).
  rewrite zset_ok by lia. intros X. assert (El : l' = upd l (Z.to_nat i) (h e)) by congruence. subst l'. now apply zget_upd.
Qed.
Record filling (n k : Z) (seen : list Z) (m : MappingCache) : Prop := {
  fi_lru : mc_lru m = k;
  fi_mru : mc_mru m = if k =? 0 then noEntry else k - 1;
  fi_len : zlen (mc_entries m) = n;
  fi_rest : forall j, k <= j < n -> exists e, zget (mc_entries m) j = Ok e /\ e_prev e = (if j =? k then noEntry else j - 1) /\ e_next e = (if j =? n - 1 then noEntry else j + 1);
  fi_map : forall cp i, map_get (mc_cached m) cp = Some i -> In cp seen }.
Lemma fresh_get f m c cp g c' : mc_font m = f -> map_get (mc_cached m) cp = None -> mapping_Utf8WithCache f cp c = (c', Ok (Some g)) ->
  forall e, zget (mc_entries m) (mc_lru m) = Ok e ->
  let e1 := e_with_code (e_Update e (mc_dropCounter m) g) cp in let entries := upd (mc_entries m) (Z.to_nat (mc_lru m)) e1 in
  let cached := map_put (map_delete (mc_cached m) (e_codePoint e)) cp (mc_lru m) in
  forall mru lru l, updateMRU (mc_mru m) (mc_lru m) entries (mc_lru m) = Ok (mru, lru, l) ->
  fst (mc_Get m cp c) = (mkMapping f (mc_dropCounter m) mru lru cached l, c').
Proof.
  intros EF EM EL e Ge. cbv zeta. intros mru lru l EU. unfold mc_Get. rewrite EM, EF, EL, Ge. pose proof (zget_ok_range _ _ _ Ge). rewrite zset_ok by lia. rewrite EU. reflexivity.
Qed.
Lemma fill_step ns nw nc f m c cp count n k seen : bytes (Data f) -> wf ns nw nc c -> mapping_NumSwitchTypes f = Ok nw -> sound f c ->
  holds_for f m (sc_settings c) false count -> mapped f (sc_settings c) cp -> filling n k seen m -> 0 <= k < n - 1 -> ~ In cp seen ->
  filling n (k + 1) (cp :: seen) (fst (fst (mc_Get m cp c))).
Proof.
  intros HB W EN S H [g Eg] FI Hk Hs. destruct (lookup_spec ns nw nc f c cp HB W EN S) as (c' & EL & _). rewrite Eg in EL.
  assert (EM : map_get (mc_cached m) cp = None) by (destruct (map_get (mc_cached m) cp) as [i|] eqn:E; [|reflexivity]; destruct Hs; exact (fi_map _ _ _ _ FI _ _ E)).
  destruct (fi_rest _ _ _ _ FI k ltac:(lia)) as (e & Ge & Pe & Ne). pose proof (fi_lru _ _ _ _ FI) as ELr. pose proof (fi_len _ _ _ _ FI) as EN'. pose proof (fi_mru _ _ _ _ FI) as EMr.
  rewrite Z.eqb_refl in Pe. replace (k =? n - 1) with false in Ne by lia.
  pose proof (h_size _ _ _ _ _ H) as Hsz.
  destruct (fi_rest _ _ _ _ FI (k + 1) ltac:(lia)) as (e2 & Ge2 & Pe2 & Ne2).
  pose proof (fresh_get f m c cp g c' (h_font _ _ _ _ _ H) EM EL e ltac:(rewrite ELr; exact Ge)) as FG. cbv zeta in FG. rewrite ELr in FG.
  set (e1 := e_with_code (e_Update e (mc_dropCounter m) g) cp) in *. set (l0 := upd (mc_entries m) (Z.to_nat k) e1) in *.
  assert (G0 : forall j, zget l0 j = if j =? k then Ok e1 else zget (mc_entries m) j) by (intros j; apply zget_upd; lia).
  assert (Z0 : zlen l0 = n) by (unfold l0; now rewrite zlen_upd).
  assert (Upd : forall l i h, zlen l = n -> 0 <= i < n -> exists l', entry_update l i h = Ok l' /\ zlen l' = n).
  { intros l i h Hl Hi. unfold entry_update. destruct (zget_in_range l i) as [x Ex]; [lia|]. rewrite Ex. cbn [bind]. rewrite zset_ok by lia. eexists. split; [reflexivity|]. now rewrite zlen_upd. }
  assert (EU : exists l, updateMRU (mc_mru m) k l0 k = Ok (k, k + 1, l) /\ zlen l = n /\ forall j, k + 1 <= j < n -> zget l j = if j =? k + 1 then Ok (set_prev noEntry e2) else zget (mc_entries m) j).
  { unfold updateMRU. rewrite (G0 k), Z.eqb_refl. cbn [bind]. cbv zeta. change (e_next e1) with (e_next e). change (e_prev e1) with (e_prev e). rewrite Ne, Pe.
    replace (k + 1 =? noEntry) with false by (unfold noEntry in *; lia). rewrite Z.eqb_refl.
    destruct (Upd l0 (k + 1) (set_prev noEntry) Z0 ltac:(lia)) as (l1 & U1 & Z1). rewrite U1. cbn [bind].
    destruct (Upd l1 k (set_next noEntry) Z1 ltac:(lia)) as (l2 & U2 & Z2). rewrite U2. cbn [bind].
    destruct (Upd l2 k (set_prev (mc_mru m)) Z2 ltac:(lia)) as (l3 & U3 & Z3). rewrite U3. cbn [bind].
    assert (G3 : forall j, k + 1 <= j < n -> zget l3 j = if j =? k + 1 then Ok (set_prev noEntry e2) else zget (mc_entries m) j).
    { intros j Hj. rewrite (zget_update _ _ _ _ _ U3). replace (j =? k) with false by lia. rewrite (zget_update _ _ _ _ _ U2). replace (j =? k) with false by lia.
      rewrite (zget_update _ _ _ _ _ U1). rewrite !G0. replace (k + 1 =? k) with false by lia. rewrite Ge2. cbn [bind]. replace (j =? k) with false by lia. reflexivity. }
    rewrite EMr. destruct (Z.eqb_spec k 0); [rewrite Z.eqb_refl; cbn [negb]; exists l3; auto|].
    replace (k - 1 =? noEntry) with false by (unfold noEntry in *; lia). cbn [negb].
    destruct (Upd l3 (k - 1) (set_next k) Z3 ltac:(lia)) as (l4 & U4 & Z4). rewrite U4. cbn [bind]. exists l4. split; [reflexivity|]. split; [exact Z4|].
    intros j Hj. rewrite (zget_update _ _ _ _ _ U4). replace (j =? k - 1) with false by lia. now apply G3. }
  destruct EU as (l & EU & ZL & GL). rewrite (FG _ _ _ EU). cbn [fst]. constructor; cbn [mc_lru mc_mru mc_entries mc_cached].
  - reflexivity.
  - replace (k + 1 =? 0) with false by lia. lia.
  - exact ZL.
  - intros j Hj. rewrite (GL j Hj). destruct (Z.eqb_spec j (k + 1)) as [->|].
    + exists (set_prev noEntry e2). split; [reflexivity|]. split; [reflexivity|exact Ne2].
    + destruct (fi_rest _ _ _ _ FI j ltac:(lia)) as (x & Gx & Px & Nx). exists x. split; [exact Gx|]. replace (j =? k) with false in Px by lia. auto.
  - intros cp' i. rewrite map_get_put, map_get_delete. destruct (Z.eqb_spec cp' cp) as [->|]; [left; reflexivity|]. destruct (cp' =? e_codePoint e); [discriminate|].
    intros E. right. exact (fi_map _ _ _ _ FI _ _ E).
Qed.
(** at the last slot nothing moves any more *)
Lemma full_step ns nw nc f m c cp count n : bytes (Data f) -> wf ns nw nc c -> mapping_NumSwitchTypes f = Ok nw -> sound f c ->
  holds_for f m (sc_settings c) false count -> mapped f (sc_settings c) cp -> map_get (mc_cached m) cp = None ->
  mc_lru m = n - 1 -> forall e, zget (mc_entries m) (n - 1) = Ok e -> e_next e = noEntry ->
  let m' := fst (fst (mc_Get m cp c)) in
  mc_lru m' = n - 1 /\ (exists e', zget (mc_entries m') (n - 1) = Ok e' /\ e_next e' = noEntry /\ e_codePoint e' = cp) /\
  mc_cached m' = map_put (map_delete (mc_cached m) (e_codePoint e)) cp (n - 1).
Proof.
  intros HB W EN S H [g Eg] EM ELr e Ge Ne. cbv zeta. destruct (lookup_spec ns nw nc f c cp HB W EN S) as (c' & EL & _). rewrite Eg in EL.
  pose proof (fresh_get f m c cp g c' (h_font _ _ _ _ _ H) EM EL e ltac:(rewrite ELr; exact Ge)) as FG. cbv zeta in FG. rewrite ELr in FG.
  set (e1 := e_with_code (e_Update e (mc_dropCounter m) g) cp) in *. pose proof (zget_ok_range _ _ _ Ge) as Hr.
  assert (G0 : zget (upd (mc_entries m) (Z.to_nat (n - 1)) e1) (n - 1) = Ok e1) by (rewrite zget_upd by lia; now rewrite Z.eqb_refl).
  assert (EU : updateMRU (mc_mru m) (n - 1) (upd (mc_entries m) (Z.to_nat (n - 1)) e1) (n - 1) = Ok (mc_mru m, n - 1, upd (mc_entries m) (Z.to_nat (n - 1)) e1)).
  { unfold updateMRU. rewrite G0. cbn [bind]. cbv zeta. change (e_next e1) with (e_next e). rewrite Ne, Z.eqb_refl. reflexivity. }
  rewrite (FG _ _ _ EU). cbn [fst mc_lru mc_entries mc_cached]. split; [reflexivity|]. split; [|reflexivity]. exists e1. auto.
Qed.
Lemma fill_all ns nw nc f count n : bytes (Data f) -> mapping_NumSwitchTypes f = Ok nw -> forall l m c k seen,
  wf ns nw nc c -> sound f c -> holds_for f m (sc_settings c) false count -> filling n k seen m -> 0 <= k -> k + zlen l <= n - 1 ->
  NoDup (l ++ seen) -> Forall (mapped f (sc_settings c)) l ->
  filling n (k + zlen l) (rev l ++ seen) (fst (after_gets m c l)).
Proof.
  intros HB EN. induction l as [|cp l IH]; intros m c k seen W S H FI Hk Hl ND HF.
  - rewrite zlen_nil, Z.add_0_r. exact FI.
  - rewrite zlen_cons in *. pose proof (zlen_nonneg l). unfold after_gets. cbn [fold_left]. cbn [app] in ND. pose proof (NoDup_cons_iff cp (l ++ seen)) as NI. apply NI in ND. destruct ND as [NI1 ND].
    pose proof (fill_step ns nw nc f m c cp count n k seen HB W EN S H (Forall_inv HF) FI ltac:(lia) ltac:(intros X; apply NI1, in_or_app; now right)) as FI'.
    destruct (get_spec ns nw nc f m c cp count HB W EN S H) as (m' & c' & r & E & _ & W' & S' & ES & H' & _). cbn [fst snd] in *. rewrite E in *. cbn [fst snd] in *.
    rewrite <- ES in H'. replace (k + (1 + zlen l)) with (k + 1 + zlen l) by lia. replace (rev (cp :: l) ++ seen) with (rev l ++ cp :: seen) by (cbn [rev]; now rewrite <- app_assoc).
    apply (IH m' c' (k + 1) (cp :: seen)); auto; try lia.
    + apply (Permutation_NoDup (Permutation_middle l seen cp)). constructor; assumption.
    + rewrite ES. exact (Forall_inv_tail HF).
Qed.

(** n + 1 distinct mapped code points on a fresh cache of n >= 2 entries: the one before the last
    is gone, although it is the second most recent *)
Lemma evicted ns nw nc f n m c l a b : bytes (Data f) -> mapping_NumSwitchTypes f = Ok nw -> wf ns nw nc c -> sound f c ->
  NewMappingCache f n = Ok m -> NoDup (l ++ [a; b]) -> Forall (mapped f (sc_settings c)) (l ++ [a; b]) -> zlen l = n - 1 ->
  map_get (mc_cached (fst (after_gets m c (l ++ [a; b])))) a = None.
Proof.
  intros HB EN W S EM ND HF Hl. destruct (new_holds f n m (sc_settings c) EM) as (H & Z & Hn & ->).
  assert (FI0 : filling n 0 [] (mkMapping f 0 noEntry 0 [] (init_entries n))).
  { constructor; cbn [mc_lru mc_mru mc_entries mc_cached]; auto. intros j Hj. rewrite init_get by lia. eexists. split; [reflexivity|]. split; reflexivity. discriminate. }
  apply Forall_app in HF. destruct HF as [HF1 HF2].
  assert (ND1 : NoDup l) by (clear - ND; induction l as [|x l IH]; [constructor|]; cbn [app] in ND; apply NoDup_cons_iff in ND; destruct ND as [N ND]; constructor; [intros X; apply N, in_or_app; now left|now apply IH]).
  pose proof (fill_all ns nw nc f 0 n HB EN l _ c 0 [] W S H FI0 ltac:(lia) ltac:(lia) ltac:(rewrite app_nil_r; exact ND1) HF1) as FI.
  destruct (gets_holds ns nw nc f 0 HB EN l _ c W S H) as (W1 & S1 & E1 & H1 & _). cbv zeta in *.
  replace (l ++ [a; b]) with ((l ++ [a]) ++ [b]) in * by (now rewrite <- app_assoc). rewrite !after_gets_last. cbv zeta.
  set (s := after_gets _ c l) in *. rewrite Hl in FI. replace (0 + (n - 1)) with (n - 1) in FI by lia. rewrite app_nil_r in FI.
  assert (Na : ~ In a l /\ ~ In b (a :: l)).
  { apply NoDup_remove in ND. rewrite app_nil_r in ND. destruct ND as [NDa Nb]. apply NoDup_remove in NDa. rewrite app_nil_r in NDa. destruct NDa as [_ Na]. split; [exact Na|].
    intros [->|X]; apply Nb, in_or_app; [right; left; reflexivity|left; exact X]. }
  destruct Na as [Na Nb].
  assert (Ma : map_get (mc_cached (fst s)) a = None) by (destruct (map_get (mc_cached (fst s)) a) as [i|] eqn:E; [|reflexivity]; destruct Na; apply in_rev; exact (fi_map _ _ _ _ FI _ _ E)).
  destruct (fi_rest _ _ _ _ FI (n - 1) ltac:(lia)) as (e & Ge & _ & Ne). rewrite Z.eqb_refl in Ne.
  rewrite <- E1 in H1, HF2.
  destruct (full_step ns nw nc f (fst s) (snd s) a 0 n HB W1 EN S1 H1 (Forall_inv HF2) Ma (fi_lru _ _ _ _ FI) e Ge Ne) as (L2 & (e2 & G2 & N2 & C2) & M2).
  destruct (get_spec ns nw nc f _ _ a 0 HB W1 EN S1 H1) as (m2 & c2 & r & E & _ & W2 & S2 & E2 & H2 & _). rewrite E in *. cbn [fst snd] in *. rewrite <- E2 in H2, HF2.
  assert (Mb : map_get (mc_cached m2) b = None).
  { rewrite M2, map_get_put, map_get_delete. destruct (Z.eqb_spec b a) as [->|]; [destruct Nb; now left|]. destruct (b =? e_codePoint e); [reflexivity|].
    destruct (map_get (mc_cached (fst s)) b) as [i|] eqn:Eb; [|reflexivity]. destruct Nb. right. apply in_rev. exact (fi_map _ _ _ _ FI _ _ Eb). }
  destruct (full_step ns nw nc f m2 c2 b 0 n HB W2 EN S2 H2 (Forall_inv (Forall_inv_tail HF2)) Mb L2 e2 G2 N2) as (_ & _ & M3). cbv zeta in M3. rewrite M3, map_get_put, map_get_delete, C2, Z.eqb_refl.
  destruct (Z.eqb_spec a b) as [->|]; [destruct Nb; now left|reflexivity].
Qed.
