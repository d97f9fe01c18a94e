(** Lemmas for C34: the code point 0. *)
From Coq Require Import Permutation.
From Verif Require Import Base BaseFacts Model_Helpers Model_Font Model_Caches Spec_Caches Proofs_Caches Proofs_Caches2 Proofs_Caches3.

(** a code point that is not cached takes an unused entry *)
Lemma take_unused f m c cp g c' U i F : mc_font m = f -> map_get (mc_cached m) cp = None -> mapping_Utf8WithCache f cp c = (c', Ok (Some g)) ->
  mc_lru m = i -> mc_mru m = lasti noEntry U -> chain (mc_entries m) noEntry U noEntry -> chain (mc_entries m) noEntry ((i, 0) :: F) noEntry ->
  NoDup (indices U ++ indices ((i, 0) :: F)) -> ~ In noEntry (indices U ++ indices ((i, 0) :: F)) ->
  mc_cached (fst (fst (mc_Get m cp c))) = map_put (map_delete (mc_cached m) 0) cp i /\ snd (fst (mc_Get m cp c)) = c' /\
  mc_font (fst (fst (mc_Get m cp c))) = f /\
  match F with
  | [] => True
  | (j, d) :: _ => let m' := fst (fst (mc_Get m cp c)) in mc_lru m' = j /\ mc_mru m' = i /\
      chain (mc_entries m') noEntry (U ++ [(i, cp)]) noEntry /\ chain (mc_entries m') noEntry F noEntry
  end.
Proof.
  intros EF EM EL Elru Emru CU CF ND NN.
  pose proof CF as (Li & CR). destruct (lk_get _ _ _ Li) as (e & Ge & Se). pose proof (zget_ok_range _ _ _ Ge) as Ri.
  assert (Ce : e_codePoint e = 0) by (unfold sk in Se; congruence).
  pose proof (fresh_get f m c cp g c' EF EM EL e ltac:(rewrite Elru; exact Ge)) as FG. cbv zeta in FG. rewrite Elru, Ce in FG.
  set (e1 := e_with_code (e_Update e (mc_dropCounter m) g) cp) in *. set (l0 := upd (mc_entries m) (Z.to_nat i) e1) in *.
  assert (L0 : forall j, lk l0 j = if j =? i then Ok (noEntry, hdi noEntry F, cp) else lk (mc_entries m) j).
  { intros j. unfold lk, l0. rewrite map_upd, zget_upd by (rewrite zlen_map; lia). destruct (j =? i); [|reflexivity]. unfold sk in Se. unfold sk, e1. cbn. congruence. }
  assert (NI : ~ In i (indices U) /\ ~ In i (indices F)).
  { apply NoDup_remove in ND. destruct ND as [_ ND]. split; intros X; apply ND, in_or_app; auto. }
  assert (CU0 : chain l0 noEntry U noEntry).
  { eapply chain_frame; [|exact CU]. intros j Hj. rewrite L0. destruct (Z.eqb_spec j i); [subst; destruct NI; contradiction|reflexivity]. }
  assert (CF0 : chain l0 noEntry ((i, cp) :: F) noEntry).
  { split; [rewrite L0, Z.eqb_refl; reflexivity|]. eapply chain_frame; [|exact CR]. intros j Hj. rewrite L0. destruct (Z.eqb_spec j i); [subst; destruct NI; contradiction|reflexivity]. }
  destruct F as [|[j d] F].
  - pose proof (move_none (mc_mru m) i l0 i noEntry cp (proj1 CF0)) as EU. rewrite (FG _ _ _ EU). cbn. auto.
  - destruct (move_first (mc_mru m) i l0 i cp j d F U CF0 CU0 Emru ND NN) as (l' & EU & _ & C1 & C2 & _).
    rewrite (FG _ _ _ EU). cbn [fst snd mc_cached mc_lru mc_mru mc_entries mc_font]. auto 10.
Qed.
Lemma zero_lost f n m c l cp : bytes (Data f) -> NewMappingCache f n = Ok m -> NewSettingsCache f = Ok c ->
  Forall (mapped f (sc_settings c)) (l ++ [0; cp]) -> ~ In 0 l -> cp <> 0 ->
  k_filling (kept_after n l) = true -> zlen (k_used (kept_after n l)) <= n - 2 -> ~ is_kept (kept_after n l) cp ->
  ~ hit (fst (after_gets m c (l ++ [0; cp]))) 0.
Proof.
  intros HB HM HC HF Nz Ncp KFi KLen NK. destruct (new_wf f c HB HC) as (ns & nw & nc & W & _ & E2 & _). destruct (new_holds f n m (sc_settings c) HM) as (H & _).
  apply Forall_app in HF. destruct HF as [HF1 HF2]. pose proof (new_sound f c HB HC) as SO.
  destruct (keeps_new f n m HM) as (F0 & K0). destruct (keeps_gets ns nw nc f 0 n HB E2 l m c _ _ _ W SO H K0 Nz HF1) as (U & F & K).
  destruct (gets_holds ns nw nc f 0 HB E2 l m c W SO H) as (W1 & S1 & E1 & H1 & _). cbv zeta in *. fold (kept_after n l) in K.
  replace (l ++ [0; cp]) with ((l ++ [0]) ++ [cp]) by (now rewrite <- app_assoc). rewrite !after_gets_last. cbv zeta.
  set (s := after_gets m c l) in *. destruct s as [m1 c1]. cbn [fst snd] in *.
  pose proof (kp_fill _ _ _ _ _ K) as FI. rewrite KFi in FI. destruct FI as (FN & FL & FS).
  assert (UL : zlen (k_used (kept_after n l)) = zlen U) by (rewrite <- (kp_used _ _ _ _ _ K); apply zlen_map).
  assert (LN : k_last (kept_after n l) = None).
  { destruct (k_last (kept_after n l)) as [x|] eqn:E; [|reflexivity]. destruct (kp_apart _ _ _ _ _ K x E) as (_ & i & ->). unfold zlen in FS at 2. cbn in FS. lia. }
  pose proof (kp_none _ _ _ _ _ K LN) as ZF. destruct F as [|[i a] F]; [now destruct FN|]. destruct F as [|[j d] F]; [unfold zlen in FS at 2; cbn in FS; lia|].
  pose proof (Forall_inv ZF) as Za. pose proof (Forall_inv (Forall_inv_tail ZF)) as Zd. cbn [snd] in Za, Zd. subst a d. cbn [hdi] in FL.
  rewrite <- E1 in HF2. destruct (Forall_inv HF2) as [g0 Eg0]. destruct (Forall_inv (Forall_inv_tail HF2)) as [g Eg].
  destruct (lookup_spec ns nw nc f c1 0 HB W1 E2 S1) as (c2 & EL0 & W2 & S2 & E3). rewrite Eg0 in EL0.
  destruct (lookup_spec ns nw nc f c2 cp HB W2 E2 S2) as (c3 & EL & _). rewrite E3, Eg in EL.
  assert (NoM : forall x, ~ is_kept (kept_after n l) x -> map_get (mc_cached m1) x = None).
  { intros x N. destruct (map_get (mc_cached m1) x) as [k|] eqn:E; [|reflexivity]. exfalso. apply (kp_cached _ _ _ _ _ K) in E.
    destruct E as [E|[E _]]; [|congruence]. apply N. left. rewrite <- (kp_used _ _ _ _ _ K). apply (pair_in k x), E. }
  assert (M0 : map_get (mc_cached m1) 0 = None).
  { apply NoM. destruct (kp_zero _ _ _ _ _ K) as [Z1 Z2]. intros [X|X]; contradiction. }
  pose proof (kp_nodup _ _ _ _ _ K) as ND. pose proof (kp_no _ _ _ _ _ K) as NN.
  destruct (take_unused f m1 c1 0 g0 c2 U i ((j, 0) :: F) (h_font _ _ _ _ _ H1) M0 EL0 FL (kp_mru _ _ _ _ _ K) (kp_U _ _ _ _ _ K) (kp_F _ _ _ _ _ K) ND NN) as (A1 & A2 & A3 & A4 & A5 & A6 & A7).
  destruct (mc_Get m1 0 c1) as [[m2 c2'] r2]. cbn [fst snd] in *. subst c2'.
  assert (M1 : map_get (mc_cached m2) cp = None).
  { rewrite A1, map_get_put, map_get_delete. destruct (Z.eqb_spec cp 0); [contradiction|]. apply NoM, NK. }
  assert (PE : indices (U ++ [(i, 0)]) ++ indices ((j, 0) :: F) = indices U ++ indices ((i, 0) :: (j, 0) :: F)).
  { unfold indices. rewrite map_app. cbn [map fst]. now rewrite <- app_assoc. }
  destruct (take_unused f m2 c2 cp g c3 (U ++ [(i, 0)]) j F A3 M1 EL A4 ltac:(rewrite lasti_app; exact A5) A6 A7 ltac:(rewrite PE; exact ND) ltac:(rewrite PE; exact NN)) as (B1 & _).
  intros [k Hk]. rewrite B1, map_get_put, map_get_delete in Hk. destruct (Z.eqb_spec 0 cp); [lia|]. discriminate.
Qed.
