(** Lemmas for C34: exactly which code points a mapping cache keeps. *)
From Coq Require Import Permutation.
From Verif Require Import Base BaseFacts Model_Helpers Model_Font Model_Caches Spec_Caches Proofs_Caches Proofs_Caches2.

Lemma nodup_r {A} (u v : list A) : NoDup (u ++ v) -> NoDup v.
Proof. induction u as [|x u IH]; cbn [app]; [auto|]. inversion_clear 1. auto. Qed.
Lemma nodup_l {A} (u v : list A) : NoDup (u ++ v) -> NoDup u.
Proof. induction u as [|x u IH]; cbn [app]; [constructor|]. inversion_clear 1 as [|? ? N D]. constructor; [intros X; apply N, in_or_app; left; exact X|auto]. Qed.

Definition sk (e : mappingEntry) : Z * Z * Z := (e_prev e, e_next e, e_codePoint e).
Definition lk (l : list mappingEntry) (i : Z) : outcome (Z * Z * Z) := zget (map sk l) i.
Lemma zget_map {A B} (f : A -> B) (l : list A) i : zget (map f l) i = do x <- zget l i; Ok (f x).
Proof. unfold zget. destruct (i <? 0); [reflexivity|]. rewrite nth_error_map. destruct (nth_error l (Z.to_nat i)); reflexivity. Qed.
Lemma lk_get l i x : lk l i = Ok x -> exists e, zget l i = Ok e /\ sk e = x.
Proof. unfold lk. rewrite zget_map. destruct (zget l i) eqn:E; cbn; try discriminate. intros X. injection X as <-. eauto. Qed.
Lemma get_lk l i e : zget l i = Ok e -> lk l i = Ok (sk e).
Proof. unfold lk. rewrite zget_map. intros ->. reflexivity. Qed.

Lemma set_next_lk l x v p q c : lk l x = Ok (p, q, c) ->
  exists l', entry_update l x (set_next v) = Ok l' /\ zlen l' = zlen l /\ forall j, lk l' j = if j =? x then Ok (p, v, c) else lk l j.
Proof.
  intros E. apply lk_get in E. destruct E as (e & E & S). unfold entry_update. rewrite E. cbn [bind]. pose proof (zget_ok_range _ _ _ E).
  rewrite zset_ok by lia. eexists. split; [reflexivity|]. split; [apply zlen_upd|]. intros j. unfold lk. rewrite map_upd.
  rewrite zget_upd by (rewrite zlen_map; lia). destruct (j =? x); [|reflexivity]. unfold sk in *. cbn. congruence.
Qed.
Lemma set_prev_lk l x v p q c : lk l x = Ok (p, q, c) ->
  exists l', entry_update l x (set_prev v) = Ok l' /\ zlen l' = zlen l /\ forall j, lk l' j = if j =? x then Ok (v, q, c) else lk l j.
Proof.
  intros E. apply lk_get in E. destruct E as (e & E & S). unfold entry_update. rewrite E. cbn [bind]. pose proof (zget_ok_range _ _ _ E).
  rewrite zset_ok by lia. eexists. split; [reflexivity|]. split; [apply zlen_upd|]. intros j. unfold lk. rewrite map_upd.
  rewrite zget_upd by (rewrite zlen_map; lia). destruct (j =? x); [|reflexivity]. unfold sk in *. cbn. congruence.
Qed.

(** ** Chains of entries, given by index and code point *)
Definition hdi (q : Z) (u : list (Z * Z)) : Z := match u with [] => q | (i, _) :: _ => i end.
Definition lasti (p : Z) (u : list (Z * Z)) : Z := last (map fst u) p.
Fixpoint chain (l : list mappingEntry) (p : Z) (u : list (Z * Z)) (q : Z) : Prop :=
  match u with
  | [] => True
  | (i, c) :: r => lk l i = Ok (p, hdi q r, c) /\ chain l i r q
  end.
Lemma lasti_cons p i c r : lasti p ((i, c) :: r) = lasti i r.
Proof. unfold lasti. cbn [map fst]. destruct r as [|[j d] r]; [reflexivity|]. cbn [map fst last]. generalize (map fst r). intros l. revert j. induction l as [|k l IH]; intros j; [reflexivity|]. cbn. apply IH. Qed.
Lemma lasti_app p u i c : lasti p (u ++ [(i, c)]) = i.
Proof. unfold lasti. rewrite map_app. cbn [map fst]. apply last_last. Qed.
Lemma hdi_app q u v : hdi q (u ++ v) = hdi (hdi q v) u.
Proof. destruct u as [|[i c] u]; reflexivity. Qed.
Lemma chain_app l u : forall p v q, chain l p (u ++ v) q <-> chain l p u (hdi q v) /\ chain l (lasti p u) v q.
Proof.
  induction u as [|[i c] u IH]; intros p v q; [unfold lasti; cbn; tauto|]. cbn [app chain]. rewrite lasti_cons, hdi_app, IH. tauto.
Qed.
Lemma chain_frame l l' u : (forall j, In j (map fst u) -> lk l' j = lk l j) -> forall p q, chain l p u q -> chain l' p u q.
Proof.
  induction u as [|[i c] u IH]; intros H p q; cbn [chain]; [auto|]. intros [A B]. split; [rewrite H by (left; reflexivity); exact A|].
  apply IH; [intros j Hj; apply H; right; exact Hj|exact B].
Qed.
Lemma chain_one l p i c q : chain l p [(i, c)] q <-> lk l i = Ok (p, q, c).
Proof. cbn. tauto. Qed.
Lemma chain_in l u : forall p q i c, chain l p u q -> In (i, c) u -> exists a b, lk l i = Ok (a, b, c).
Proof.
  induction u as [|[j d] u IH]; intros p q i c; cbn [chain In]; [tauto|]. intros [A B] [X|X]; [injection X as -> ->; eauto|eapply IH; eauto].
Qed.
(** the last entry gets another successor *)
Lemma chain_next l l' u i c q q' : chain l noEntry (u ++ [(i, c)]) q -> ~ In i (map fst u) ->
  (forall j, In j (map fst u) -> lk l' j = lk l j) -> lk l' i = Ok (lasti noEntry u, q', c) -> chain l' noEntry (u ++ [(i, c)]) q'.
Proof.
  intros C N F E. rewrite chain_app in *. destruct C as [C1 C2]. split; [eapply chain_frame; [exact F|exact C1]|]. apply chain_one. exact E.
Qed.

(** ** updateMRU *)
Definition indices (u : list (Z * Z)) : list Z := map fst u.
Lemma move_none mru lru l i p c : lk l i = Ok (p, noEntry, c) -> updateMRU mru lru l i = Ok (mru, lru, l).
Proof. intros E. apply lk_get in E. destruct E as (e & E & S). unfold updateMRU. rewrite E. cbn [bind]. injection S as S1 S2 S3. rewrite S2, Z.eqb_refl. reflexivity. Qed.

Lemma last_split (u : list (Z * Z)) : u <> [] -> exists w z d, u = w ++ [(z, d)].
Proof. intros H. destruct (exists_last H) as (w & [z d] & E). eauto. Qed.

(** the first of a chain [f] moves to the end of a chain [u] *)
Lemma move_first mru lru l i c j d f u :
  chain l noEntry ((i, c) :: (j, d) :: f) noEntry -> chain l noEntry u noEntry -> mru = lasti noEntry u ->
  NoDup (indices u ++ indices ((i, c) :: (j, d) :: f)) -> ~ In noEntry (indices u ++ indices ((i, c) :: (j, d) :: f)) ->
  exists l', updateMRU mru lru l i = Ok (i, j, l') /\ zlen l' = zlen l /\
    chain l' noEntry (u ++ [(i, c)]) noEntry /\ chain l' noEntry ((j, d) :: f) noEntry /\
    forall k, ~ In k (indices u ++ indices ((i, c) :: (j, d) :: f)) -> lk l' k = lk l k.
Proof.
  intros CF CU EM ND NN. cbn [chain hdi] in CF. destruct CF as (Li & Lj & CF).
  unfold indices in *. cbn [map fst] in *. 
  assert (Nij : i <> j). { apply nodup_r in ND. inversion_clear ND as [|? ? X _]. intros ->. apply X. left. reflexivity. }
  assert (Ui : ~ In i (map fst u)). { intros X. apply NoDup_remove_2 in ND. apply ND, in_or_app. left. exact X. }
  assert (Uj : ~ In j (map fst u)). { intros X. change (i :: j :: map fst f) with ([i] ++ j :: map fst f) in ND. rewrite app_assoc in ND. apply NoDup_remove_2 in ND. apply ND, in_or_app. left. apply in_or_app. left. exact X. }
  assert (Fi : ~ In i (map fst f)). { apply nodup_r in ND. inversion_clear ND as [|? ? X _]. intros Y. apply X. right. exact Y. }
  assert (Fj : ~ In j (map fst f)). { apply nodup_r in ND. inversion_clear ND as [|? ? _ Y]. inversion_clear Y as [|? ? X _]. exact X. }
  assert (Nj : j <> noEntry). { intros ->. apply NN, in_or_app. right. right. left. reflexivity. }
  assert (Ni : i <> noEntry). { intros ->. apply NN, in_or_app. right. left. reflexivity. }
  unfold updateMRU. destruct (lk_get _ _ _ Li) as (e & Ge & Se). rewrite Ge. cbn [bind]. injection Se as S1 S2 S3. rewrite S1, S2.
  replace (j =? noEntry) with false by lia. rewrite Z.eqb_refl. cbv zeta.
  destruct (set_prev_lk l j noEntry _ _ _ Lj) as (l1 & -> & Z1 & G1). cbn [bind].
  assert (Li1 : lk l1 i = Ok (noEntry, j, c)) by (rewrite G1; replace (i =? j) with false by lia; exact Li).
  destruct (set_next_lk l1 i noEntry _ _ _ Li1) as (l2 & -> & Z2 & G2). cbn [bind].
  assert (Li2 : lk l2 i = Ok (noEntry, noEntry, c)) by (rewrite G2, Z.eqb_refl; reflexivity).
  destruct (set_prev_lk l2 i mru _ _ _ Li2) as (l3 & -> & Z3 & G3). cbn [bind].
  assert (G : forall k, lk l3 k = if k =? i then Ok (mru, noEntry, c) else if k =? j then Ok (noEntry, hdi noEntry f, d) else lk l k).
  { intros k. rewrite G3, G2, G1. destruct (k =? i); reflexivity. }
  destruct u as [|x u0 _] using rev_ind.
  - change (lasti noEntry []) with noEntry in EM. subst mru. rewrite Z.eqb_refl. cbn [negb bind]. exists l3. split; [reflexivity|]. split; [lia|].
    split; [cbn; rewrite G, Z.eqb_refl; auto|]. split.
    + cbn [chain]. split; [rewrite G, Z.eqb_refl; replace (j =? i) with false by lia; reflexivity|]. eapply chain_frame; [|exact CF].
      intros k Hk. rewrite G. destruct (Z.eqb_spec k i); [congruence|]. destruct (Z.eqb_spec k j); [congruence|reflexivity].
    + intros k Hk. rewrite G. cbn in Hk. destruct (Z.eqb_spec k i); [subst; tauto|]. destruct (Z.eqb_spec k j); [subst; tauto|reflexivity].
  - destruct x as [z b]. rewrite lasti_app in EM. subst mru. rewrite map_app in *. cbn [map fst] in *.
    assert (Nz : z <> noEntry). { intros ->. apply NN, in_or_app. left. apply in_or_app. right. left. reflexivity. }
    assert (Nzi : z <> i) by (intros ->; apply Ui, in_or_app; right; left; reflexivity). assert (Nzj : z <> j) by (intros ->; apply Uj, in_or_app; right; left; reflexivity).
    assert (Uz : ~ In z (map fst u0)). { rewrite <- app_assoc in ND. apply NoDup_remove_2 in ND. intros X. apply ND, in_or_app. left. exact X. }
    assert (Fz : ~ In z (map fst f)). { rewrite <- app_assoc in ND. apply NoDup_remove_2 in ND. intros X. apply ND, in_or_app. right. right. right. exact X. }
    replace (z =? noEntry) with false by lia. cbn [negb].
    pose proof CU as CU'. apply chain_app in CU'. destruct CU' as [CU0 CUz]. apply chain_one in CUz. 
    assert (Lz : lk l3 z = Ok (lasti noEntry u0, noEntry, b)) by (rewrite G; replace (z =? i) with false by lia; replace (z =? j) with false by lia; exact CUz).
    destruct (set_next_lk l3 z i _ _ _ Lz) as (l4 & -> & Z4 & G4). cbn [bind]. exists l4. split; [reflexivity|]. split; [lia|].
    assert (FU : forall k, In k (map fst u0) -> lk l4 k = lk l k).
    { intros k Hk. rewrite G4, G. destruct (Z.eqb_spec k z); [congruence|]. destruct (Z.eqb_spec k i); [subst; elim Ui; apply in_or_app; auto|]. destruct (Z.eqb_spec k j); [subst; elim Uj; apply in_or_app; auto|reflexivity]. }
    split; [|split].
    + apply chain_app. split.
      * cbn [hdi]. eapply chain_next; [exact CU|exact Uz|exact FU|]. rewrite G4, Z.eqb_refl. reflexivity.
      * rewrite lasti_app. apply chain_one. rewrite G4, G, Z.eqb_refl. replace (i =? z) with false by lia. reflexivity.
    + cbn [chain]. split; [rewrite G4, G, Z.eqb_refl; replace (j =? z) with false by lia; replace (j =? i) with false by lia; reflexivity|]. eapply chain_frame; [|exact CF].
      intros k Hk. rewrite G4, G. destruct (Z.eqb_spec k z); [congruence|]. destruct (Z.eqb_spec k i); [congruence|]. destruct (Z.eqb_spec k j); [congruence|reflexivity].
    + intros k Hk. rewrite G4, G. rewrite !in_app_iff in Hk. cbn in Hk. destruct (Z.eqb_spec k z); [subst; tauto|]. destruct (Z.eqb_spec k i); [subst; tauto|]. destruct (Z.eqb_spec k j); [subst; tauto|reflexivity].
Qed.

(** the first of a chain moves to its own end *)
Lemma rotate mru lru l i c j d f :
  let u := (i, c) :: (j, d) :: f in
  chain l noEntry u noEntry -> mru = lasti noEntry u -> NoDup (indices u) -> ~ In noEntry (indices u) ->
  exists l', updateMRU mru lru l i = Ok (i, j, l') /\ zlen l' = zlen l /\ chain l' noEntry ((j, d) :: f ++ [(i, c)]) noEntry /\
    forall k, ~ In k (indices u) -> lk l' k = lk l k.
Proof.
  cbv zeta. intros C EM ND NN. change (lk l i = Ok (noEntry, j, c) /\ chain l i ((j, d) :: f) noEntry) in C. destruct C as (Li & CJ). rewrite lasti_cons in EM.
  destruct (last_split ((j, d) :: f)) as (w & z & b & EW); [discriminate|]. rewrite EW in CJ, EM. rewrite lasti_app in EM. subst mru.
  change ((j, d) :: f ++ [(i, c)]) with (((j, d) :: f) ++ [(i, c)]). 
  assert (Ej : lk l j = Ok (i, hdi noEntry f, d)) by (rewrite <- EW in CJ; cbn [chain] in CJ; tauto).
  unfold indices in *. change (map fst ((i, c) :: (j, d) :: f)) with (i :: map fst ((j, d) :: f)) in *.
  assert (NDJ : NoDup (map fst ((j, d) :: f))) by (inversion_clear ND; assumption).
  assert (Ni : ~ In i (map fst ((j, d) :: f))) by (inversion_clear ND; assumption).
  assert (Nj : j <> noEntry) by (intros ->; apply NN; right; left; reflexivity). assert (Nij : i <> j) by (intros ->; apply Ni; left; reflexivity).
  assert (Nz : In z (map fst ((j, d) :: f))) by (rewrite EW, map_app; apply in_or_app; right; left; reflexivity).
  assert (Nzn : z <> noEntry) by (intros ->; apply NN; right; exact Nz). assert (Nzi : z <> i) by (intros ->; contradiction).
  unfold updateMRU. destruct (lk_get _ _ _ Li) as (e & Ge & Se). rewrite Ge. cbn [bind]. injection Se as S1 S2 S3. rewrite S1, S2.
  replace (j =? noEntry) with false by lia. rewrite Z.eqb_refl. cbv zeta.
  destruct (set_prev_lk l j noEntry _ _ _ Ej) as (l1 & -> & Z1 & G1). cbn [bind].
  assert (Li1 : lk l1 i = Ok (noEntry, j, c)) by (rewrite G1; replace (i =? j) with false by lia; exact Li).
  destruct (set_next_lk l1 i noEntry _ _ _ Li1) as (l2 & -> & Z2 & G2). cbn [bind].
  assert (Li2 : lk l2 i = Ok (noEntry, noEntry, c)) by (rewrite G2, Z.eqb_refl; reflexivity).
  destruct (set_prev_lk l2 i z _ _ _ Li2) as (l3 & -> & Z3 & G3). cbn [bind].
  replace (z =? noEntry) with false by lia. cbn [negb].
  assert (G : forall k, lk l3 k = if k =? i then Ok (z, noEntry, c) else if k =? j then Ok (noEntry, hdi noEntry f, d) else lk l k).
  { intros k. rewrite G3, G2, G1. destruct (k =? i); reflexivity. }
  assert (C3 : chain l3 noEntry ((j, d) :: f) noEntry).
  { cbn [chain]. split; [rewrite G, Z.eqb_refl; replace (j =? i) with false by lia; reflexivity|]. rewrite <- EW in CJ. cbn [chain] in CJ. destruct CJ as [_ CJ].
    eapply chain_frame; [|exact CJ]. intros k Hk. rewrite G. destruct (Z.eqb_spec k i); [subst; elim Ni; right; exact Hk|].
    destruct (Z.eqb_spec k j); [subst; inversion_clear NDJ; contradiction|reflexivity]. }
  rewrite EW in C3, NDJ, Ni |- *. rewrite map_app in NDJ, Ni. cbn [map fst] in NDJ, Ni.
  pose proof C3 as C3'. apply chain_app in C3'. destruct C3' as [_ Cz]. apply chain_one in Cz.
  destruct (set_next_lk l3 z i _ _ _ Cz) as (l4 & -> & Z4 & G4). cbn [bind]. exists l4. split; [reflexivity|]. split; [lia|].
  assert (Wz : ~ In z (map fst w)) by (apply NoDup_remove_2 in NDJ; rewrite app_nil_r in NDJ; exact NDJ).
  split.
  - apply chain_app. split.
    + cbn [hdi]. eapply chain_next; [exact C3|exact Wz| |]; [|rewrite G4, Z.eqb_refl; reflexivity].
      intros k Hk. rewrite G4. destruct (Z.eqb_spec k z); [congruence|reflexivity].
    + rewrite lasti_app. apply chain_one. rewrite G4, G, Z.eqb_refl. replace (i =? z) with false by lia. reflexivity.
  - intros k Hk. rewrite <- EW in Hk. rewrite G4, G. destruct (Z.eqb_spec k z); [subst; elim Hk; right; exact Nz|]. destruct (Z.eqb_spec k i); [subst; elim Hk; left; reflexivity|].
    destruct (Z.eqb_spec k j); [subst; elim Hk; right; left; reflexivity|reflexivity].
Qed.

(** one from the middle of a chain moves to its end *)
Lemma move_middle mru lru l w a b i c j d f :
  let u := w ++ (a, b) :: (i, c) :: (j, d) :: f in
  chain l noEntry u noEntry -> mru = lasti noEntry u -> NoDup (indices u) -> ~ In noEntry (indices u) ->
  exists l', updateMRU mru lru l i = Ok (i, lru, l') /\ zlen l' = zlen l /\ chain l' noEntry (w ++ (a, b) :: (j, d) :: f ++ [(i, c)]) noEntry /\
    forall k, ~ In k (indices u) -> lk l' k = lk l k.
Proof.
  cbv zeta. intros C EM ND NN.
  destruct (last_split ((j, d) :: f)) as (v & z & b' & EW); [discriminate|].
  change (w ++ (a, b) :: (j, d) :: f ++ [(i, c)]) with (w ++ [(a, b)] ++ ((j, d) :: f) ++ [(i, c)]).
  assert (EU : w ++ (a, b) :: (i, c) :: (j, d) :: f = (w ++ [(a, b)]) ++ [(i, c)] ++ ((j, d) :: f)) by (rewrite <- app_assoc; reflexivity).
  rewrite EU in *. clear EU. rewrite app_assoc. 
  rewrite (app_assoc (w ++ [(a, b)]) [(i, c)]) in EM. rewrite EW, app_assoc, lasti_app in EM. subst mru.
  apply chain_app in C. destruct C as [CW C]. apply chain_app in C. destruct C as [CI CJ]. change (hdi noEntry ([(i, c)] ++ (j, d) :: f)) with i in CW.
  rewrite lasti_app in CI, CJ. change (lasti a [(i, c)]) with i in CJ. change (hdi noEntry ((j, d) :: f)) with j in CI. apply chain_one in CI.
  unfold indices in *. rewrite map_app in ND, NN. change (map fst ([(i, c)] ++ (j, d) :: f)) with (i :: map fst ((j, d) :: f)) in *.
  set (W := map fst (w ++ [(a, b)])) in *. set (J := map fst ((j, d) :: f)) in *.
  assert (NDW : NoDup W) by (eapply nodup_l; exact ND). assert (NDJ : NoDup J) by (apply nodup_r in ND; inversion_clear ND; assumption).
  assert (Wi : ~ In i W) by (intros X; apply NoDup_remove_2 in ND; apply ND, in_or_app; left; exact X).
  assert (Ji : ~ In i J) by (intros X; apply NoDup_remove_2 in ND; apply ND, in_or_app; right; exact X).
  assert (WJ : forall k, In k W -> In k J -> False).
  { intros k K1 K2. apply NoDup_remove_1 in ND. clear - ND K1 K2. induction W as [|x W IH]; [exact K1|]. cbn [app] in ND. inversion_clear ND as [|? ? N D]. destruct K1 as [->|K1]; [apply N, in_or_app; right; exact K2|exact (IH D K1)]. }
  assert (Jj : In j J) by (left; reflexivity). assert (Jz : In z J) by (unfold J; rewrite EW, map_app; apply in_or_app; right; left; reflexivity).
  assert (Wa : In a W) by (unfold W; rewrite map_app; apply in_or_app; right; left; reflexivity).
  assert (Nn : forall k, In k W \/ k = i \/ In k J -> k <> noEntry).
  { intros k K ->. apply NN, in_or_app. destruct K as [K|[K|K]]; [left; exact K|right; left; symmetry; exact K|right; right; exact K]. }
  assert (Nj : j <> noEntry) by (apply Nn; auto). assert (Na : a <> noEntry) by (apply Nn; auto). assert (Nz : z <> noEntry) by (apply Nn; auto).
  assert (Nij : i <> j) by (intros ->; contradiction). assert (Nia : i <> a) by (intros ->; contradiction). assert (Niz : i <> z) by (intros ->; contradiction).
  assert (Naz : a <> z) by (intros ->; eapply WJ; eassumption). assert (Naj : a <> j) by (intros ->; eapply WJ; eassumption).
  unfold updateMRU. destruct (lk_get _ _ _ CI) as (e & Ge & Se). rewrite Ge. cbn [bind]. injection Se as S1 S2 S3. rewrite S1, S2.
  replace (j =? noEntry) with false by lia. replace (a =? noEntry) with false by lia. replace (z =? noEntry) with false by lia. cbn [negb]. cbv zeta.
  pose proof CJ as CJ'. rewrite EW in CJ'. apply chain_app in CJ'. destruct CJ' as [_ Cz]. apply chain_one in Cz.
  destruct (set_next_lk l z i _ _ _ Cz) as (l1 & -> & Z1 & G1). cbn [bind].
  pose proof CW as CW'. apply chain_app in CW'. destruct CW' as [_ Ca]. apply chain_one in Ca.
  assert (Ca1 : lk l1 a = Ok (lasti noEntry w, i, b)) by (rewrite G1; replace (a =? z) with false by lia; exact Ca).
  destruct (set_next_lk l1 a j _ _ _ Ca1) as (l2 & -> & Z2 & G2). cbn [bind].
  assert (Vz : ~ In z (map fst v)) by (unfold J in NDJ; rewrite EW, map_app in NDJ; cbn [map fst] in NDJ; apply NoDup_remove_2 in NDJ; rewrite app_nil_r in NDJ; exact NDJ).
  assert (CJ2 : chain l2 i ((j, d) :: f) i).
  { rewrite EW in CJ |- *. apply chain_app in CJ. destruct CJ as [CV _]. apply chain_app. split; [|apply chain_one; rewrite G2, G1, Z.eqb_refl; replace (z =? a) with false by lia; reflexivity].
    cbn [hdi] in CV |- *. eapply chain_frame; [|exact CV]. intros k Hk. assert (In k J) by (unfold J; rewrite EW, map_app; apply in_or_app; left; exact Hk).
    rewrite G2, G1. destruct (Z.eqb_spec k a); [subst; exfalso; eapply WJ; eassumption|]. destruct (Z.eqb_spec k z); [congruence|reflexivity]. }
  cbn [chain] in CJ2. destruct CJ2 as [Lj CF2].
  destruct (set_prev_lk l2 j a _ _ _ Lj) as (l3 & -> & Z3 & G3). cbn [bind].
  assert (Li : lk l3 i = Ok (a, j, c)) by (rewrite G3, G2, G1; replace (i =? j) with false by lia; replace (i =? a) with false by lia; replace (i =? z) with false by lia; exact CI).
  destruct (set_next_lk l3 i noEntry _ _ _ Li) as (l4 & -> & Z4 & G4). cbn [bind].
  assert (Li4 : lk l4 i = Ok (a, noEntry, c)) by (rewrite G4, Z.eqb_refl; reflexivity).
  destruct (set_prev_lk l4 i z _ _ _ Li4) as (l5 & -> & Z5 & G5). cbn [bind]. exists l5. split; [reflexivity|]. split; [lia|].
  assert (Wa' : ~ In a (map fst w)) by (unfold W in NDW; rewrite map_app in NDW; cbn [map fst] in NDW; apply NoDup_remove_2 in NDW; rewrite app_nil_r in NDW; exact NDW).
  split.
  - apply chain_app. split.
    + change (hdi noEntry (((j, d) :: f) ++ [(i, c)])) with j. eapply chain_next; [exact CW|exact Wa'| |].
      * intros k Hk. assert (K : In k W) by (unfold W; rewrite map_app; apply in_or_app; left; exact Hk). rewrite G5, G4, G3, G2, G1.
        destruct (Z.eqb_spec k i); [congruence|]. destruct (Z.eqb_spec k j); [subst; exfalso; eapply WJ; eassumption|]. destruct (Z.eqb_spec k a); [congruence|].
        destruct (Z.eqb_spec k z); [subst; exfalso; eapply WJ; eassumption|reflexivity].
      * rewrite G5, G4, G3, G2, Z.eqb_refl. replace (a =? i) with false by lia. replace (a =? j) with false by lia. reflexivity.
    + rewrite lasti_app. apply chain_app. split.
      * cbn [hdi chain]. split; [rewrite G5, G4, G3, Z.eqb_refl; replace (j =? i) with false by lia; reflexivity|]. eapply chain_frame; [|exact CF2].
        intros k Hk. rewrite G5, G4, G3. destruct (Z.eqb_spec k i); [subst; elim Ji; right; exact Hk|]. destruct (Z.eqb_spec k j); [subst; unfold J in NDJ; cbn [map fst] in NDJ; inversion_clear NDJ; contradiction|reflexivity].
      * assert (El : lasti a ((j, d) :: f) = z) by (rewrite EW; apply lasti_app). rewrite El. apply chain_one. rewrite G5, Z.eqb_refl. reflexivity.
  - intros k Hk0. assert (Hk : ~ (In k W \/ i = k \/ In k J)).
    { intros K. apply Hk0. rewrite map_app. apply in_or_app. destruct K as [K|[K|K]]; [left; exact K|right; left; exact K|right; right; exact K]. }
    rewrite G5, G4, G3, G2, G1. destruct (Z.eqb_spec k i); [subst; tauto|]. destruct (Z.eqb_spec k j); [subst; tauto|].
    destruct (Z.eqb_spec k a); [subst; tauto|]. destruct (Z.eqb_spec k z); [subst; tauto|reflexivity].
Qed.

(** ** What Get does to the chains *)
Lemma hit_get m c cp i mru lru l e : map_get (mc_cached m) cp = Some i ->
  updateMRU (mc_mru m) (mc_lru m) (mc_entries m) i = Ok (mru, lru, l) -> zget l i = Ok e ->
  let m' := fst (fst (mc_Get m cp c)) in
  mc_mru m' = mru /\ mc_lru m' = lru /\ mc_cached m' = mc_cached m /\ zlen (mc_entries m') = zlen l /\ forall j, lk (mc_entries m') j = lk l j.
Proof.
  intros E1 E2 E3. cbv zeta. unfold mc_Get. rewrite E1, E2. cbn [mc_font mc_dropCounter mc_cached]. rewrite E3.
  pose proof (zget_ok_range _ _ _ E3) as R.
  assert (K : forall e', sk e' = sk e -> forall j, lk (upd l (Z.to_nat i) e') j = lk l j).
  { intros e' S j. unfold lk. rewrite map_upd, S. rewrite upd_same; [reflexivity|]. rewrite nth_error_map, (zget_nth_error _ _ _ E3). reflexivity. }
  destruct (_ =? _); [cbn; auto|]. destruct (sc_GetMappingCase c (e_switchType e)) as [[cb cd]| | |]; try (cbn; auto; fail).
  destruct (cd && _).
  - rewrite zset_ok by lia. cbn. rewrite zlen_upd. repeat (split; [reflexivity|]). apply K. reflexivity.
  - destruct (mapping_Utf8WithCache (mc_font m) cp c) as [c' [[g|]| | |]]; try (cbn; auto; fail).
    rewrite zset_ok by lia. cbn. rewrite zlen_upd. repeat (split; [reflexivity|]). apply K. reflexivity.
Qed.

Record keeps (n : Z) (m : MappingCache) (s : kept) (U F : list (Z * Z)) : Prop := {
  kp_len : zlen (mc_entries m) = n;
  kp_n : 0 < n < noEntry;
  kp_U : chain (mc_entries m) noEntry U noEntry;
  kp_F : chain (mc_entries m) noEntry F noEntry;
  kp_used : map snd U = k_used s;
  kp_nodup : NoDup (indices U ++ indices F);
  kp_no : ~ In noEntry (indices U ++ indices F);
  kp_mru : mc_mru m = lasti noEntry U;
  kp_codes : NoDup (k_used s);
  kp_zero : ~ In 0 (k_used s) /\ k_last s <> Some 0;
  kp_apart : forall c, k_last s = Some c -> ~ In c (k_used s) /\ exists i, F = [(i, c)];
  kp_none : k_last s = None -> Forall (fun x => snd x = 0) F;
  kp_cached : forall cp i, map_get (mc_cached m) cp = Some i <-> In (i, cp) U \/ (k_last s = Some cp /\ In (i, cp) F);
  kp_fill : if k_filling s then F <> [] /\ mc_lru m = hdi 0 F /\ zlen U + zlen F = n
            else 2 <= zlen U /\ mc_lru m = hdi 0 U }.

Lemma mem_in cp l : mem cp l = true <-> In cp l.
Proof. unfold mem. rewrite existsb_exists. split; [intros (x & H & E); assert (cp = x) by lia; subst; exact H|intros H; exists cp; split; [exact H|lia]]. Qed.
Lemma filter_out cp l : ~ In cp l -> filter (fun x => negb (x =? cp)) l = l.
Proof. induction l as [|x l IH]; intros N; cbn; [reflexivity|]. destruct (Z.eqb_spec x cp); [subst; elim N; left; reflexivity|]. cbn. f_equal. apply IH. intros X. apply N. right. exact X. Qed.
Lemma use_again_split cp a b : NoDup (a ++ cp :: b) -> use_again cp (a ++ cp :: b) = a ++ b ++ [cp].
Proof.
  intros ND. apply NoDup_remove in ND. destruct ND as [_ N]. unfold use_again. rewrite filter_app. cbn [filter]. rewrite Z.eqb_refl. cbn [negb].
  rewrite !filter_out by (intros X; apply N, in_or_app; auto). now rewrite <- app_assoc.
Qed.
Lemma perm_move {A} (a b : list A) x : Permutation (a ++ x :: b) (a ++ b ++ [x]).
Proof. apply Permutation_app_head. apply Permutation_cons_append. Qed.
Lemma pair_in (i c : Z) u : In (i, c) u -> In i (indices u) /\ In c (map snd u).
Proof. intros H. split; [apply (in_map fst) in H|apply (in_map snd) in H]; exact H. Qed.

(** a lookup that moves nothing *)
Lemma keep_same n m m' s U F : keeps n m s U F -> mc_mru m' = mc_mru m -> mc_lru m' = mc_lru m -> mc_cached m' = mc_cached m ->
  zlen (mc_entries m') = zlen (mc_entries m) -> (forall j, lk (mc_entries m') j = lk (mc_entries m) j) -> keeps n m' s U F.
Proof.
  intros K E1 E2 E3 E4 E5. destruct K. constructor; auto; try congruence.
  - eapply chain_frame; [|exact kp_U0]. auto.
  - eapply chain_frame; [|exact kp_F0]. auto.
  - intros cp i. rewrite E3. apply kp_cached0.
  - rewrite E2. exact kp_fill0.
Qed.
(** one that moves an element of [U] to its end *)
Lemma keep_moved n m m' s u i cp v F f : keeps n m s (u ++ (i, cp) :: v) F -> mc_mru m' = i -> mc_cached m' = mc_cached m ->
  zlen (mc_entries m') = zlen (mc_entries m) -> chain (mc_entries m') noEntry (u ++ v ++ [(i, cp)]) noEntry ->
  (forall k, ~ In k (indices (u ++ (i, cp) :: v)) -> lk (mc_entries m') k = lk (mc_entries m) k) ->
  (f = true -> k_filling s = true) ->
  (if f then mc_lru m' = mc_lru m else 2 <= zlen (u ++ (i, cp) :: v) /\ mc_lru m' = hdi 0 (u ++ v ++ [(i, cp)])) ->
  keeps n m' (mkKept (use_again cp (k_used s)) (k_last s) f) (u ++ v ++ [(i, cp)]) F.
Proof.
  intros K E1 E3 E4 C E5 Hf Hl. destruct K. assert (P : Permutation (u ++ (i, cp) :: v) (u ++ v ++ [(i, cp)])) by apply perm_move.
  assert (EU : map snd (u ++ v ++ [(i, cp)]) = use_again cp (k_used s)).
  { rewrite <- kp_used0, !map_app. cbn [map snd]. rewrite use_again_split; [reflexivity|]. rewrite <- kp_used0, map_app in kp_codes0. exact kp_codes0. }
  assert (PC : Permutation (k_used s) (use_again cp (k_used s))) by (rewrite <- EU, <- kp_used0; apply Permutation_map; exact P).
  assert (PI : Permutation (indices (u ++ (i, cp) :: v)) (indices (u ++ v ++ [(i, cp)]))) by (apply Permutation_map; exact P).
  constructor; cbn [k_used k_last k_filling]; auto; try congruence.
  - eapply chain_frame; [|exact kp_F0]. intros j Hj. apply E5. intros X.
    clear - X Hj kp_nodup0. unfold indices in *. induction (map fst (u ++ (i, cp) :: v)) as [|y l IH]; [exact X|]. cbn [app] in kp_nodup0. inversion_clear kp_nodup0 as [|? ? N D].
    destruct X as [->|X]; [apply N, in_or_app; right; exact Hj|exact (IH D X)].
  - eapply Permutation_NoDup; [|exact kp_nodup0]. apply Permutation_app_tail. exact PI.
  - intros X. apply kp_no0. eapply Permutation_in; [|exact X]. apply Permutation_app_tail, Permutation_sym, PI.
  - rewrite app_assoc. rewrite lasti_app. exact E1.
  - eapply Permutation_NoDup; [exact PC|exact kp_codes0].
  - destruct kp_zero0 as [Z1 Z2]. split; [|exact Z2]. intros X. apply Z1. eapply Permutation_in; [apply Permutation_sym, PC|exact X].
  - intros c Hc. destruct (kp_apart0 c Hc) as [A B]. split; [|exact B]. intros X. apply A. eapply Permutation_in; [apply Permutation_sym, PC|exact X].
  - intros c j. rewrite E3, kp_cached0. split; (intros [X|X]; [left|right; exact X]); (eapply Permutation_in; [|exact X]); [exact P|apply Permutation_sym, P].
  - destruct f; [|]. 
    + rewrite (Hf eq_refl) in kp_fill0. destruct kp_fill0 as (A & B & C'). split; [exact A|]. split; [congruence|]. unfold zlen in *. rewrite <- (Permutation_length P). exact C'.
    + destruct Hl as [A B]. split; [|exact B]. unfold zlen in *. rewrite <- (Permutation_length P). exact A.
Qed.

Lemma kept_used n s cp x y r : k_used s = x :: y :: r -> In cp (k_used s) ->
  kept_step n s cp = mkKept (use_again cp (k_used s)) (k_last s) (k_filling s && negb (cp =? x)).
Proof. intros E H. unfold kept_step. rewrite (proj2 (mem_in _ _) H), E. reflexivity. Qed.
Lemma kept_one n s cp : k_used s = [cp] -> kept_step n s cp = s.
Proof. intros E. unfold kept_step. rewrite E. cbn. rewrite Z.eqb_refl. reflexivity. Qed.
Lemma lk_zget l i x : lk l i = Ok x -> exists e, zget l i = Ok e.
Proof. intros E. apply lk_get in E. destruct E as (e & E & _). eauto. Qed.

Lemma step_used n m c s U F cp i : keeps n m s U F -> In (i, cp) U ->
  exists U', keeps n (fst (fst (mc_Get m cp c))) (kept_step n s cp) U' F.
Proof.
  intros K HI. pose proof (proj2 (kp_cached _ _ _ _ _ K cp i) (or_introl HI)) as EM. apply in_split in HI. destruct HI as (u & v & ->).
  pose proof (kp_U _ _ _ _ _ K) as CU. pose proof (kp_mru _ _ _ _ _ K) as EMr. pose proof (nodup_l _ _ (kp_nodup _ _ _ _ _ K)) as ND.
  assert (NN : ~ In noEntry (indices (u ++ (i, cp) :: v))) by (intros X; apply (kp_no _ _ _ _ _ K), in_or_app; left; exact X).
  pose proof (kp_used _ _ _ _ _ K) as EU. rewrite map_app in EU. cbn [map snd] in EU. pose proof (kp_codes _ _ _ _ _ K) as NC.
  assert (IU : In cp (k_used s)) by (rewrite <- EU; apply in_or_app; right; left; reflexivity).
  destruct v as [|[j d] f].
  - pose proof CU as CU'. apply chain_app in CU'. destruct CU' as [_ Ci]. apply chain_one in Ci. 
    pose proof (move_none (mc_mru m) (mc_lru m) _ _ _ _ Ci) as EV. destruct (lk_zget _ _ _ Ci) as (e & Ge).
    destruct (hit_get m c cp i _ _ _ e EM EV Ge) as (A1 & A2 & A3 & A4 & A5). exists (u ++ [(i, cp)]).
    assert (ES : kept_step n s cp = s); [|rewrite ES; eapply keep_same; eassumption].
    destruct u as [|[x y] u]; [apply kept_one; symmetry; exact EU|]. cbn [map app snd] in EU.
    assert (UA : use_again cp (k_used s) = k_used s).
    { rewrite <- EU in *. change (y :: map snd u ++ [cp]) with ((y :: map snd u) ++ [cp]) in *. rewrite use_again_split by exact NC. reflexivity. }
    assert (Ny : cp <> y). { rewrite <- EU in NC. inversion_clear NC as [|? ? N _]. intros ->. apply N, in_or_app. right. left. reflexivity. }
    destruct (map snd u ++ [cp]) as [|z r] eqn:Er; [destruct (map snd u); discriminate|].
    rewrite (kept_used n s cp y z r (eq_sym EU) IU), UA. replace (cp =? y) with false by lia. rewrite andb_true_r. destruct s; reflexivity.
  - destruct u as [|x0 u0 _] using rev_ind.
    + cbn [app] in *. destruct (rotate (mc_mru m) (mc_lru m) (mc_entries m) i cp j d f CU EMr ND NN) as (l' & EV & ZL & CL & FL).
      assert (Hi : exists e, zget l' i = Ok e).
      { destruct (chain_in l' _ _ _ i cp CL) as (a & b & X); [right; apply in_or_app; right; left; reflexivity|]. eapply lk_zget. exact X. }
      destruct Hi as (e & Ge). destruct (hit_get m c cp i _ _ _ e EM EV Ge) as (A1 & A2 & A3 & A4 & A5).
      exists ((j, d) :: f ++ [(i, cp)]). cbn [map snd] in EU. rewrite (kept_used n s cp _ _ _ (eq_sym EU) IU), Z.eqb_refl. rewrite andb_false_r.
      apply (keep_moved n m _ s [] i cp ((j, d) :: f) F false K); cbn [app]; auto; try congruence.
      * eapply chain_frame; [|exact CL]. auto.
      * intros k Hk. rewrite A5. apply FL. exact Hk.
      * split; [rewrite !zlen_cons; pose proof (zlen_nonneg f); lia|exact A2].
    + destruct x0 as [a b]. rewrite <- app_assoc in *. cbn [app] in *.
      destruct (move_middle (mc_mru m) (mc_lru m) (mc_entries m) u0 a b i cp j d f CU EMr ND NN) as (l' & EV & ZL & CL & FL).
      assert (Hi : exists e, zget l' i = Ok e).
      { destruct (chain_in l' _ _ _ i cp CL) as (x & y & X); [apply in_or_app; right; right; right; apply in_or_app; right; left; reflexivity|]. eapply lk_zget. exact X. }
      destruct Hi as (e & Ge). destruct (hit_get m c cp i _ _ _ e EM EV Ge) as (A1 & A2 & A3 & A4 & A5).
      assert (KM : keeps n (fst (fst (mc_Get m cp c))) (mkKept (use_again cp (k_used s)) (k_last s) (k_filling s)) ((u0 ++ [(a, b)]) ++ ((j, d) :: f) ++ [(i, cp)]) F).
      { apply (keep_moved n m _ s (u0 ++ [(a, b)]) i cp ((j, d) :: f) F (k_filling s)); rewrite <- ?app_assoc; cbn [app]; auto; try congruence.
        - eapply chain_frame; [|exact CL]. auto.
        - intros k Hk. rewrite A5. apply FL. exact Hk.
        - pose proof (kp_fill _ _ _ _ _ K) as KF. destruct (k_filling s); [exact A2|]. destruct KF as [B1 B2]. split; [exact B1|]. rewrite A2, B2. destruct u0 as [|[x y] u0]; reflexivity. }
      eexists. assert (ES : kept_step n s cp = mkKept (use_again cp (k_used s)) (k_last s) (k_filling s)); [|rewrite ES; exact KM].
      clear - EU NC IU. rewrite map_app in EU. cbn [map snd app] in EU.
      assert (X : exists x y r, k_used s = x :: y :: r /\ x <> cp).
      { rewrite <- EU in *. rewrite <- app_assoc in *. cbn [app] in *. destruct (map snd u0) as [|x t]; cbn [app] in *.
        - eexists _, _, _. split; [reflexivity|]. inversion_clear NC as [|? ? N _]. intros ->. apply N. left. reflexivity.
        - destruct (t ++ b :: cp :: d :: map snd f) as [|y r] eqn:Er; [destruct t; discriminate|]. eexists _, _, _. split; [reflexivity|].
          inversion_clear NC as [|? ? N _]. intros ->. apply N. rewrite <- Er. apply in_or_app. right. right. left. reflexivity. }
      destruct X as (x & y & r & E & N). rewrite (kept_used n s cp _ _ _ E IU). replace (cp =? x) with false by lia. rewrite andb_true_r. reflexivity.
Qed.

Lemma step_last n m c s U F cp : keeps n m s U F -> k_last s = Some cp -> keeps n (fst (fst (mc_Get m cp c))) (kept_step n s cp) U F.
Proof.
  intros K E. destruct (kp_apart _ _ _ _ _ K cp E) as (N & i & ->). pose proof (proj2 (kp_cached _ _ _ _ _ K cp i) (or_intror (conj E (or_introl eq_refl)))) as EM.
  pose proof (kp_F _ _ _ _ _ K) as Ci. apply chain_one in Ci. pose proof (move_none (mc_mru m) (mc_lru m) _ _ _ _ Ci) as EV. destruct (lk_zget _ _ _ Ci) as (e & Ge).
  destruct (hit_get m c cp i _ _ _ e EM EV Ge) as (A1 & A2 & A3 & A4 & A5).
  assert (ES : kept_step n s cp = s); [|rewrite ES; eapply keep_same; eassumption].
  unfold kept_step. destruct (mem cp (k_used s)) eqn:M; [apply mem_in in M; contradiction|]. rewrite E, Z.eqb_refl. reflexivity.
Qed.

(** a lookup of a code point that is not kept *)
Lemma step_new f n m c s U F cp g c' : keeps n m s U F -> mc_font m = f -> cp <> 0 -> ~ In cp (k_used s) -> k_last s <> Some cp ->
  mapping_Utf8WithCache f cp c = (c', Ok (Some g)) ->
  exists U' F', keeps n (fst (fst (mc_Get m cp c))) (kept_step n s cp) U' F'.
Proof.
  intros K EF Nz NU NL EL.
  assert (EM : map_get (mc_cached m) cp = None).
  { destruct (map_get (mc_cached m) cp) as [i|] eqn:E; [|reflexivity]. exfalso. apply (kp_cached _ _ _ _ _ K) in E. destruct E as [E|[E _]]; [|contradiction].
    apply NU. rewrite <- (kp_used _ _ _ _ _ K). apply (pair_in i cp), E. }
  assert (KS : kept_step n s cp = if k_filling s then if zlen (k_used s) <? n - 1 then mkKept (k_used s ++ [cp]) (k_last s) true else mkKept (k_used s) (Some cp) true
               else mkKept (tl (k_used s) ++ [cp]) (k_last s) false).
  { unfold kept_step. destruct (mem cp (k_used s)) eqn:M; [apply mem_in in M; contradiction|]. 
    replace (match k_last s with Some c0 => cp =? c0 | None => false end) with false; [reflexivity|]. destruct (k_last s) as [x|]; [|reflexivity]. symmetry. apply Z.eqb_neq. congruence. }
  pose proof (kp_fill _ _ _ _ _ K) as KF. pose proof (kp_len _ _ _ _ _ K) as LEN.
  assert (UL : zlen (k_used s) = zlen U) by (rewrite <- (kp_used _ _ _ _ _ K); apply zlen_map).
  (* the entry replaced *)
  assert (X : forall i c0 p q, mc_lru m = i -> lk (mc_entries m) i = Ok (p, q, c0) -> exists l0, zlen l0 = n /\
    (forall j, lk l0 j = if j =? i then Ok (p, q, cp) else lk (mc_entries m) j) /\
    forall mru lru l, updateMRU (mc_mru m) (mc_lru m) l0 i = Ok (mru, lru, l) ->
    fst (fst (mc_Get m cp c)) = mkMapping f (mc_dropCounter m) mru lru (map_put (map_delete (mc_cached m) c0) cp i) l).
  { intros i c0 p q Ei Li. destruct (lk_get _ _ _ Li) as (e & Ge & Se). pose proof (zget_ok_range _ _ _ Ge) as R. injection Se as S1 S2 S3.
    exists (upd (mc_entries m) (Z.to_nat i) (e_with_code (e_Update e (mc_dropCounter m) g) cp)). split; [rewrite zlen_upd; exact LEN|]. split.
    - intros j. unfold lk. rewrite map_upd, zget_upd by (rewrite zlen_map; lia). destruct (j =? i); [|reflexivity]. unfold sk. cbn. congruence.
    - intros mru lru l EV. rewrite <- Ei in Ge. pose proof (fresh_get f m c cp g c' EF EM EL e Ge mru lru l) as FG. rewrite Ei in FG. cbv zeta in FG. rewrite FG; [|rewrite <- Ei in EV |- *; exact EV].
      cbn [fst]. rewrite S3. reflexivity. }
  destruct K as [LEN' Hn CU CF EU ND NO MRU NC [Z1 Z2] AP NN CA KF'].
  rewrite KS. destruct (k_filling s) eqn:FI.
  - destruct KF as (NF & LR & LF). destruct F as [|[i c0] F]; [contradiction|]. cbn [hdi] in LR.
    assert (Li := CF). change (lk (mc_entries m) i = Ok (noEntry, hdi noEntry F, c0) /\ chain (mc_entries m) i F noEntry) in Li. destruct Li as [Li CF'].
    destruct (X i c0 _ _ LR Li) as (l0 & Z0 & G0 & XX). clear X.
    assert (Ui : ~ In i (indices U)) by (intros Y; unfold indices in *; cbn [map fst] in ND; apply NoDup_remove_2 in ND; apply ND, in_or_app; left; exact Y).
    assert (CU0 : chain l0 noEntry U noEntry) by (eapply chain_frame; [|exact CU]; intros k Hk; rewrite G0; destruct (Z.eqb_spec k i); [subst; elim Ui; exact Hk|reflexivity]).
    destruct F as [|[j d] F].
    + rewrite zlen_cons, zlen_nil in LF. rewrite UL. replace (zlen U <? n - 1) with false by lia.
      assert (Li0 : lk l0 i = Ok (noEntry, noEntry, cp)) by (rewrite G0, Z.eqb_refl; reflexivity).
      rewrite (XX _ _ _ (move_none (mc_mru m) (mc_lru m) l0 i _ _ Li0)).
      exists U, [(i, cp)]. constructor; cbn [mc_entries mc_mru mc_cached mc_lru k_used k_last k_filling]; auto; try congruence.
      * apply chain_one. exact Li0.
      * split; [exact Z1|congruence].
      * intros x Hx. injection Hx as <-. split; [exact NU|eauto].
      * intros x y. rewrite map_get_put, map_get_delete. destruct (Z.eqb_spec x cp) as [->|Nx].
        -- split; [intros Y; injection Y as <-; right; split; [reflexivity|left; reflexivity]|]. intros [Y|[_ [Y|[]]]]; [exfalso; apply NU; rewrite <- EU; apply (pair_in y cp), Y|congruence].
        -- assert (L0 : forall z, In (z, x) U -> x <> c0).
           { intros z Hz ->. apply pair_in in Hz. destruct Hz as [_ Hz]. rewrite EU in Hz. destruct (k_last s) as [b|] eqn:EB.
             - destruct (AP b eq_refl) as (A & k & B). injection B as _ ->. contradiction.
             - specialize (NN eq_refl). apply Forall_inv in NN. cbn in NN. subst c0. contradiction. }
           destruct (Z.eqb_spec x c0) as [->|Nc].
           ++ split; [discriminate|]. intros [Y|[Y _]]; [elim (L0 y Y eq_refl)|congruence].
           ++ rewrite CA. split; [intros [Y|[Y [Z|[]]]]; [left; exact Y|congruence]|]. intros [Y|[Y _]]; [left; exact Y|congruence].
      * split; [discriminate|]. split; [exact LR|]. rewrite zlen_cons, zlen_nil. exact LF.
    + rewrite !zlen_cons in LF. pose proof (zlen_nonneg F). rewrite UL. replace (zlen U <? n - 1) with true by lia.
      assert (LN : k_last s = None). { destruct (k_last s) as [b|] eqn:EB; [|reflexivity]. destruct (AP b eq_refl) as (_ & k & B). discriminate. }
      specialize (NN LN). assert (c0 = 0) by (apply Forall_inv in NN; exact NN). subst c0.
      assert (CF0 : chain l0 noEntry ((i, cp) :: (j, d) :: F) noEntry).
      { split; [rewrite G0, Z.eqb_refl; reflexivity|]. eapply chain_frame; [|exact CF']. intros k Hk. rewrite G0. destruct (Z.eqb_spec k i); [|reflexivity]. subst k.
        exfalso. apply nodup_r in ND. unfold indices in ND. cbn [map fst] in ND, Hk. inversion_clear ND; contradiction. }
      destruct (move_first (mc_mru m) (mc_lru m) l0 i cp j d F U CF0 CU0 MRU ND NO) as (l' & EV & ZL & C1 & C2 & FL).
      rewrite (XX _ _ _ EV). exists (U ++ [(i, cp)]), ((j, d) :: F).
      assert (NDM : Permutation (indices U ++ indices ((i, 0) :: (j, d) :: F)) (indices (U ++ [(i, cp)]) ++ indices ((j, d) :: F))).
      { unfold indices. rewrite map_app, <- app_assoc. reflexivity. }
      constructor; cbn [mc_entries mc_mru mc_cached mc_lru k_used k_last k_filling]; auto; try congruence.
      * rewrite map_app, EU. reflexivity.
      * eapply Permutation_NoDup; [exact NDM|exact ND].
      * intros Y. apply NO. eapply Permutation_in; [apply Permutation_sym, NDM|exact Y].
      * rewrite lasti_app. reflexivity.
      * eapply Permutation_NoDup; [apply Permutation_cons_append|]. constructor; assumption.
      * split; [|exact Z2]. intros Y. apply in_app_or in Y. destruct Y as [Y|[Y|[]]]; [contradiction|congruence].
      * intros _. exact (Forall_inv_tail NN).
      * intros x y. rewrite map_get_put, map_get_delete. destruct (Z.eqb_spec x cp) as [->|Nx].
        -- split; [intros Y; injection Y as <-; left; apply in_or_app; right; left; reflexivity|]. intros [Y|[Y _]]; [|congruence]. apply in_app_or in Y. destruct Y as [Y|[Y|[]]]; [|congruence].
           exfalso; apply NU; rewrite <- EU; apply (pair_in y cp), Y.
        -- rewrite LN. destruct (Z.eqb_spec x 0) as [->|Nc].
           ++ split; [discriminate|]. intros [Y|[Y _]]; [|discriminate]. apply in_app_or in Y. destruct Y as [Y|[Y|[]]]; [|congruence]. apply pair_in in Y. destruct Y as [_ Y]. rewrite EU in Y. contradiction.
           ++ rewrite CA, LN. split; (intros [Y|[Y _]]; [|discriminate]); left; [apply in_or_app; left; exact Y|]. apply in_app_or in Y. destruct Y as [Y|[Y|[]]]; [exact Y|congruence].
      * split; [discriminate|]. split; [reflexivity|]. rewrite zlen_app, !zlen_cons, zlen_nil. lia.
  - destruct KF as (LU & LR). destruct U as [|[i c0] [|[j d] U]]; [rewrite zlen_nil in LU; lia|rewrite zlen_cons, zlen_nil in LU; lia|]. cbn [hdi] in LR.
    assert (Li := CU). change (lk (mc_entries m) i = Ok (noEntry, j, c0) /\ chain (mc_entries m) i ((j, d) :: U) noEntry) in Li. destruct Li as [Li CU'].
    destruct (X i c0 _ _ LR Li) as (l0 & Z0 & G0 & XX). clear X. rewrite <- EU. cbn [map snd tl]. cbn [map snd] in EU. rewrite <- EU in NC, Z1, NU.
    assert (Ui : ~ In i (indices ((j, d) :: U) ++ indices F)) by (unfold indices in *; cbn [map fst app] in *; inversion_clear ND; assumption).
    assert (CU0 : chain l0 noEntry ((i, cp) :: (j, d) :: U) noEntry).
    { split; [rewrite G0, Z.eqb_refl; reflexivity|]. eapply chain_frame; [|exact CU']. intros k Hk. rewrite G0. destruct (Z.eqb_spec k i); [|reflexivity]. subst k. elim Ui. apply in_or_app. left. exact Hk. }
    assert (NO' : ~ In noEntry (indices ((i, cp) :: (j, d) :: U))) by (intros Y; apply NO, in_or_app; left; exact Y).
    destruct (rotate (mc_mru m) (mc_lru m) l0 i cp j d U CU0 MRU (nodup_l _ _ ND) NO') as (l' & EV & ZL & CL & FL).
    rewrite (XX _ _ _ EV). exists ((j, d) :: U ++ [(i, cp)]), F.
    assert (NDM : Permutation (indices ((i, c0) :: (j, d) :: U) ++ indices F) (indices ((j, d) :: U ++ [(i, cp)]) ++ indices F)).
    { unfold indices. cbn [map fst]. rewrite map_app. cbn [map fst]. apply Permutation_app_tail. change (j :: map fst U ++ [i]) with ((j :: map fst U) ++ [i]). apply Permutation_cons_append. }
    assert (Nc0 : ~ In c0 (d :: map snd U)) by (inversion_clear NC; assumption).
    constructor; cbn [mc_entries mc_mru mc_cached mc_lru k_used k_last k_filling]; auto; try congruence.
    + eapply chain_frame; [|exact CF]. intros k Hk. rewrite FL.
      * rewrite G0. destruct (Z.eqb_spec k i); [subst; elim Ui; apply in_or_app; right; exact Hk|reflexivity].
      * intros Y. clear - Y Hk ND. unfold indices in *. cbn [map fst] in Y, ND. induction (i :: j :: map fst U) as [|y l IH]; [exact Y|]. cbn [app] in ND. inversion_clear ND as [|? ? N D].
        destruct Y as [->|Y]; [apply N, in_or_app; right; exact Hk|exact (IH D Y)].
    + cbn [map snd]. rewrite map_app. reflexivity.
    + eapply Permutation_NoDup; [exact NDM|exact ND].
    + intros Y. apply NO. eapply Permutation_in; [apply Permutation_sym, NDM|exact Y].
    + change ((j, d) :: U ++ [(i, cp)]) with (((j, d) :: U) ++ [(i, cp)]). rewrite lasti_app. reflexivity.
    + eapply Permutation_NoDup; [apply (Permutation_cons_append (d :: map snd U))|]. constructor; [intros Y; apply NU; right; exact Y|inversion_clear NC; assumption].
    + split; [|exact Z2]. intros Y. change (In 0 ((d :: map snd U) ++ [cp])) in Y. apply in_app_or in Y. destruct Y as [Y|[Y|[]]]; [apply Z1; right; exact Y|congruence].
    + intros x Hx. destruct (AP x Hx) as [A B]. split; [|exact B]. rewrite <- EU in A. intros Y. change (In x ((d :: map snd U) ++ [cp])) in Y. apply in_app_or in Y. destruct Y as [Y|[Y|[]]]; [apply A; right; exact Y|congruence].
    + intros x y. rewrite map_get_put, map_get_delete. change ((j, d) :: U ++ [(i, cp)]) with (((j, d) :: U) ++ [(i, cp)]). rewrite in_app_iff. destruct (Z.eqb_spec x cp) as [->|Nx].
      * split; [intros Y; injection Y as <-; left; right; left; reflexivity|]. intros [[Y|[Y|[]]]|[Y _]]; [|congruence|congruence]. exfalso. apply NU. right. apply (pair_in y cp ((j, d) :: U)), Y.
      * destruct (Z.eqb_spec x c0) as [->|Nc].
        -- split; [discriminate|]. intros [[Y|[Y|[]]]|[Y _]]; [|congruence|]; [elim Nc0; apply (pair_in y c0 ((j, d) :: U)), Y|].
           destruct (AP c0 Y) as [A _]. elim A. rewrite <- EU. left. reflexivity.
        -- rewrite CA. split.
           ++ intros [[Y|Y]|Y]; [congruence|left; left; exact Y|right; exact Y].
           ++ intros [[Y|[Y|[]]]|Y]; [left; right; exact Y|congruence|right; exact Y].
    + split; [|reflexivity]. change ((j, d) :: U ++ [(i, cp)]) with (((j, d) :: U) ++ [(i, cp)]). rewrite zlen_app, !zlen_cons, zlen_nil in *. lia.
Qed.

Lemma step_any ns nw nc f count n m c s U F cp : bytes (Data f) -> wf ns nw nc c -> mapping_NumSwitchTypes f = Ok nw -> sound f c -> holds_for f m (sc_settings c) false count ->
  keeps n m s U F -> cp <> 0 -> mapped f (sc_settings c) cp ->
  exists U' F', keeps n (fst (fst (mc_Get m cp c))) (kept_step n s cp) U' F'.
Proof.
  intros HB W EN S H K Nz [g Eg]. destruct (in_dec Z.eq_dec cp (k_used s)) as [HU|HU].
  - rewrite <- (kp_used _ _ _ _ _ K) in HU. apply in_map_iff in HU. destruct HU as ([i x] & E & HU). cbn in E. subst x. destruct (step_used n m c s U F cp i K HU) as (U' & K'). eauto.
  - assert (HL : k_last s = Some cp \/ k_last s <> Some cp) by (destruct (k_last s) as [x|]; [destruct (Z.eq_dec x cp); [left; congruence|right; congruence]|right; discriminate]).
    destruct HL as [HL|HL]; [exists U, F; now apply step_last|]. destruct (lookup_spec ns nw nc f c cp HB W EN S) as (c' & EL & _). rewrite Eg in EL.
    exact (step_new f n m c s U F cp g c' K (h_font _ _ _ _ _ H) Nz HU HL EL).
Qed.
Lemma keeps_gets ns nw nc f count n : bytes (Data f) -> mapping_NumSwitchTypes f = Ok nw -> forall l m c s U F,
  wf ns nw nc c -> sound f c -> holds_for f m (sc_settings c) false count -> keeps n m s U F -> ~ In 0 l -> Forall (mapped f (sc_settings c)) l ->
  exists U' F', keeps n (fst (after_gets m c l)) (fold_left (kept_step n) l s) U' F'.
Proof.
  intros HB EN. induction l as [|cp l IH]; intros m c s U F W S H K Nz HF; [eauto|].
  destruct (step_any ns nw nc f count n m c s U F cp HB W EN S H K ltac:(intros ->; apply Nz; left; reflexivity) (Forall_inv HF)) as (U1 & F1 & K1).
  destruct (get_spec ns nw nc f m c cp count HB W EN S H) as (m' & c' & r & E & _ & W' & S' & ES & H' & _).
  unfold after_gets. cbn [fold_left fst snd]. rewrite E in *. cbn [fst snd] in *. rewrite <- ES in H'.
  apply (IH m' c' _ U1 F1); auto; [intros X; apply Nz; right; exact X|]. rewrite ES. exact (Forall_inv_tail HF).
Qed.
Lemma init_chain n : forall k, 0 <= k <= n -> n < noEntry ->
  chain (init_entries n) (if k =? 0 then noEntry else k - 1) (map (fun i => (k + i, 0)) (zseq (n - k))) noEntry.
Proof.
  intros k Hk Hn. remember (Z.to_nat (n - k)) as d eqn:E. revert k Hk E. induction d as [|d IH]; intros k Hk E.
  - replace (n - k) with 0 by lia. exact I.
  - replace (zseq (n - k)) with (0 :: map (fun i => 1 + i) (zseq (n - (k + 1)))).
    2: { unfold zseq. replace (Z.to_nat (n - k)) with (S (Z.to_nat (n - (k + 1)))) by lia. cbn [seq map]. f_equal. rewrite <- seq_shift, !map_map. apply map_ext. intros a. lia. }
    cbn [map chain]. rewrite Z.add_0_r, map_map.
    assert (EM : map (fun x => (k + (1 + x), 0)) (zseq (n - (k + 1))) = map (fun i => (k + 1 + i, 0)) (zseq (n - (k + 1)))) by (apply map_ext; intros a; f_equal; lia).
    rewrite EM. split.
    + rewrite (get_lk _ _ _ (init_get n k ltac:(lia))). unfold sk. cbn. do 2 f_equal.
      destruct (Z.eqb_spec k (n - 1)); [|].
      * replace (n - (k + 1)) with 0 by lia. reflexivity.
      * unfold zseq. replace (Z.to_nat (n - (k + 1))) with (S (Z.to_nat (n - (k + 2)))) by lia. cbn. f_equal. lia.
    + specialize (IH (k + 1) ltac:(lia) ltac:(lia)). replace (k + 1 =? 0) with false in IH by lia. replace (k + 1 - 1) with k in IH by lia. exact IH.
Qed.
Lemma keeps_new f n m : NewMappingCache f n = Ok m -> exists F, keeps n m (mkKept [] None true) [] F.
Proof.
  intros E. destruct (new_holds f n m [] E) as (_ & L & Hn & ->). exists (map (fun i => (i, 0)) (zseq n)).
  assert (EI : indices (map (fun i => (i, 0)) (zseq n)) = zseq n) by (unfold indices; rewrite map_map; apply map_id).
  constructor; cbn [mc_entries mc_mru mc_cached mc_lru k_used k_last k_filling]; auto; try congruence.
  - unfold noEntry. lia.
  - exact I.
  - pose proof (init_chain n 0 ltac:(lia) ltac:(unfold noEntry; lia)) as C. rewrite Z.sub_0_r in C. exact C.
  - rewrite EI. cbn. unfold zseq. apply FinFun.Injective_map_NoDup; [intros a b; lia|apply seq_NoDup].
  - rewrite EI. cbn. intros X. apply in_zseq in X. unfold noEntry in X. lia.
  - constructor.
  - split; [intros []|discriminate].
  - intros _. apply Forall_forall. intros x Hx. apply in_map_iff in Hx. destruct Hx as (i & <- & _). reflexivity.
  - intros cp i. cbn. split; [discriminate|]. intros [[]|[X _]]; discriminate.
  - split.
    + intros X. apply (f_equal (@length _)) in X. rewrite map_length in X. unfold zseq in X. rewrite map_length, seq_length in X. cbn in X. lia.
    + split; [unfold zseq; replace (Z.to_nat n) with (S (Z.to_nat (n - 1))) by lia; reflexivity|]. rewrite zlen_map, zlen_zseq by lia. rewrite zlen_nil. lia.
Qed.
Lemma keeps_hit n m s U F : keeps n m s U F -> forall cp, hit m cp <-> is_kept s cp.
Proof.
  intros K cp. unfold hit, is_kept. split.
  - intros [i E]. apply (kp_cached _ _ _ _ _ K) in E. destruct E as [E|[E _]]; [left; rewrite <- (kp_used _ _ _ _ _ K); apply (pair_in i cp), E|right; exact E].
  - intros [E|E].
    + rewrite <- (kp_used _ _ _ _ _ K) in E. apply in_map_iff in E. destruct E as ([i x] & E & HU). cbn in E. subst x. exists i. apply (kp_cached _ _ _ _ _ K). left. exact HU.
    + destruct (kp_apart _ _ _ _ _ K cp E) as (_ & i & EF). exists i. apply (kp_cached _ _ _ _ _ K). right. rewrite EF. split; [exact E|left; reflexivity].
Qed.
Lemma exact_kept f n m c l : bytes (Data f) -> NewMappingCache f n = Ok m -> NewSettingsCache f = Ok c -> Forall (mapped f (sc_settings c)) l -> ~ In 0 l ->
  forall cp, hit (fst (after_gets m c l)) cp <-> is_kept (kept_after n l) cp.
Proof.
  intros HB HM HC HF Nz cp. destruct (new_wf f c HB HC) as (ns & nw & nc & W & _ & E2 & _). destruct (new_holds f n m (sc_settings c) HM) as (H & _).
  destruct (keeps_new f n m HM) as (F & K). destruct (keeps_gets ns nw nc f 0 n HB E2 l m c _ _ _ W (new_sound f c HB HC) H K Nz HF) as (U' & F' & K').
  exact (keeps_hit _ _ _ _ _ K' cp).
Qed.
