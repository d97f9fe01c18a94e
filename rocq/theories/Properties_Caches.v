(** Theorems C30 and C32-C34 (settings cache and mapping cache). *)
From Verif Require Import Base BaseFacts Model_Helpers Model_Font Model_Rewrites Model_Caches Spec_Caches
  Spec_Layout Spec_LayoutFont Sample Proofs_Caches Proofs_Caches2 Proofs_Caches3.

Ltac small := cbn; unfold zlen, byte; cbn; lia.

(** ** C30 *)

(** Every answer, also one that is an error or a panic, in every history from a new cache. *)
Theorem C30_lookup_with_cache : forall f c l,
  bytes (Data f) -> NewSettingsCache f = Ok c -> Forall request_in_range l ->
  exists n, settings_Count f = Ok n /\
  fst (cached_lookups f c l) = plain_lookups (mapping_Utf8 f) (repeat 0 (Z.to_nat n)) l.
Proof.
  intros f c l HB H HF. destruct (new_wf f c HB H) as (ns & nw & nc & W & E1 & E2 & E3 & ES & _). exists ns. split; [exact E1|].
  rewrite <- ES. exact (lookups_spec ns nw nc f HB E2 l c W (new_sound f c HB H) HF).
Qed.
Print Assumptions C30_lookup_with_cache.

(** two settings, a switch on both: 120 is looked up in three of its six cases *)
Definition requests := [RLookup 120; RLookup 120; RSet 1 1; RLookup 120; RSet 0 2; RSet 9 9; RLookup 67; RLookup 120; RLookup 121].
Example C30_example : exists c, NewSettingsCache (font_of sample) = Ok c /\
  map (fun o => match o with Ok (Some g) => gg_caseBranch g | _ => -1 end) (fst (cached_lookups (font_of sample) c requests)) = [0; 0; 1; 1; 5; -1] /\
  fst (cached_lookups (font_of sample) c requests) = plain_lookups (mapping_Utf8 (font_of sample)) [0; 0] requests /\ Forall request_in_range requests.
Proof.
  eexists. split; [vm_compute; reflexivity|]. split; [vm_compute; reflexivity|]. split; [vm_compute; reflexivity|].
  repeat constructor; cbn; lia.
Qed.

(** ** C32 *)

(** The cache after any history, against the list of settings and the sets of what was cached
    since the last change: a reported value is the evaluation under the current settings, and
    what was cached since the last change is reported. *)
Theorem C32_no_stale_values : forall evalCase evalCondition f c l,
  bytes (Data f) -> NewSettingsCache f = Ok c -> Forall use_in_range l ->
  exists ns nw nc, settings_Count f = Ok ns /\ mapping_NumSwitchTypes f = Ok nw /\ rewrites_NumConditions f = Ok nc /\
  let c' := fold_left (sc_step evalCase evalCondition) l c in
  let i := fold_left ideal_step l (mkIdeal (repeat 0 (Z.to_nat ns)) [] []) in
  (forall k, byte k -> sc_Get c' k = Ok (nth (Z.to_nat k) (i_settings i) 0)) /\
  (forall k, 0 <= k < nw -> k < 254 ->
     sc_GetMappingCase c' k = Ok (if mem k (i_cases i) then (evalCase (i_settings i) k, true) else (0, false))) /\
  (forall k, nw <= k < 254 -> sc_GetMappingCase c' k = Panic \/ sc_GetMappingCase c' k = Ok (0, false)) /\
  (forall k, 0 <= k < nc -> k < 255 ->
     sc_GetRewriteCondition c' k = Ok (if mem k (i_conditions i) then (evalCondition (i_settings i) k, true) else (false, false))) /\
  (forall k v, 0 <= k < 255 -> sc_GetRewriteCondition c' k = Ok (v, true) -> v = evalCondition (i_settings i) k) /\
  (* the switches and the condition that need no settings *)
  (forall k, 254 <= k < 256 -> sc_GetMappingCase c' k = Ok (0, true)) /\ sc_GetRewriteCondition c' 255 = Ok (true, true).
Proof.
  intros evalCase evalCondition f c l HB H HF. destruct (new_agrees evalCase evalCondition f c HB H) as (ns & nw & nc & E1 & E2 & E3 & A & L).
  exists ns, nw, nc. split; [exact E1|]. split; [exact E2|]. split; [exact E3|]. cbv zeta.
  pose proof (history_agrees evalCase evalCondition ns nw nc l c _ A HF) as A'. split; [|split; [|split; [|split; [|split; [|split]]]]].
  - intros k Hk. unfold byte in Hk. eapply agrees_get; [exact A'|lia].
  - intros. eapply agrees_case; eauto.
  - intros. eapply agrees_no_case; eauto.
  - intros. eapply agrees_condition; eauto.
  - intros. eapply agrees_no_condition; eauto.
  - intros k Hk. unfold sc_GetMappingCase. replace (k >=? 254) with true by lia. reflexivity.
  - reflexivity.
Qed.
Print Assumptions C32_no_stale_values.

(** a key without a setting can not be set: the call panics and the cache is as before; the
    other keys report whether anything became invalid *)
Theorem C32_unknown_keys : forall evalCase evalCondition f c l k o,
  bytes (Data f) -> NewSettingsCache f = Ok c -> Forall use_in_range l -> byte k -> byte o ->
  let c' := fold_left (sc_step evalCase evalCondition) l c in
  (zlen (sc_settings c') <= k -> sc_Set c' k o = (c', Panic) /\ sc_Get c' k = Ok 0) /\
  (k < zlen (sc_settings c') -> snd (sc_Set c' k o) = Ok (true, true) /\ sc_Get (fst (sc_Set c' k o)) k = Ok o).
Proof.
  intros evalCase evalCondition f c l k o HB H HF Hk Ho. unfold byte in Hk. destruct (new_agrees evalCase evalCondition f c HB H) as (ns & nw & nc & E1 & E2 & E3 & A & L). cbv zeta.
  pose proof (history_agrees evalCase evalCondition ns nw nc l c _ A HF) as A'. set (c' := fold_left _ l c) in *.
  pose proof (ag_wf _ _ _ _ _ _ _ A') as W. pose proof (wf_settings _ _ _ _ W) as Es. rewrite Es. split; intros Hr.
  - split; [now apply (set_unknown ns nw nc)|]. unfold sc_Get. replace (zlen (sc_settings c') <=? k) with true by lia. reflexivity.
  - rewrite (set_known ns nw nc) by (auto; lia). split; [reflexivity|]. unfold sc_Get. cbn [fst sc_settings]. rewrite zlen_upd.
    replace (zlen (sc_settings c') <=? k) with false by lia. rewrite zget_upd by lia. now rewrite Z.eqb_refl.
Qed.
Print Assumptions C32_unknown_keys.

Definition uses := [UCase 0; UCondition 1; USet 1 1; UCase 1; USet 0 2; UCondition 0; UCase 0].
Example C32_example : exists c, NewSettingsCache (font_of sample) = Ok c /\
  let c' := fold_left (sc_step (fun s k => 10 * (nth 0 s 0 + nth 1 s 0) + k) (fun s k => nth 0 s 0 =? 2)) uses c in
  map (sc_GetMappingCase c') [0; 1] = [Ok (30, true); Ok (0, false)] /\
  map (sc_GetRewriteCondition c') [0; 1] = [Ok (true, true); Ok (false, false)] /\
  map (sc_Get c') [0; 1; 2] = [Ok 2; Ok 1; Ok 0] /\ snd (sc_Set c' 2 1) = Panic /\ Forall use_in_range uses.
Proof.
  eexists. split; [vm_compute; reflexivity|]. split; [vm_compute; reflexivity|]. split; [vm_compute; reflexivity|]. split; [vm_compute; reflexivity|].
  split; [vm_compute; reflexivity|]. repeat constructor; cbn; lia.
Qed.

(** ** C33 *)

(** Every history from new caches; what is equal is everything a user can see of the groups
    ([C33_visible]), and errors and panics. *)
Theorem C33_transparent : forall f n m c l,
  bytes (Data f) -> NewMappingCache f n = Ok m -> NewSettingsCache f = Ok c ->
  Forall action_in_range l -> drops_follow false l -> drops l < 4294967296 ->
  exists ns, settings_Count f = Ok ns /\
  map visible (cached_answers m c l) = map visible (plain_answers (mapping_Utf8 f) (repeat 0 (Z.to_nat ns)) l).
Proof.
  intros f n m c l HB HM HC HF HD HL. destruct (new_wf f c HB HC) as (ns & nw & nc & W & E1 & E2 & E3 & ES & _). exists ns. split; [exact E1|].
  destruct (new_holds f n m (sc_settings c) HM) as (H & L & Hn & _). rewrite <- ES.
  exact (answers_spec ns nw nc f HB E2 l m c false 0 W (new_sound f c HB HC) H ltac:(lia) ltac:(lia) HF HD ltac:(lia)).
Qed.
Print Assumptions C33_transparent.

(** the accessors of a group do not depend on what [visible] leaves out *)
Theorem C33_visible : forall f g,
  group_Size f (without_switch g) = group_Size f g /\ group_AnimationFlags f (without_switch g) = group_AnimationFlags f g /\
  group_CaseBranch (without_switch g) = group_CaseBranch g /\ (forall choice, group_Select f (without_switch g) choice = group_Select f g choice).
Proof. intros f g. repeat split; reflexivity. Qed.
Print Assumptions C33_visible.

Definition actions := [AGet 65; AGet 120; AGet 65; AGet 66; AGet 120; ASet 1 1; ADrop; AGet 120; AGet 65; AGet 67; AGet 200;
  ASet 0 2; ASet 9 1; ADrop; ADrop; AGet 120; AReset; AGet 120; AGet 67].
Example C33_example : exists m c, NewMappingCache (font_of sample) 2 = Ok m /\ NewSettingsCache (font_of sample) = Ok c /\
  map (fun o => match o with Ok (Some g) => gg_caseBranch g | _ => -1 end) (cached_answers m c actions) = [0; 0; 0; 0; 0; 1; 0; 1; -1; 5; 5; 1] /\
  Forall action_in_range actions /\ drops_follow false actions /\ drops actions = 3.
Proof.
  eexists _, _. split; [vm_compute; reflexivity|]. split; [vm_compute; reflexivity|]. split; [vm_compute; reflexivity|].
  split; [repeat constructor; cbn; lia|]. split; [cbn; tauto|]. reflexivity.
Qed.
(** without the drop the old answer is returned *)
Example C33_drop_needed : exists m c, NewMappingCache (font_of sample) 2 = Ok m /\ NewSettingsCache (font_of sample) = Ok c /\
  map visible (cached_answers m c [AGet 120; ASet 1 1; AGet 120]) <>
  map visible (plain_answers (mapping_Utf8 (font_of sample)) [0; 0] [AGet 120; ASet 1 1; AGet 120]).
Proof. eexists _, _. split; [vm_compute; reflexivity|]. split; [vm_compute; reflexivity|]. vm_compute. discriminate. Qed.

(** ** C34 *)

(** Full statement: after the lookups [l] of mapped code points on a new cache of [n] entries,
    the hits are the members of [recent n (rev l)]. False: *)
Theorem C34_recency_refuted : exists f n m c l cp,
  bytes (Data f) /\ NewMappingCache f n = Ok m /\ NewSettingsCache f = Ok c /\ Forall (mapped f (sc_settings c)) l /\
  In cp (recent (Z.to_nat n) (rev l)) /\ ~ hit (fst (after_gets m c l)) cp.
Proof.
  eexists (font_of sample), 2, _, _, [65; 66; 67], 66. split; [exact sample_bytes|].
  split; [vm_compute; reflexivity|]. split; [vm_compute; reflexivity|].
  split; [repeat constructor; eexists; vm_compute; reflexivity|]. split; [vm_compute; tauto|]. intros [i E]. vm_compute in E. discriminate.
Qed.
Print Assumptions C34_recency_refuted.

(** It is false for every size from two on and all code points: after n + 1 different ones the
    second most recent one is gone. *)
Theorem C34_every_size_refuted : forall f n m c l a b,
  bytes (Data f) -> NewMappingCache f n = Ok m -> NewSettingsCache f = Ok c -> 2 <= n ->
  NoDup (l ++ [a; b]) -> Forall (mapped f (sc_settings c)) (l ++ [a; b]) -> zlen l = n - 1 ->
  In a (recent (Z.to_nat n) (rev (l ++ [a; b]))) /\ ~ hit (fst (after_gets m c (l ++ [a; b]))) a.
Proof.
  intros f n m c l a b HB HM HC Hn ND HF Hl. destruct (new_wf f c HB HC) as (ns & nw & nc & W & _ & E2 & _). split.
  - rewrite rev_app_distr. cbn [rev app]. destruct (Z.to_nat n) as [|[|k]] eqn:E; try lia. cbn [recent filter].
    assert (Nab : a <> b). { intros ->. replace (l ++ [b; b]) with ((l ++ [b]) ++ [b]) in ND by (now rewrite <- app_assoc). apply NoDup_remove in ND. destruct ND as [_ ND]. apply ND. rewrite app_nil_r. apply in_or_app. right. now left. }
    replace (a =? b) with false by lia. cbn [negb recent]. right. left. reflexivity.
  - intros [i E]. rewrite (evicted ns nw nc f n m c l a b) in E; auto. discriminate. now apply new_sound.
Qed.
Print Assumptions C34_every_size_refuted.

(** A code point may also be evicted while there is an unused entry. *)
Theorem C34_unused_entry_refuted : exists f m c,
  NewMappingCache f 3 = Ok m /\ NewSettingsCache f = Ok c /\ Forall (mapped f (sc_settings c)) [65; 66; 65; 67] /\
  let s := fst (after_gets m c [65; 66; 65; 67]) in
  hit s 65 /\ ~ hit s 66 /\ hit s 67.
Proof.
  eexists (font_of sample), _, _. split; [vm_compute; reflexivity|]. split; [vm_compute; reflexivity|].
  split; [repeat constructor; eexists; vm_compute; reflexivity|]. cbv zeta. split; [eexists; vm_compute; reflexivity|].
  split; [|eexists; vm_compute; reflexivity]. intros [i E]. vm_compute in E. discriminate.
Qed.
Print Assumptions C34_unused_entry_refuted.

(** What holds: the most recent one is always a hit, there are never more than n hits, and so
    for one entry the statement is true. Missing: everything for two or more entries. *)
Theorem C34_last_is_hit_partial : forall f n m c l cp,
  bytes (Data f) -> NewMappingCache f n = Ok m -> NewSettingsCache f = Ok c -> mapped f (sc_settings c) cp ->
  hit (fst (after_gets m c (l ++ [cp]))) cp.
Proof.
  intros f n m c l cp HB HM HC Hm. destruct (new_wf f c HB HC) as (ns & nw & nc & W & _ & E2 & _). destruct (new_holds f n m (sc_settings c) HM) as (H & _).
  exact (last_cached ns nw nc f 0 m c l cp HB E2 W (new_sound f c HB HC) H Hm).
Qed.
Print Assumptions C34_last_is_hit_partial.

Theorem C34_bound_partial : forall f n m c l hits,
  bytes (Data f) -> NewMappingCache f n = Ok m -> NewSettingsCache f = Ok c ->
  NoDup hits -> Forall (hit (fst (after_gets m c l))) hits -> zlen hits <= n.
Proof.
  intros f n m c l hits HB HM HC ND HF. destruct (new_wf f c HB HC) as (ns & nw & nc & W & _ & E2 & _). destruct (new_holds f n m (sc_settings c) HM) as (H & L & _).
  destruct (gets_holds ns nw nc f 0 HB E2 l m c W (new_sound f c HB HC) H) as (_ & _ & _ & H' & L'). cbv zeta in *. rewrite <- L, <- L'.
  eapply cached_bound; [exact H'|exact ND|]. eapply Forall_impl; [|exact HF]. intros cp [i E]. cbv beta. congruence.
Qed.
Print Assumptions C34_bound_partial.

Theorem C34_one_entry_partial : forall f m c l,
  bytes (Data f) -> NewMappingCache f 1 = Ok m -> NewSettingsCache f = Ok c -> Forall (mapped f (sc_settings c)) l ->
  forall cp, hit (fst (after_gets m c l)) cp <-> In cp (recent 1 (rev l)).
Proof.
  intros f m c l HB HM HC HF cp. destruct l as [|x l _] using rev_ind.
  - destruct (new_holds f 1 m (sc_settings c) HM) as (_ & _ & _ & ->). cbn. split; [intros [i E]; discriminate|tauto].
  - apply Forall_app in HF. destruct HF as [_ HF]. pose proof (C34_last_is_hit_partial f 1 m c l x HB HM HC (Forall_inv HF)) as Hx.
    rewrite rev_app_distr. cbn [rev app]. assert (ER : forall r, recent 1 (x :: r) = [x]) by (intros r; cbn [recent]; now destruct (filter _ r)). rewrite ER. cbn [In]. split; [|intros [->|[]]; exact Hx].
    intros Hc. left. destruct (Z.eq_dec x cp) as [E|N]; [exact E|exfalso]. assert (ND : NoDup [x; cp]) by (constructor; [intros [E|[]]; congruence|]; constructor; [intros []|constructor]).
    pose proof (C34_bound_partial f 1 m c (l ++ [x]) [x; cp] HB HM HC ND ltac:(repeat constructor; assumption)) as B. unfold zlen in B. cbn in B. lia.
Qed.
Print Assumptions C34_one_entry_partial.

Example C34_example : exists m c, NewMappingCache (font_of sample) 1 = Ok m /\ NewSettingsCache (font_of sample) = Ok c /\
  Forall (mapped (font_of sample) (sc_settings c)) [65; 120; 66] /\ recent 1 (rev [65; 120; 66]) = [66] /\
  map (map_get (mc_cached (fst (after_gets m c [65; 120; 66])))) [65; 120; 66] = [None; None; Some 0].
Proof.
  eexists _, _. split; [vm_compute; reflexivity|]. split; [vm_compute; reflexivity|]. split; [repeat constructor; eexists; vm_compute; reflexivity|]. split; [reflexivity|]. vm_compute. reflexivity.
Qed.

(** Exactly what is kept, for every size and every sequence of lookups ([kept_after] in Spec_Caches.v).
    Missing: the code point 0, with which unused entries are marked. *)
Theorem C34_exact_partial : forall f n m c l, bytes (Data f) -> NewMappingCache f n = Ok m -> NewSettingsCache f = Ok c ->
  Forall (mapped f (sc_settings c)) l -> ~ In 0 l ->
  forall cp, hit (fst (after_gets m c l)) cp <-> is_kept (kept_after n l) cp.
Proof. exact exact_kept. Qed.
Print Assumptions C34_exact_partial.
Example C34_exact_ex : exists m c, NewMappingCache (font_of sample) 3 = Ok m /\ NewSettingsCache (font_of sample) = Ok c /\
  Forall (mapped (font_of sample) (sc_settings c)) [65; 66; 120; 67; 66; 65; 120; 67] /\
  kept_after 3 [65; 66; 120; 67] = mkKept [65; 66] (Some 67) true /\
  kept_after 3 [65; 66; 120; 67; 66; 65; 120; 67] = mkKept [65; 120] (Some 67) false /\
  map (map_get (mc_cached (fst (after_gets m c [65; 66; 120; 67; 66; 65; 120; 67])))) [65; 66; 67; 120] = [Some 0; None; Some 2; Some 1].
Proof.
  eexists _, _. split; [vm_compute; reflexivity|]. split; [vm_compute; reflexivity|]. split; [repeat constructor; eexists; vm_compute; reflexivity|].
  split; [reflexivity|]. split; [reflexivity|]. vm_compute. reflexivity.
Qed.
