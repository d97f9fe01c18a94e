(** What survives building: C41 to C44. *)
From Coq Require Import Permutation.
From Verif Require Import Base BaseFacts Spec_Helpers Model_Helpers Model_Names Model_Date Model_Mask Spec_Mask Model_Words Model_Font
  Model_Builder Spec_Builder Spec_Survive Proofs_Builder Sample_Builder Proofs_Typed Proofs_Order Proofs_Font3 Proofs_Font4 Proofs_Survive.

Lemma no_order_perm : perm_order no_order.
Proof. intros n A l. reflexivity. Qed.
Lemma rev_order_perm : perm_order rev_order.
Proof. intros n A l. symmetry. apply Permutation_rev. Qed.

(** ** C41 *)

(** Full statement: Build gives the same bytes whatever the order in which maps are iterated.
    False with two words of different lengths that are not predefined: the lengths and the
    texts of the words are written in the iteration order. *)
Theorem C41_refuted : exists id date ops f g, date_typed date /\ Forall op_typed ops /\ perm_order no_order /\ perm_order rev_order /\
  snd (Build no_order no_sort (history id date ops)) = Ok f /\ snd (Build rev_order no_sort (history id date ops)) = Ok g /\ Data f <> Data g.
Proof.
  exists 7777, sample_date, (sample_glyphs ++ [OAddSetting (str_bytes "size") [str_bytes "petite"; str_bytes "mid"]]).
  let B := eval vm_compute in (snd (Build no_order no_sort (history 7777 sample_date (sample_glyphs ++ [OAddSetting (str_bytes "size") [str_bytes "petite"; str_bytes "mid"]])))) in
  match B with Ok ?f => exists f end.
  let B := eval vm_compute in (snd (Build rev_order no_sort (history 7777 sample_date (sample_glyphs ++ [OAddSetting (str_bytes "size") [str_bytes "petite"; str_bytes "mid"]])))) in
  match B with Ok ?f => exists f end.
  split; [repeat split; vm_compute; congruence|]. split; [apply all_typed; vm_compute; reflexivity|].
  split; [exact no_order_perm|]. split; [exact rev_order_perm|]. split; [vm_compute; reflexivity|]. split; [vm_compute; reflexivity|].
  vm_compute. discriminate.
Qed.
Print Assumptions C41_refuted.

(** Builders with at most one option that is not a predefined word are built the same way in any
    order. What is missing: several such words. *)
Theorem C41_one_word_partial : forall o1 o2 sort b, perm_order o1 -> perm_order o2 -> at_most_one_own_word b ->
  Build o1 sort b = Build o2 sort b.
Proof. exact build_one_word. Qed.
Print Assumptions C41_one_word_partial.

(** The iterations over mappings and kernings (ranges 4 to 6) never change the result. What is
    missing: the iterations over words (ranges 0 to 3). *)
Theorem C41_other_orders_partial : forall o1 o2 sort b, perm_order o1 -> perm_order o2 ->
  (forall n A l, (n <= 3 \/ 10 <= n)%nat -> o1 n A l = o2 n A l) -> Build o1 sort b = Build o2 sort b.
Proof. exact build_other_orders. Qed.
Print Assumptions C41_other_orders_partial.

Definition other_order : order := fun n A l => match n with 4%nat | 5%nat | 6%nat => rev l | _ => l end.
Lemma other_order_perm : perm_order other_order.
Proof.
  intros n A l. unfold other_order. destruct n as [|[|[|[|[|[|[|n]]]]]]]; try reflexivity; symmetry; apply Permutation_rev.
Qed.
Example C41_example : Forall op_typed sample_ops /\ perm_order no_order /\ perm_order other_order /\
  (forall n A l, (n <= 3 \/ 10 <= n)%nat -> no_order n A l = other_order n A l) /\
  zlen (b_mapping sample_builder) = 6 /\ zlen (b_horz sample_builder) = 2 /\
  match snd (Build no_order no_sort sample_builder), snd (Build other_order no_sort sample_builder) with
  | Ok f, Ok g => Data f = Data g | _, _ => False end.
Proof.
  split; [apply all_typed; vm_compute; reflexivity|]. split; [exact no_order_perm|]. split; [exact other_order_perm|].
  split. { intros n A l H. unfold no_order, other_order. destruct n as [|[|[|[|[|[|[|n]]]]]]]; try reflexivity; lia. }
  vm_compute. auto.
Qed.
(** one own word, several predefined ones *)
Example C41_one_word_example :
  let b := history 7777 sample_date (sample_glyphs ++ [OAddSetting (str_bytes "case") [str_bytes "own"; str_bytes "off"; str_bytes "on"]; OAddSetting (str_bytes "more") [str_bytes "on"; str_bytes "own"]]) in
  at_most_one_own_word b /\ exists f, snd (Build no_order no_sort b) = Ok f.
Proof.
  intros b. split; [|eexists; vm_compute; reflexivity].
  assert (E : all_options b = [str_bytes "own"; str_bytes "off"; str_bytes "on"; str_bytes "on"; str_bytes "own"]) by (vm_compute; reflexivity).
  assert (P : forall w, In w (all_options b) -> own_word w -> w = str_bytes "own").
  { rewrite E. intros w H HO. repeat (destruct H as [<-|H]); try reflexivity; try contradiction; exfalso.
    - apply (HO 210). vm_compute. reflexivity.
    - apply (HO 209). vm_compute. reflexivity.
    - apply (HO 209). vm_compute. reflexivity. }
  intros v w V W OV OW. rewrite (P v V OV), (P w W OW). reflexivity.
Qed.

(** ** C42 *)

(** Full statement: option names read from the built font are those that were given. False when
    the words are visited in another order than that of their indices. *)
Theorem C42_refuted : exists id date ops o b' f key option s name, date_typed date /\ Forall op_typed ops /\ perm_order o /\
  Build o no_sort (history id date ops) = (b', Ok f) /\
  zget (b_settings b') key = Ok s /\ zget (snd s) option = Ok name /\
  (* the name is garbled *)
  exists other, settings_GetOptionName f key option = Ok other /\ ~ In other (all_options b').
Proof.
  exists 7777, sample_date, (sample_glyphs ++ [OAddSetting (str_bytes "size") [str_bytes "petite"; str_bytes "mid"]]),
    (fun n A l => match n with 2%nat => rev l | _ => l end).
  match goal with |- exists b' f key option s name, _ /\ _ /\ _ /\ Build ?o no_sort ?b = _ /\ _ =>
      let B := eval vm_compute in (Build o no_sort b) in
      match B with (?b', Ok ?f) => exists b', f end end.
  exists 0, 0. eexists. eexists. split; [repeat split; vm_compute; congruence|]. split; [apply all_typed; vm_compute; reflexivity|].
  split. { intros n A l. destruct n as [|[|[|n]]]; try reflexivity. symmetry. apply Permutation_rev. }
  split; [vm_compute; reflexivity|]. split; [vm_compute; reflexivity|]. split; [vm_compute; reflexivity|].
  eexists. split; [vm_compute; reflexivity|]. vm_compute. intros [H|[H|[]]]; discriminate.
Qed.
Print Assumptions C42_refuted.

(** With at most one option that is not a predefined word, or with words visited in the order of
    their indices, all option names are the given ones and other keys panic. What is missing:
    other orders with several own words. *)
Theorem C42_partial : forall id date ops o sort b' f key option,
  date_typed date -> Forall op_typed ops -> perm_order o -> (forall l, Permutation l (sort l)) ->
  Build o sort (history id date ops) = (b', Ok f) ->
  at_most_one_own_word b' \/ words_in_index_order o b' -> 0 <= key -> 0 <= option ->
  settings_GetOptionName f key option = do s <- zget (b_settings b') key; zget (snd s) option.
Proof. exact options_survive. Qed.
Print Assumptions C42_partial.

Example C42_example :
  match Build no_order no_sort sample_builder with
  | (b', Ok f) => settings_GetOptionName f 0 0 = Ok (str_bytes "fall") /\ settings_GetOptionName f 0 1 = Ok (str_bytes "mine") /\
      settings_GetOptionName f 1 1 = Ok (str_bytes "rise") /\ settings_GetOptionName f 2 0 = Panic
  | _ => False end.
Proof. vm_compute. auto. Qed.

(** ** C43 *)

(** Full statement: after building, looking up a mapped code point and selecting choice i gives
    the i-th mapped glyph. False for groups not given in the order of the indices ... *)
Definition mapped_wrongly (ops : list bop) (cp : Z) (settings : list Z) (case choice : Z) : Prop :=
  Forall op_typed ops /\ exists b' f k groups uids uid gg idx,
    Build no_order no_sort (history 7777 sample_date ops) = (b', Ok f) /\ mapping_fits b' f /\
    last_mapping 7777 sample_date ops cp = Some (k, groups) /\
    (k < 254 -> mapping_EvaluateSwitch f k settings = Ok case) /\
    zget groups case = Ok uids /\ zget uids choice = Ok uid /\
    mapping_Utf8 f cp settings = Ok (Some gg) /\ group_Select f gg choice = Ok idx /\ zget (b_order b') idx <> Ok uid.
Ltac wrongly := split; [apply all_typed; vm_compute; reflexivity|];
  match goal with |- exists b' f k groups uids uid gg idx, Build ?o ?s ?b = _ /\ _ =>
      let B := eval vm_compute in (Build o s b) in
      match B with (?b', Ok ?f) => exists b', f end end;
  do 6 eexists; split; [vm_compute; reflexivity|]; split; [vm_compute; reflexivity|]; split; [vm_compute; reflexivity|];
  split; [first [intros _; vm_compute; reflexivity|vm_compute; intros; discriminate]|]; split; [vm_compute; reflexivity|]; split; [vm_compute; reflexivity|]; split; [vm_compute; reflexivity|];
  split; [vm_compute; reflexivity|]; vm_compute; discriminate.
Theorem C43_order_refuted : mapped_wrongly sample_ops 99 [] 0 0.
Proof. wrongly. Qed.
Print Assumptions C43_order_refuted.
(** ... and for groups of glyphs that are not consecutive, where Select steps by four bytes. *)
Theorem C43_gap_refuted : mapped_wrongly (sample_glyphs ++ [OMapGroup 97 0 [1001; 1003; 1004; 1005]]) 97 [] 0 1.
Proof. wrongly. Qed.
Print Assumptions C43_gap_refuted.

(** Code points that were not mapped are not found. *)
Theorem C43_not_found : forall id date ops o sort b' f cp settings,
  date_typed date -> Forall op_typed ops -> perm_order o -> (forall l, Permutation l (sort l)) ->
  Build o sort (history id date ops) = (b', Ok f) -> mapping_fits b' f -> in_int32 cp ->
  last_mapping id date ops cp = None -> mapping_Utf8 f cp settings = Ok None.
Proof.
  intros id date ops o sort b' f cp settings H1 H2 H3 H4 H5 H6 H7 H8.
  pose proof (mapping_survives id date ops o sort b' f cp settings H1 H2 H3 H4 H5 H6 H7) as M. rewrite H8 in M. exact M.
Qed.
Print Assumptions C43_not_found.

(** The group found for a mapped code point has the number of mapped glyphs, other choices
    panic, and choice i is the i-th mapped glyph if the glyphs are consecutive. What is missing:
    groups in other orders, switch cases after groups of several glyphs, mappings of 16 MiB. *)
Theorem C43_partial : forall id date ops o sort b' f cp settings k groups case uids,
  date_typed date -> Forall op_typed ops -> perm_order o -> (forall l, Permutation l (sort l)) ->
  Build o sort (history id date ops) = (b', Ok f) -> mapping_fits b' f -> in_int32 cp ->
  last_mapping id date ops cp = Some (k, groups) ->
  (k < 254 -> mapping_EvaluateSwitch f k settings = Ok case /\ Forall (fun g => zlen g = 1) (firstn (Z.to_nat case) groups)) ->
  (254 <= k -> case = 0) -> zget groups case = Ok uids ->
  exists gg, mapping_Utf8 f cp settings = Ok (Some gg) /\ group_Size f gg = Ok (zlen uids) /\
    (forall i, zlen uids <= i -> group_Select f gg i = Panic) /\
    (consecutive b' uids -> forall i uid, zget uids i = Ok uid ->
       exists idx, zget (b_order b') idx = Ok uid /\ group_Select f gg i = Ok idx).
Proof.
  intros id date ops o sort b' f cp settings k groups case uids H1 H2 H3 H4 H5 H6 H7 H8.
  pose proof (mapping_survives id date ops o sort b' f cp settings H1 H2 H3 H4 H5 H6 H7) as M. rewrite H8 in M. exact (M case uids).
Qed.
Print Assumptions C43_partial.

Example C43_example : Forall op_typed sample_ops /\
  last_mapping 7777 sample_date sample_ops 98 = Some (254, [[1002; 1003]]) /\
  last_mapping 7777 sample_date sample_ops 100 = Some (0, [[1001]; [1003]]) /\
  last_mapping 7777 sample_date sample_ops 102 = None /\
  match Build no_order no_sort sample_builder with
  | (b', Ok f) => mapping_fits b' f /\ b_order b' = [1001; 1002; 1003; 1004; 1005] /\ mapping_Utf8 f 102 [0; 0] = Ok None /\
      (do g <- mapping_Utf8 f 98 [0; 0]; match g with Some gg => group_Select f gg 1 | None => Panic end) = Ok 2 /\
      (do g <- mapping_Utf8 f 100 [1; 0]; match g with Some gg => group_Select f gg 0 | None => Panic end) = Ok 2
  | _ => False end.
Proof. split; [apply all_typed; vm_compute; reflexivity|]. vm_compute. auto 10. Qed.

(** ** C44 *)

(** Horizontal kernings: for all pairs of glyphs the last value set, 0 if there is none. *)
Theorem C44_horizontal : forall id date ops o sort b' f i j u v,
  date_typed date -> Forall op_typed ops -> perm_order o -> (forall l, Permutation l (sort l)) ->
  Build o sort (history id date ops) = (b', Ok f) ->
  zget (b_order b') i = Ok u -> zget (b_order b') j = Ok v ->
  kerning_Get f i j = Ok (last_kerning ops u v).
Proof. exact kernings_survive. Qed.
Print Assumptions C44_horizontal.

Example C44_example : Forall op_typed sample_ops /\ last_kerning sample_ops 1002 1001 = -1 /\ last_kerning sample_ops 1001 1002 = 0 /\
  match Build no_order no_sort sample_builder with
  | (b', Ok f) => zget (b_order b') 1 = Ok 1002 /\ zget (b_order b') 0 = Ok 1001 /\
      kerning_Get f 1 0 = Ok (-1) /\ kerning_Get f 0 1 = Ok 0 /\ kerning_Get f 0 2 = Ok 2
  | _ => False end.
Proof. split; [apply all_typed; vm_compute; reflexivity|]. vm_compute. auto 10. Qed.

(** Vertical kernings: no call sets any, the font has none. *)
Theorem C44_vertical : forall id date ops o sort b' f i j,
  date_typed date -> Forall op_typed ops -> perm_order o -> (forall l, Permutation l (sort l)) ->
  Build o sort (history id date ops) = (b', Ok f) -> 0 <= i < 65536 -> 0 <= j < 65536 -> kerning_GetVert f i j = Ok 0.
Proof. exact no_vertical. Qed.
Print Assumptions C44_vertical.

(** A builder that has vertical pairs (they are only read from edition data) loses their values:
    Build looks them up in the horizontal pairs. *)
Theorem C44_vertical_refuted : exists b b' f i j u v k, m_get pair_eqb (b_vert b) (u, v) = Some (mkKPair 0 k) /\
  Build no_order no_sort b = (b', Ok f) /\ zget (b_order b') i = Ok u /\ zget (b_order b') j = Ok v /\ kerning_GetVert f i j <> Ok k.
Proof.
  exists (with_kerning sample_builder [(1001, 1002, mkKPair 0 3)] [(1001, 1002, mkKPair 0 5)]).
  match goal with |- exists b' f i j u v k, _ /\ Build ?o no_sort ?b = _ /\ _ =>
      let B := eval vm_compute in (Build o no_sort b) in
      match B with (?b', Ok ?f) => exists b', f end end.
  exists 0, 1, 1001, 1002, 5. split; [vm_compute; reflexivity|]. split; [vm_compute; reflexivity|]. split; [vm_compute; reflexivity|]. split; [vm_compute; reflexivity|].
  vm_compute. discriminate.
Qed.
Print Assumptions C44_vertical_refuted.
