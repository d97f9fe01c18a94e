(** Properties of the options of built fonts, whatever the order in which maps are iterated: C42. *)
From Coq Require Import Permutation.
From Verif Require Import Base BaseFacts Spec_Helpers Model_Helpers Model_Names Model_Date Model_Mask Spec_Mask Model_Words Model_Font
  Model_Builder Spec_Builder Spec_Survive Proofs_Builder Sample_Builder Proofs_Typed Proofs_Survive Proofs_Options.

(** ** C42 *)
(** Also with several own words and any order: reading the name of an option that was given never fails and the name is
    as long as one of the given options; reading any other option panics. For the text see [C42_text]. *)
Theorem C42_lengths : forall id date ops o sort b' f key option,
  date_typed date -> Forall op_typed ops -> perm_order o -> (forall l, Permutation l (sort l)) ->
  Build o sort (history id date ops) = (b', Ok f) -> 0 <= key -> 0 <= option ->
  match (do s <- zget (b_settings b') key; zget (snd s) option) with
  | Ok _ => exists name v, settings_GetOptionName f key option = Ok name /\ In v (all_options b') /\ zlen name = zlen v
  | _ => settings_GetOptionName f key option = Panic
  end.
Proof. intros id date ops o sort b' f key option H1 H2 H3 H4 H5. exact (options_lengths id date ops o sort b' f H1 H2 H3 H4 H5 key option). Qed.
Print Assumptions C42_lengths.
(** The order never garbles a predefined word whose index is not below the number of different options. *)
Theorem C42_predefined_partial : forall id date ops o sort b' f key option s name cover,
  date_typed date -> Forall op_typed ops -> perm_order o -> (forall l, Permutation l (sort l)) ->
  Build o sort (history id date ops) = (b', Ok f) ->
  zget (b_settings b') key = Ok s -> zget (snd s) option = Ok name ->
  ~ own_word name -> incl (all_options b') cover -> (forall i, GetPredefinedWord i = Ok name -> zlen cover <= i) ->
  settings_GetOptionName f key option = Ok name.
Proof. intros id date ops o sort b' f key option s name cover H1 H2 H3 H4 H5 H6 H7 H8 H9. exact (options_predefined id date ops o sort b' f H1 H2 H3 H4 H5 key option s name cover H6 H7 H8 H9). Qed.
Print Assumptions C42_predefined_partial.

(** Which names are read, for every order: [W] are the stored words, all own words among them. Their texts [txts] are stored
    one after the other and cut at the lengths of [lens]; both are the stored words in some order. The option with the i-th
    stored word is read as the i-th piece, options that are not stored are read as given. *)
Theorem C42_text : forall id date ops o sort b' f,
  date_typed date -> Forall op_typed ops -> perm_order o -> (forall l, Permutation l (sort l)) ->
  Build o sort (history id date ops) = (b', Ok f) ->
  exists W lens txts pieces : list (list Z), NoDup W /\ incl W (all_options b') /\ (forall w, In w (all_options b') -> own_word w -> In w W) /\
    Permutation lens W /\ Permutation txts W /\ map zlen pieces = map zlen lens /\ concat pieces = concat txts /\
    forall key option, 0 <= key -> 0 <= option ->
      match (do s <- zget (b_settings b') key; zget (snd s) option) with
      | Ok name => (forall i, zget W i = Ok name -> settings_GetOptionName f key option = zget pieces i) /\
                   (~ In name W -> settings_GetOptionName f key option = Ok name)
      | _ => settings_GetOptionName f key option = Panic
      end.
Proof. exact options_text. Qed.
Print Assumptions C42_text.

(** two own words and a predefined one, the own words written in the wrong order: only the predefined one is right *)
Example C42_predefined_example :
  let words := [str_bytes "petite"; str_bytes "on"; str_bytes "mid"] in
  let o : order := fun n A l => match n with 2%nat => rev l | _ => l end in
  perm_order o /\ ~ own_word (str_bytes "on") /\ (forall i, GetPredefinedWord i = Ok (str_bytes "on") -> zlen words <= i) /\
  exists b' f, Build o no_sort (history 7777 sample_date (sample_glyphs ++ [OAddSetting (str_bytes "size") words])) = (b', Ok f) /\
    all_options b' = words /\ zget (b_settings b') 0 = Ok (str_bytes "size", words) /\
    settings_GetOptionName f 0 0 = Ok (str_bytes "pet") /\ settings_GetOptionName f 0 1 = Ok (str_bytes "on") /\
    settings_GetOptionName f 0 2 = Ok (str_bytes "itemid") /\ settings_GetOptionName f 0 3 = Panic.
Proof.
  cbv zeta. split. { intros n A l. destruct n as [|[|[|n]]]; try reflexivity. symmetry. apply Permutation_rev. }
  split; [intros H; apply (H 209); vm_compute; reflexivity|]. split.
  - intros i H. change (zlen [str_bytes "petite"; str_bytes "on"; str_bytes "mid"]) with 3.
    destruct (Z_lt_dec i 3); [|lia]. exfalso. destruct (Z_lt_dec i 0); [destruct i; try lia; cbn in H; discriminate|].
    assert (C : i = 0 \/ i = 1 \/ i = 2) by lia. destruct C as [->|[->| ->]]; vm_compute in H; discriminate.
  - match goal with |- exists b' f, Build ?o no_sort ?b = _ /\ _ => let B := eval vm_compute in (Build o no_sort b) in match B with (?b', Ok ?f) => exists b', f end end.
    repeat split; vm_compute; reflexivity.
Qed.
