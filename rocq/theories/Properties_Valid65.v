(** Properties of Validate on built fonts: C65 without limits on the size of the font. *)
From Coq Require Import Permutation.
From Verif Require Import Base BaseFacts Spec_Helpers Model_Helpers Model_Names Model_Words Model_Date Model_Mask Model_Font Model_Parse Spec_Parse
  Model_Builder Spec_Builder Model_Export Spec_Props Spec_Kept Proofs_Order Spec_Survive Proofs_Survive Proofs_Builder Proofs_Valid65 Proofs_Typed Sample_Builder Properties_Build Properties_Kept.

(** ** C65 *)
(** A built font of any size is valid exactly when its identifier has enough entropy, its name is not empty and a font
    without vertical layout has no vertical spacing; otherwise Validate returns an error and never panics. *)
Theorem C65_built_exact : forall id date ops b f, built_from id date ops b f ->
  (font_Validate f FmtDefault = Ok tt <->
     entropy_too_low id = false /\ text_of TName b <> [] /\ (vertical b = false -> metric_of VertInterspacing b = 0)) /\
  (font_Validate f FmtDefault = Ok tt \/ exists m, font_Validate f FmtDefault = Err m).
Proof. from_builder. eapply valid_exact; eassumption. Qed.
Print Assumptions C65_built_exact.
(** Which error: the first of the three. *)
Theorem C65_built_error : forall id date ops b f, built_from id date ops b f ->
  (entropy_too_low id = true -> font_Validate f FmtDefault = Err "font ID entropy too low") /\
  (entropy_too_low id = false -> text_of TName b = [] -> font_Validate f FmtDefault = Err "font name can't be empty") /\
  (entropy_too_low id = false -> text_of TName b <> [] -> vertical b = false -> metric_of VertInterspacing b <> 0 ->
     font_Validate f FmtDefault = Err "VertInterspacing set without HasVertLayout").
Proof.
  from_builder. rewrite (valid_built id date ops o sort b' f HD HI HT HO HS HB). split; [intros ->; reflexivity|].
  split; [intros -> ->; reflexivity|]. intros -> N V W.
  destruct (text_of TName (history id date ops)) as [|x t]; [destruct (N eq_refl)|]. rewrite zlen_cons. pose proof (zlen_nonneg t).
  destruct (Z.eqb_spec (1 + zlen t) 0); [lia|]. rewrite V. destruct (Z.eqb_spec (metric_of VertInterspacing (history id date ops)) 0); [contradiction|reflexivity].
Qed.
Print Assumptions C65_built_error.
Ltac case65 := match goal with |- exists f, built_from ?i ?d ?o ?b f /\ _ =>
    let B := eval vm_compute in (snd (Build no_order no_sort b)) in match B with Ok ?f => exists f end end;
    split; [built|vm_compute; reflexivity].
(** All four cases occur: a valid font, and one for each error. *)
Example C65_built_example :
  let check id ops r := exists f, built_from id sample_date (sample_glyphs ++ ops) (history id sample_date (sample_glyphs ++ ops)) f /\
    font_Validate f FmtDefault = r in
  check sample_id [OSetName (str_bytes "Ab"); OSetMetric VertInterspacing 3; OSetVertLayoutUsed true] (Ok tt) /\
  check 0 [OSetName (str_bytes "Ab")] (Err "font ID entropy too low"%string) /\
  check sample_id [OSetName []] (Err "font name can't be empty"%string) /\
  check sample_id [OSetName (str_bytes "Ab"); OSetMetric VertInterspacing 3] (Err "VertInterspacing set without HasVertLayout"%string).
Proof.
  cbv zeta. split; [case65|]. split; [case65|]. split; case65.
Qed.
