(** Theorems C10 (dates). *)
From Verif Require Import Base BaseFacts Model_Date Spec_Date Proofs_Date.

(** Full statement: [forall d, date_fields d -> exists b, date_IsValid d = Ok b /\ (b = true <-> valid_date d)].
    False: with month and day left out IsValid indexes the month table at 255. *)
Theorem C10_isvalid_refuted :
  exists d, date_fields d /\ valid_date d /\ date_IsValid d = Panic.
Proof.
  exists (mkDate 2024 0 0). split; [unfold date_fields; cbn; lia|].
  split; [apply OnlyYear; lia|vm_compute; reflexivity].
Qed.
Print Assumptions C10_isvalid_refuted.

(** Exactly the dates without month and day are affected. *)
Theorem C10_isvalid_no_month_refuted : forall d, Month d = 0 -> Day d = 0 ->
  valid_date d /\ date_IsValid d = Panic.
Proof. exact isvalid_month0. Qed.
Print Assumptions C10_isvalid_no_month_refuted.

(** Everywhere else the answer is the calendar's. *)
Theorem C10_isvalid_partial : forall d, date_fields d -> Month d <> 0 ->
  exists b, date_IsValid d = Ok b /\ (b = true <-> valid_date d).
Proof. exact isvalid_spec. Qed.
Print Assumptions C10_isvalid_partial.

Theorem C10_isvalid_day_without_month_partial : forall d, Month d = 0 -> Day d <> 0 ->
  date_IsValid d = Ok false.
Proof. exact isvalid_month0_day. Qed.
Print Assumptions C10_isvalid_day_without_month_partial.

Theorem C10_string_total : forall d, date_fields d -> exists t, date_String d = Ok t.
Proof. exact date_string_total. Qed.
Print Assumptions C10_string_total.

(** IsComplete asks for all three fields. *)
Theorem C10_complete : forall d, date_IsComplete d = true <-> Year d <> 0 /\ Month d <> 0 /\ Day d <> 0.
Proof. exact iscomplete_spec. Qed.
Print Assumptions C10_complete.

(** A complete date answers the calendar question and its text names day, month and year. *)
Theorem C10_complete_text : forall d, date_fields d -> date_IsComplete d = true ->
  exists b, date_IsValid d = Ok b /\ (b = true <-> has_day (Year d) (Month d) (Day d)) /\
  exists m, date_MonthName d = Ok m /\ date_String d = Ok (FullText (Day d) m (Year d)).
Proof. exact complete_text. Qed.
Print Assumptions C10_complete_text.

Example C10_ex :
  date_IsComplete (mkDate 2024 2 29) = true /\ date_IsComplete (mkDate 2024 0 29) = false /\
  date_IsValid (mkDate 2000 2 29) = Ok true /\ date_IsValid (mkDate 1900 2 29) = Ok false /\
  date_IsValid (mkDate 2024 4 31) = Ok false /\ date_IsValid (mkDate 2024 12 0) = Ok true /\
  date_IsValid (mkDate 0 1 1) = Ok false /\ date_IsValid (mkDate 0 0 0) = Panic /\
  date_String (mkDate 2024 2 29) = Ok (FullText 29 "February" 2024).
Proof. repeat split. Qed.
