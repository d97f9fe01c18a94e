(** Theorems C11 (name validation). *)
From Verif Require Import Base BaseFacts Model_Names Spec_Names Proofs_Names.

(** Full statement: [forall s, ValidateBasicName s = Ok tt <-> basic_name s].
    False in two ways: the error for consecutive hyphens is built but not returned, and
    names may start with a digit. *)
Theorem C11_basic_name_refuted :
  (exists s, double_hyphen s /\ ~ basic_name s /\ ValidateBasicName s = Ok tt) /\
  (exists s, ~ letter (hd 0 s) /\ ~ basic_name s /\ ValidateBasicName s = Ok tt).
Proof.
  split.
  - exists [97; 45; 45; 98]. split; [exists [97], [98]; reflexivity|].
    split; [|vm_compute; reflexivity]. rewrite basic_name_natural. intros (_ & _ & H). apply H.
    exists [97], [98]. reflexivity.
  - exists [57; 97]. split; [unfold letter; cbn; lia|]. split; [|vm_compute; reflexivity].
    rewrite basic_name_natural. intros (_ & H & _). unfold letter in H. cbn in H. lia.
Qed.
Print Assumptions C11_basic_name_refuted.

(** Outside those two cases the validation agrees with the specification's expression. *)
Theorem C11_basic_name_partial : forall s, letter (hd 0 s) -> ~ double_hyphen s ->
  (ValidateBasicName s = Ok tt <-> basic_name s).
Proof. exact validate_basic. Qed.
Print Assumptions C11_basic_name_partial.

(** No well-formed name is ever rejected. *)
Theorem C11_well_formed_accepted : forall s, basic_name s -> ValidateBasicName s = Ok tt.
Proof. exact basic_accepted. Qed.
Print Assumptions C11_well_formed_accepted.

(** Exactly what the code accepts. *)
Theorem C11_accepts_loose : forall s, ValidateBasicName s = Ok tt <-> loose_name s.
Proof. exact validate_loose. Qed.
Print Assumptions C11_accepts_loose.

Theorem C11_validation_total : forall s,
  (exists m, ValidateBasicName s = Err m) \/ ValidateBasicName s = Ok tt.
Proof. exact validate_spec. Qed.
Print Assumptions C11_validation_total.

Theorem C11_spaced_name : forall s,
  (validateBasicSpacedName s = Ok tt <-> spaced_name s) /\
  (validateBasicSpacedName s = Ok tt \/ exists m, validateBasicSpacedName s = Err m).
Proof. exact spaced_spec. Qed.
Print Assumptions C11_spaced_name.

(** "zero-9b" is accepted; "-a", "a-", "a_b" and "" are not. *)
Example C11_ex :
  ValidateBasicName [122; 101; 114; 111; 45; 57; 98] = Ok tt /\
  is_ok (ValidateBasicName [45; 97]) = false /\ is_ok (ValidateBasicName [97; 45]) = false /\
  is_ok (ValidateBasicName [97; 95; 98]) = false /\ is_ok (ValidateBasicName []) = false /\
  validateBasicSpacedName [97; 32; 32; 98] = Ok tt.
Proof. repeat split. Qed.
Example C11_ex_letter : letter (hd 0 [122; 101; 114; 111; 45; 57; 98]).
Proof. unfold letter; cbn; lia. Qed.
