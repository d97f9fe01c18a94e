(** Theorems C76 (font IDs). *)
From Verif Require Import Base BaseFacts Spec_Helpers Model_Helpers Model_Date Model_Font Model_Parse Spec_Parse
  Spec_Format Spec_Layout Spec_LayoutFont Spec_Accept Proofs_Accept Proofs_Accept2 Sample Model_Builder Spec_Builder Sample_Builder Model_Export
  Spec_Props Proofs_Props Spec_Entropy Proofs_Entropy.

(** Full statement: an ID is taken if and only if its 32 digits of two bits are varied enough. False: the
    digits that are counted overlap, one starts at each of the 32 lowest bits, so the
    upper 31 bits do not count and a repeated 01 is not noticed. A font whose ID is all 0101... is
    parsed, and one is not whose ID is varied. *)
Definition with_id (id : Z) (l : layout) : layout :=
  let h := l_header l in
  mkLayout (mkHeader (h_format h) id (h_major h) (h_minor h) (h_first_date h) (h_major_date h) (h_minor_date h) (h_name h) (h_family h) (h_author h) (h_about h))
    (l_metrics l) (l_dyes l) (l_palettes l) (l_names l) (l_glyphs l) (l_words l) (l_settings l) (l_switches l) (l_mapping l) (l_conditions l)
    (l_utf8_sets l) (l_glyph_sets l) (l_utf8_rules l) (l_glyph_rules l) (l_horz l) (l_vert l).
Definition repeated : Z := 6148914691236517205. (* 0x5555555555555555 *)
Definition upper_half : Z := 1988524691 * 2 ^ 33.
Theorem C76_refuted :
  (0 <= repeated < 2 ^ 64 /\ Forall (fun d => d = 1) (digits 2 repeated) /\ ~ varied (digits 2 repeated) /\
   is_ok (parse_payload [(font_bytes (with_id repeated sample), EOF)]) = true) /\
  (0 <= upper_half < 2 ^ 64 /\ varied (digits 2 upper_half) /\
   parse_payload [(font_bytes (with_id upper_half sample), EOF)] = Err "font ID entropy too low").
Proof.
  split; (split; [vm_compute; split; [discriminate|reflexivity]|]).
  - split; [vm_compute; repeat constructor|]. split; [vm_compute; intros H; apply H; reflexivity|]. vm_compute. reflexivity.
  - split; [vm_compute; discriminate|]. vm_compute. reflexivity.
Qed.
Print Assumptions C76_refuted.

(** Exactly what is taken: overlapping digits, so IDs that agree in the lower 33 bits are treated alike. *)
Theorem C76_exact_partial : forall id, entropy_too_low id = false <-> varied (digits 1 id).
Proof. exact too_low_spec. Qed.
Print Assumptions C76_exact_partial.
Theorem C76_upper_refuted : forall id id', id mod 2 ^ 33 = id' mod 2 ^ 33 -> entropy_too_low id = entropy_too_low id'.
Proof. exact upper_ignored. Qed.
Print Assumptions C76_upper_refuted.
(** This is what Parse and New ask. *)
Theorem C76_parse_partial : forall l i, encodable l -> delivers i (font_bytes l) ->
  (parse_payload i = Ok (font_of l) <-> parser_accepts (fun id => varied (digits 1 id)) l).
Proof.
  intros l i HE HD. assert (X : parser_accepts (fun id => entropy_too_low id = false) l <-> parser_accepts (fun id => varied (digits 1 id)) l).
  { split; intros [A]; constructor; auto; destruct A as (A1 & A2 & A3); (split; [exact A1|split; [apply too_low_spec; exact A2|exact A3]]). }
  rewrite <- X. destruct (parser_exact l i HE HD) as [[E A]|[[m E] A]]; rewrite E; split; auto; [discriminate|contradiction].
Qed.
Print Assumptions C76_parse_partial.
Theorem C76_new_partial : forall random date, match builder_New random date with
  | Ok b => exists before after, random = before ++ id_of b :: after /\ (length before < 8)%nat /\ varied (digits 1 (id_of b)) /\
              Forall (fun x => ~ varied (digits 1 x)) before
  | Panic => forall before id after, random = before ++ id :: after -> (length before < 8)%nat -> ~ varied (digits 1 id)
  | _ => False
  end.
Proof.
  intros random date. assert (X : forall id, entropy_too_low id = true -> ~ varied (digits 1 id)) by (intros id H Y; apply too_low_spec in Y; congruence).
  pose proof (new_spec random date) as N. destruct (builder_New random date) as [b| | |]; auto.
  - destruct N as ((before & after & E & L & A & B) & _). exists before, after. split; [exact E|]. split; [exact L|]. split; [apply too_low_spec; exact A|].
    eapply Forall_impl; [|exact B]. exact X.
  - intros before id after E L. apply X, (N before id after E L).
Qed.
Print Assumptions C76_new_partial.

(** an ID just beyond the limit, one just within it, and a usual one *)
Example C76_ex : unevenness (digits 1 42) = 36 /\ entropy_too_low 42 = true /\ unevenness (digits 1 293) = 34 /\ entropy_too_low 293 = false /\
  unevenness (digits 1 repeated) = 32 /\ unevenness (digits 1 1311768467463790320) = 6.
Proof. vm_compute. repeat split. Qed.
