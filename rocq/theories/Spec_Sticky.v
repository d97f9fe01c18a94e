(** Readers that go on failing, as gzip.Reader does: it keeps its first error. *)
From Verif Require Import Base Model_Font Model_Parse Spec_Failing.

(** further calls after a failure with [m] *)
Definition fails (m : string) (calls : nat) : stream := repeat ([], Fail m) calls.
(** the messages of which one takes the place of the error: the third one when the bytes that came
    with the error are taken for the second kerning counter *)
Definition blamed : list string := misreported ++ ["NumVertKerningPairs can't exceed NumGlyphs^2"%string].
