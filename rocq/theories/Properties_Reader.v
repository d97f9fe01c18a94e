(** Theorems C18-C21 (continued): exactly how the result of Parse depends on the reader and on
    bytes behind the content. *)
From Verif Require Import Base BaseFacts Spec_Helpers Model_Helpers Model_Font Model_Parse Spec_Parse Spec_Reader Proofs_Parse Proofs_Reader Properties_Parse.

(** Compared with a reader that hands out the whole payload at once together with io.EOF, any
    other well-behaved reader gives the same error; and if that one gives a font, the parser takes
    results until it has the bytes up to the end of the content, keeps what it got as Data, and
    panics unless the end was reported by then or is reported by the first result after it that
    is not idle. Missing to the full statement: that this does not depend on the reader. Payloads
    over 32 MiB and failing readers are left out. *)
Theorem C18_exact_partial : forall i p, within_bounds p -> delivers i p ->
  match parse_payload [(p, EOF)] with
  | Ok f => let '(data, ended, unread) := received (content_end f p) [] i in
      parse_payload i = if ended || closes unread then Ok (over data f) else Panic
  | Err e => parse_payload i = Err e
  | _ => False
  end.
Proof. exact reader_exact. Qed.
Print Assumptions C18_exact_partial.

(** The panics of Parse, exactly. *)
Theorem C20_exact_partial : forall i p, within_bounds p -> delivers i p ->
  parse_payload i = Panic <->
  exists f data unread, parse_payload [(p, EOF)] = Ok f /\
    received (content_end f p) [] i = (data, false, unread) /\ closes unread = false.
Proof.
  intros i p HB HD. pose proof (reader_exact i p HB HD) as H. destruct (parse_payload [(p, EOF)]) as [f|e| |]; try contradiction.
  - destruct (received (content_end f p) [] i) as [[b e] r] eqn:ER. rewrite H. split.
    + intros HP. exists f, b, r. destruct e, (closes r) eqn:Ec; try discriminate. auto.
    + intros (f' & b' & r' & E & E2 & E3). injection E as <-. rewrite ER in E2. injection E2 as <- -> <-. now rewrite E3.
  - rewrite H. split; [discriminate|]. intros (f & b & r & E & _). discriminate.
Qed.
Print Assumptions C20_exact_partial.

(** Whatever follows a complete font is accepted, as long as the reader hands it out in time
    ([C18_exact_partial] with the payload [p ++ q]); it becomes part of Data. *)
Theorem C21_padding_partial : forall p q f, within_bounds (p ++ q) ->
  parse_payload [(p, EOF)] = Ok f -> content_end f p <= zlen p ->
  parse_payload [(p ++ q, EOF)] = Ok (over (p ++ q) f).
Proof. exact padding_exact. Qed.
Print Assumptions C21_padding_partial.

(** a complete font and two bytes behind it, in five ways: idle results before the end of the
    content and after it do no harm, and the bytes behind it do if they come without io.EOF in the
    first result after the content that is not idle *)
Example C18_exact_ex : exists f,
  let p := tiny_font ++ [7; 8] in let halves := [(firstn 40 tiny_font, NoErr); ([], NoErr); (skipn 40 tiny_font, NoErr)] in
  within_bounds p /\ parse_payload [(tiny_font, EOF)] = Ok f /\ content_end f tiny_font = zlen tiny_font /\
  parse_payload [(p, EOF)] = Ok (over p f) /\ content_end (over p f) p = zlen tiny_font /\
  Forall (fun i => delivers i p) [ halves ++ [([], NoErr); ([7; 8], EOF)]; halves ++ [([7], NoErr); ([8], EOF)];
     [(firstn 40 p, NoErr); (skipn 40 p, EOF)]; [(firstn 40 p, NoErr); (skipn 40 p, NoErr)] ] /\
  parse_payload (halves ++ [([], NoErr); ([7; 8], EOF)]) = Ok f /\ parse_payload (halves ++ [([7], NoErr); ([8], EOF)]) = Panic /\
  parse_payload [(firstn 40 p, NoErr); (skipn 40 p, EOF)] = Ok (over p f) /\
  parse_payload [(firstn 40 p, NoErr); (skipn 40 p, NoErr)] = Ok (over p f).
Proof.
  eexists. cbv zeta. split; [split; [apply bytes_check; vm_compute; reflexivity|vm_compute; discriminate]|].
  split; [vm_compute; reflexivity|]. split; [vm_compute; reflexivity|]. split; [vm_compute; reflexivity|]. split; [vm_compute; reflexivity|].
  split; [repeat (apply Forall_cons; [split; vm_compute; auto|]); apply Forall_nil|].
  split; [vm_compute; reflexivity|]. split; [vm_compute; reflexivity|]. split; vm_compute; reflexivity.
Qed.
