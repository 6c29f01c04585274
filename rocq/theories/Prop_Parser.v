(** C32, C33: exclusion comments and unparsable sources. *)
From Verif Require Import PyBase PyLemmas Utility RulesData Rules Config Formats Parser AstKinds Ast State Visitor
  MinVersions Processor Spec_Base Spec_Detection Spec_Parser Proof_Strings Proof_Detection Proof_Parser.

(** ** C32 *)
Theorem c32_excluded_lines : forall toks, comment_tokens toks ->
  forall n, In n (comments toks) <-> excluded_line toks n.
Proof. exact comments_spec. Qed.

(** Without comment parsing no line is excluded. *)
Theorem c32_switched_off : forall major c node toks, c_parse_comments c = false ->
  parser_detect major c (PTree node toks) = DTree node [].
Proof. intros. unfold parser_detect. rewrite H. auto. Qed.

Definition tk (ty : toktype) (s : string) (row col fin : Z) : token := mkTok ty s row col fin.
(** x = 3-quoted string of lines 1-2, then a comment; then a comment alone on its line; then one that
    is no exclusion. *)
Definition toks1 : list token :=
  [tk TkOther "x" 1 0 1; tk TkString (dq3 +++ "a" +++ nl +++ dq3) 1 4 2; tk TkComment "# see # novm" 2 8 2;
   tk TkNewline nl 2 20 2; tk TkComment "#novermin: old" 3 2 3; tk TkNl nl 3 16 3;
   tk TkOther "y" 4 2 4; tk TkComment "# no novm" 4 4 4; tk TkNewline nl 4 12 4].
Example c32_case : comment_tokens toks1 /\ comments toks1 = [1; 4].
Proof.
  split; [|vm_compute; reflexivity].
  intros t H E. simpl in H.
  repeat (destruct H as [<-|H]; [try discriminate E; eexists; reflexivity|]). destruct H.
Qed.

(** False of the code: a triple-quoted string with a prefix is not followed to its first line. *)
Theorem c32_prefixed_string_refuted : exists s cm,
  tk_type s = TkString /\ startswith ("r" +++ dq3) (tk_string s) = true /\ endswith dq3 (tk_string s) = true /\
  tk_type cm = TkComment /\ marks (tk_string cm) /\ tk_end s = tk_row cm /\
  comments [s; cm] = [tk_row cm] /\ tk_row s <> tk_row cm.
Proof.
  exists (tk TkString ("r" +++ dq3 +++ "a" +++ nl +++ dq3) 1 4 2), (tk TkComment "# novm" 2 8 2).
  split; [reflexivity|]. split; [reflexivity|]. split; [reflexivity|]. split; [reflexivity|].
  split; [exists "", " ", "novm", ""; split; [reflexivity|]; split; [|auto]; intros [|y a] x b E; inversion E; subst; auto; destruct a; discriminate|].
  split; [reflexivity|]. split; [reflexivity|discriminate].
Qed.

(** False of the code: an indented comment on the very first line is not taken to be alone. *)
Theorem c32_first_line_refuted : exists cm, tk_type cm = TkComment /\ marks (tk_string cm) /\
  tk_row cm = 1 /\ comments [cm; tk TkNl nl 1 10 1] = [1].
Proof.
  exists (tk TkComment "# novm" 1 2 1).
  split; [reflexivity|]. split; [|split; reflexivity].
  exists "", " ", "novm", ""; split; [reflexivity|]; split; [|auto]; intros [|y a] x b E; inversion E; subst; auto; destruct a; discriminate.
Qed.

(** ** C33 *)
Theorem c33_verdict : forall major c e m, fst (syntax_verdict major c e) = m <-> verdict major c e m.
Proof. exact verdict_iff. Qed.

(** A source whose parse (or tokenizing) raises a SyntaxError. *)
Definition raises_syntax_error (c : config) (p : parsed) (e : syntax_error) : Prop :=
  p = PErr (PeSyntax e) \/ (exists node, p = PTree node (inl (PeSyntax e)) /\ c_parse_comments c = true).

(** Nothing of the source is analysed: the result has the verdict, no text, no excluded lines, no
    backports, no annotations; detect() answers the verdict. *)
Theorem c33_only_the_verdict : forall h major c path source p e i, i <> EndAbort -> raises_syntax_error c p e ->
  exists m, verdict major c e m /\
    snd (process_individual h major c path (FcSource source p) i) = Ok (Some (mkRes path (MVers m) "" [] [] false)) /\
    forall q, api_detect h major c q source p = Ok m.
Proof.
  intros h major c path source p e i N H. exists (fst (syntax_verdict major c e)).
  split; [apply verdict_iff; auto|].
  assert (D : parser_detect major c p = DVerdict (fst (syntax_verdict major c e)) (snd (syntax_verdict major c e))).
  { destruct H as [->|(node & -> & C)]; unfold parser_detect; rewrite ?C; destruct (syntax_verdict major c e); auto. }
  split.
  - unfold process_individual. rewrite D. destruct i; auto; congruence.
  - intros q. unfold api_detect, api_visit. rewrite D. auto.
Qed.

(** The message: one line at verbosity two and up unless quiet, with the place; in parsable format
    with the very versions of the verdict. *)
Theorem c33_message : forall h major c path source p e i, i <> EndAbort -> raises_syntax_error c p e ->
  exists m rest, verdict major c e m /\
    fst (process_individual h major c path (FcSource source p) i) =
      (if (2 <=? c_verbose c) && negb (c_quiet c)
       then [se_filename e +++ ":" +++ se_lineno e +++ ":" +++ se_offset e +++ ":" +++
             match c_format c with FParsable => mins_str ":" m +++ ":" | FDefault => "" end +++ rest]
       else []) /\ (begins "info: " rest \/ begins "error: " rest).
Proof.
  intros h major c path source p e i N H. 
  assert (D : parser_detect major c p = DVerdict (fst (syntax_verdict major c e)) (snd (syntax_verdict major c e))).
  { destruct H as [->|(node & -> & C)]; unfold parser_detect; rewrite ?C; destruct (syntax_verdict major c e); auto. }
  exists (fst (syntax_verdict major c e)). unfold process_individual. rewrite D. cbn [fst].
  enough (K : exists rest, snd (syntax_verdict major c e) =
      (if (2 <=? c_verbose c) && negb (c_quiet c)
       then [se_filename e +++ ":" +++ se_lineno e +++ ":" +++ se_offset e +++ ":" +++
             match c_format c with FParsable => mins_str ":" (fst (syntax_verdict major c e)) +++ ":" | FDefault => "" end +++ rest]
       else []) /\ (begins "info: " rest \/ begins "error: " rest)).
  { destruct K as [rest K]. exists rest. split; [apply verdict_iff; auto|destruct i; cbn [fst]; try exact K; congruence]. }
  unfold syntax_verdict.
  set (text := if fmt_eqb (c_format c) FParsable
               then escape_nl match se_text e with Some t => strip t | None => "" end
               else match se_text e with Some t => strip t | None => "" end).
  destruct (contains _ _).
  - exists ("info: `" +++ text +++ "` requires 2.0"). split; [|left; eexists; reflexivity].
    unfold vvprint, verbose_print. cbn [fst snd]. destruct (_ && _); auto. f_equal. rewrite !app_assoc_s.
    destruct (c_format c); reflexivity.
  - destruct (_ && type_alias_match text).
    + exists ("info: type alias statement `" +++ text +++ "` requires !2, 3.12").
      split; [|left; eexists; reflexivity].
      unfold vvprint, verbose_print. cbn [fst snd]. destruct (_ && _); auto. f_equal. rewrite !app_assoc_s.
      destruct (c_format c); reflexivity.
    + exists ("error: " +++ se_msg e +++ ": " +++ text).
      split; [|right; eexists; reflexivity].
      unfold vvprint, verbose_print. cbn [fst snd]. destruct (_ && negb (c_quiet c)); auto. f_equal. rewrite !app_assoc_s.
      destruct (c_format c); reflexivity.
Qed.

Definition alias_error : syntax_error := mkSyn (Some ("  type Pair [T] = tuple[T, T]" +++ nl)) "Invalid Syntax" "f.py" "1" "6".
Example c33_case :
  verdict 3 (default_config 1) alias_error (None, Some (3, 12)) /\
  verdict 3 (w_pessimistic true (default_config 1)) (mkSyn None "bad" "f.py" "1" "6") (Some (0, 0), None) /\
  verdict 3 (default_config 1) (mkSyn (Some "print 1") "Missing parentheses in call to 'print'. Did you mean" "f" "1" "1")
    (Some (2, 0), None).
Proof. split; [|split]; apply verdict_iff; vm_compute; reflexivity. Qed.

Print Assumptions c32_excluded_lines.
Print Assumptions c32_switched_off.
Print Assumptions c32_prefixed_string_refuted.
Print Assumptions c32_first_line_refuted.
Print Assumptions c33_verdict.
Print Assumptions c33_only_the_verdict.
Print Assumptions c33_message.
