(** The help text. Lemmas for C70. *)
From Verif Require Import PyBase PyLemmas Utility RulesData Rules Config Formats Paths Pool Detection Arguments Processor Main UsageData Usage Messages
  Spec_Base Spec_Utility Proof_Utility Proof_Strings Spec_Config Spec_Args Proof_Args Spec_Detection Proof_Detection Proof_Messages Spec_Usage Proof_Options.

(** ** Lines of a text *)
Lemma split_cons f s : split_on f s <> [].
Proof. destruct s as [|x s]; cbn; [discriminate|]. destruct (f x); [discriminate|]. destruct (split_on f s); discriminate. Qed.
Lemma split_one p : no_newline p -> split_char newline p = [p].
Proof.
  unfold no_newline, split_char. induction p as [|x p IH]; intros N; [reflexivity|].
  rewrite sall_cons in N. apply andb_true_iff in N as [N1 N2]. apply negb_true_iff in N1. cbn [split_on]. rewrite N1, IH by exact N2. reflexivity.
Qed.
(** The lines of [b], the first with [a] put before. *)
Definition ahead (a : string) (ls : list string) : list string := match ls with [] => [a] | h :: t => (a +++ h) :: t end.
(** The lines of [a] with [ls] put after. *)
Fixpoint glue (a ls : list string) : list string :=
  match a with [] => ls | [x] => ahead x ls | x :: r => x :: glue r ls end.
Lemma split_glue a b : split_char newline (a +++ b) = glue (split_char newline a) (split_char newline b).
Proof.
  unfold split_char. assert (Nb := split_cons (Ascii.eqb newline) b). induction a as [|x a IH].
  - change ("" +++ b) with b. cbn [split_on glue]. destruct (split_on (Ascii.eqb newline) b); [congruence|reflexivity].
  - change (String x a +++ b) with (String x (a +++ b)). cbn [split_on]. rewrite IH.
    assert (Na := split_cons (Ascii.eqb newline) a).
    destruct (split_on (Ascii.eqb newline) a) as [|h t]; [congruence|]. destruct (split_on (Ascii.eqb newline) b) as [|h' t']; [congruence|].
    destruct (Ascii.eqb newline x).
    + reflexivity.
    + destruct t; reflexivity.
Qed.
Lemma split_line x b : split_char newline (x +++ nl +++ b) = split_char newline x ++ split_char newline b.
Proof.
  rewrite split_glue. change (nl +++ b) with (String newline b).
  assert (E : split_char newline (String newline b) = "" :: split_char newline b) by reflexivity. rewrite E.
  assert (Na := split_cons (Ascii.eqb newline) x). unfold split_char in *.
  revert Na. generalize (split_on (Ascii.eqb newline) x) as l. induction l as [|y l IH]; intros N; [congruence|].
  destruct l as [|z l]; cbn [glue ahead app]; [rewrite app_nil_s; reflexivity|]. f_equal. apply IH. discriminate.
Qed.
Lemma print_lines_split l : split_char newline (print_lines l) = flat_map (split_char newline) l ++ [""].
Proof.
  induction l as [|x l IH]; [reflexivity|]. rewrite print_cons, split_line, IH. cbn [flat_map]. rewrite app_assoc. reflexivity.
Qed.

(** ** The lines of the help text, piece by piece *)
Fixpoint glued (l : list (list string)) : list string := match l with [] => [""] | x :: r => glue x (glued r) end.

Definition piece_lines (prog n : string) (p : piece) : list string :=
  match p with
  | HCpus => [n]
  | HProg => [prog]
  | _ => match piece_text "" 0 p with Ok s => split_char newline s | Err _ => [] end
  end.
Definition text_lines (prog n : string) (l : list (when * list piece)) : list string :=
  flat_map (fun cp => if printed_when true (fst cp) then glued (map (piece_lines prog n) (snd cp)) else []) l ++ [""].

Lemma number_line n : no_newline (z_str n).
Proof. apply (sall_impl digit_minus); [|apply z_str_chars]. intros c H. destruct (Ascii.eqb_spec newline c) as [<-|]; [discriminate H|reflexivity]. Qed.

Section Lines.
  Context (prog : string) (cpus : Z) (Np : no_newline prog).
  Lemma piece_split p s : piece_text prog cpus p = Ok s -> split_char newline s = piece_lines prog (z_str cpus) p.
  Proof.
    destruct p; intros E; try (injection E as <-; apply split_one; first [assumption | apply number_line]); unfold piece_lines.
    all: match goal with |- _ = match ?x with _ => _ end => change x with (Ok s) || (replace x with (Ok s) by (rewrite <- E; reflexivity)) end; reflexivity.
  Qed.
  Lemma pieces_split l s : pieces_text prog cpus l = Ok s -> split_char newline s = glued (map (piece_lines prog (z_str cpus)) l).
  Proof.
    revert s. induction l as [|p l IH]; intros s E; [injection E as <-; reflexivity|]. cbn [pieces_text] in E.
    destruct (piece_text prog cpus p) as [a|] eqn:A; cbn [bindr] in E; [|discriminate].
    destruct (pieces_text prog cpus l) as [b|]; cbn [bindr] in E; [|discriminate]. injection E as <-.
    rewrite split_glue, (piece_split _ _ A), (IH b eq_refl). reflexivity.
  Qed.
  Lemma texts_split l x : usage_texts prog cpus true l = Ok x -> flat_map (split_char newline) x ++ [""] = text_lines prog (z_str cpus) l.
  Proof.
    unfold text_lines. intros E. f_equal. revert x E. induction l as [|[c ps] l IH]; intros x E; [injection E as <-; reflexivity|].
    cbn [usage_texts flat_map fst snd] in *. destruct (printed_when true c); [|apply IH, E].
    destruct (pieces_text prog cpus ps) as [a|] eqn:A; cbn [bindr] in E; [|discriminate].
    destruct (usage_texts prog cpus true l) as [b|]; cbn [bindr] in E; [|discriminate]. injection E as <-.
    cbn [flat_map]. rewrite (pieces_split _ _ A), (IH b eq_refl). reflexivity.
  Qed.
  Lemma help_text ls : help_lines prog cpus ls -> ls = text_lines prog (z_str cpus) usage_prints.
  Proof. intros (l & E & ->). rewrite print_lines_split. apply texts_split, E. Qed.
End Lines.

(** ** What is read off the lines *)
Definition words_of (ls : list string) : list (string * bool) :=
  flat_map (fun l => map (fun f => (form_word f, marked_default l)) (option_forms l)) (option_lines ls).
Definition all_words : list (string * bool) := Eval vm_compute in words_of (text_lines "" "" usage_prints).
Lemma words_text prog n : words_of (text_lines prog n usage_prints) = all_words.
Proof. vm_compute. reflexivity. Qed.

Section Read.
  Context (prog : string) (cpus : Z) (ls : list string) (Np : no_newline prog) (H : help_lines prog cpus ls).
  Lemma words_in : words_of ls = all_words.
  Proof. rewrite (help_text prog cpus Np ls H). apply words_text. Qed.
  Lemma documented_iff a : documented ls a <-> exists w b, In (w, b) all_words /\ as_written w a.
  Proof.
    rewrite <- words_in. unfold documented, words_of. split.
    - intros (l & f & L & F & A). exists (form_word f), (marked_default l). split; [|exact A]. apply in_flat_map. exists l. split; [exact L|].
      apply in_map_iff. eauto.
    - intros (w & b & I & A). apply in_flat_map in I as (l & L & I). apply in_map_iff in I as (f & E & F). injection E as <- <-. eauto.
  Qed.
  Lemma default_iff o : default_option ls o <-> In (o, true) all_words.
  Proof.
    rewrite <- words_in. unfold default_option, words_of. rewrite in_flat_map. split.
    - intros (l & f & L & M & F & <-). exists l. split; [exact L|]. apply in_map_iff. exists f. rewrite M. auto.
    - intros (l & L & I). apply in_map_iff in I as (f & E & F). injection E as <- M. eauto 6.
  Qed.
  Lemma unmarked_iff o : unmarked_option ls o <-> In (o, false) all_words.
  Proof.
    rewrite <- words_in. unfold unmarked_option, words_of. rewrite in_flat_map. split.
    - intros (l & f & L & M & F & <-). exists l. split; [exact L|]. apply in_map_iff. exists f. rewrite M. auto.
    - intros (l & L & I). apply in_map_iff in I as (f & E & F). injection E as <- M. eauto 6.
  Qed.
End Read.

(** ** What the parser takes *)
Definition taken_words : list string := Eval vm_compute in
  filter (fun w => negb (contains "=" w) && negb (mem w ["-v.."; "--help"; "-h"; "--version"; "-V"; "--no-config-file"])) (map fst all_words).
Definition taken (a : string) : bool :=
  mem a taken_words || startswith "-v" a || startswith "-t=" a || startswith "--target=" a || startswith "-p=" a || startswith "--processes=" a.

Ltac advances G :=
  unfold Arguments.parse_arg, adv in G;
  repeat match type of G with
  | (if ?b then _ else _) = _ => let v := eval vm_compute in b in match v with true => idtac | false => idtac end; change b with v in G; cbv iota in G
  | (if ?b then _ else _) = _ => destruct b
  | match flag_effect ?w with _ => _ end = _ => let v := eval cbv in (flag_effect w) in change (flag_effect w) with v in G; cbv iota in G
  | match ?n with _ => _ end = _ => destruct n
  | (let (_, _) := ?n in _) = _ => destruct n
  end; try discriminate G; injection G as <-; cbn [p_pos]; lia.
Section Taken.
  Context (cpus : Z) (re_ok : string -> bool) (ef : string -> option (list string)).
  Notation parse_arg := (parse_arg cpus re_ok ef).
  Notation parse_loop := (parse_loop cpus re_ok ef).
  Lemma arg_untaken a next s : taken a = false -> parse_arg a next s = SGo s.
  Proof.
    unfold taken. intros T. do 5 (apply orb_false_iff in T as [T ?]). apply mem_false in T.
    assert (E : forall x, In x taken_words -> String.eqb a x = false) by (intros x I; apply String.eqb_neq; intros ->; auto).
    unfold Arguments.parse_arg, flag_effect, mem. cbn [existsb].
    repeat match goal with |- context [String.eqb a ?x] => rewrite (E x) by (apply mem_In; reflexivity) end.
    repeat match goal with K : startswith _ a = false |- _ => rewrite K; clear K end. reflexivity.
  Qed.
  Lemma arg_goes a next s s' : parse_arg a next s = SGo s' -> s' = s \/ (p_pos s < p_pos s')%nat.
  Proof.
    unfold Arguments.parse_arg, adv. intros G.
    repeat match type of G with
    | (if ?b then _ else _) = _ => destruct b
    | match flag_effect a with _ => _ end = _ => destruct (flag_effect a)
    | match ?n with _ => _ end = _ => destruct n
    | (let (_, _) := ?n in _) = _ => destruct n
    end; try discriminate G; injection G as <-; cbn [p_pos]; auto; right; lia.
  Qed.
  Lemma loop_goes l : forall s s', parse_loop l s = SGo s' -> (p_pos s <= p_pos s')%nat.
  Proof.
    induction l as [|a l IH]; intros s s' G; cbn [Arguments.parse_loop] in G; [injection G as <-; lia|].
    destruct (parse_arg a (hd_error l) s) as [s1| |] eqn:A; try discriminate. apply IH in G. apply arg_goes in A as [->|]; lia.
  Qed.
  Lemma arg_taken a next s s' : taken a = true -> parse_arg a next s = SGo s' -> (p_pos s < p_pos s')%nat.
  Proof.
    unfold taken. intros T G.
    assert (K : In a taken_words \/ (startswith "-v" a || startswith "-t=" a || startswith "--target=" a || startswith "-p=" a || startswith "--processes=" a)%bool = true).
    { rewrite !orb_true_iff in T. rewrite !orb_true_iff. rewrite mem_In in T. tauto. }
    clear T. destruct K as [K|K].
    - unfold taken_words in K. cbn [In] in K.
      repeat (destruct K as [<-|K]; [revert G; clear; intros G; advances G|]). destruct K.
    - rewrite !orb_true_iff in K. repeat destruct K as [K|K].
      all: apply startswith_iff in K as [b ->]; advances G.
  Qed.
End Taken.

(** ** Documented and other arguments *)
Lemma vs_taken n : (0 < n)%nat -> taken (String "-" (vs n)) = true.
Proof. destruct n as [|n]; [lia|]. intros _. reflexivity. Qed.
Ltac cut_eq p E := repeat (destruct p as [|? p]; [try discriminate E | cbn in E; try discriminate E; injection E as <- E]).
Lemma eq_words p x : In (p +++ "=" +++ x) (map fst all_words) -> In p ["--target"; "-t"; "--processes"; "-p"].
Proof.
  intros I. remember (p +++ "=" +++ x) as w eqn:E.
  assert (C : contains "=" w = true) by (apply contains_iff; eauto). unfold all_words in I. cbn [map fst In] in I.
  repeat (destruct I as [<-|I]; [try discriminate C|]); try destruct I; cut_eq p E; cbn [In]; tauto.
Qed.
Lemma written_known w b a : In (w, b) all_words -> as_written w a ->
  taken a = true \/ In a ["--help"; "-h"; "--version"; "-V"; "--no-config-file"].
Proof.
  intros I [(-> & n & P & ->)|[(p & x & y & -> & ->)|(V & N & ->)]].
  - left. apply vs_taken, P.
  - left. assert (E : In p ["--target"; "-t"; "--processes"; "-p"]) by (apply (eq_words p x), in_map_iff; exists (p +++ "=" +++ x, b); auto).
    cbn [In] in E. repeat (destruct E as [<-|E]; [reflexivity|]). destruct E.
  - unfold all_words in I. cbn [In] in I.
    repeat (destruct I as [E|I]; [injection E as <- _;
      first [right; cbn [In]; tauto | left; reflexivity | exfalso; apply V; reflexivity | exfalso; apply N; cbn; tauto]|]). destruct I.
Qed.
Lemma known_written a : taken a = true \/ In a ["--help"; "-h"; "--version"; "-V"; "--no-config-file"] -> startswith "-v" a = false ->
  exists w b, In (w, b) all_words /\ as_written w a.
Proof.
  intros T V.
  assert (W : In a (taken_words ++ ["--help"; "-h"; "--version"; "-V"; "--no-config-file"]) -> exists w b, In (w, b) all_words /\ as_written w a).
  { intros I. assert (E : forall x, In x (taken_words ++ ["--help"; "-h"; "--version"; "-V"; "--no-config-file"]) -> mem x (map fst all_words) && negb (contains "=" x) && negb (String.eqb x "-v..") = true).
    { apply forallb_forall. vm_compute. reflexivity. }
    apply E in I. apply andb_prop in I as [I K3]. apply andb_prop in I as [K1 K2]. apply mem_In, in_map_iff in K1 as ((w, b) & <- & K1).
    cbn [fst] in *. exists w, b. split; [exact K1|]. right. right. split; [apply String.eqb_neq, negb_true_iff, K3|]. split; [|reflexivity].
    apply safe_no_eq. apply negb_true_iff in K2. clear - K2. induction w as [|z w IH]; [reflexivity|]. cbn [contains] in K2. apply orb_false_iff in K2 as [A B].
    rewrite sall_cons, (IH B), andb_true_r. cbn [startswith] in A. rewrite andb_true_r in A. rewrite Ascii.eqb_sym, A. reflexivity. }
  assert (P : forall p x b, In (p +++ "=" +++ x, b) all_words -> startswith (p +++ "=") a = true -> exists w b, In (w, b) all_words /\ as_written w a).
  { intros p x b I S. apply startswith_iff in S as [y ->]. exists (p +++ "=" +++ x), b. split; [exact I|]. right. left. exists p, x, y. rewrite app_assoc_s. auto. }
  destruct T as [T|T]; [|apply W, in_or_app; auto]. unfold taken in T. rewrite V in T. rewrite !orb_true_iff in T.
  destruct T as [[[[[T|T]|T]|T]|T]|T]; [apply W, in_or_app; left; apply mem_In, T|discriminate| | | |].
  - apply (P "-t" "V" false); [cbn; tauto|exact T].
  - apply (P "--target" "V" false); [cbn; tauto|exact T].
  - apply (P "-p" "N" false); [cbn; tauto|exact T].
  - apply (P "--processes" "N" false); [cbn; tauto|exact T].
Qed.

(** ** Command lines *)
Section Line.
  Context (cpus : Z) (re_ok : string -> bool) (ef : string -> option (list string)) (cwd : string) (cfg : string -> cfg_file).
  Notation parse := (parse cpus re_ok ef cwd cfg).
  Notation parse_arg := (parse_arg cpus re_ok ef).
  Notation parse_loop := (parse_loop cpus re_ok ef).

  (** An option is never among the paths. *)
  Lemma known_not_path det a rest c c' ps v pr : taken a = true \/ In a ["--help"; "-h"; "--version"; "-V"] ->
    parse det (a :: rest) c = Ok (c', OPaths ps v pr) -> exists front, rest = front ++ ps.
  Proof.
    intros K P. destruct K as [T|K].
    - apply parse_paths_inv in P as (c0 & s & L & _ & _ & -> & _). cbn [Arguments.parse_loop] in L.
      destruct (parse_arg a (hd_error rest) (mkP c0 0 false None)) as [s1| |] eqn:A; try discriminate.
      apply (arg_taken _ _ _ _ _ _ _ T) in A. apply loop_goes in L. cbn [p_pos] in A. destruct (p_pos s) as [|k]; [lia|].
      exists (firstn k rest). symmetry. cbn [skipn]. apply firstn_skipn.
    - exfalso. cbn [In] in K. destruct det as [det|e]; [|discriminate].
      repeat (destruct K as [<-|K]; [discriminate P|]). destruct K.
  Qed.

  (** Other arguments make no difference but to the paths. *)
  Definition untaken (a : string) : Prop := taken a = false /\ ~ In a ["--help"; "-h"; "--version"; "-V"; "--no-config-file"].
  Lemma untaken_pre a : untaken a -> forall r n ac, preparse cwd (a :: r) n ac = preparse cwd r n ac.
  Proof.
    intros [T N] r n ac. cbn [preparse].
    assert (E : forall l, (forall x, In x l -> In x ["--help"; "-h"; "--version"; "-V"; "--no-config-file"]) -> mem a l = false).
    { intros l S. apply mem_false. intros I. apply N, S, I. }
    rewrite (E ["--help"; "-h"]) by (cbn; tauto). rewrite (E ["--version"; "-V"]) by (cbn; tauto).
    assert (E1 : String.eqb a "--no-config-file" = false) by (apply String.eqb_neq; intros ->; apply N; cbn; tauto). rewrite E1.
    unfold taken in T. do 5 (apply orb_false_iff in T as [T _]). apply mem_false in T.
    assert (E2 : mem a ["--config-file"; "-c"] = false) by (apply mem_false; intros I; apply T; apply mem_In; cbn [In] in I; destruct I as [<-|[<-|[]]]; reflexivity).
    rewrite E2. reflexivity.
  Qed.
  Lemma pre_between a front back : untaken a -> ~ In (last front "") needs_operand -> forall n ac,
    preparse cwd (front ++ a :: back) n ac = preparse cwd (front ++ back) n ac.
  Proof.
    intros U. induction front as [|x front IH]; intros L n ac; [apply untaken_pre, U|].
    assert (L' : front <> [] -> ~ In (last front "") needs_operand) by (destruct front; [congruence|intros _; exact L]).
    assert (IH' : forall n ac, preparse cwd (front ++ a :: back) n ac = preparse cwd (front ++ back) n ac)
      by (destruct front; [intros; apply untaken_pre, U|apply IH, L'; discriminate]).
    cbn [app preparse]. rewrite !IH'. destruct (mem x ["--config-file"; "-c"]) eqn:M; [|reflexivity].
    destruct front as [|y front].
    - exfalso. apply L. apply mem_In in M. cbn [last]. unfold needs_operand. cbn [In] in *. tauto.
    - cbn [app]. change (y :: front ++ a :: back) with ((y :: front) ++ a :: back). rewrite IH'. reflexivity.
  Qed.
  Lemma no_operand x n n' s : ~ In x needs_operand -> parse_arg x n s = parse_arg x n' s.
  Proof.
    intros N. assert (E : forall y, In y needs_operand -> String.eqb x y = false) by (intros y I; apply String.eqb_neq; intros ->; auto).
    unfold Arguments.parse_arg, mem. cbn [existsb].
    repeat match goal with |- context [String.eqb x ?y] => rewrite (E y) by (apply mem_In; reflexivity) end.
    cbn [orb]. reflexivity.
  Qed.
  Lemma loop_between a front back : untaken a -> ~ In (last front "") needs_operand -> forall s,
    parse_loop (front ++ a :: back) s = parse_loop (front ++ back) s.
  Proof.
    intros U. induction front as [|x front IH]; intros L s.
    - cbn [app Arguments.parse_loop]. rewrite arg_untaken by apply U. reflexivity.
    - destruct front as [|y front].
      + cbn [app Arguments.parse_loop hd_error]. rewrite (no_operand x (Some a) (hd_error back)) by exact L.
        destruct (parse_arg x (hd_error back) s); try reflexivity. rewrite arg_untaken by apply U. reflexivity.
      + change ((x :: y :: front) ++ a :: back) with (x :: ((y :: front) ++ a :: back)). change ((x :: y :: front) ++ back) with (x :: ((y :: front) ++ back)).
        cbn [Arguments.parse_loop]. cbn [app hd_error]. destruct (parse_arg x (Some y) s); try reflexivity. apply IH. exact L.
  Qed.
  Lemma finish_paths args args' note s : same_but_paths (Ok (finish args note s)) (Ok (finish args' note s)).
  Proof.
    unfold finish. destruct (_ && _)%bool; [reflexivity|]. cbv zeta. destruct (_ && _)%bool; [reflexivity|]. cbn. auto.
  Qed.
  Lemma untaken_same det a front back c : untaken a -> ~ In (last front "") needs_operand -> front ++ back <> [] ->
    same_but_paths (parse det (front ++ a :: back) c) (parse det (front ++ back) c).
  Proof.
    intros U L N.
    assert (R : forall x, same_but_paths x x) by (intros [[? []]|]; cbn; auto).
    unfold Arguments.parse. destruct (front ++ a :: back) as [|z zs] eqn:E1; [destruct front; discriminate|]. rewrite <- E1.
    destruct (front ++ back) as [|y ys] eqn:E2; [congruence|]. rewrite <- E2.
    destruct det as [det|e]; [|reflexivity]. rewrite (pre_between _ _ _ U L).
    destruct (preparse cwd (front ++ back) false None) as [| | |nc ac]; try apply R.
    destruct nc, ac as [f|]; try apply R.
    - rewrite !(loop_between _ _ _ U L). destruct (parse_loop (front ++ back) (mkP c 0 false None)); [apply finish_paths|reflexivity|reflexivity].
    - destruct (parse_file cpus re_ok (cfg f)); [|reflexivity]. rewrite !(loop_between _ _ _ U L). destruct (parse_loop _ _); [apply finish_paths|reflexivity|reflexivity].
    - destruct det as [f|].
      + destruct (parse_file cpus re_ok (cfg f)); [|reflexivity]. rewrite !(loop_between _ _ _ U L). destruct (parse_loop _ _); [apply finish_paths|reflexivity|reflexivity].
      + rewrite !(loop_between _ _ _ U L). destruct (parse_loop _ _); [apply finish_paths|reflexivity|reflexivity].
  Qed.

  Lemma untaken_alone a : untaken a -> parse (Ok None) [a] (default_config cpus) = Ok (default_config cpus, OPaths [a] false []).
  Proof.
    intros U. unfold Arguments.parse. rewrite untaken_pre by exact U. cbn [preparse Arguments.parse_loop]. rewrite arg_untaken by apply U. reflexivity.
  Qed.

  (** Options marked as default. *)
  Lemma default_effect o : In (o, true) all_words -> exists f, flag_effect o = Some f /\ f (default_config cpus) = default_config cpus /\
    ~ In o ["--help"; "-h"; "--version"; "-V"; "--no-config-file"; "--config-file"; "-c"].
  Proof.
    intros I. unfold all_words in I. cbn [In] in I.
    repeat (destruct I as [E|I]; [first [discriminate E | injection E as <-; eexists; split; [reflexivity|]; split; [reflexivity|]; apply mem_false; reflexivity]|]). destruct I.
  Qed.
  Lemma no_named rest : (forall x, In x rest -> ~ In x ["-c"; "--config-file"]) -> forall n nc ac, preparse cwd rest n None = PreGo nc ac -> ac = None.
  Proof.
    induction rest as [|a r IH]; intros N n nc ac; cbn [preparse]; [congruence|].
    assert (N' : forall x, In x r -> ~ In x ["-c"; "--config-file"]) by (intros x I; apply N; right; exact I).
    destruct (mem a ["--help"; "-h"]); [discriminate|]. destruct (mem a ["--version"; "-V"]); [discriminate|].
    destruct (String.eqb a "--no-config-file"); [apply IH, N'|].
    destruct (mem a ["--config-file"; "-c"]) eqn:M; [|apply IH, N'].
    exfalso. apply mem_In in M. apply (N a); [left; reflexivity|]. cbn [In] in *. tauto.
  Qed.
  Lemma default_same o rest : In (o, true) all_words -> rest <> [] -> (forall x, In x rest -> ~ In x ["-c"; "--config-file"]) ->
    parse (Ok None) (o :: rest) (default_config cpus) = parse (Ok None) rest (default_config cpus).
  Proof.
    intros I N C. destruct (default_effect o I) as (f & F & D & U).
    assert (M : forall l, (forall x, In x l -> In x ["--help"; "-h"; "--version"; "-V"; "--no-config-file"; "--config-file"; "-c"]) -> mem o l = false).
    { intros l S. apply mem_false. intros J. apply U, S, J. }
    unfold Arguments.parse. destruct rest as [|y ys] eqn:R; [congruence|]. rewrite <- R in *. clear R.
    assert (Pp : preparse cwd (o :: rest) false None = preparse cwd rest false None).
    { cbn [preparse]. rewrite (M ["--help"; "-h"]), (M ["--version"; "-V"]), (M ["--config-file"; "-c"]) by (cbn [In]; tauto).
      assert (E : String.eqb o "--no-config-file" = false) by (apply String.eqb_neq; intros ->; apply U; cbn [In]; tauto). rewrite E. reflexivity. }
    rewrite Pp. destruct (preparse cwd rest false None) as [| | |nc ac] eqn:P; try reflexivity.
    apply (no_named rest C) in P. subst ac.
    assert (L : parse_loop (o :: rest) (mkP (default_config cpus) 0 false None) = parse_loop rest (moved 1 (mkP (default_config cpus) 0 false None))).
    { cbn [Arguments.parse_loop]. unfold Arguments.parse_arg at 1. rewrite (M ["--config-file"; "-c"]) by (cbn [In]; tauto). rewrite F. unfold adv. cbn [p_config]. rewrite D. reflexivity. }
    assert (G : forall note, match parse_loop (o :: rest) (mkP (default_config cpus) 0 false None) with SGo s => Ok (finish (o :: rest) note s) | SFail => Ok (default_config cpus, OCode 1) | SRaise e => Err e end =
                match parse_loop rest (mkP (default_config cpus) 0 false None) with SGo s => Ok (finish rest note s) | SFail => Ok (default_config cpus, OCode 1) | SRaise e => Err e end).
    { intros note. rewrite L, loop_moved. destruct (parse_loop rest (mkP (default_config cpus) 0 false None)) as [s| |]; cbn [moved_step]; try reflexivity. }
    destruct nc; apply G.
  Qed.

  (** Options that are not. *)
  Lemma plain_said x : plain_arg x -> parse (Ok None) [x] (default_config cpus) = Ok (default_config cpus, OPaths [x] false []).
  Proof.
    intros X. unfold Arguments.parse. rewrite preparse_plain by exact X. cbn [preparse Arguments.parse_loop]. rewrite parse_arg_plain by exact X. reflexivity.
  Qed.
  Notation start := (mkP (default_config cpus) 0 false None).
  Lemma two o x : plain_arg x -> ~ In o ["--help"; "-h"; "--version"; "-V"; "--config-file"; "-c"] ->
    parse (Ok None) [o; x] (default_config cpus) =
    match parse_arg o (Some x) start with SGo s => Ok (finish [o; x] None s) | SFail => Ok (default_config cpus, OCode 1) | SRaise e => Err e end.
  Proof.
    intros X U.
    assert (M : forall l, (forall x, In x l -> In x ["--help"; "-h"; "--version"; "-V"; "--config-file"; "-c"]) -> mem o l = false).
    { intros l S. apply mem_false. intros J. apply U, S, J. }
    assert (Pp : exists b, preparse cwd [o; x] false None = PreGo b None).
    { assert (Q : forall b, preparse cwd [x] b None = PreGo b None) by (intros b; rewrite preparse_plain by exact X; reflexivity).
      destruct (String.eqb o "--no-config-file") eqn:E.
      - exists true. apply String.eqb_eq in E as ->. rewrite <- (Q true). reflexivity.
      - exists false. rewrite <- (Q false). change (preparse cwd [o; x] false None) with
          (if mem o ["--help"; "-h"] then PreHelp else if mem o ["--version"; "-V"] then PreVersion else if String.eqb o "--no-config-file" then preparse cwd [x] true None
           else if mem o ["--config-file"; "-c"] then preparse cwd [x] false (Some (abspath cwd x)) else preparse cwd [x] false None).
        rewrite (M ["--help"; "-h"]), (M ["--version"; "-V"]), (M ["--config-file"; "-c"]), E by (cbn [In]; tauto). reflexivity. }
    destruct Pp as [b Pp]. unfold Arguments.parse. rewrite Pp.
    assert (L : parse_loop [o; x] start = parse_arg o (Some x) start).
    { cbn [Arguments.parse_loop hd_error]. destruct (parse_arg o (Some x) start) as [s| |]; try reflexivity. rewrite parse_arg_plain by exact X. reflexivity. }
    destruct b; cbv zeta; rewrite L; reflexivity.
  Qed.
  Lemma not_one o x s : (1 < p_pos s)%nat -> finish [o; x] None s <> (default_config cpus, OPaths [x] false []).
  Proof.
    intros P. unfold finish. destruct (p_pos s) as [|[|k]]; [lia|lia|]. cbn [skipn].
    assert (E : skipn k (@nil string) = []) by (destruct k; reflexivity). rewrite E. destruct (_ && _)%bool; [discriminate|]. cbv zeta. destruct (_ && _)%bool; discriminate.
  Qed.
  Lemma unmarked_differs o x : In (o, false) all_words -> plain_arg x ->
    parse (Ok None) [o; x] (default_config cpus) <> parse (Ok None) [x] (default_config cpus).
  Proof.
    intros I X. rewrite (plain_said x X). destruct (in_dec string_dec o ["--help"; "-h"; "--version"; "-V"; "--config-file"; "-c"]) as [J|J].
    - destruct (in_dec string_dec o ["--config-file"; "-c"]) as [C|C].
      + intros P. assert (T : taken o = true) by (cbn [In] in C; destruct C as [<-|[<-|[]]]; reflexivity).
        apply parse_paths_inv in P as (c0 & s & L & _ & _ & E & _). cbn [Arguments.parse_loop hd_error] in L.
        assert (A : parse_arg o (Some x) (mkP c0 0 false None) = SGo (mkP c0 2 false None)) by (cbn [In] in C; destruct C as [<-|[<-|[]]]; reflexivity).
        rewrite A, parse_arg_plain in L by exact X. injection L as <-. discriminate E.
      + cbn [In] in J, C. repeat (destruct J as [<-|J]; [first [discriminate | tauto]|]). destruct J.
    - rewrite (two o x X J). unfold all_words in I. cbn [In] in I.
      repeat (destruct I as [E|I]; [first [discriminate E | injection E as <-]; first [discriminate | idtac]|]); [..|destruct I].
      all: try (exfalso; apply J; cbn [In]; tauto).
      all: match goal with |- match ?p with _ => _ end <> _ => destruct p as [s| |] eqn:A; try discriminate end.
      all: intros P; injection P as P; revert P; apply not_one; advances A.
  Qed.

  (** Names that are taken. *)
  Notation takes o n := (Spec_Usage.takes (parse (Ok None) [o; n] (default_config cpus))).
  Lemma takes_iff o n : plain_arg n -> ~ In o ["--help"; "-h"; "--version"; "-V"; "--config-file"; "-c"] ->
    (forall s, parse_arg o (Some n) start = SGo s -> p_pos s = 2%nat /\ ~ refused (with_format (p_fmt s) (p_config s))) ->
    (takes o n <-> exists s, parse_arg o (Some n) start = SGo s).
  Proof.
    intros X J G. unfold Spec_Usage.takes. rewrite (two o n X J). split.
    - intros (c & v & pr & E). destruct (parse_arg o (Some n) start) as [s| |]; [eauto|discriminate|discriminate].
    - intros [s E]. rewrite E. destruct (G s E) as [P R]. destruct (finish_spec [o; n] None s) as [_ F]. destruct (F R) as [pr F']. rewrite F', P. cbn [skipn]. eauto.
  Qed.
  Lemma takes_format o n : In o ["--format"; "-f"] -> plain_arg n -> (takes o n <-> In (lower n) ["default"; "parsable"]).
  Proof.
    intros O X.
    assert (A : parse_arg o (Some n) start = match from_name (lower n) with None => SFail | Some f => SGo (mkP (default_config cpus) 2 false (Some f)) end)
      by (cbn [In] in O; destruct O as [<-|[<-|[]]]; reflexivity).
    rewrite takes_iff; [|exact X|cbn [In] in *; intuition congruence|].
    - rewrite A. unfold from_name. destruct (String.eqb_spec (lower n) "default") as [E|E].
      + rewrite E. cbn [In]. split; [tauto|eauto].
      + destruct (String.eqb_spec (lower n) "parsable") as [E'|E'].
        * rewrite E'. cbn [In]. split; [tauto|eauto].
        * split; [intros [s K]; discriminate|cbn [In]; intuition congruence].
    - intros s. rewrite A. destruct (from_name (lower n)) as [f|]; [|discriminate]. intros E. injection E as <-. split; [reflexivity|].
      destruct f; intros [[K _]|[_ [K _]]]; discriminate K.
  Qed.
  Lemma takes_backport n : plain_arg n -> (takes "--backport" n <-> In n (map (fun e => fst (fst e)) backports_table)).
  Proof.
    intros X.
    assert (A : parse_arg "--backport" (Some n) start = match add_backport n (default_config cpus) with (c, true) => adv 2 (fun _ => c) start | (_, false) => SFail end) by reflexivity.
    rewrite takes_iff; [|exact X|cbn [In]; intuition discriminate|].
    - rewrite A. unfold add_backport. destruct (is_backport n) eqn:B.
      + split; [|unfold adv; eauto]. intros _. apply mem_In. exact B.
      + split; [intros [s K]; discriminate|]. intros I. apply mem_In in I. change (is_backport n = true) in I. congruence.
    - intros s. rewrite A. unfold add_backport. destruct (is_backport n); [|discriminate]. unfold adv. intros E. injection E as <-. split; [reflexivity|].
      intros [[K _]|[_ [K _]]]; discriminate K.
  Qed.
  Lemma takes_feature n : plain_arg n -> (takes "--feature" n <-> In n (map fst features_table)).
  Proof.
    intros X.
    assert (A : parse_arg "--feature" (Some n) start = match enable_feature n (default_config cpus) with (c, true) => adv 2 (fun _ => c) start | (_, false) => SFail end) by reflexivity.
    rewrite takes_iff; [|exact X|cbn [In]; intuition discriminate|].
    - rewrite A. unfold enable_feature. destruct (is_feature n) eqn:B.
      + split; [|unfold adv; eauto]. intros _. apply mem_In. exact B.
      + split; [intros [s K]; discriminate|]. intros I. apply mem_In in I. change (is_feature n = true) in I. congruence.
    - intros s. rewrite A. unfold enable_feature. destruct (is_feature n); [|discriminate]. unfold adv. intros E. injection E as <-. split; [reflexivity|].
      intros [[K _]|[_ [K _]]]; discriminate K.
  Qed.
End Line.

(** ** Listings *)
Section Listed.
  Context (prog : string) (cpus : Z) (ls : list string) (Np : no_newline prog) (H : help_lines prog cpus ls).
  Lemma listed_formats : listed "        Supported formats:" ls = ["default"; "parsable"].
  Proof. rewrite (help_text prog cpus Np ls H). generalize (z_str cpus). intros n. vm_compute. reflexivity. Qed.
  Lemma listed_backports : listed "        Supported backports:" ls = map (fun e => fst (fst e)) backports_table.
  Proof. rewrite (help_text prog cpus Np ls H). generalize (z_str cpus). intros n. vm_compute. reflexivity. Qed.
  Lemma listed_features : listed "        Some features are disabled by default due to being unstable:" ls = map fst features_table.
  Proof. rewrite (help_text prog cpus Np ls H). generalize (z_str cpus). intros n. vm_compute. reflexivity. Qed.
  Lemma said_scanned : map quoted (saying "are always scanned" ls) = [["py"; "py3"; "pyw"; "pyj"; "pyi"]].
  Proof. rewrite (help_text prog cpus Np ls H). generalize (z_str cpus). intros n. vm_compute. reflexivity. Qed.
  Lemma said_ignored : map quoted (saying "are ignored (including" ls) = [["pyc"; "pyd"; "pxd"; "pyx"; "pyo"]].
  Proof. rewrite (help_text prog cpus Np ls H). generalize (z_str cpus). intros n. vm_compute. reflexivity. Qed.
  Lemma said_names : map quoted (filter (startswith "Config file names being looked for: ") ls) = [["vermin.ini"; "vermin.conf"; ".vermin"; "setup.cfg"]].
  Proof. rewrite (help_text prog cpus Np ls H). generalize (z_str cpus). intros n. vm_compute. reflexivity. Qed.
  Lemma said_boundaries : map quoted (filter (startswith "Project boundary files/folders: ") ls) = [[".bzr"; ".fslckout"; ".git"; ".hg"; ".p4root"; ".pijul"; ".svn"; "_darcs"]].
  Proof. rewrite (help_text prog cpus Np ls H). generalize (z_str cpus). intros n. vm_compute. reflexivity. Qed.
  Lemma said_cores : In ("        cores (" +++ z_str cpus +++ ").") ls.
  Proof.
    rewrite (help_text prog cpus Np ls H). generalize (z_str cpus). intros n.
    assert (E : exists a b, text_lines prog n usage_prints = a ++ ("        cores (" +++ n +++ ").") :: b).
    { exists (firstn 62 (text_lines prog n usage_prints)), (skipn 63 (text_lines prog n usage_prints)). vm_compute. reflexivity. }
    destruct E as (a & b & ->). apply in_elt.
  Qed.
End Listed.

(** ** Files and config files *)
Section Found.
  Context (fs : fsys) (cwd : string) (search : string -> string -> bool) (c : config) (hidden : bool) (ignore : list string) (scan : bool) (fuel : nat) (paths l : list string).
  Hypothesis D : detect_paths fs cwd search c hidden ignore scan fuel paths = Some (Ok l).
  Notation actual := (Spec_Detection.actual cwd c).
  Lemma scanned_found d p e : In e py_exts -> has_ext (lower (actual p)) e -> looked_at fs cwd search c hidden ignore scan paths d p ->
    not_left_out search c ignore p -> shown hidden p -> is_file fs (actual p) -> In (actual p) l.
  Proof.
    intros E X L N S F. apply (detect_ok _ _ _ _ _ _ _ _ _ _ D). exists d, p. repeat (split; [assumption || reflexivity|]). right. eapply python_file_yes; eauto.
  Qed.
  Lemma ignored_given q e : In e not_src_exts -> has_ext (lower q) e -> In q l -> exists p, In p paths /\ q = actual p.
  Proof.
    intros E X I. apply (detect_ok _ _ _ _ _ _ _ _ _ _ D) in I as (d & p & L & _ & _ & -> & _ & [->|K]).
    - inversion L; subst. eauto.
    - exfalso. assert (N : ~ In e py_exts /\ e <> "") by (cbn [In not_src_exts py_exts] in *; repeat (destruct E as [<-|E]; [intuition discriminate|]); destruct E).
      rewrite (python_file_no fs (actual p) e) in K; try apply N; try exact X; [discriminate|auto].
  Qed.
End Found.

(** ** Showing it *)
Lemma help_shown w prog et fuel a h b d : w_detected w = Ok d -> In h ["--help"; "-h"] -> (forall x, In x a -> ~ In x ["--version"; "-V"]) ->
  exists l, print_usage prog (w_cpus w) true = Ok l /\ whole_main w prog et fuel (a ++ h :: b) = Some (print_lines l, Ok 0).
Proof.
  intros D I V. destruct (usage_ok prog (w_cpus w) true) as (l & E & _). exists l. split; [exact E|].
  rewrite whole_is, D, help_independent by assumption.
  assert (S : parse_said (w_cpus w) (w_re_ok w) (w_excl_file w) (w_cwd w) (w_cfg_file w) et (Ok d) (a ++ h :: b) (default_config (w_cpus w)) = Ok []).
  { unfold parse_said. destruct (a ++ h :: b) eqn:Q; [destruct a; discriminate|]. rewrite <- Q. rewrite preparse_help by assumption. reflexivity. }
  rewrite S. unfold whole_of. cbn [bindr app]. rewrite E. cbn [bindr option_map fst snd app]. rewrite app_nil_s. reflexivity.
Qed.
