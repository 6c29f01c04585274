(** C47-C50: what is printed about findings. *)
From Coq Require Import Permutation Sorted.
From Verif Require Import PyBase PyLemmas Utility RulesData Rules Config Formats Paths AstKinds Ast State Visitor
  MinVersions Spec_Base Spec_Utility Proof_Utility Spec_Config Spec_Detection Spec_Formats Proof_Formats.

(** ** C47 *)
(** Whoever splits a line at colons gets exactly the six values, and there is one way to split. *)
Theorem c47_fields : forall msg path line col m, no_char ":" path -> no_char (ascii_of_nat 10) path ->
  no_char (ascii_of_nat 10) (parsable_line msg path line col m) /\
  forall p l c v2 v3 f, fields (parsable_line msg path line col m) p l c v2 v3 f <->
    p = path /\ shows_num line l /\ shows_num col c /\ shows_versions m v2 v3 /\ escaped msg f.
Proof. exact parsable_read. Qed.
Print Assumptions c47_fields.

(** So two equal lines were made from equal values (texts up to the escaping of newlines). *)
Theorem c47_injective : forall msg path line col m msg' path' line' col' m',
  no_char ":" path -> no_char ":" path' ->
  no_char (ascii_of_nat 10) msg -> no_char (ascii_of_nat 10) msg' ->
  parsable_line msg path line col m = parsable_line msg' path' line' col' m' ->
  path = path' /\ line = line' /\ col = col' /\ m = m' /\ msg = msg'.
Proof.
  intros msg path line col m msg' path' line' col' m' P P' N N' E.
  destruct (parsable_inj _ _ _ _ _ _ _ _ _ _ P P' E) as (-> & -> & -> & -> & X). repeat split; auto.
  rewrite (escaped_fun _ _ _ (escape_escaped msg) (escaped_same _ N)) in X.
  rewrite (escaped_fun _ _ _ (escape_escaped msg') (escaped_same _ N')) in X. exact X.
Qed.
Print Assumptions c47_injective.

Example c47_case : no_char ":" "a b/c.py" /\ no_char (ascii_of_nat 10) "a b/c.py" /\
  parsable_line ("x" +++ nl +++ "y: z") "a b/c.py" (Some 3) None (Some (None, Some (3, 8))) =
    "a b/c.py:3::!2:3.8:x\ny: z" /\
  fields "a b/c.py:3::!2:3.8:x\ny: z" "a b/c.py" "3" "" "!2" "3.8" "x\ny: z".
Proof.
  assert (P : no_char ":" "a b/c.py") by (apply Proof_Detection.no_char_spec; reflexivity).
  repeat split; auto; try reflexivity; apply Proof_Detection.no_char_spec; reflexivity.
Qed.

(** The hypothesis on paths is needed: with a colon in a path, two findings give one line. *)
Example c47_colon_needed : parsable_line "f" "a:1" None None None = parsable_line ":f" "a" (Some 1) None None.
Proof. reflexivity. Qed.

(** ** C48 *)
Theorem c48_default_line : forall verbose msg line col m plural s,
  default_line verbose msg line col m plural = s <->
  exists pos req, s = pos +++ msg +++ req /\ position verbose line col pos /\ requirement_text msg plural m req.
Proof. exact default_line_iff. Qed.
Print Assumptions c48_default_line.

Example c48_case :
  default_line 3 "'x' module" (Some 4) (Some 2) (Some (Some (2, 7), Some (3, 0))) None =
    "L4 C2: 'x' module requires 2.7, 3.0" /\
  default_line 2 "fstrings" (Some 4) (Some 2) (Some (None, Some (3, 6))) None = "fstrings require !2, 3.6" /\
  position 3 (Some 4) (Some 2) ("L" +++ z_str 4 +++ " C" +++ z_str 2 +++ ": ") /\
  plural_msg "fstrings " None /\ ~ plural_msg "'x' module" None.
Proof.
  repeat split; try reflexivity.
  - apply pos_both. lia.
  - exists "fstring", " ". split; reflexivity.
  - intros (a & w & E & W). assert (K := proj2 (ends_s_iff "'x' module")).
    discriminate K. eauto.
Qed.

(** And what is printed about one file: its versions, its path, its lines below, indented. *)
Theorem c48_file_block : forall c m path ls, c_quiet c = false -> 1 <= c_verbose c -> (forall l, In l ls -> one_line l) ->
  exists s, default_result c m path (lines_text ls) = [s] /\ file_block m path ls s.
Proof. exact result_block. Qed.
Print Assumptions c48_file_block.

Example c48_file_case : one_line "L1: f-strings require !2, 3.6" /\
  default_result (w_verbose 3 (default_config 1)) (None, Some (3, 6)) "a.py" (lines_text ["L1: f-strings require !2, 3.6"; "L2: x"]) =
    ["!2, 3.6      a.py" +++ nl +++ "  L1: f-strings require !2, 3.6" +++ nl +++ "  L2: x" +++ nl].
Proof.
  split; [|reflexivity]. intros a c b E.
  assert (K : sall (fun c => negb (is_linebreak c)) "L1: f-strings require !2, 3.6" = true) by reflexivity.
  rewrite Proof_Strings.sall_iff in K. specialize (K a c b E). destruct (is_linebreak c); [discriminate|reflexivity].
Qed.

(** ** C49 *)
(** A finding is shown exactly when it is above a target; otherwise printing it changes nothing. *)
Theorem c49_shown_iff_above : forall e level msg ent line m pl s,
  targets_in_scope (c_targets (e_cfg e)) -> c_only_show_violations (e_cfg e) = true ->
  level <= c_verbose (e_cfg e) -> (c_format (e_cfg e) = FParsable \/ c_quiet (e_cfg e) = false) ->
  exists s', verbose_print_v e level msg ent line (Some m) pl s = Ok s' /\
    ((exists l c, s' = u_out (s_out s ++ [format_output_line (e_cfg e) msg (e_path e) l c (Some m) pl]) s) <->
     exists x t, In (x, t) (c_targets (e_cfg e)) /\ above m t) /\
    ((~ exists x t, In (x, t) (c_targets (e_cfg e)) /\ above m t) -> s' = s).
Proof. exact print_shown. Qed.
Print Assumptions c49_shown_iff_above.

(** Outside violations mode every finding passes. *)
Theorem c49_off_shows_all : forall e m, c_only_show_violations (e_cfg e) = false -> violates e m = Ok true.
Proof. exact violates_off. Qed.
Print Assumptions c49_off_shows_all.

Definition cfg_targets (ts : list target) : config :=
  w_only_show_violations true (w_verbose 2 (w_targets ts (default_config 1))).
Definition env_of (c : config) : env := mkEnv c "a.py" None [] (fun _ _ => Ok false) (fun _ => "").

Example c49_case : targets_in_scope [(true, (2, 7)); (false, (3, 6))] /\
  above (Some (2, 7), Some (3, 8)) (3, 6) /\ ~ above (Some (2, 7), Some (3, 6)) (3, 6) /\
  above (None, Some (3, 1)) (2, 7) /\
  (exists s', verbose_print_v (env_of (cfg_targets [(true, (2, 7)); (false, (3, 6))])) 2 "x" None None
                (Some (Some (2, 7), Some (3, 8))) None init_st = Ok s' /\ s_out s' = ["x requires 2.7, 3.8"]).
Proof.
  repeat split.
  - right. exists true, (2, 7), false, (3, 6). auto.
  - unfold above, ver_lt; simpl. lia.
  - unfold above, ver_lt; simpl. lia.
  - eexists. split; vm_compute; reflexivity.
Qed.

(** Two targets of one major are compared by position: a finding above the first is not shown, and
    one above neither is. *)
Theorem c49_same_major_refuted : exists e, c_only_show_violations (e_cfg e) = true /\
  (exists m x t, In (x, t) (c_targets (e_cfg e)) /\ above m t /\ violates e (Some m) = Ok false) /\
  (exists m, (forall x t, In (x, t) (c_targets (e_cfg e)) -> ~ above m t) /\ violates e (Some m) = Ok true).
Proof.
  exists (env_of (cfg_targets [(true, (3, 2)); (true, (3, 6))])). split; [reflexivity|]. split.
  - exists (Some (2, 7), Some (3, 4)), true, (3, 2). split; [simpl; auto|]. split; [|reflexivity].
    unfold above, ver_lt; simpl. lia.
  - exists (None, Some (3, 0)). split; [|reflexivity]. intros x t [H|[H|[]]]; injection H as _ <-;
      unfold above, ver_lt; simpl; lia.
Qed.
Print Assumptions c49_same_major_refuted.

(** Without targets the check raises (the command line refuses this combination, the API does not). *)
Theorem c49_no_targets_refuted : exists e m, c_only_show_violations (e_cfg e) = true /\
  violates e (Some m) = Err IndexError.
Proof. exists (env_of (cfg_targets [])), (Some (2, 7), Some (3, 4)). split; reflexivity. Qed.
Print Assumptions c49_no_targets_refuted.

(** ** C50 *)
Theorem c50_exactly_once : forall e s, c_print_visits (e_cfg e) = false ->
  NoDup (output_lines e s) /\ forall l, In l (output_lines e s) <-> In l (s_out s).
Proof. exact output_lines_set. Qed.
Print Assumptions c50_exactly_once.

Theorem c50_dump_keeps_all : forall e s, c_print_visits (e_cfg e) = true ->
  Permutation (output_lines e s) (s_out s).
Proof. exact output_lines_dump. Qed.
Print Assumptions c50_dump_keeps_all.

(** The text is these lines, each with its newline. *)
Theorem c50_text_is_lines : forall e s, (forall l, In l (s_out s) -> l <> "") ->
  output_text e s = lines_text (output_lines e s).
Proof. exact output_text_lines. Qed.
Print Assumptions c50_text_is_lines.

(** Sorted as text below verbosity 3, by position key otherwise (C09 relates keys to positions). *)
Theorem c50_sorted_text : forall e s, c_print_visits (e_cfg e) = false -> c_format (e_cfg e) = FDefault ->
  c_verbose (e_cfg e) < 3 -> StronglySorted str_lt (output_lines e s).
Proof. exact output_sorted_text. Qed.
Print Assumptions c50_sorted_text.

Theorem c50_sorted_position : forall e s, c_print_visits (e_cfg e) = false ->
  c_format (e_cfg e) = FParsable \/ 3 <= c_verbose (e_cfg e) ->
  StronglySorted (fun a b => line_key (e_cfg e) a <= line_key (e_cfg e) b) (output_lines e s).
Proof. exact output_sorted_position. Qed.
Print Assumptions c50_sorted_position.

(** The order in which lines were produced matters only when two lines share a key (C10). *)
Theorem c50_order_independent_partial : forall e s s', c_print_visits (e_cfg e) = false ->
  (forall l, In l (s_out s) <-> In l (s_out s')) ->
  (c_format (e_cfg e) = FDefault /\ c_verbose (e_cfg e) < 3) \/
  (forall a b, In a (s_out s) -> In b (s_out s) -> line_key (e_cfg e) a = line_key (e_cfg e) b -> a = b) ->
  output_text e s = output_text e s'.
Proof. exact output_lines_order. Qed.
Print Assumptions c50_order_independent_partial.

(** Two lines that share a key come out in the order of a hash set, so the text of the same findings
    is not fixed. *)
Theorem c50_order_independent_refuted : exists e s s', c_print_visits (e_cfg e) = false /\
  (forall l, In l (s_out s) <-> In l (s_out s')) /\ output_text e s <> output_text e s'.
Proof.
  exists (env_of (w_verbose 3 (default_config 1))).
  exists (u_out ["L1 C1: 'arg.ab' member requires !2, 3.4"; "L1 C1: 'arg.ba' member requires !2, 3.4"] init_st).
  exists (u_out ["L1 C1: 'arg.ba' member requires !2, 3.4"; "L1 C1: 'arg.ab' member requires !2, 3.4"] init_st).
  split; [reflexivity|]. split; [simpl; tauto|]. vm_compute. discriminate.
Qed.
Print Assumptions c50_order_independent_refuted.

Example c50_case :
  let e := env_of (w_verbose 3 (default_config 1)) in
  let s := u_out ["L12: b"; "L3 C4: a"; "L12: b"] init_st in
  c_print_visits (e_cfg e) = false /\ (c_format (e_cfg e) = FParsable \/ 3 <= c_verbose (e_cfg e)) /\
  output_lines e s = ["L3 C4: a"; "L12: b"] /\ output_text e s = "L3 C4: a" +++ nl +++ "L12: b" +++ nl.
Proof. repeat split; try reflexivity. right. simpl. lia. Qed.
