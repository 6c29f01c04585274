(** C65: config files as text. *)
From Verif Require Import PyBase PyLemmas Utility RulesData Rules Config Ini Spec_Base Spec_Utility Spec_Config Spec_Ini
  Proof_Utility Proof_Config Proof_Ini Proof_Inidef Proof_Written.

(** ** C65 *)
(** A file is read as it is written: sections, options in any letter case, "=" or ":", comments, blank lines,
    values over several lines, "%" as "%%", lines ended by "\n" or "\r\n", and other sections around. *)
Theorem c65_as_written : forall cpus re_ok ls secs es t,
  document ls secs -> distinct secs -> In ("vermin", escaped es) secs -> text_of ls t ->
  parse_file cpus re_ok (cfg_of_text cpus t) = parse_file cpus re_ok (CfgSection (section_of cpus es)) /\
  (forall c, parse_file cpus re_ok (cfg_of_text cpus t) = Some c -> section_says cpus re_ok (section_of cpus es) c) /\
  (forall c, section_says cpus re_ok (section_of cpus es) c -> exists c', parse_file cpus re_ok (cfg_of_text cpus t) = Some c').
Proof. exact as_written. Qed.
Print Assumptions c65_as_written.

Example c65_as_written_case :
  let ls := ["# settings"; ""; "[tool]"; "x"; "[vermin] ; mine"; "Quiet: Yes"; "  ; a remark"; "exclusions ="; "  a.b"; "  re%%x "; "verbose = 2"] in
  let es := [("quiet", Some "Yes"); ("exclusions", Some (String lf "a.b" +++ String lf "re%x")); ("verbose", Some "2")] in
  let t := join (String cr nl) ls in
  document ls [("tool", [("x", None)]); ("vermin", escaped es)] /\ distinct [("tool", [("x", None)]); ("vermin", escaped es)] /\ text_of ls t /\
  option_map (fun c => (c_quiet c, c_verbose c, c_exclusions_set c)) (parse_file 4 (fun _ => true) (cfg_of_text 4 t)) = Some (true, 2, ["a.b"; "re%x"]).
Proof.
  assert (Nm : forall s, sall name_char s = true -> s <> "" -> option_name s) by (intros s A B; apply (name_all s A B)).
  assert (It : forall s, sall safe s = true -> s <> "" -> content s) by (intros s A B; apply (item_safe s A B)).
  split; [|split; [|split]].
  - exists ["# settings"; ""], [["[tool]"; "x"]; ["[vermin] ; mine"; "Quiet: Yes"; "  ; a remark"; "exclusions ="; "  a.b"; "  re%%x "; "verbose = 2"]].
    split; [|split; [|reflexivity]].
    + constructor; [left; exists "", "#", " settings"; repeat split; auto|]. constructor; [right; reflexivity|constructor].
    + constructor; [|constructor; [|constructor]].
      * apply (bl 0 "tool" "" [] [["x"]] [("x", None)]); try reflexivity; [discriminate|constructor|].
        constructor; [|constructor]. apply (en_bare 0 "" "x" "" []); try reflexivity; [apply Nm; [reflexivity|discriminate]|constructor].
      * apply (bl 0 "vermin" " ; mine" [] [["Quiet: Yes"; "  ; a remark"]; ["exclusions ="; "  a.b"; "  re%%x "]; ["verbose = 2"]]);
          try reflexivity; [discriminate|constructor|].
        constructor; [|constructor; [|constructor; [|constructor]]].
        -- apply (en_value 0 "" "Quiet" "" ":" " " "Yes" "" ["  ; a remark"] []); try reflexivity; auto.
           ++ assert (Q := It "Quiet" eq_refl ltac:(discriminate)). split; [exact Q|]. split; [|reflexivity]. intros [r E]; discriminate E.
           ++ right. apply (It "Yes" eq_refl). discriminate.
           ++ apply fo_comment; [|constructor]. exists "  ", ";", " a remark". repeat split; auto.
        -- apply (en_value 0 "" "exclusions" " " "=" "" "" "" ["  a.b"; "  re%%x "] ["a.b"; "re%%x"]); try reflexivity; auto;
             [apply Nm; [reflexivity|discriminate]|].
           apply (fo_more 0 "  " "a.b" ""); try reflexivity; [cbn; lia|apply It; [reflexivity|discriminate]|].
           apply (fo_more 0 "  " "re%%x" " "); try reflexivity; [cbn; lia| |constructor].
           apply (escape_content "re%x"). repeat split; try discriminate.
           ++ intros c r E. injection E as <- _. reflexivity.
           ++ intros r c E. change "re%x" with ("re%" +++ "x") in E. apply snoc_inj in E. subst c. reflexivity.
           ++ intros [r E]; discriminate E.
           ++ intros [r E]; discriminate E.
        -- apply (en_value 0 "" "verbose" " " "=" " " "2" "" [] []); try reflexivity; auto; [apply Nm; [reflexivity|discriminate]| |constructor].
           right. apply (It "2" eq_refl). discriminate.
  - split; [|split].
    + constructor; [intros [H|[]]; discriminate H|]. constructor; [intros []|constructor].
    + intros [H|[H|[]]]; discriminate H.
    + intros s [<-|[<-|[]]]; cbn; repeat (constructor; [cbn; intuition discriminate|]); constructor.
  - cbv zeta. cbn [join]. repeat first [apply tx_last; discriminate | apply (tx_line _ (String cr nl)); [right; reflexivity|]].
  - vm_compute. reflexivity.
Qed.

(** Without a section [vermin] there is no configuration. *)
Theorem c65_no_section : forall cpus re_ok ls secs t, document ls secs -> distinct secs -> text_of ls t ->
  ~ In "vermin" (map fst secs) -> parse_file cpus re_ok (cfg_of_text cpus t) = None.
Proof. exact no_section_parsed. Qed.
Print Assumptions c65_no_section.

(** A configuration written out is read back whole. *)
Theorem c65_round_trip : forall cpus re_ok c t, expressible re_ok c -> text_of (written c) t ->
  parse_file cpus re_ok (cfg_of_text cpus t) = Some c.
Proof. exact written_read. Qed.
Print Assumptions c65_round_trip.

(** And it is the one that is detected, if no other file is in the way. *)
Theorem c65_found_and_read : forall cpus re_ok (files : list string -> string -> option string) exists_in start f n a b c t,
  expressible re_ok c -> files f n = Some t -> text_of (written c) t -> searched exists_in start f ->
  ["vermin.ini"; "vermin.conf"; ".vermin"; "setup.cfg"] = a ++ n :: b -> (forall x, In x a -> files f x = None) ->
  (forall g x, searched exists_in start g -> (List.length f < List.length g)%nat -> files g x = None) ->
  detect_config_file (text_candidate files) exists_in start = Ok (Some (f, n)) /\ parse_file cpus re_ok (cfg_of_text cpus t) = Some c.
Proof. exact written_found. Qed.
Print Assumptions c65_found_and_read.

Example c65_round_trip_case :
  let c := mkConfig true 3 false 8 true true false true ["a.b"; "50%"] ["^x$"] false ["typing"] ["fstring-self-doc"]
             [(true, (2, 7)); (false, (3, 10))] true false true true FParsable in
  let t := join nl (written c) in
  expressible (fun _ => true) c /\ text_of (written c) t /\ parse_file 4 (fun _ => true) (cfg_of_text 4 t) = Some c /\ probe_of_text t = PrSection.
Proof.
  cbv zeta. assert (It : forall s, sall safe s = true -> s <> "" -> item s) by (intros s A B; apply (item_safe s A B)).
  split; [|split; [|split; vm_compute; reflexivity]].
  - assert (N2 : forall a b : string, a <> b -> NoDup [a; b]).
    { intros a b H. constructor; [intros [E|[]]; auto|]. constructor; [intros []|constructor]. }
    assert (N1 : forall a : string, NoDup [a]) by (intros a; constructor; [intros []|constructor]).
    unfold expressible. cbn -[backports_table features_table item].
    split; [lia|]. split; [lia|]. split; [intros _; cbn; repeat split; lia|]. split; [split|split; [split; [apply N1|]|split; [split; [apply N1|]|split; [split; [apply N1|]|split]]]].
    + apply N2. discriminate.
    + constructor; [apply It; [reflexivity|discriminate]|]. constructor; [|constructor]. split; [|reflexivity].
      repeat split; try discriminate.
      * intros c r E. injection E as <- _. reflexivity.
      * intros r c E. change "50%" with ("50" +++ "%") in E. apply snoc_inj in E. subst c. reflexivity.
      * intros [r E]; discriminate E.
      * intros [r E]; discriminate E.
    + constructor; [split; [apply It; [reflexivity|discriminate]|reflexivity]|constructor].
    + intros b [<-|[]]. apply mem_In. vm_compute. reflexivity.
    + intros b [<-|[]]. apply mem_In. vm_compute. reflexivity.
    + unfold ver_le. cbn. lia.
    + repeat (constructor; [unfold in_range, ver_le, ver_lt; cbn; lia|]). constructor.
  - apply text_join; discriminate.
Qed.

(** A file that is detected can be read to its end when it is parsed. *)
Theorem c65_found_readable : forall cpus t, probe_of_text t = PrSection -> exists s, cfg_of_text cpus t = CfgSection s.
Proof. exact found_readable. Qed.
Print Assumptions c65_found_readable.

(** Not so for the converse: an option without value in some other section does not keep a file named by
    "--config-file" from being read, but keeps it from being detected. *)
Theorem c65_readable_found_refuted : exists t, (exists c, parse_file 4 (fun _ => true) (cfg_of_text 4 t) = Some c) /\ probe_of_text t = PrParsingError.
Proof. exists ("[tool]" +++ nl +++ "x" +++ nl +++ "[vermin]" +++ nl +++ "quiet = yes"). split; [eexists|]; vm_compute; reflexivity. Qed.
Print Assumptions c65_readable_found_refuted.

(** "%" in a value refuses the whole file unless it is doubled. *)
Theorem c65_percent_refuted : exists ls es t, document ls [("vermin", es)] /\ distinct [("vermin", es)] /\ text_of ls t /\
  (exists c, parse_file 4 (fun _ => true) (CfgSection (section_of 4 es)) = Some c) /\ parse_file 4 (fun _ => true) (cfg_of_text 4 t) = None.
Proof.
  exists ["[vermin]"; "exclusions = a%b"], [("exclusions", Some "a%b")], ("[vermin]" +++ nl +++ "exclusions = a%b").
  split; [|split; [|split; [|split]]].
  - exists [], [["[vermin]"; "exclusions = a%b"]]. split; [constructor|]. split; [|reflexivity]. constructor; [|constructor].
    apply (bl 0 "vermin" "" [] [["exclusions = a%b"]]); try reflexivity; [discriminate|constructor|]. constructor; [|constructor].
    apply (en_value 0 "" "exclusions" " " "=" " " "a%b" "" [] []); try reflexivity; auto; [apply name_all; [reflexivity|discriminate]| |constructor].
    right. repeat split; try discriminate.
    + intros c r E. injection E as <- _. reflexivity.
    + intros r c E. change "a%b" with ("a%" +++ "b") in E. apply snoc_inj in E. subst c. reflexivity.
  - split; [|split].
    + constructor; [intros []|constructor].
    + intros [H|[]]; discriminate H.
    + intros s [<-|[]]. cbn. constructor; [intros []|constructor].
  - apply (tx_line "[vermin]" nl); [left; reflexivity|]. apply tx_last. discriminate.
  - eexists. vm_compute. reflexivity.
  - vm_compute. reflexivity.
Qed.
Print Assumptions c65_percent_refuted.

(** A blank line within a list of backports refuses the whole file. *)
Theorem c65_blank_line_refuted : exists a b,
  (exists c, parse_file 4 (fun _ => true) (cfg_of_text 4 (a +++ b)) = Some c /\ c_backports c = ["typing"; "enum"]) /\
  parse_file 4 (fun _ => true) (cfg_of_text 4 (a +++ nl +++ b)) = None.
Proof.
  exists ("[vermin]" +++ nl +++ "backports =" +++ nl +++ "  typing" +++ nl), ("  enum" +++ nl).
  split; [eexists; split|]; vm_compute; reflexivity.
Qed.
Print Assumptions c65_blank_line_refuted.

(** An option that is indented more than the one before it is taken for a part of that one's value: both are
    lost, without any word. *)
Theorem c65_indented_refuted : exists t,
  t = "[vermin]" +++ nl +++ "parse_comments = no" +++ nl +++ "  quiet = yes" /\
  exists c, parse_file 4 (fun _ => true) (cfg_of_text 4 t) = Some c /\ c_parse_comments c = true /\ c_quiet c = false.
Proof. eexists. split; [reflexivity|]. eexists. split; [vm_compute; reflexivity|]. split; reflexivity. Qed.
Print Assumptions c65_indented_refuted.

(** Sections [DEFAULT] are read as well: what they say holds where [vermin] says nothing itself, as if it were
    written there, as long as every value tells something. *)
Theorem c65_default_section : forall cpus re_ok ls secs es ds t,
  document ls secs -> separate secs -> In ("vermin", escaped es) secs -> defaults_said secs = escaped ds -> text_of ls t ->
  parse_file cpus re_ok (cfg_of_text cpus t) = parse_file cpus re_ok (CfgSection (section_with cpus es ds)) /\
  ((forall o v, In o (map fst ds) -> assoc o (es ++ ds) = Some (Some v) -> telling o v) ->
   parse_file cpus re_ok (cfg_of_text cpus t) = parse_file cpus re_ok (CfgSection (section_of cpus (es ++ ds)))).
Proof. exact default_both. Qed.
Print Assumptions c65_default_section.

(** [DEFAULT] alone does not make a configuration. *)
Theorem c65_default_alone : forall cpus re_ok ls secs t, document ls secs -> separate secs -> text_of ls t ->
  ~ In "vermin" (map fst secs) -> parse_file cpus re_ok (cfg_of_text cpus t) = None.
Proof. exact default_no_section. Qed.
Print Assumptions c65_default_alone.

Example c65_default_section_case :
  let ls := ["[DEFAULT]"; "quiet = on"; "verbose = 1"; "[vermin]"; "verbose = 2"; "[DEFAULT]"; "exclusions ="; "  a.b"] in
  let es := [("verbose", Some "2")] in
  let ds := [("quiet", Some "on"); ("verbose", Some "1"); ("exclusions", Some (String lf "a.b"))] in
  let secs := [("DEFAULT", [("quiet", Some "on"); ("verbose", Some "1")]); ("vermin", escaped es); ("DEFAULT", [("exclusions", Some (String lf "a.b"))])] in
  document ls secs /\ separate secs /\ In ("vermin", escaped es) secs /\ defaults_said secs = escaped ds /\ text_of ls (join nl ls) /\
  (forall o v, In o (map fst ds) -> assoc o (es ++ ds) = Some (Some v) -> telling o v) /\
  option_map (fun c => (c_quiet c, c_verbose c, c_exclusions_set c)) (parse_file 4 (fun _ => true) (cfg_of_text 4 (join nl ls))) = Some (true, 2, ["a.b"]).
Proof.
  assert (Nm : forall s, sall name_char s = true -> s <> "" -> option_name s) by (intros s A B; apply (name_all s A B)).
  assert (It : forall s, sall safe s = true -> s <> "" -> content s) by (intros s A B; apply (item_safe s A B)).
  cbv zeta. split; [|split; [|split; [|split; [|split; [|split]]]]].
  - exists [], [["[DEFAULT]"; "quiet = on"; "verbose = 1"]; ["[vermin]"; "verbose = 2"]; ["[DEFAULT]"; "exclusions ="; "  a.b"]].
    split; [constructor|]. split; [|reflexivity]. constructor; [|constructor; [|constructor; [|constructor]]].
    + apply (bl 0 "DEFAULT" "" [] [["quiet = on"]; ["verbose = 1"]]); try reflexivity; [discriminate|constructor|]. constructor; [|constructor; [|constructor]].
      * apply (en_value 0 "" "quiet" " " "=" " " "on" "" [] []); try reflexivity; auto; [apply Nm; [reflexivity|discriminate]| |constructor].
        right. apply (It "on" eq_refl). discriminate.
      * apply (en_value 0 "" "verbose" " " "=" " " "1" "" [] []); try reflexivity; auto; [apply Nm; [reflexivity|discriminate]| |constructor].
        right. apply (It "1" eq_refl). discriminate.
    + apply (bl 0 "vermin" "" [] [["verbose = 2"]]); try reflexivity; [discriminate|constructor|]. constructor; [|constructor].
      apply (en_value 0 "" "verbose" " " "=" " " "2" "" [] []); try reflexivity; auto; [apply Nm; [reflexivity|discriminate]| |constructor].
      right. apply (It "2" eq_refl). discriminate.
    + apply (bl 0 "DEFAULT" "" [] [["exclusions ="; "  a.b"]]); try reflexivity; [discriminate|constructor|]. constructor; [|constructor].
      apply (en_value 0 "" "exclusions" " " "=" "" "" "" ["  a.b"] ["a.b"]); try reflexivity; auto; [apply Nm; [reflexivity|discriminate]|].
      apply (fo_more 0 "  " "a.b" ""); try reflexivity; [cbn; lia|apply It; [reflexivity|discriminate]|constructor].
  - split; [split; [|split]|].
    + constructor; [intros []|constructor].
    + intros [H|[]]; discriminate H.
    + intros s [<-|[]]. constructor; [intros []|constructor].
    + cbn. repeat (constructor; [cbn; intuition discriminate|]). constructor.
  - right. left. reflexivity.
  - reflexivity.
  - apply text_join; discriminate.
  - intros o v [<-|[<-|[<-|[]]]] E; vm_compute in E; injection E as <-; unfold telling; cbn; intuition discriminate.
  - vm_compute. reflexivity.
Qed.

(** A value that tells nothing is replaced by what [DEFAULT] says, but there only "True" is taken for yes. *)
Theorem c65_default_yes_refuted : exists a b,
  (exists c, parse_file 4 (fun _ => true) (cfg_of_text 4 ("[DEFAULT]" +++ nl +++ "quiet = " +++ a +++ nl +++ "[vermin]" +++ nl +++ "verbose = 1")) = Some c /\ c_quiet c = true) /\
  (exists c, parse_file 4 (fun _ => true) (cfg_of_text 4 ("[DEFAULT]" +++ nl +++ "quiet = " +++ a +++ nl +++ "[vermin]" +++ nl +++ "quiet = ?")) = Some c /\ c_quiet c = false) /\
  (exists c, parse_file 4 (fun _ => true) (cfg_of_text 4 ("[DEFAULT]" +++ nl +++ "quiet = " +++ b +++ nl +++ "[vermin]" +++ nl +++ "quiet = ?")) = Some c /\ c_quiet c = true).
Proof. exists "true", "True". repeat split; eexists; (split; [vm_compute; reflexivity|reflexivity]). Qed.
Print Assumptions c65_default_yes_refuted.
