(** A configuration written to a file is read back. Lemmas for C65. *)
From Verif Require Import PyBase PyLemmas Utility RulesData Rules Config Ini Spec_Base Spec_Utility Spec_Config Spec_Ini
  Proof_Utility Proof_Config Proof_Shapes Proof_Ini.

(** ** Escaped text *)
Lemma escape_app a b : escape (a +++ b) = escape a +++ escape b.
Proof.
  induction a as [|c a IH]; [reflexivity|]. rewrite app_cons_s. cbn [escape]. rewrite IH. destruct (Ascii.eqb c "%"); reflexivity.
Qed.
Lemma escape_sall f s : sall f s = true -> sall f (escape s) = true.
Proof.
  induction s as [|c s IH]; intros H; [reflexivity|]. rewrite sall_cons in H. apply andb_prop in H. destruct H as [A B]. cbn [escape].
  destruct (Ascii.eqb_spec c "%") as [->|]; rewrite !sall_cons, A, IH by exact B; reflexivity.
Qed.
Lemma escape_first s c r : escape s = String c r -> exists r', s = String c r'.
Proof.
  destruct s as [|x s]; [discriminate|]. cbn [escape]. destruct (Ascii.eqb_spec x "%") as [->|]; intros H; injection H as <- _; eauto.
Qed.
Lemma snoc_inj a c b d : a +++ String c "" = b +++ String d "" -> c = d.
Proof.
  revert b. induction a as [|x a IH]; intros [|y b] H.
  - injection H as ->. reflexivity.
  - rewrite app_cons_s in H. injection H as _ H. destruct b; discriminate.
  - rewrite app_cons_s in H. injection H as _ H. destruct a; discriminate.
  - rewrite !app_cons_s in H. injection H as _ H. eapply IH. exact H.
Qed.
Lemma escape_solid s : solid s -> solid (escape s).
Proof.
  intros (N & F & L). split; [|split].
  - destruct s as [|c s]; [contradiction|]. cbn [escape]. destruct (Ascii.eqb c "%"); discriminate.
  - intros c r E. apply escape_first in E. destruct E as [r' E]. eapply F. exact E.
  - intros r c E. destruct (snoc_s s N) as (r0 & c0 & Es). assert (Hc := L _ _ Es). subst s. rewrite escape_app in E. cbn [escape] in E.
    destruct (Ascii.eqb_spec c0 "%") as [->|].
    + change (String "%" (String "%" "")) with (String "%" "" +++ String "%" "") in E. rewrite <- app_assoc_s in E.
      apply snoc_inj in E. subst c. reflexivity.
    + apply snoc_inj in E. subst c. exact Hc.
Qed.
Lemma escape_content x : content x -> content (escape x).
Proof.
  intros (S & O & H1 & H2). repeat split; try apply escape_solid; auto; try (apply escape_sall; exact O).
  - intros [r E]. apply escape_first in E. exact (H1 E).
  - intros [r E]. apply escape_first in E. exact (H2 E).
Qed.
Lemma escape_join l : escape (join nl l) = join nl (map escape l).
Proof.
  induction l as [|x [|y l] IH]; [reflexivity|reflexivity|]. cbn [map]. change (join nl (x :: y :: l)) with (x +++ nl +++ join nl (y :: l)).
  rewrite !escape_app, IH. reflexivity.
Qed.

(** ** Lists *)
Lemma join_last l x : exists a, join nl (l ++ [x]) = a +++ x.
Proof.
  induction l as [|y l [a IH]]; [exists ""; reflexivity|]. exists (y +++ nl +++ a). cbn [List.app].
  destruct (l ++ [x]) eqn:E; [destruct l; discriminate|]. change (join nl (y :: s :: l0)) with (y +++ nl +++ join nl (s :: l0)). rewrite IH, !app_assoc_s. reflexivity.
Qed.
Lemma app_not_empty a c b : a +++ String c b <> "".
Proof. destruct a; discriminate. Qed.
Lemma join_solid l x : Forall solid (x :: l) -> solid (join nl (x :: l)).
Proof.
  intros H. inversion H as [|? ? (N & F & L) Hl]; subst. split; [|split].
  - destruct x as [|c x]; [contradiction|]. destruct l; discriminate.
  - intros c r E. destruct x as [|c0 x]; [contradiction|]. assert (c0 = c).
    { destruct l; [|change (join nl (String c0 x :: s :: l)) with (String c0 x +++ nl +++ join nl (s :: l)) in E; rewrite app_cons_s in E];
        injection E; congruence. }
    subst c0. eapply F. reflexivity.
  - intros r c E. assert (J : exists y b, In y (x :: l) /\ join nl (x :: l) = b +++ y).
    { destruct (exists_last (l := x :: l)) as (l0 & y & El); [discriminate|]. rewrite El. destruct (join_last l0 y) as [a Ea].
      exists y, a. split; [apply in_or_app; right; left; reflexivity|exact Ea]. }
    destruct J as (y & b & Iy & Ey). rewrite Forall_forall in H. destruct (H y Iy) as (Ny & _ & Ly).
    destruct (snoc_s y Ny) as (r' & c' & E'). rewrite Ey, E', <- app_assoc_s in E. apply snoc_inj in E. subst c'. eapply Ly. exact E'.
Qed.
Lemma join_head l : Forall solid l -> l <> [] -> join nl ("" :: l) = nl +++ join nl l.
Proof. destruct l; [contradiction|reflexivity]. Qed.
Lemma rstrip_list l : Forall solid l -> rstrip (join nl ("" :: l)) = join nl ("" :: l).
Proof.
  intros H. destruct l as [|x l]; [reflexivity|]. rewrite join_head by (auto; discriminate). assert (S := join_solid l x H).
  destruct S as (N & _ & L). destruct (snoc_s _ N) as (r & c & E). assert (Hc := L _ _ E). rewrite E, <- app_assoc_s.
  generalize (nl +++ r). intros a. induction a as [|y a IH]; [cbn [append rstrip]; cbn; rewrite Hc; reflexivity|].
  rewrite app_cons_s. cbn [rstrip]. rewrite IH. destruct (a +++ String c "") eqn:Z; [destruct a; discriminate|]. reflexivity.
Qed.
Lemma splitlines_join x l : Forall (fun x => no_break x = true) (x :: l) -> (forall y, In y (x :: l) -> y <> "") -> splitlines (join nl (x :: l)) = x :: l.
Proof.
  unfold splitlines. revert x. induction l as [|y l IH]; intros x H N; inversion H as [|? ? Hx Hl]; subst.
  - cbn [join]. rewrite <- (app_nil_s x) at 1. rewrite splitlines_aux_pre by exact Hx. change ("" +++ x) with x. cbn [splitlines_aux].
    destruct x; [destruct (N ""); [left|]; reflexivity|reflexivity].
  - change (join nl (x :: y :: l)) with (x +++ nl +++ join nl (y :: l)). rewrite splitlines_aux_pre by exact Hx.
    change (nl +++ join nl (y :: l)) with (String lf (join nl (y :: l))). cbn [splitlines_aux]. change (is_linebreak lf) with true. cbv iota.
    change ("" +++ x) with x. change (Ascii.eqb lf (ascii_of_nat 13)) with false. cbv iota. f_equal. apply IH; [exact Hl|]. intros z I. apply N. right. exact I.
Qed.
Lemma strip_list l : Forall solid l -> strip (join nl ("" :: l)) = join nl l.
Proof.
  intros H. destruct l as [|x l]; [reflexivity|]. rewrite join_head by (auto; discriminate). unfold strip.
  rewrite (lstrip_gap nl) by reflexivity. assert (S := join_solid l x H). rewrite <- (app_nil_s (join nl (x :: l))) at 1.
  rewrite solid_lstrip by exact S. rewrite app_nil_s. apply solid_rstrip. right. exact S.
Qed.
Lemma list_read l : Forall item l -> splitlines (strip (join nl ("" :: l))) = l.
Proof.
  intros H. rewrite strip_list by (eapply Forall_impl; [|exact H]; intros a ((S & _) & _); exact S).
  destruct l as [|x l]; [reflexivity|]. apply splitlines_join.
  - eapply Forall_impl; [|exact H]. intros a (_ & N). exact N.
  - intros y I. rewrite Forall_forall in H. destruct (H y I) as (((N & _) & _) & _). exact N.
Qed.
Lemma add_all_new l : forall s, NoDup (s ++ l) -> add_all l s = s ++ l.
Proof.
  unfold add_all. induction l as [|x l IH]; intros s N; cbn [fold_left]; [symmetry; apply app_nil_r|].
  assert (M : mem x s = false).
  { destruct (mem x s) eqn:E; [|reflexivity]. apply mem_In in E. apply NoDup_remove_2 in N. exfalso. apply N. apply in_or_app. left. exact E. }
  unfold set_add at 2. rewrite M, IH by (rewrite <- app_assoc; exact N). rewrite <- app_assoc. reflexivity.
Qed.
Lemma push_all ts : sorted_by_version ts -> fold_left push_target ts [] = ts /\ (List.length ts <= 2)%nat.
Proof.
  destruct ts as [|a [|b [|c ts]]]; cbn [sorted_by_version]; intros H; try contradiction; (split; [|cbn; lia]); [reflexivity|reflexivity|].
  cbn. unfold target_leb. destruct (vleb (snd a) (snd b)) eqn:E; [reflexivity|]. apply vleb_le in H. congruence.
Qed.

(** ** Entries *)
Definition name_char (c : ascii) : bool := let n := code c in ((97 <=? n) && (n <=? 122)) || (n =? 95).
Lemma name_char_plain c : name_char c = true ->
  is_space c = false /\ line_char c = true /\ c <> "#"%char /\ c <> ";"%char /\ c <> "["%char /\ Ascii.eqb c "=" = false /\ Ascii.eqb c ":" = false /\
  lower_ascii c = c /\ is_linebreak c = false /\ Ascii.eqb c "%" = false.
Proof. destruct c as [[] [] [] [] [] [] [] []]; intros H; try discriminate H; repeat split; try reflexivity; discriminate. Qed.
Lemma name_all s : sall name_char s = true -> s <> "" -> option_name s /\ lower s = s /\ item s.
Proof.
  intros H N. assert (K : forall a c b, s = a +++ String c b -> name_char c = true).
  { intros a c b ->. rewrite sall_app, sall_cons in H. apply andb_prop in H. destruct H as [_ H]. apply andb_prop in H. apply H. }
  assert (Cs : content s).
  { repeat split.
    - exact N.
    - intros c r E. apply name_char_plain. apply (K "" c r E).
    - intros r c E. apply name_char_plain. apply (K r c "" E).
    - eapply sall_impl; [|exact H]. intros c Hc. apply name_char_plain. exact Hc.
    - intros [r E]. assert (X := K "" _ r E). discriminate X.
    - intros [r E]. assert (X := K "" _ r E). discriminate X. }
  split; [|split].
  - split; [exact Cs|]. split.
    + intros [r E]. assert (X := K "" _ r E). discriminate X.
    + eapply sall_impl; [|exact H]. intros c Hc. apply name_char_plain in Hc. destruct Hc as (_ & _ & _ & _ & _ & E1 & E2 & _). rewrite E1, E2. reflexivity.
  - clear N K Cs. induction s as [|c s IH]; [reflexivity|]. rewrite sall_cons in H. apply andb_prop in H. destruct H as [A B]. change (lower (String c s)) with (String (lower_ascii c) (lower s)). rewrite IH by exact B.
    apply name_char_plain in A. destruct A as (_ & _ & _ & _ & _ & _ & _ & -> & _). reflexivity.
  - split; [exact Cs|]. eapply sall_impl; [|exact H]. intros c Hc. apply name_char_plain in Hc. destruct Hc as (_ & _ & _ & _ & _ & _ & _ & _ & E & _). rewrite E. reflexivity.
Qed.
Lemma entry_line o v : sall name_char o = true -> o <> "" -> content v -> entry 0 [o +++ " = " +++ v] (o, Some v).
Proof.
  intros H N (S & O & _). destruct (name_all o H N) as (On & L & _).
  assert (E := en_value 0 "" o " " "=" " " v "" [] []). cbn [join] in E. rewrite L, (solid_rstrip v) in E by (right; exact S).
  rewrite app_nil_s in E. change (" " +++ "=" +++ " " +++ v) with (" = " +++ v) in E. apply E; try reflexivity; auto; try exact On. constructor.
Qed.
Lemma following_items l : Forall content l -> following 0 (map (fun x => "  " +++ x) l) l.
Proof.
  induction 1 as [|x l Hx Hl IH]; [constructor|]. cbn [map]. rewrite <- (app_nil_s x) at 1. apply fo_more; try reflexivity; auto. cbn. lia.
Qed.
Lemma entry_items o l : sall name_char o = true -> o <> "" -> Forall content l -> entry 0 (items o l) (o, Some (escape (join nl ("" :: l)))).
Proof.
  intros H N Cl. destruct (name_all o H N) as (On & L & _). rewrite escape_join. cbn [map]. change (escape "") with "".
  assert (Ce : Forall content (map escape l)) by (rewrite Forall_map; eapply Forall_impl; [|exact Cl]; apply escape_content).
  assert (E := en_value 0 "" o " " "=" "" "" "" (map (fun x => "  " +++ escape x) l) (map escape l)).
  rewrite rstrip_list in E by (eapply Forall_impl; [|exact Ce]; intros a X; apply X). rewrite L in E. unfold items.
  change (" " +++ "=" +++ "" +++ "" +++ "") with " =" in E. apply E; try reflexivity; auto; try exact On.
  rewrite <- (map_map escape (fun x => "  " +++ x)). apply following_items. exact Ce.
Qed.

(** ** Values *)
Definition safe (c : ascii) : bool :=
  negb (is_space c) && line_char c && negb (Ascii.eqb c "#") && negb (Ascii.eqb c ";") && negb (is_linebreak c) && negb (Ascii.eqb c "%").
Lemma item_safe s : sall safe s = true -> s <> "" -> item s /\ escape s = s.
Proof.
  intros H N. assert (K : forall a c b, s = a +++ String c b -> safe c = true).
  { intros a c b ->. rewrite sall_app, sall_cons in H. apply andb_prop in H. destruct H as [_ H]. apply andb_prop in H. apply H. }
  assert (P : forall c, safe c = true -> is_space c = false /\ line_char c = true /\ is_linebreak c = false /\ Ascii.eqb c "%" = false).
  { intros c. unfold safe. rewrite !andb_true_iff, !negb_true_iff. tauto. }
  split.
  - split.
    + repeat split.
      * exact N.
      * intros c r E. apply P. apply (K "" c r E).
      * intros r c E. apply P. apply (K r c "" E).
      * eapply sall_impl; [|exact H]. intros c Hc. apply P. exact Hc.
      * intros [r E]. assert (X := K "" _ r E). discriminate X.
      * intros [r E]. assert (X := K "" _ r E). discriminate X.
    + eapply sall_impl; [|exact H]. intros c Hc. apply P in Hc. destruct Hc as (_ & _ & E & _). rewrite E. reflexivity.
  - apply escape_id. eapply sall_impl; [|exact H]. intros c Hc. apply P in Hc. destruct Hc as (_ & _ & _ & E). rewrite E. reflexivity.
Qed.
Lemma safe_digit c : digit_minus c = true -> safe c = true.
Proof. destruct c as [[] [] [] [] [] [] [] []]; intros H; try discriminate H; reflexivity. Qed.
Lemma safe_number n : sall safe (z_str n) = true.
Proof. eapply sall_impl; [|apply z_str_chars]. apply safe_digit. Qed.
Lemma safe_target (t : target) : sall safe (ver_str (snd t) +++ (if fst t then "" else "-")) = true.
Proof. unfold ver_str. rewrite !sall_app, !safe_number. destruct (fst t); reflexivity. Qed.
Lemma safe_names (l : list string) : forallb (fun s => sall safe s && negb (String.eqb s "")) l = true -> forall x, In x l -> item x.
Proof.
  intros H x I. rewrite forallb_forall in H. apply H in I. apply andb_prop in I. destruct I as [A B]. apply item_safe; [exact A|].
  intros ->. discriminate B.
Qed.
Lemma item_content l : Forall item l -> Forall content l.
Proof. intros H. eapply Forall_impl; [|exact H]. intros a X. apply X. Qed.

Definition target_line (t : target) : string := ver_str (snd t) +++ (if fst t then "" else "-").
Definition entries (c : config) : list (string * option string) :=
  [("quiet", Some (py_bool_str (c_quiet c))); ("verbose", Some (z_str (c_verbose c))); ("print_visits", Some (py_bool_str (c_print_visits c)));
   ("processes", Some (z_str (c_processes c))); ("ignore_incomp", Some (py_bool_str (c_ignore_incomp c))); ("pessimistic", Some (py_bool_str (c_pessimistic c)));
   ("show_tips", Some (py_bool_str (c_show_tips c))); ("analyze_hidden", Some (py_bool_str (c_analyze_hidden c)));
   ("eval_annotations", Some (py_bool_str (c_eval_annotations c))); ("only_show_violations", Some (py_bool_str (c_only_show_violations c)));
   ("parse_comments", Some (py_bool_str (c_parse_comments c))); ("scan_symlink_folders", Some (py_bool_str (c_scan_symlink_folders c)));
   ("make_paths_absolute", Some (py_bool_str (c_make_paths_absolute c))); ("format", Some (fmt_name (c_format c)));
   ("exclusions", Some (join nl ("" :: c_exclusions_set c))); ("exclusion_regex", Some (join nl ("" :: c_exclusion_regex_set c)));
   ("backports", Some (join nl ("" :: c_backports c))); ("features", Some (join nl ("" :: c_features c)));
   ("targets", Some (join nl ("" :: map target_line (c_targets c))))].

Section Written.
Context (cpus : Z) (re_ok : string -> bool) (c : config) (X : expressible re_ok c).
Let sec := section_of cpus (entries c).
Lemma read_bool o b : assoc o (entries c) = Some (Some (py_bool_str b)) -> getbool sec o = Ok b.
Proof. intros E. unfold getbool, sec. cbn [section_of sec_get]. rewrite E. destruct b; reflexivity. Qed.
Lemma read_uint o n : assoc o (entries c) = Some (Some (z_str n)) -> 0 <= n -> getuint sec o = Ok n.
Proof.
  intros E H. unfold getuint, sec. cbn [section_of sec_get]. rewrite E. assert (N := z_str_nonempty n).
  destruct (String.eqb_spec (z_str n) "") as [E'|_]; [contradiction|]. rewrite py_int_z_str by exact H.
  destruct (Z.ltb_spec n 0); [lia|reflexivity].
Qed.
Lemma read_list o l : assoc o (entries c) = Some (Some (join nl ("" :: l))) -> Forall item l -> getstringlist sec o = Ok l.
Proof. intros E H. unfold getstringlist, sec. cbn [section_of sec_get]. rewrite E, list_read by exact H. reflexivity. Qed.

Lemma items_backports : Forall item (c_backports c).
Proof.
  destruct X as (_ & _ & _ & _ & _ & (_ & H) & _). rewrite Forall_forall. intros x I. apply (safe_names (map (fun e => fst (fst e)) backports_table)); [vm_compute; reflexivity|auto].
Qed.
Lemma items_features : Forall item (c_features c).
Proof.
  destruct X as (_ & _ & _ & _ & _ & _ & (_ & H) & _). rewrite Forall_forall. intros x I. apply (safe_names (map fst features_table)); [vm_compute; reflexivity|auto].
Qed.
Lemma items_targets : Forall item (map target_line (c_targets c)).
Proof.
  rewrite Forall_map, Forall_forall. intros t _. apply item_safe; [apply safe_target|]. unfold target_line, ver_str.
  destruct (z_str_headc (fst (snd t))) as (a & r & -> & _). discriminate.
Qed.
Lemma items_exclusions : Forall item (c_exclusions_set c).
Proof. destruct X as (_ & _ & _ & (_ & H) & _). exact H. Qed.
Lemma items_regex : Forall item (c_exclusion_regex_set c).
Proof. destruct X as (_ & _ & _ & _ & (_ & H) & _). eapply Forall_impl; [|exact H]. intros a (A & _). exact A. Qed.

Lemma parse_values s :
  getbool s "quiet" = Ok (c_quiet c) ->
  getbool s "print_visits" = Ok (c_print_visits c) ->
  getbool s "ignore_incomp" = Ok (c_ignore_incomp c) ->
  getbool s "pessimistic" = Ok (c_pessimistic c) ->
  getbool s "show_tips" = Ok (c_show_tips c) ->
  getbool s "analyze_hidden" = Ok (c_analyze_hidden c) ->
  getbool s "eval_annotations" = Ok (c_eval_annotations c) ->
  getbool s "only_show_violations" = Ok (c_only_show_violations c) ->
  getbool s "parse_comments" = Ok (c_parse_comments c) ->
  getbool s "scan_symlink_folders" = Ok (c_scan_symlink_folders c) ->
  getbool s "make_paths_absolute" = Ok (c_make_paths_absolute c) ->
  getuint s "verbose" = Ok (c_verbose c) -> getuint s "processes" = Ok (c_processes c) ->
  getstringlist s "exclusions" = Ok (c_exclusions_set c) -> getstringlist s "exclusion_regex" = Ok (c_exclusion_regex_set c) ->
  getstringlist s "backports" = Ok (c_backports c) -> getstringlist s "features" = Ok (c_features c) ->
  getstringlist s "targets" = Ok (map target_line (c_targets c)) -> sec_get s "format" = Ok (Some (fmt_name (c_format c))) ->
  parse_section cpus re_ok s = Ok c.
Proof.
  intros E0 E1 E2 E3 E4 E5 E6 E7 E8 E9 E10 Ev Ep Ex Er Eb Ef Et Em.
  destruct X as (Hv & Hp & Hs & (Ne & _) & (Nr & Fr) & (Nb & Fb) & (Nf & Ff) & St & Ft).
  assert (FN : from_name (strip (fmt_name (c_format c))) = Some (c_format c)) by (destruct (c_format c); reflexivity).
  destruct (push_all (c_targets c) St) as [Pt Lt].
  assert (Fts : Forall2 (fun s t => writes_target s t /\ in_range (snd t)) (map target_line (c_targets c)) (c_targets c)).
  { clear - Ft. induction Ft as [|t ts (R & M) _ IH]; [constructor|]. cbn [map]. constructor; [|exact IH].
    apply parse_target_iff. destruct t as [e v]. apply parse_target_roundtrip; assumption. }
  assert (Lts : (List.length (map target_line (c_targets c)) <= 2)%nat) by (rewrite map_length; exact Lt).
  assert (Fr' : forall x, In x (c_exclusion_regex_set c) -> re_ok x = true) by (intros x I; rewrite Forall_forall in Fr; apply Fr; exact I).
  assert (Fb' : forall x, In x (c_backports c) -> is_backport x = true) by (intros x I; apply is_backport_iff; auto).
  assert (Ff' : forall x, In x (c_features c) -> is_feature x = true) by (intros x I; apply is_feature_iff; auto).
  generalize dependent (map target_line (c_targets c)). intros tl Et Fts Lts. clear Fr Fb Ff Ft St.
  unfold parse_section.
  rewrite E0, E1, E2, E3, E4, E5, E6, E7, E8, E9, E10, Ev, Ep, Ex, Er, Eb, Ef, Et, Em, FN. cbn [bindr]. rewrite fold_exclusions.
  match goal with |- context [fold_res (fun c x => add_exclusion_regex re_ok x c) ?l ?a] =>
    rewrite (proj2 (fold_regex re_ok l a _) (conj Fr' eq_refl)) end. cbn [bindr].
  match goal with |- context [fold_res (fun c x => match add_backport x c with _ => _ end) ?l ?a] =>
    rewrite (proj2 (fold_backports l a _) (conj Fb' eq_refl)) end. cbn [bindr].
  match goal with |- context [fold_res (fun c x => match enable_feature x c with _ => _ end) ?l ?a] =>
    rewrite (proj2 (fold_features l a _) (conj Ff' eq_refl)) end. cbn [bindr].
  match goal with |- context [fold_res ?f tl ?a] =>
    assert (Ta : c_targets a = []) by reflexivity;
    rewrite (proj2 (fold_targets tl a (w_targets (c_targets c) a) ltac:(rewrite Ta; cbn; lia)))
  end.
  2:{ exists (c_targets c). split; [exact Fts|]. split; [rewrite Ta; exact Lts|]. rewrite Ta, Pt. reflexivity. }
  clear Ta. cbn [bindr]. f_equal. unfold set_processes. destruct (Z.ltb_spec 0 (c_processes c)) as [_|]; [|lia].
  rewrite !add_all_new by (cbn; assumption).
  unfold parsable_settings in Hs. clear - Hs.
  destruct c; cbn in *. destruct c_format; [reflexivity|]. destruct (Hs eq_refl) as (A & B & C). subst. unfold set_format. cbn. rewrite Z.max_r by lia. reflexivity.
Qed.
Lemma parse_written : parse_section cpus re_ok sec = Ok c.
Proof.
  assert (Hv : 0 <= c_verbose c) by apply X. assert (Hp : 0 <= c_processes c) by (assert (0 < c_processes c) by apply X; lia).
  apply parse_values; first [apply read_bool; reflexivity | apply read_uint; [reflexivity|assumption] | apply read_list; [reflexivity|] | reflexivity].
  - apply items_exclusions.
  - apply items_regex.
  - apply items_backports.
  - apply items_features.
  - apply items_targets.
Qed.
End Written.

(** ** The document *)
Local Opaque z_str py_bool_str fmt_name join escape.
Lemma written_document re_ok c : expressible re_ok c -> document (written c) [("vermin", escaped (entries c))].
Proof.
  intros X. exists [], [written c]. split; [constructor|]. split; [|cbn [List.concat List.app]; symmetry; apply app_nil_r].
  constructor; [|constructor].
  assert (B : forall b, content (py_bool_str b) /\ escape (py_bool_str b) = py_bool_str b).
  { intros b. destruct (item_safe (py_bool_str b)) as ((A & _) & E); [destruct b; vm_compute; reflexivity|destruct b; intros H; vm_compute in H; discriminate|]. split; assumption. }
  assert (Nm : forall n, content (z_str n) /\ escape (z_str n) = z_str n).
  { intros n. destruct (item_safe (z_str n)) as ((A & _) & E); [apply safe_number|apply z_str_nonempty|]. split; assumption. }
  assert (Fm : content (fmt_name (c_format c)) /\ escape (fmt_name (c_format c)) = fmt_name (c_format c)).
  { destruct (item_safe (fmt_name (c_format c))) as ((A & _) & E); [destruct (c_format c); vm_compute; reflexivity|destruct (c_format c); intros H; vm_compute in H; discriminate|]. split; assumption. }
  assert (G := bl 0 "vermin" "" []). change ("[" +++ "vermin" +++ "]" +++ "") with "[vermin]" in G.
  unfold written, escaped, entries. cbn [map fst snd option_map]. rewrite !(proj2 (B _)), !(proj2 (Nm _)), (proj2 Fm).
  specialize (G ([flag "quiet" (c_quiet c)] :: [number "verbose" (c_verbose c)] :: [flag "print_visits" (c_print_visits c)] ::
   [number "processes" (c_processes c)] :: [flag "ignore_incomp" (c_ignore_incomp c)] :: [flag "pessimistic" (c_pessimistic c)] ::
   [flag "show_tips" (c_show_tips c)] :: [flag "analyze_hidden" (c_analyze_hidden c)] ::
   [flag "eval_annotations" (c_eval_annotations c)] :: [flag "only_show_violations" (c_only_show_violations c)] ::
   [flag "parse_comments" (c_parse_comments c)] :: [flag "scan_symlink_folders" (c_scan_symlink_folders c)] ::
   [flag "make_paths_absolute" (c_make_paths_absolute c)] :: ["format = " +++ fmt_name (c_format c)] ::
   items "exclusions" (c_exclusions_set c) :: items "exclusion_regex" (c_exclusion_regex_set c) ::
   items "backports" (c_backports c) :: items "features" (c_features c) ::
   [items "targets" (map target_line (c_targets c))])).
  cbn [List.concat List.app] in G. rewrite app_nil_r in G. cbn [List.app]. apply G; try reflexivity; [discriminate|constructor|].
  assert (Be : forall o b, sall name_char o = true -> o <> "" -> entry 0 [flag o b] (o, Some (py_bool_str b))).
  { intros o b H N. apply entry_line; auto. apply B. }
  assert (Ne : forall o n, sall name_char o = true -> o <> "" -> entry 0 [number o n] (o, Some (z_str n))).
  { intros o n H N. apply entry_line; auto. apply Nm. }
  repeat (constructor; [first [apply Be; [reflexivity|discriminate] | apply Ne; [reflexivity|discriminate]]|]).
  constructor; [apply (entry_line "format"); [reflexivity|discriminate|apply Fm]|].
  constructor; [apply entry_items; [reflexivity|discriminate|apply item_content, (items_exclusions re_ok), X]|].
  constructor; [apply entry_items; [reflexivity|discriminate|apply item_content, (items_regex re_ok), X]|].
  constructor; [apply entry_items; [reflexivity|discriminate|apply item_content, (items_backports re_ok), X]|].
  constructor; [apply entry_items; [reflexivity|discriminate|apply item_content, (items_features re_ok), X]|].
  constructor; [apply entry_items; [reflexivity|discriminate|apply item_content, items_targets]|]. constructor.
Qed.
Lemma written_distinct c : distinct [("vermin", escaped (entries c))].
Proof.
  split; [|split].
  - repeat constructor. intros [].
  - intros [H|[]]. discriminate H.
  - intros s [<-|[]]. unfold escaped, entries. cbn [map fst snd]. repeat (constructor; [intros H; cbn [In] in H; repeat (destruct H as [H|H]; [discriminate H|]); exact H|]). constructor.
Qed.
Lemma written_read cpus re_ok c t : expressible re_ok c -> text_of (written c) t -> parse_file cpus re_ok (cfg_of_text cpus t) = Some c.
Proof.
  intros X T. rewrite (config_as_written cpus re_ok (written c) _ (entries c) t (written_document re_ok c X) (written_distinct c) (or_introl eq_refl) T).
  unfold parse_file. rewrite parse_written by exact X. reflexivity.
Qed.

(** ** Found and read *)
Lemma section_found ls secs t : document ls secs -> distinct secs -> text_of ls t -> (forall s o, In s secs -> In o (snd s) -> snd o <> None) ->
  probe_of_text t = if has_key "vermin" secs then PrSection else PrNoSection.
Proof.
  intros D Di T V. unfold probe_of_text.
  destruct (read_document false [] ls secs t D Di T (or_intror V)) as (i & R & S & _). rewrite R. rewrite <- S. unfold has_key. rewrite assoc_said.
  destruct (assoc "vermin" (i_sections i)); reflexivity.
Qed.
Lemma written_valued c : forall s o, In s [("vermin", escaped (entries c))] -> In o (snd s) -> snd o <> None.
Proof.
  intros s o [<-|[]] I. unfold escaped, entries in I. cbn [map fst snd option_map] in I.
  repeat (destruct I as [<-|I]; [discriminate|]). destruct I.
Qed.
Lemma written_found cpus re_ok (files : list string -> string -> option string) exists_in start f n a b c t : expressible re_ok c ->
  files f n = Some t -> text_of (written c) t -> searched exists_in start f ->
  ["vermin.ini"; "vermin.conf"; ".vermin"; "setup.cfg"] = a ++ n :: b -> (forall x, In x a -> files f x = None) ->
  (forall g x, searched exists_in start g -> (List.length f < List.length g)%nat -> files g x = None) ->
  detect_config_file (text_candidate files) exists_in start = Ok (Some (f, n)) /\ parse_file cpus re_ok (cfg_of_text cpus t) = Some c.
Proof.
  intros X F T S N A G. split; [|eapply written_read; eassumption].
  assert (P : probe_of_text t = PrSection).
  { rewrite (section_found (written c) _ t (written_document re_ok c X) (written_distinct c) T (written_valued c)). reflexivity. }
  apply detect_iff. unfold text_candidate. rewrite F. split; [|exact P]. split; [exact S|]. split; [|split].
  - unfold text_candidate. rewrite F, P. left. reflexivity.
  - exists a, b. split; [exact N|]. intros x I. unfold text_candidate. rewrite (A x I). intros [H|H]; discriminate H.
  - intros g Sg L x _. unfold text_candidate. rewrite (G g x Sg L). intros [H|H]; discriminate H.
Qed.
Lemma as_written cpus re_ok ls secs es t : document ls secs -> distinct secs -> In ("vermin", escaped es) secs -> text_of ls t ->
  parse_file cpus re_ok (cfg_of_text cpus t) = parse_file cpus re_ok (CfgSection (section_of cpus es)) /\
  (forall c, parse_file cpus re_ok (cfg_of_text cpus t) = Some c -> section_says cpus re_ok (section_of cpus es) c) /\
  (forall c, section_says cpus re_ok (section_of cpus es) c -> exists c', parse_file cpus re_ok (cfg_of_text cpus t) = Some c').
Proof.
  intros D Di I T. assert (E := config_as_written cpus re_ok ls secs es t D Di I T). split; [exact E|]. rewrite E. cbn [parse_file]. split.
  - intros c H. apply parse_section_says; [apply section_of_defaults|]. destruct (parse_section _ _ _); [congruence|discriminate].
  - intros c H. destruct (section_says_parse cpus re_ok _ c (section_of_defaults cpus es) H) as [c' ->]. eauto.
Qed.
Lemma no_section_parsed cpus re_ok ls secs t : document ls secs -> distinct secs -> text_of ls t ->
  ~ In "vermin" (map fst secs) -> parse_file cpus re_ok (cfg_of_text cpus t) = None.
Proof. intros D Di T N. rewrite (no_section_written cpus ls secs t D Di T N). reflexivity. Qed.
Lemma text_join l : l <> [] -> last l "" <> "" -> text_of l (join nl l).
Proof.
  induction l as [|x [|y l] IH]; intros N L; [contradiction|apply tx_last; exact L|].
  change (join nl (x :: y :: l)) with (x +++ nl +++ join nl (y :: l)). apply tx_line; [left; reflexivity|]. apply IH; [discriminate|exact L].
Qed.
