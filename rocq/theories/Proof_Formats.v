(** Lemmas for C47-C50. *)
From Coq Require Import Permutation Sorted.
From Verif Require Import PyBase PyLemmas Utility RulesData Rules Config Formats Paths AstKinds Ast State Visitor
  MinVersions Spec_Base Spec_Utility Proof_Utility Spec_Config Spec_Detection Proof_Strings Proof_Detection
  Proof_Parser Spec_Formats.

(** ** Characters *)

Lemma version_char_no : forall ch s, version_char ch = false -> sall version_char s = true -> no_char ch s.
Proof.
  intros ch s V H a b E. rewrite sall_iff in H. rewrite (H a ch b E) in V. discriminate.
Qed.

Lemma z_str_version : forall z, sall version_char (z_str z) = true.
Proof. intros. apply (sall_impl digit_minus); [apply digit_minus_version | apply z_str_chars]. Qed.

Lemma writes_version : forall n o s, writes n o s -> sall version_char s = true.
Proof.
  intros n o s W. inversion W; subst; rewrite ?sall_app, ?z_str_version; auto.
Qed.

Lemma no_char_app : forall ch a b, no_char ch (a +++ b) <-> no_char ch a /\ no_char ch b.
Proof.
  intros. rewrite <- !no_char_spec, sall_app, andb_true_iff. tauto.
Qed.

Lemma no_char_nil : forall ch, no_char ch "".
Proof. intros ch [] b E; discriminate. Qed.

Lemma shows_num_chars : forall o s, shows_num o s -> sall version_char s = true.
Proof. intros o s H; inversion H; subst; [reflexivity | apply z_str_version]. Qed.

Lemma shows_num_fun : forall o s s', shows_num o s -> shows_num o s' -> s = s'.
Proof. intros o s s' H K; inversion H; subst; inversion K; subst; auto. Qed.

Lemma shows_num_inj : forall o o' s, shows_num o s -> shows_num o' s -> o = o'.
Proof.
  intros o o' s H K; inversion H; subst; inversion K; subst; auto.
  - exfalso. eapply z_str_nonempty. eauto.
  - exfalso. eapply z_str_nonempty. eauto.
  - f_equal. apply z_str_inj. auto.
Qed.

(** ** Escaping *)

Lemma escape_cons : forall c s, escape_nl (String c s) =
  (if Ascii.eqb c (ascii_of_nat 10) then String (ascii_of_nat 92) (String "n" (escape_nl s)) else String c (escape_nl s)).
Proof. intros. unfold escape_nl. cbn [replace_char]. rewrite Ascii.eqb_sym.
  destruct (Ascii.eqb c (ascii_of_nat 10)); reflexivity. Qed.

Lemma escape_escaped : forall s, escaped s (escape_nl s).
Proof.
  induction s as [|c s IH].
  - constructor.
  - rewrite escape_cons. destruct (Ascii.eqb_spec c (ascii_of_nat 10)).
    + subst. constructor; auto.
    + constructor; auto.
Qed.

Lemma escaped_fun : forall s t t', escaped s t -> escaped s t' -> t = t'.
Proof.
  intros s t t' H. revert t'. induction H; intros t' K; inversion K; subst; try congruence; repeat f_equal; auto.
Qed.

Lemma escaped_no_nl : forall s t, escaped s t -> no_char (ascii_of_nat 10) t.
Proof.
  intros s t H. apply no_char_spec. induction H.
  - reflexivity.
  - change (String (ascii_of_nat 92) (String "n" t)) with ((String (ascii_of_nat 92) "n") +++ t).
    rewrite sall_app, IHescaped. reflexivity.
  - change (String c t) with (String c "" +++ t). rewrite sall_app, IHescaped, andb_true_r.
    unfold sall. cbn [sany]. rewrite orb_false_r, negb_involutive. apply negb_true_iff, Ascii.eqb_neq. congruence.
Qed.

Lemma escaped_same : forall s, no_char (ascii_of_nat 10) s -> escaped s s.
Proof.
  induction s as [|c s IH]; intros N; constructor.
  - intros ->. apply (N "" s). reflexivity.
  - apply IH. intros a b ->. apply (N (String c a) b). reflexivity.
Qed.

(** ** Parsable lines *)

Lemma colon_split : forall a b u v, no_char ":" a -> no_char ":" b ->
  a +++ ":" +++ u = b +++ ":" +++ v -> a = b /\ u = v.
Proof.
  intros a b u v A B E. apply no_char_spec in A, B.
  destruct (sep_split (fun x => Ascii.eqb ":" x) a b u v ":" ":") as [E1 E2]; auto.
  split; [auto|]. congruence.
Qed.

Lemma fields_fun : forall s p l c v2 v3 f p' l' c' v2' v3' f',
  fields s p l c v2 v3 f -> fields s p' l' c' v2' v3' f' ->
  p = p' /\ l = l' /\ c = c' /\ v2 = v2' /\ v3 = v3' /\ f = f'.
Proof.
  intros s p l c v2 v3 f p' l' c' v2' v3' f' (E & A & B & C & D & F) (E' & A' & B' & C' & D' & F').
  rewrite E in E'. clear E.
  apply colon_split in E' as [-> E']; auto.
  apply colon_split in E' as [-> E']; auto.
  apply colon_split in E' as [-> E']; auto.
  apply colon_split in E' as [-> E']; auto.
  apply colon_split in E' as [-> E']; auto. subst. repeat split; reflexivity.
Qed.

Lemma opt_str_shows : forall o, shows_num o (opt_str "" o).
Proof. intros [z|]; constructor. Qed.

Definition vers_of (m : option mins) : string * string :=
  match m with None => ("", "") | Some m => (opt_ver_str 2 (fst m), opt_ver_str 3 (snd m)) end.

Lemma vers_of_shows : forall m, shows_versions m (fst (vers_of m)) (snd (vers_of m)).
Proof. intros [m|]; simpl; [split; apply opt_ver_str_writes | auto]. Qed.

Lemma shows_versions_chars : forall m a b, shows_versions m a b -> sall version_char a = true /\ sall version_char b = true.
Proof.
  intros [m|] a b H; simpl in H; destruct H as [H K].
  - split; eapply writes_version; eauto.
  - subst. auto.
Qed.

Lemma shows_versions_fun : forall m a b a' b', shows_versions m a b -> shows_versions m a' b' -> a = a' /\ b = b'.
Proof.
  intros [m|] a b a' b' H H'; simpl in *; destruct H, H'.
  - split; eapply writes_fun; eauto.
  - subst. auto.
Qed.

Lemma parsable_line_eq : forall msg path line col m,
  parsable_line msg path line col m =
  path +++ ":" +++ opt_str "" line +++ ":" +++ opt_str "" col +++ ":" +++ fst (vers_of m) +++ ":" +++
  snd (vers_of m) +++ ":" +++ escape_nl msg.
Proof.
  intros. unfold parsable_line. destruct m as [m|]; cbn [vers_of fst snd]; unfold mins_str; rewrite ?app_assoc_s; reflexivity.
Qed.

Lemma parsable_fields : forall msg path line col m, no_char ":" path ->
  fields (parsable_line msg path line col m) path (opt_str "" line) (opt_str "" col)
         (fst (vers_of m)) (snd (vers_of m)) (escape_nl msg).
Proof.
  intros. split; [apply parsable_line_eq|]. destruct (shows_versions_chars _ _ _ (vers_of_shows m)) as [A B].
  repeat split; auto; apply version_char_no; auto; eapply shows_num_chars; apply opt_str_shows.
Qed.

Lemma parsable_read : forall msg path line col m, no_char ":" path -> no_char (ascii_of_nat 10) path ->
  no_char (ascii_of_nat 10) (parsable_line msg path line col m) /\
  forall p l c v2 v3 f, fields (parsable_line msg path line col m) p l c v2 v3 f <->
    p = path /\ shows_num line l /\ shows_num col c /\ shows_versions m v2 v3 /\ escaped msg f.
Proof.
  intros msg path line col m P N.
  assert (F := parsable_fields msg path line col m P). split.
  - rewrite parsable_line_eq. destruct (shows_versions_chars _ _ _ (vers_of_shows m)) as [A B].
    rewrite !no_char_app. repeat split; auto;
      try (apply version_char_no; [reflexivity|]; auto; eapply shows_num_chars; apply opt_str_shows);
      try (intros [|? []] ? H; discriminate).
    eapply escaped_no_nl, escape_escaped.
  - intros p l c v2 v3 f. split; intros H.
    + destruct (fields_fun _ _ _ _ _ _ _ _ _ _ _ _ _ F H) as (<- & <- & <- & <- & <- & <-).
      repeat split; try apply opt_str_shows; try apply vers_of_shows. apply escape_escaped.
    + destruct H as (-> & L & C & V & E).
      rewrite (shows_num_fun _ _ _ L (opt_str_shows line)), (shows_num_fun _ _ _ C (opt_str_shows col)).
      destruct (shows_versions_fun _ _ _ _ _ V (vers_of_shows m)) as [-> ->].
      rewrite (escaped_fun _ _ _ E (escape_escaped msg)). exact F.
Qed.

Lemma opt_ver_str_nonempty : forall n o, opt_ver_str n o <> "".
Proof.
  intros n [v|]; cbn [opt_ver_str]; [|discriminate]. destruct (veqb v (0, 0)); [discriminate|].
  unfold ver_str. intros E. apply append_eq_nil in E as [_ E]. discriminate.
Qed.

Lemma opt_str_inj : forall o o', opt_str "" o = opt_str "" o' -> o = o'.
Proof. intros o o' E. eapply shows_num_inj; [apply opt_str_shows|]. rewrite E. apply opt_str_shows. Qed.

Lemma vers_of_inj : forall m m', vers_of m = vers_of m' -> m = m'.
Proof.
  intros [[a b]|] [[a' b']|] E; cbn in E; auto.
  - injection E as E1 E2. apply opt_ver_str_inj in E1, E2. congruence.
  - exfalso. injection E as E1 E2. eapply opt_ver_str_nonempty; eauto.
  - exfalso. injection E as E1 E2. symmetry in E1. eapply opt_ver_str_nonempty; eauto.
Qed.

Lemma parsable_inj : forall msg path line col m msg' path' line' col' m',
  no_char ":" path -> no_char ":" path' ->
  parsable_line msg path line col m = parsable_line msg' path' line' col' m' ->
  path = path' /\ line = line' /\ col = col' /\ m = m' /\ escape_nl msg = escape_nl msg'.
Proof.
  intros msg path line col m msg' path' line' col' m' P P' E.
  assert (F := parsable_fields msg path line col m P).
  assert (F' := parsable_fields msg' path' line' col' m' P'). rewrite <- E in F'.
  destruct (fields_fun _ _ _ _ _ _ _ _ _ _ _ _ _ F F') as (-> & L & C & V2 & V3 & X).
  apply opt_str_inj in L, C. subst. repeat split; auto.
  apply vers_of_inj. destruct (vers_of m), (vers_of m'). cbn in *. congruence.
Qed.

(** ** Default lines *)

Lemma rstrip_spaces : forall w, sall is_space w = true -> rstrip w = "".
Proof.
  induction w as [|c w IH]; intros H; [reflexivity|]. rewrite sall_cons in H. apply andb_prop in H as [A B].
  cbn [rstrip]. rewrite IH, A; auto.
Qed.

Lemma rstrip_app : forall a t, rstrip t <> "" -> rstrip (a +++ t) = a +++ rstrip t.
Proof.
  induction a as [|c a IH]; intros t N; [reflexivity|]. rewrite !app_cons_s. cbn [rstrip]. rewrite IH by auto.
  destruct (a +++ rstrip t) eqn:E; auto. apply append_eq_nil in E as [_ E]. congruence.
Qed.

Lemma ends_s_iff : forall msg, endswith "s" (strip msg) = true <->
  exists a w, msg = a +++ "s" +++ w /\ sall is_space w = true.
Proof.
  intros msg. rewrite endswith_iff. unfold strip. split.
  - intros [a E]. destruct (lstrip_spec msg) as (ws & W & _ & _).
    destruct (rstrip_spec (lstrip msg)) as (ws' & R & S). rewrite E in R.
    exists (ws +++ a), ws'. split.
    + rewrite W at 1. rewrite R, !app_assoc_s. reflexivity.
    + apply sall_iff. exact S.
  - intros (a & w & -> & W). change ("s" +++ w) with (String "s" w).
    rewrite lstrip_before by reflexivity. exists (lstrip a).
    assert (R : rstrip (String "s" w) = "s") by (cbn [rstrip]; rewrite rstrip_spaces; auto).
    rewrite rstrip_app; rewrite R; [reflexivity | discriminate].
Qed.

Lemma plural_iff : forall msg pl,
  match pl with Some b => b | None => endswith "s" (strip msg) end = true <-> plural_msg msg pl.
Proof. intros msg [b|]; [simpl; tauto | apply ends_s_iff]. Qed.

Lemma default_line_spec : forall v msg line col m pl,
  exists pos req, default_line v msg line col m pl = pos +++ msg +++ req /\
    position v line col pos /\ requirement_text msg pl m req.
Proof.
  intros v msg line col m pl. unfold default_line.
  set (lc := if String.eqb _ "" then _ else _). set (req := match m with None => "" | Some m => _ end).
  exists lc, req. split; [reflexivity|]. split.
  - subst lc req. destruct (v <? 3) eqn:V.
    + apply Z.ltb_lt in V. simpl. apply pos_low; auto.
    + apply Z.ltb_ge in V. destruct line as [l|], col as [c|]; cbn [opt_str];
        rewrite ?app_nil_s; try (rewrite (proj2 (String.eqb_neq _ _)) by discriminate); rewrite ?app_assoc_s;
        try (constructor; auto); apply pos_both; auto.
  - subst req lc. destruct m as [m|]; [|constructor].
    assert (P := plural_iff msg pl). destruct (match pl with Some b => b | None => endswith "s" (strip msg) end).
    + unfold mins_str. apply (rt_plural msg pl m (opt_ver_str 2 (fst m)) (opt_ver_str 3 (snd m)));
        [tauto| |]; apply opt_ver_str_writes.
    + unfold mins_str. apply (rt_single msg pl m (opt_ver_str 2 (fst m)) (opt_ver_str 3 (snd m)));
        [| |]; try apply opt_ver_str_writes. intros K. apply P in K. discriminate.
Qed.

(** The two parts are determined. *)
Lemma position_fun : forall v l c p p', position v l c p -> position v l c p' -> p = p'.
Proof. intros v l c p p' H K; inversion H; subst; inversion K; subst; auto; lia. Qed.

Lemma requirement_fun : forall msg pl m r r', requirement_text msg pl m r -> requirement_text msg pl m r' -> r = r'.
Proof.
  intros msg pl m r r' H K. inversion H; subst; inversion K; subst; auto; try tauto;
    repeat match goal with A : writes ?n ?o ?a, B : writes ?n ?o ?b |- _ =>
      rewrite (writes_fun _ _ _ _ A B) in *; clear A end; auto.
Qed.

Lemma default_line_iff : forall v msg line col m pl s,
  default_line v msg line col m pl = s <->
  exists pos req, s = pos +++ msg +++ req /\ position v line col pos /\ requirement_text msg pl m req.
Proof.
  intros. destruct (default_line_spec v msg line col m pl) as (p & r & E & P & R). split.
  - intros <-. eauto.
  - intros (p' & r' & -> & P' & R'). rewrite E, (position_fun _ _ _ _ _ P P'), (requirement_fun _ _ _ _ _ R R'). auto.
Qed.

(** ** Violations *)

Lemma exceeds_above : forall (t : ver) m, (fst t = 2 -> exceeds (Some t) (fst m) = true <-> above m t) /\
  (fst t = 3 -> exceeds (Some t) (snd m) = true <-> above m t).
Proof.
  intros t m. unfold above. split; intros ->; simpl.
  - destruct (fst m); simpl; [rewrite vltb_lt; unfold ver_lt; tauto | tauto].
  - destruct (snd m); simpl; [rewrite vltb_lt; unfold ver_lt; tauto | tauto].
Qed.

Lemma violates_iff : forall e m, c_only_show_violations (e_cfg e) = true -> targets_in_scope (c_targets (e_cfg e)) ->
  exists b, violates e (Some m) = Ok b /\
    (b = true <-> exists x t, In (x, t) (c_targets (e_cfg e)) /\ above m t).
Proof.
  intros e m O T. unfold violates, aligned_targets. rewrite O. cbn [negb].
  destruct T as [(x & t & E & M) | (x & t & x' & t' & E & M & M')]; rewrite E; cbn [map snd].
  - destruct M as [M|M]; rewrite M; cbn; eexists; (split; [reflexivity|]).
    + rewrite orb_false_r. change (match fst m with Some v => vltb t v | None => true end)
        with (exceeds (Some t) (fst m)). rewrite (proj1 (exceeds_above t m) M). split.
      * intros A. exists x, t. auto.
      * intros (y & u & [H|[]] & A). injection H as _ <-. auto.
    + change (match snd m with Some v => vltb t v | None => true end)
        with (exceeds (Some t) (snd m)). rewrite (proj2 (exceeds_above t m) M). split.
      * intros A. exists x, t. auto.
      * intros (y & u & [H|[]] & A). injection H as _ <-. auto.
  - cbn. eexists; split; [reflexivity|]. rewrite orb_true_iff.
    change (match fst m with Some v => vltb t v | None => true end) with (exceeds (Some t) (fst m)).
    change (match snd m with Some v => vltb t' v | None => true end) with (exceeds (Some t') (snd m)).
    rewrite (proj1 (exceeds_above t m) M), (proj2 (exceeds_above t' m) M'). split.
    + intros [A|A]; [exists x, t | exists x', t']; auto.
    + intros (y & u & [H|[H|[]]] & A); injection H as _ <-; auto.
Qed.

Lemma violates_off : forall e m, c_only_show_violations (e_cfg e) = false -> violates e m = Ok true.
Proof. intros e [m|] H; unfold violates; [rewrite H|]; reflexivity. Qed.

(** What printing a finding does to the state. *)
Lemma print_adds_line : forall e level msg ent line m pl s s',
  verbose_print_v e level msg ent line m pl s = Ok s' ->
  s' = s \/ exists l c, s' = u_out (s_out s ++ [format_output_line (e_cfg e) msg (e_path e) l c m pl]) s.
Proof.
  intros e level msg ent line m pl s s' H. unfold verbose_print_v in H.
  destruct (violates e m) as [[|]|]; [|injection H as <-; auto|discriminate].
  destruct (skip_output_line (e_cfg e) || (c_verbose (e_cfg e) <? level)); [injection H as <-; auto|].
  destruct (match ent with Some x => _ | None => None end) as [[l c]|]; injection H as <-; eauto.
Qed.

Lemma print_shown : forall e level msg ent line m pl s, targets_in_scope (c_targets (e_cfg e)) ->
  c_only_show_violations (e_cfg e) = true -> level <= c_verbose (e_cfg e) -> (c_format (e_cfg e) = FParsable \/ c_quiet (e_cfg e) = false) ->
  exists s', verbose_print_v e level msg ent line (Some m) pl s = Ok s' /\
    ((exists l c, s' = u_out (s_out s ++ [format_output_line (e_cfg e) msg (e_path e) l c (Some m) pl]) s) <->
     exists x t, In (x, t) (c_targets (e_cfg e)) /\ above m t) /\
    ((~ exists x t, In (x, t) (c_targets (e_cfg e)) /\ above m t) -> s' = s).
Proof.
  intros e level msg ent line m pl s T O L Ou. destruct (violates_iff e m O T) as (b & V & B).
  assert (K : skip_output_line (e_cfg e) = false).
  { unfold skip_output_line. destruct Ou as [Ou|Ou]; rewrite Ou; [reflexivity|]. destruct (c_format (e_cfg e)); reflexivity. }
  unfold verbose_print_v. rewrite V. destruct b.
  - rewrite K. replace (c_verbose (e_cfg e) <? level) with false by (symmetry; apply Z.ltb_ge; auto). cbn [orb].
    destruct (match ent with Some x => _ | None => None end) as [[l c]|]; eexists; (split; [reflexivity|]); split;
      try (split; [tauto | intros _; eexists; eexists; reflexivity]);
      intros N; exfalso; apply N, B; reflexivity.
  - eexists; split; [reflexivity|]. split; [|auto]. split; [|intros H; apply B in H; discriminate].
    intros (l & c & H). exfalso. apply (f_equal s_out) in H. cbn in H.
    apply (f_equal (@List.length string)) in H. rewrite app_length in H. simpl in H. lia.
Qed.

(** ** Output text *)

Lemma sorted_perm_local : forall (le : string -> string -> Prop) l m,
  (forall x y, In x l -> In y l -> le x y -> le y x -> x = y) ->
  StronglySorted le l -> StronglySorted le m -> Permutation l m -> l = m.
Proof.
  intros le. induction l as [|x l IH]; intros m A S T P.
  - apply Permutation_nil in P. auto.
  - destruct m as [|y m]; [symmetry in P; apply Permutation_nil in P; discriminate|].
    assert (x = y).
    { inversion S; inversion T; subst. rewrite Forall_forall in H2, H6.
      assert (I : In x (y :: m)) by (eapply Permutation_in; eauto; left; auto).
      assert (J : In y (x :: l)) by (eapply Permutation_in; [symmetry; eauto|left; auto]).
      destruct I as [->|I]; auto. destruct J as [->|J]; auto.
      apply A; simpl; auto. }
    subst. f_equal. apply IH.
    + intros u v U V. apply A; simpl; auto.
    + inversion S; auto.
    + inversion T; auto.
    + eapply Permutation_cons_inv; eauto.
Qed.

Lemma by_key_total : forall key a b, by_key key a b = true \/ by_key key b a = true.
Proof. unfold by_key. intros. rewrite !Z.leb_le. lia. Qed.
Lemma by_key_trans : forall key a b c, by_key key a b = true -> by_key key b c = true -> by_key key a c = true.
Proof. unfold by_key. intros key a b c. rewrite !Z.leb_le. lia. Qed.

Lemma key_sort_eq : forall key l m, (forall x y, In x l -> In y l -> key x = key y -> x = y) ->
  Permutation l m -> isort (by_key key) l = isort (by_key key) m.
Proof.
  intros key l m A P. apply (sorted_perm_local (fun a b => by_key key a b = true)).
  - intros x y X Y U V. apply isort_In in X, Y. apply A; auto. unfold by_key in *.
    rewrite Z.leb_le in *. lia.
  - apply isort_sorted; [apply by_key_total | apply by_key_trans].
  - apply isort_sorted; [apply by_key_total | apply by_key_trans].
  - rewrite !isort_perm. exact P.
Qed.

Lemma output_lines_set : forall e s, c_print_visits (e_cfg e) = false ->
  NoDup (output_lines e s) /\ forall l, In l (output_lines e s) <-> In l (s_out s).
Proof.
  intros e s V. unfold output_lines, sort_output_lines. rewrite V. cbn [negb]. rewrite andb_true_r.
  destruct (c_format (e_cfg e)); [destruct (2 <? c_verbose (e_cfg e))|]; (split;
    [apply isort_NoDup, dedup_NoDup | intros l; rewrite isort_In, dedup_In; tauto]).
Qed.

Lemma output_lines_dump : forall e s, c_print_visits (e_cfg e) = true -> Permutation (output_lines e s) (s_out s).
Proof.
  intros e s V. unfold output_lines, sort_output_lines. rewrite V. cbn [negb]. rewrite andb_false_r.
  destruct (c_format (e_cfg e)); apply isort_perm.
Qed.

Lemma output_sorted_text : forall e s, c_print_visits (e_cfg e) = false -> c_format (e_cfg e) = FDefault ->
  c_verbose (e_cfg e) < 3 -> StronglySorted str_lt (output_lines e s).
Proof.
  intros e s V F L. unfold output_lines, sort_output_lines. rewrite V, F.
  replace (2 <? c_verbose (e_cfg e)) with false by (symmetry; apply Z.ltb_ge; lia). cbn [andb].
  apply sorted_files.
Qed.

Lemma output_sorted_key : forall e s, c_print_visits (e_cfg e) = false ->
  c_format (e_cfg e) = FParsable \/ 3 <= c_verbose (e_cfg e) ->
  output_lines e s = isort (by_key (line_key (e_cfg e))) (dedup (s_out s)).
Proof.
  intros e s V L. unfold output_lines, sort_output_lines, line_key. rewrite V.
  destruct (c_format (e_cfg e)); auto. destruct L as [L|L]; [discriminate|].
  replace (2 <? c_verbose (e_cfg e)) with true by (symmetry; apply Z.ltb_lt; lia). reflexivity.
Qed.

Lemma output_sorted_position : forall e s, c_print_visits (e_cfg e) = false ->
  c_format (e_cfg e) = FParsable \/ 3 <= c_verbose (e_cfg e) ->
  StronglySorted (fun a b => line_key (e_cfg e) a <= line_key (e_cfg e) b) (output_lines e s).
Proof.
  intros e s V L. rewrite output_sorted_key by auto.
  assert (S := isort_sorted (by_key (line_key (e_cfg e))) (by_key_total _) (by_key_trans _) (dedup (s_out s))).
  induction S; constructor; auto. eapply Forall_impl; [|eassumption].
  intros b H1. unfold by_key in H1. apply Z.leb_le. exact H1.
Qed.

Lemma output_lines_order : forall e s s', c_print_visits (e_cfg e) = false ->
  (forall l, In l (s_out s) <-> In l (s_out s')) ->
  (c_format (e_cfg e) = FDefault /\ c_verbose (e_cfg e) < 3) \/
  (forall a b, In a (s_out s) -> In b (s_out s) -> line_key (e_cfg e) a = line_key (e_cfg e) b -> a = b) ->
  output_text e s = output_text e s'.
Proof.
  intros e s s' V S H. unfold output_text.
  assert (P : Permutation (dedup (s_out s)) (dedup (s_out s'))).
  { apply NoDup_Permutation; try apply dedup_NoDup. intros x. rewrite !dedup_In. apply S. }
  assert (E : output_lines e s = output_lines e s').
  { assert (C : (c_format (e_cfg e) = FDefault /\ c_verbose (e_cfg e) < 3) \/
                (c_format (e_cfg e) = FParsable \/ 3 <= c_verbose (e_cfg e))).
    { destruct (c_format (e_cfg e)); auto. destruct (Z.lt_ge_cases (c_verbose (e_cfg e)) 3); auto. }
    destruct C as [[F L]|C].
    - unfold output_lines, sort_output_lines. rewrite V, F.
      replace (2 <? c_verbose (e_cfg e)) with false by (symmetry; apply Z.ltb_ge; lia). cbn [andb].
      apply isort_perm_eq; auto; [apply str_leb_total | apply str_leb_trans | apply str_leb_antisym].
    - destruct H as [[F L]|H]; [destruct C as [C|C]; [congruence|lia]|].
      rewrite !output_sorted_key by auto. apply key_sort_eq; auto.
      intros x y X Y. rewrite dedup_In in *. auto. }
  rewrite E. reflexivity.
Qed.

Lemma join_lines : forall l, l <> [] -> join nl l +++ nl = lines_text l.
Proof.
  induction l as [|x [|y r] IH]; intros N; [congruence | |].
  - cbn [join lines_text]. rewrite app_nil_s. reflexivity.
  - change (join nl (x :: y :: r)) with (x +++ nl +++ join nl (y :: r)).
    rewrite !app_assoc_s, IH by discriminate. reflexivity.
Qed.

Lemma output_text_lines : forall e s, (forall l, In l (s_out s) -> l <> "") ->
  output_text e s = lines_text (output_lines e s).
Proof.
  intros e s N. unfold output_text. destruct (output_lines e s) as [|x r] eqn:E; [reflexivity|].
  assert (X : x <> "").
  { apply N. assert (I : In x (output_lines e s)) by (rewrite E; left; auto).
    unfold output_lines, sort_output_lines in I.
    destruct (c_format (e_cfg e)); [destruct ((2 <? _) && _)|]; apply isort_In in I;
      destruct (c_print_visits (e_cfg e)); auto; apply dedup_In; auto. }
  replace (String.eqb (join nl (x :: r)) "") with false.
  - apply join_lines. discriminate.
  - symmetry. apply String.eqb_neq. intros J. destruct r.
    + cbn in J. auto.
    + change (join nl (x :: s0 :: r)) with (x +++ nl +++ join nl (s0 :: r)) in J.
      apply append_eq_nil in J as [J _]. auto.
Qed.

(** ** What is printed about one file *)
Lemma keep_pre l : forall cur r, one_line l -> splitlines_aux true cur (l +++ r) = splitlines_aux true (cur +++ l) r.
Proof.
  induction l as [|c l IH]; intros cur r N; [rewrite app_nil_s; reflexivity|].
  rewrite app_cons_s. cbn [splitlines_aux]. rewrite (N "" c l eq_refl), IH.
  - rewrite app_assoc_s. reflexivity.
  - intros a d b E. apply (N (String c a) d b). rewrite E. reflexivity.
Qed.
Lemma keep_lines : forall ls, (forall l, In l ls -> one_line l) -> splitlines_keep (lines_text ls) = map (fun l => l +++ nl) ls.
Proof.
  induction ls as [|l ls IH]; intros N; [reflexivity|]. cbn [lines_text map]. unfold splitlines_keep.
  rewrite keep_pre by (apply N; left; reflexivity). change (nl +++ lines_text ls) with (String (ascii_of_nat 10) (lines_text ls)).
  cbn [splitlines_aux]. change (is_linebreak (ascii_of_nat 10)) with true. cbv iota.
  change (Ascii.eqb (ascii_of_nat 10) (ascii_of_nat 13)) with false. cbv iota. f_equal. apply IH. intros x I. apply N. right. exact I.
Qed.
Lemma join_indented : forall ls, ls <> [] -> "  " +++ join "  " (map (fun l => l +++ nl) ls) = indented ls.
Proof.
  induction ls as [|x [|y r] IH]; intros N; [congruence| |].
  - cbn [map join indented]. rewrite app_nil_s. reflexivity.
  - change (map (fun l => l +++ nl) (x :: y :: r)) with ((x +++ nl) :: map (fun l => l +++ nl) (y :: r)).
    change (indented (x :: y :: r)) with ("  " +++ x +++ nl +++ indented (y :: r)). rewrite <- IH by discriminate.
    cbn [map]. cbn [join]. rewrite !app_assoc_s. reflexivity.
Qed.
Lemma indented_ends : forall ls, ls <> [] -> exists a, indented ls = a +++ nl.
Proof.
  induction ls as [|x [|y r] IH]; intros N; [congruence| |].
  - exists ("  " +++ x). cbn [indented]. rewrite app_nil_s, app_assoc_s. reflexivity.
  - destruct IH as [a E]; [discriminate|]. exists ("  " +++ x +++ nl +++ a). change (indented (x :: y :: r)) with ("  " +++ x +++ nl +++ indented (y :: r)).
    rewrite E, !app_assoc_s. reflexivity.
Qed.
Lemma result_block : forall c m path ls, c_quiet c = false -> 1 <= c_verbose c -> (forall l, In l ls -> one_line l) ->
  exists s, default_result c m path (lines_text ls) = [s] /\ file_block m path ls s.
Proof.
  intros c m path ls Q V N. unfold default_result, vprint, verbose_print. rewrite Q. replace (1 <=? c_verbose c) with true by (symmetry; apply Z.leb_le; exact V).
  cbn [andb negb]. cbv zeta. eexists. split; [reflexivity|].
  assert (T : (if String.eqb (lines_text ls) "" then "" else
    if endswith nl (nl +++ "  " +++ join "  " (splitlines_keep (lines_text ls))) then nl +++ "  " +++ join "  " (splitlines_keep (lines_text ls))
    else (nl +++ "  " +++ join "  " (splitlines_keep (lines_text ls))) +++ nl) = match ls with [] => "" | _ => nl +++ indented ls end).
  { destruct ls as [|x r]; [reflexivity|]. replace (String.eqb (lines_text (x :: r)) "") with false.
    2:{ symmetry. apply String.eqb_neq. cbn [lines_text]. intros E. destruct x; discriminate. }
    rewrite keep_lines, join_indented by (assumption || discriminate).
    destruct (indented_ends (x :: r)) as [a E]; [discriminate|]. replace (endswith nl (nl +++ indented (x :: r))) with true; [reflexivity|].
    symmetry. apply endswith_iff. exists (nl +++ a). rewrite E, app_assoc_s. reflexivity. }
  rewrite T. unfold pad_right, mins_str. destruct (srepeat_space (12 - String.length (opt_ver_str 2 (fst m) +++ ", " +++ opt_ver_str 3 (snd m)))) as [P L].
  rewrite !app_assoc_s. apply fb; [apply opt_ver_str_writes|apply opt_ver_str_writes|exact P|].
  set (a := opt_ver_str 2 (fst m)) in *. set (b := opt_ver_str 3 (snd m)) in *. set (pad := srepeat " " _) in *.
  replace (a +++ ", " +++ b +++ pad) with ((a +++ ", " +++ b) +++ pad) by (rewrite !app_assoc_s; reflexivity).
  rewrite length_app_s, L. lia.
Qed.
