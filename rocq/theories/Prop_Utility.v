(** Properties C01-C12: utility functions. *)
From Coq Require Import Floats.SpecFloat Permutation.
From Verif Require Import PyBase PyLemmas Utility Spec_Base Spec_Utility Spec_Items Proof_Utility.

(** ** C01 *)
Theorem c01_combine_is_pointwise_join : forall ig a0 a1 b0 b1 x0 x1 y0 y1 r,
  means a0 x0 -> means a1 x1 -> means b0 y0 -> means b1 y1 ->
  combine_versions ig [a0; a1] [b0; b1] = Ok r ->
  exists r0 r1, r = [r0; r1] /\ is_join x0 y0 r0 /\ is_join x1 y1 r1.
Proof. exact combine_versions_join. Qed.
Print Assumptions c01_combine_is_pointwise_join.

Theorem c01_pair_form_is_pointwise_join : forall ig refs a b r,
  combine2 ig refs a b = Ok r -> is_mins_join a b r.
Proof. exact combine2_join. Qed.
Print Assumptions c01_pair_form_is_pointwise_join.

Theorem c01_join_is_unique : forall a b r r', is_join a b r -> is_join a b r' -> r = r'.
Proof. exact is_join_unique. Qed.
Print Assumptions c01_join_is_unique.

Theorem c01_only_pairs_are_accepted : forall ig l1 l2 r,
  combine_versions ig l1 l2 = Ok r ->
  (List.length l1 = 2 /\ List.length l2 = 2 /\ List.length r = 2)%nat.
Proof. exact combine_versions_shape. Qed.
Print Assumptions c01_only_pairs_are_accepted.

Example c01_example : combine_versions false [PNone; PInt 3] [PTup (2, 7); PTup (3, 4)] = Ok [None; Some (3, 4)]
  /\ means PNone None /\ means (PInt 3) (Some (3, 0)) /\ means (PTup (2, 7)) (Some (2, 7)).
Proof. repeat split; constructor. Qed.

(** ** C02 *)
Theorem c02_clash_exactly_when_rejected : forall ig a0 a1 b0 b1 x0 x1 y0 y1,
  means a0 x0 -> means a1 x1 -> means b0 y0 -> means b1 y1 ->
  ((exists e, combine_versions ig [a0; a1] [b0; b1] = Err e) <->
     (ig = false /\ clashing (x0, x1) (y0, y1))) /\
  (forall e, combine_versions ig [a0; a1] [b0; b1] = Err e -> exists m, e = InvalidVersion m).
Proof. exact combine_versions_clash. Qed.
Print Assumptions c02_clash_exactly_when_rejected.

Theorem c02_pair_form_clash : forall ig refs a b,
  (exists m, combine2 ig refs a b = Err (InvalidVersion m)) <-> (ig = false /\ clashing a b).
Proof. exact combine2_clash. Qed.
Print Assumptions c02_pair_form_clash.

Theorem c02_pair_form_total : forall ig refs a b,
  (exists r, combine2 ig refs a b = Ok r) \/ (exists m, combine2 ig refs a b = Err (InvalidVersion m)).
Proof. exact combine2_total. Qed.
Print Assumptions c02_pair_form_total.

Theorem c02_clash_symmetric : forall a b, clashing a b <-> clashing b a.
Proof. intros a b. unfold clashing. tauto. Qed.
Print Assumptions c02_clash_symmetric.

Example c02_example :
  clashing (Some (2, 7), None) (None, Some (3, 4)) /\
  combine2 false None (Some (2, 7), None) (None, Some (3, 4)) =
    Err (InvalidVersion "Versions could not be combined: 2.7, !3 and !2, 3.4") /\
  combine2 true None (Some (2, 7), None) (None, Some (3, 4)) = Ok (None, None).
Proof. split; [left; repeat split; discriminate | split; reflexivity]. Qed.

(** ** C03 *)
Theorem c03_combining_is_least_upper_bound : forall m l,
  exists r, combine_all true m l = Ok r /\ is_lub (m :: l) r.
Proof. exact combine_all_lub. Qed.
Print Assumptions c03_combining_is_least_upper_bound.

Theorem c03_least_upper_bound_unique : forall l r r', is_lub l r -> is_lub l r' -> r = r'.
Proof. exact is_lub_unique. Qed.
Print Assumptions c03_least_upper_bound_unique.

(** Any order and any multiplicity. *)
Theorem c03_order_and_duplicates_irrelevant : forall m m' l l',
  (forall x, In x (m :: l) <-> In x (m' :: l')) -> combine_all true m l = combine_all true m' l'.
Proof. exact combine_all_set. Qed.
Print Assumptions c03_order_and_duplicates_irrelevant.

(** Any grouping. *)
Theorem c03_grouping_irrelevant : forall a b c ab bc,
  combine2 true None a b = Ok ab -> combine2 true None b c = Ok bc ->
  combine2 true None ab c = combine2 true None a bc.
Proof.
  intros a b c ab bc H K. rewrite !combine2_true in *. injection H as <-. injection K as <-.
  f_equal. apply mjoin_assoc.
Qed.
Print Assumptions c03_grouping_irrelevant.

(** Also when clashes are reported: whatever order succeeds gives the least upper bound. *)
Theorem c03_success_is_least_upper_bound : forall ig l m r,
  combine_all ig m l = Ok r -> is_lub (m :: l) r.
Proof. exact combine_all_ok. Qed.
Print Assumptions c03_success_is_least_upper_bound.

Example c03_example :
  combine_all true zero_mins [(Some (2, 7), Some (3, 2)); (None, Some (3, 1)); (Some (2, 6), Some (3, 4))]
    = Ok (None, Some (3, 4)).
Proof. reflexivity. Qed.

(** ** C04: false of the code; 3.3, 3.4 and 3.8 (and 2.3, 2.4, 2.8) are read one minor too low. *)
Theorem c04_float_versions_refuted : exists x y, 0 <= x /\ 0 <= y <= 9 /\
  float_version (f_dec x y) = Ok (3, 2) /\ (x, y) = (3, 3) /\
  combine_versions false [PNone; PFloat (f_dec x y)] [PNone; PTup (3, 0)] = Ok [None; Some (3, 2)].
Proof. exists 3, 3. repeat split; try lia; vm_compute; reflexivity. Qed.
Print Assumptions c04_float_versions_refuted.

(** The full claim is [forall x y, 0 <= x -> 0 <= y <= 9 -> float_version (f_dec x y) = Ok (x, y)];
    proved here: exactly which versions of Python 2 and 3 it holds for. *)
Theorem c04_float_versions_partial : forall x y, (x = 2 \/ x = 3) -> 0 <= y <= 9 ->
  (float_version (f_dec x y) = Ok (x, y) <-> ~ In y [3; 4; 8]).
Proof.
  intros x y Hx Hy.
  assert (Y : In y [0; 1; 2; 3; 4; 5; 6; 7; 8; 9]) by (simpl; lia).
  destruct Hx as [-> | ->]; simpl in Y;
    decompose [or] Y; subst; try tauto;
    (split; [intros H; vm_compute in H; try discriminate H; simpl; lia
            | intros H; try (exfalso; apply H; simpl; tauto); vm_compute; reflexivity]).
Qed.
Print Assumptions c04_float_versions_partial.

(** ** C05 *)
Theorem c05_version_strings_format : forall m sep, sep <> "" ->
  exists a b, version_strings [vitem_of (fst m); vitem_of (snd m)] sep = Ok (a +++ sep +++ b) /\
  writes 2 (fst m) a /\ writes 3 (snd m) b.
Proof. exact version_strings_writes. Qed.
Print Assumptions c05_version_strings_format.

Theorem c05_version_strings_injective : forall sep m m' s, good_sep sep ->
  version_strings [vitem_of (fst m); vitem_of (snd m)] sep = Ok s ->
  version_strings [vitem_of (fst m'); vitem_of (snd m')] sep = Ok s -> m = m'.
Proof.
  intros sep m m' s G H K. assert (N : sep <> "") by (intros ->; exact G).
  rewrite version_strings_pair in H, K by auto. eapply mins_str_inj; eauto. congruence.
Qed.
Print Assumptions c05_version_strings_injective.

Example c05_example : good_sep ", " /\ good_sep ":" /\
  version_strings [vitem_of (Some (0, 0)); vitem_of (Some (3, 10))] ", " = Ok "~2, 3.10" /\
  version_strings [vitem_of None; vitem_of (Some (3, 1))] ":" = Ok "!2:3.1".
Proof. repeat split. Qed.

(** Any list. *)
Lemma unknown_iff v : is_unknown v = true <-> unknown v.
Proof.
  split.
  - destruct v as [[|z|f|t]|s]; cbn; try discriminate.
    + intros H. apply Z.eqb_eq in H. subst. constructor.
    + destruct f; try discriminate. constructor.
    + intros H. apply veqb_eq in H. subst. constructor.
  - intros []; reflexivity.
Qed.
Lemma item1_written fs i v : item_written fs (i + 2) v (version_string1 fs i v).
Proof.
  unfold version_string1. destruct (is_unknown v) eqn:U; [constructor; apply unknown_iff; exact U|].
  destruct v as [[|z|f|[x y]]|s]; cbn [is_unknown] in U; try constructor.
  - apply Z.eqb_neq. exact U.
  - intros b ->. discriminate.
  - intros K. rewrite K in U. discriminate.
Qed.
Lemma items_from fs sep l : forall i, l <> [] -> items_written fs sep (i + 2) l (join sep (version_strings_from fs i l)).
Proof.
  induction l as [|v l IH]; intros i N; [congruence|]. cbn [version_strings_from].
  destruct l as [|w l]; [cbn; constructor; apply item1_written|].
  change (join sep (version_string1 fs i v :: version_strings_from fs (i + 1) (w :: l)))
    with (version_string1 fs i v +++ sep +++ join sep (version_strings_from fs (i + 1) (w :: l))).
  apply is_more; [apply item1_written|discriminate|]. replace (i + 2 + 1) with (i + 1 + 2) by lia. apply IH. discriminate.
Qed.
Theorem c05_any_list : forall fs l given sep, given = "" /\ sep = ", " \/ given <> "" /\ sep = given ->
  (version_strings_gen fs l given = Err AssertionError <-> refused l) /\
  (~ refused l -> exists t, version_strings_gen fs l given = Ok t /\ items_written fs sep 2 l t).
Proof.
  intros fs l given sep G. unfold version_strings_gen, refused.
  replace (if String.eqb given "" then ", " else given) with sep
    by (destruct G as [[-> ->]|[N ->]]; [reflexivity|apply String.eqb_neq in N; rewrite N; reflexivity]). cbv zeta.
  destruct l as [|v l]; [cbn; split; [split; auto|intros K; exfalso; auto]|]. cbn [List.length Nat.eqb]. fold (List.length l).
  assert (U : existsb is_unknown (v :: l) = true <-> exists w, In w (v :: l) /\ unknown w).
  { rewrite existsb_exists. split; intros (w & I & K); exists w; (split; [exact I|apply unknown_iff; exact K]). }
  destruct (existsb is_unknown (v :: l) && negb (S (List.length l) <? 3)%nat) eqn:B.
  - apply andb_true_iff in B as [B1 B2]. apply negb_true_iff, Nat.ltb_ge in B2. split; [split; [|reflexivity]|].
    + intros _. right. split; [apply U; exact B1|exact B2].
    + intros K. exfalso. apply K. right. split; [apply U; exact B1|exact B2].
  - split; [split; [discriminate|]|].
    + intros [K|[K1 K2]]; [discriminate|]. apply U in K1. rewrite K1 in B. cbn [andb] in B. apply negb_false_iff, Nat.ltb_lt in B. lia.
    + intros _. eexists. split; [reflexivity|]. apply (items_from fs sep (v :: l) 0). discriminate.
Qed.
Print Assumptions c05_any_list.
Example c05_any_case : refused [VPv (PInt 0); VPv (PInt 2); VPv (PTup (3, 4))] /\ ~ refused [VPv (PInt 2); VPv (PTup (3, 4)); VPv PNone] /\
  version_strings [VPv (PInt 2); VPv (PTup (3, 4)); VPv PNone; VStrI "x"] "; " = Ok "2; 3.4; !4; x" /\
  version_strings [VPv (PInt 0)] ", " = Ok "~2".
Proof.
  split; [right; split; [exists (VPv (PInt 0)); split; [left; reflexivity|constructor]|cbn; lia]|]. split; [|split; reflexivity].
  intros [K|[(v & I & U) _]]; [discriminate K|]. cbn in I. destruct I as [<-|[<-|[<-|[]]]]; inversion U.
Qed.


(** ** C06 *)
Theorem c06_accepts_exactly_the_targets : forall s t,
  parse_target s = Some t <-> writes_target s t /\ in_range (snd t).
Proof. exact parse_target_iff. Qed.
Print Assumptions c06_accepts_exactly_the_targets.

Theorem c06_roundtrip : forall (exact : bool) v, in_range v -> 0 <= snd v ->
  parse_target (ver_str v +++ (if exact then "" else "-")) = Some (exact, v).
Proof. exact parse_target_roundtrip. Qed.
Print Assumptions c06_roundtrip.

Example c06_example : parse_target "3,6-" = Some (false, (3, 6)) /\ parse_target "2" = Some (true, (2, 0)) /\
  parse_target "3.6.1" = None /\ parse_target "-3" = None /\ parse_target "4.0" = None /\
  parse_target "x" = None /\ writes_target "3,6-" (false, (3, 6)) /\ in_range (3, 6).
Proof.
  assert (K : parse_target "3,6-" = Some (false, (3, 6))) by (vm_compute; reflexivity).
  apply parse_target_iff in K as W. destruct W as [W R].
  repeat split; try (vm_compute; reflexivity); auto; apply R.
Qed.

(** ** C07 *)
Theorem c07_compare_requirements_iff : forall reqs targets,
  one_per_major fst reqs -> one_per_major (fun t : target => fst (snd t)) targets ->
  (compare_requirements reqs targets = true <->
   targets <> [] /\ forall t, In t targets -> exists r, In r reqs /\ target_ok t r).
Proof. exact compare_requirements_iff. Qed.
Print Assumptions c07_compare_requirements_iff.

Example c07_example : one_per_major fst [(2, 7); (3, 4)] /\
  one_per_major (fun t : target => fst (snd t)) [(true, (2, 7)); (false, (3, 6))] /\
  compare_requirements [(2, 7); (3, 4)] [(true, (2, 7)); (false, (3, 6))] = true /\
  compare_requirements [(2, 7); (3, 4)] [(true, (2, 7)); (true, (3, 6))] = false /\
  compare_requirements [(3, 4)] [(true, (2, 7)); (false, (3, 6))] = false.
Proof.
  unfold one_per_major; simpl. repeat split; try reflexivity;
    repeat (constructor; simpl; try (intros [|[]]; lia); try tauto).
Qed.

(** Without the one-per-major condition (two targets of major 3 are accepted by add_target) the
    answer ignores all but the last one. *)
Theorem c07_two_targets_of_one_major_refuted : exists reqs targets,
  compare_requirements reqs targets = true /\
  exists t, In t targets /\ ~ exists r, In r reqs /\ target_ok t r.
Proof.
  exists [(3, 5)], [(false, (3, 2)); (false, (3, 6))]. split; [reflexivity|].
  exists (false, (3, 2)). split; [simpl; auto|]. intros [r [[<-|[]] [_ K]]].
  unfold ver_le in K; simpl in K. lia.
Qed.
Print Assumptions c07_two_targets_of_one_major_refuted.

(** ** C08 *)
Theorem c08_dotted_name_joins_names : forall l, Forall name_ok l ->
  dotted_name (NSeq l) = Ok (join "." (flat_map names l)).
Proof. exact dotted_name_list. Qed.
Print Assumptions c08_dotted_name_joins_names.

Theorem c08_nesting_irrelevant : forall a b c, Forall name_ok a -> Forall plain b -> Forall name_ok c ->
  dotted_name (NSeq (a ++ [NSeq b] ++ c)) = dotted_name (NSeq (a ++ b ++ c)).
Proof. exact dotted_name_nesting. Qed.
Print Assumptions c08_nesting_irrelevant.

Theorem c08_none_skipped : forall a c, Forall name_ok a -> Forall name_ok c ->
  dotted_name (NSeq (a ++ [NNone] ++ c)) = dotted_name (NSeq (a ++ c)).
Proof. exact dotted_name_none. Qed.
Print Assumptions c08_none_skipped.

Theorem c08_string_untouched : forall s, dotted_name (NStr s) = Ok s.
Proof. reflexivity. Qed.
Print Assumptions c08_string_untouched.

Example c08_example :
  Forall name_ok [NStr "a"; NNone; NSeq [NStr "b"; NNone; NStr "c"]; NInt 3] /\
  dotted_name (NSeq [NStr "a"; NNone; NSeq [NStr "b"; NNone; NStr "c"]; NInt 3]) = Ok "a.b.c.3".
Proof. split; [repeat constructor | reflexivity]. Qed.

(** ** C09: false of the code for columns of 1000 and more; proved below that. *)
Theorem c09_sort_by_position_refuted : exists l c t l' c' t',
  l < l' /\ sort_line_column (render l' c' t') < sort_line_column (render l c t).
Proof. exists 1, (Some 2000), " x", 2, (Some 1), " x". split; [lia | vm_compute; reflexivity]. Qed.
Print Assumptions c09_sort_by_position_refuted.

Theorem c09_sort_by_position_partial : forall l c t l' c' t', pos_ok l c -> pos_ok l' c' ->
  pos_lt l c l' c' -> sort_line_column (render l c t) < sort_line_column (render l' c' t').
Proof. exact sort_by_position. Qed.
Print Assumptions c09_sort_by_position_partial.

Theorem c09_sort_by_position_parsable_partial : forall p l c t p' l' c' t', plain_path p -> plain_path p' ->
  pos_ok l c -> pos_ok l' c' -> pos_lt l c l' c' ->
  sort_line_column_parsable (render_parsable p l c t) < sort_line_column_parsable (render_parsable p' l' c' t').
Proof. exact sort_by_position_parsable. Qed.
Print Assumptions c09_sort_by_position_parsable_partial.

Example c09_example : pos_ok 3 (Some 12) /\ pos_ok 10 None /\ pos_lt 3 (Some 12) 10 None /\
  plain_path "dir/file.py" /\
  sort_line_column (render 3 (Some 12) " print requires 2.0, !3") = 3012053286 /\
  render 3 (Some 12) " x" = "L3 C12: x".
Proof.
  unfold pos_ok, pos_lt. repeat split; try lia; try (injection H as <-; lia); try discriminate;
  vm_compute; reflexivity.
Qed.

(** ** C10: false of the code: anagrams collide. *)
Theorem c10_distinct_keys_refuted : exists l c t t', t <> t' /\
  sort_line_column (render l c t) = sort_line_column (render l c t').
Proof.
  exists 1, (Some 1), " 'arg.ab' requires !2, 3.4", " 'arg.ba' requires !2, 3.4".
  split; [discriminate | vm_compute; reflexivity].
Qed.
Print Assumptions c10_distinct_keys_refuted.

(** Proved: exactly when two texts at one position get the same key. *)
Theorem c10_distinct_keys_partial : forall l c t t', 0 <= l -> (forall x, c = Some x -> 0 <= x) ->
  (sort_line_column (render l c t) = sort_line_column (render l c t') <->
   (code_sum (upto_newline t) - code_sum (upto_newline t')) mod 1000000 = 0).
Proof. exact same_position_keys. Qed.
Print Assumptions c10_distinct_keys_partial.

(** ** C11 *)
Theorem c11_removes_exactly_whitespace : forall s ex,
  erased (fun c => whitespace c \/ In c ex) (chars_of s) (chars_of (remove_whitespace s ex)).
Proof. exact remove_whitespace_erased. Qed.
Print Assumptions c11_removes_exactly_whitespace.

Theorem c11_idempotent : forall s ex,
  remove_whitespace (remove_whitespace s ex) ex = remove_whitespace s ex.
Proof. intros. apply sfilter_idem. Qed.
Print Assumptions c11_idempotent.

Example c11_example : remove_whitespace ("a b(" +++ nl +++ "c)") ["("%char; ")"%char] = "abc".
Proof. reflexivity. Qed.

(** ** C12 *)
Theorem c12_listings_align : forall pairs titles indent,
  titles <> [] -> (forall p, In p pairs -> In (fst p) titles /\ snd p <> []) ->
  exists w ls, format_title_descs pairs titles indent = Ok (join nl ls) /\
    listing indent w pairs ls /\
    (forall t, In t titles -> (String.length t <= w)%nat) /\
    (exists t, In t titles /\ String.length t = w).
Proof. exact format_title_descs_listing. Qed.
Print Assumptions c12_listings_align.

Example c12_example :
  format_title_descs [("ab", ["x"; "y"]); ("abcd", ["z"])] ["ab"; "abcd"] 2 =
  Ok (join nl ["  ab   - x"; "         y"; "  abcd - z"]).
Proof. reflexivity. Qed.
