(** Proofs about the printed form of a configuration (C76). *)
From Coq Require Import Permutation Sorted.
From Verif Require Import PyBase Utility RulesData Rules Config ConfigRepr PyLemmas Spec_Detection Proof_Detection Spec_Repr.
From Verif Require Proof_Strings Proof_Utility.

(** ** Prefixes *)

Fixpoint starts (x y : string) : bool :=
  match x, y with
  | EmptyString, _ => true
  | String a r, String b s => Ascii.eqb a b && starts r s
  | _, _ => false
  end.

Lemma starts_either x y t u : x +++ t = y +++ u -> starts x y = true \/ starts y x = true.
Proof.
  revert y. induction x as [|a x IH]; intros [|b y] H; cbn [starts]; auto.
  rewrite !app_cons_s in H. injection H as -> H. rewrite Ascii.eqb_refl. destruct (IH _ H); auto.
Qed.

Definition all_ascii : list ascii := map ascii_of_nat (List.seq 0 256).
Lemma all_ascii_in c : In c all_ascii.
Proof.
  unfold all_ascii. apply in_map_iff. exists (nat_of_ascii c). split; [apply ascii_nat_embedding|].
  apply in_seq. pose proof (nat_ascii_bounded c). lia.
Qed.

Definition quote (q : ascii) : Prop := q = sq \/ q = dq.

(** No character's form is the beginning of another's. *)
Lemma chars_apart q : quote q -> forall a b, starts (repr_char q a) (repr_char q b) = true -> a = b.
Proof.
  intros Q a b S.
  assert (A : forallb (fun a => forallb (fun b => implb (starts (repr_char q a) (repr_char q b)) (Ascii.eqb a b)) all_ascii) all_ascii = true)
    by (destruct Q; subst; vm_compute; reflexivity).
  rewrite forallb_forall in A. specialize (A a (all_ascii_in a)). rewrite forallb_forall in A.
  specialize (A b (all_ascii_in b)). rewrite S in A. now apply Ascii.eqb_eq in A.
Qed.

Definition head_is (c : ascii) (s : string) : bool := match s with String x _ => Ascii.eqb c x | _ => false end.

Lemma char_head q c : quote q -> exists x r, repr_char q c = String x r /\ x <> q.
Proof.
  intros Q.
  assert (A : forallb (fun c => match repr_char q c with String x _ => negb (Ascii.eqb x q) | _ => false end) all_ascii = true)
    by (destruct Q; subst; vm_compute; reflexivity).
  rewrite forallb_forall in A. specialize (A c (all_ascii_in c)). destruct (repr_char q c) as [|x r]; [discriminate|].
  exists x, r. split; auto. intros ->. rewrite Ascii.eqb_refl in A. discriminate.
Qed.

Lemma char_lines q c : quote q -> sall (fun c => negb (Ascii.eqb (ascii_of_nat 10) c)) (repr_char q c) = true.
Proof.
  intros Q.
  assert (A : forallb (fun c => sall (fun c => negb (Ascii.eqb (ascii_of_nat 10) c)) (repr_char q c)) all_ascii = true)
    by (destruct Q; subst; vm_compute; reflexivity).
  rewrite forallb_forall in A. exact (A c (all_ascii_in c)).
Qed.

(** ** Strings are read back *)

Lemma body_read q : quote q -> forall s t r u, repr_body q s +++ String q r = repr_body q t +++ String q u -> s = t /\ r = u.
Proof.
  intros Q. induction s as [|a s IH]; intros [|b t] r u H; cbn [repr_body] in H.
  - injection H as H. auto.
  - exfalso. destruct (char_head q b Q) as (x & w & E & N). rewrite E in H. rewrite !app_cons_s in H. cbn in H. injection H as H _. congruence.
  - exfalso. destruct (char_head q a Q) as (x & w & E & N). rewrite E in H. rewrite !app_cons_s in H. cbn in H. injection H as H _. congruence.
  - rewrite !app_assoc_s in H. assert (a = b).
    { destruct (starts_either _ _ _ _ H) as [K|K]; apply (chars_apart q Q) in K; auto. }
    subst b. apply app_inj_l in H. destruct (IH _ _ _ H) as [-> ->]. auto.
Qed.

Definition quote_of (s : string) : ascii := if sany (Ascii.eqb sq) s && negb (sany (Ascii.eqb dq) s) then dq else sq.
Lemma quote_of_quote s : quote (quote_of s).
Proof. unfold quote_of. destruct (_ && _); [right|left]; auto. Qed.
Lemma repr_eq s : py_repr s = String (quote_of s) (repr_body (quote_of s) s +++ String (quote_of s) "").
Proof. reflexivity. Qed.

Lemma str_read s t r u : py_repr s +++ r = py_repr t +++ u -> s = t /\ r = u.
Proof.
  rewrite !repr_eq, !app_cons_s, !app_assoc_s, !app_cons_s. cbn [append]. intros H. injection H as E H. rewrite <- E in H.
  apply body_read in H; auto using quote_of_quote.
Qed.

(** ** Lists are read back *)

Section Lists.
  Context {A : Type} (f : A -> string).
  Hypothesis f_read : forall x y r u, f x +++ r = f y +++ u -> x = y /\ r = u.
  Hypothesis f_open : forall x, exists c r, f x = String c r /\ c <> "]"%char.

  Lemma items_read : forall l m r u, join ", " (map f l) +++ String "]" r = join ", " (map f m) +++ String "]" u -> l = m /\ r = u.
  Proof.
    induction l as [|x l IH]; intros [|y m] r u H.
    - cbn in H. injection H as H. auto.
    - exfalso. destruct (f_open y) as (c & w & E & N). cbn [map join] in H. destruct (map f m); rewrite E in H; cbn in H; congruence.
    - exfalso. destruct (f_open x) as (c & w & E & N). cbn [map join] in H. destruct (map f l); rewrite E in H; cbn in H; congruence.
    - destruct l as [|x2 l]; destruct m as [|y2 m]; cbn [map join] in H; rewrite ?app_assoc_s in H;
        apply f_read in H; destruct H as [-> H]; cbn in H; try discriminate H.
      + injection H as H. auto.
      + injection H as H. change (join ", " (map f (x2 :: l)) +++ String "]" r = join ", " (map f (y2 :: m)) +++ String "]" u) in H.
        apply IH in H. destruct H as [-> ->]. auto.
  Qed.
End Lists.

Lemma str_open s : exists c r, py_repr s = String c r /\ c <> "]"%char.
Proof.
  rewrite repr_eq. eexists. eexists. split; [reflexivity|]. destruct (quote_of_quote s) as [-> | ->]; discriminate.
Qed.

Lemma list_read l m : list_repr l = list_repr m -> l = m.
Proof.
  unfold list_repr. intros H. apply app_inj_l in H. change "]" with (String "]" "") in H.
  apply (items_read py_repr str_read str_open) in H. tauto.
Qed.

(** ** Numbers and targets *)

Lemma until_char c : forall a b r u, no_char c a -> no_char c b -> a +++ String c r = b +++ String c u -> a = b /\ r = u.
Proof.
  induction a as [|x a IH]; intros [|y b] r u A B H; cbn [append] in H.
  - injection H as H. auto.
  - injection H as <- _. destruct (B "" b eq_refl).
  - injection H as -> _. destruct (A "" a eq_refl).
  - injection H as <- H. apply IH in H.
    + destruct H as [-> ->]. auto.
    + intros p q E. apply (A (String x p) q). rewrite E. reflexivity.
    + intros p q E. apply (B (String x p) q). rewrite E. reflexivity.
Qed.

Lemma number_without c z : is_digit c = false -> c <> "-"%char -> no_char c (z_str z).
Proof.
  intros D N a b E.
  assert (K : forall z, 0 <= z -> forall a b, z_str z <> a +++ String c b).
  { intros y Y a' b' E'. pose proof (all_digits_z_str y Y) as K. rewrite E' in K. clear - K D. induction a' as [|x a' IH]; cbn in K.
    - rewrite D in K. discriminate.
    - apply andb_prop in K. tauto. }
  destruct z as [|p|p]; try (revert E; apply K; lia).
  rewrite z_str_neg in E. destruct a as [|x a]; cbn [append] in E; injection E as E1 E.
  - congruence.
  - revert E. apply (K (Z.pos p)). lia.
Qed.

Lemma bool_read a b r u : bool_str a +++ r = bool_str b +++ u -> a = b /\ r = u.
Proof. destruct a, b; cbn; intros H; try discriminate; injection H as H; auto. Qed.

Lemma target_read s t r u : target_repr s +++ r = target_repr t +++ u -> s = t /\ r = u.
Proof.
  destruct s as [e [x y]], t as [e' [x' y']]. unfold target_repr. cbn [fst snd]. rewrite !app_assoc_s.
  intros H. apply app_inj_l in H. apply bool_read in H. destruct H as [-> H]. apply app_inj_l in H.
  change (z_str x +++ String "," (" " +++ z_str y +++ "))" +++ r) = z_str x' +++ String "," (" " +++ z_str y' +++ "))" +++ u)) in H.
  apply until_char in H; try (apply number_without; [reflexivity|discriminate]).
  destruct H as [X H]. apply z_str_inj in X. subst x'. apply app_inj_l in H.
  change (z_str y +++ String ")" (")" +++ r) = z_str y' +++ String ")" (")" +++ u)) in H.
  apply until_char in H; try (apply number_without; [reflexivity|discriminate]).
  destruct H as [Y H]. apply z_str_inj in Y. subst y'. apply app_inj_l in H. auto.
Qed.

Lemma targets_read l m : targets_repr l = targets_repr m -> l = m.
Proof.
  unfold targets_repr. intros H. apply app_inj_l in H. change "]" with (String "]" "") in H.
  apply (items_read target_repr target_read) in H; [tauto|]. intros x. eexists. eexists. split; [reflexivity|discriminate].
Qed.

(** ** Lines *)

Definition nlc : ascii := ascii_of_nat 10.
Definition plain (s : string) : bool := sall (fun c => negb (Ascii.eqb nlc c)) s.

Lemma plain_app a b : plain (a +++ b) = plain a && plain b.
Proof. unfold plain. apply Proof_Strings.sall_app. Qed.

Lemma split_line a t : plain a = true -> split_char nlc (a +++ nl +++ t) = a :: split_char nlc t.
Proof.
  unfold split_char, plain. induction a as [|x a IH]; intros H.
  - reflexivity.
  - rewrite Proof_Utility.sall_cons in H. apply andb_prop in H. destruct H as [X H]. apply negb_true_iff in X. rewrite app_cons_s. cbn [split_on]. change (Ascii.eqb (ascii_of_nat 10) x = false) in X. unfold nlc in *. rewrite X, IH; auto.
Qed.
Lemma split_last a : plain a = true -> split_char nlc a = [a].
Proof. apply split_none. Qed.

Lemma plain_bool b : plain (bool_str b) = true. Proof. destruct b; reflexivity. Qed.
Lemma plain_z z : plain (z_str z) = true.
Proof. apply no_char_spec. apply number_without; [reflexivity|discriminate]. Qed.
Lemma plain_fmt f : plain (fmt_name f) = true. Proof. destruct f; reflexivity. Qed.
Lemma plain_body q s : quote q -> plain (repr_body q s) = true.
Proof. intros Q. induction s as [|c s IH]; cbn [repr_body]; auto. rewrite plain_app, IH. unfold plain, nlc. rewrite char_lines; auto. Qed.
Lemma plain_str s : plain (py_repr s) = true.
Proof.
  unfold py_repr. fold (quote_of s). cbv zeta. rewrite !plain_app, plain_body by apply quote_of_quote.
  destruct (quote_of_quote s) as [-> | ->]; reflexivity.
Qed.
Lemma plain_join sep l : plain sep = true -> Forall (fun s => plain s = true) l -> plain (join sep l) = true.
Proof.
  intros S F. induction F as [|x l X F IH]; auto. destruct l as [|y l]; cbn [join]; auto.
  rewrite !plain_app, X, S. exact IH.
Qed.
Lemma plain_list l : plain (list_repr l) = true.
Proof.
  unfold list_repr. rewrite !plain_app, plain_join; auto. apply Forall_forall. intros s I. apply in_map_iff in I. destruct I as (x & <- & _). apply plain_str.
Qed.
Lemma plain_target t : plain (target_repr t) = true.
Proof. unfold target_repr. now rewrite !plain_app, plain_bool, !plain_z. Qed.
Lemma plain_targets l : plain (targets_repr l) = true.
Proof.
  unfold targets_repr. rewrite !plain_app, plain_join; auto. apply Forall_forall. intros s I. apply in_map_iff in I. destruct I as (x & <- & _). apply plain_target.
Qed.

(** The texts of the values. *)
Definition values (order : list string -> list string) (c : config) : list string :=
  [bool_str (c_quiet c); z_str (c_verbose c); bool_str (c_print_visits c); z_str (c_processes c); bool_str (c_ignore_incomp c);
   bool_str (c_pessimistic c); bool_str (c_show_tips c); bool_str (c_analyze_hidden c); list_repr (exclusions c);
   list_repr (exclusion_regex c); bool_str (c_make_paths_absolute c); list_repr (order (c_backports c)); list_repr (order (c_features c));
   targets_repr (c_targets c); bool_str (c_eval_annotations c); bool_str (c_only_show_violations c); bool_str (c_parse_comments c);
   bool_str (c_scan_symlink_folders c); fmt_name (c_format c)].

Lemma split_named n v t : plain n = true -> plain v = true -> split_char nlc (n +++ v +++ nl +++ t) = (n +++ v) :: split_char nlc t.
Proof. intros N V. rewrite <- app_assoc_s. apply split_line. now rewrite plain_app, N, V. Qed.

Lemma repr_lines order c : one_line_each (config_repr order c) (values order c).
Proof.
  split; [|reflexivity]. fold nlc. unfold config_repr.
  rewrite (split_line "Config(") by reflexivity.
  repeat (rewrite split_named; [|reflexivity|first [apply plain_bool|apply plain_z|apply plain_list|apply plain_targets|apply plain_fmt]]).
  rewrite split_last by reflexivity. reflexivity.
Qed.

Lemma isort_back l m : isort str_leb l = isort str_leb m -> Permutation l m.
Proof. intros H. rewrite <- (isort_perm str_leb l), <- (isort_perm str_leb m). now rewrite H. Qed.
Lemma order_back o p l m : lists_sets o -> lists_sets p -> o l = p m -> Permutation l m.
Proof. intros O P H. rewrite <- (O l), <- (P m). now rewrite H. Qed.

Lemma bool_str_inj a b : bool_str a = bool_str b -> a = b.
Proof. destruct a, b; auto; discriminate. Qed.
Lemma fmt_inj a b : fmt_name a = fmt_name b -> a = b.
Proof. destruct a, b; auto; discriminate. Qed.

Lemma named_inj : forall ns vs ws, List.length vs = List.length ns -> List.length ws = List.length ns ->
  map (fun nv => "  " +++ fst nv +++ " = " +++ snd nv) (combine ns vs) = map (fun nv => "  " +++ fst nv +++ " = " +++ snd nv) (combine ns ws) -> vs = ws.
Proof.
  induction ns as [|n ns IH]; intros [|v vs] [|w ws] L M E; try discriminate; auto.
  cbn [combine map fst snd] in E. apply f_equal with (f := @tl string) in E as E2. cbn [tl] in E2.
  apply f_equal with (f := hd "") in E. cbn [hd] in E. apply app_inj_l, app_inj_l, app_inj_l in E.
  subst w. f_equal. apply IH; auto.
Qed.

Lemma repr_tells o p a b : lists_sets o -> lists_sets p -> config_repr o a = config_repr p b -> same_settings a b.
Proof.
  intros O P H. destruct (repr_lines o a) as [A AL], (repr_lines p b) as [B BL]. rewrite H in A. rewrite A in B. clear A H.
  apply app_inv_head, app_inv_tail, named_inj in B; auto.
  pose proof (fun n => f_equal (fun l => nth n l "") B) as N. clear B AL BL. cbv beta in N.
  constructor.
  - exact (bool_str_inj _ _ (N 0%nat)).
  - exact (z_str_inj _ _ (N 1%nat)).
  - exact (bool_str_inj _ _ (N 2%nat)).
  - exact (z_str_inj _ _ (N 3%nat)).
  - exact (bool_str_inj _ _ (N 4%nat)).
  - exact (bool_str_inj _ _ (N 5%nat)).
  - exact (bool_str_inj _ _ (N 6%nat)).
  - exact (bool_str_inj _ _ (N 7%nat)).
  - exact (isort_back _ _ (list_read _ _ (N 8%nat))).
  - exact (isort_back _ _ (list_read _ _ (N 9%nat))).
  - exact (bool_str_inj _ _ (N 10%nat)).
  - exact (order_back _ _ _ _ O P (list_read _ _ (N 11%nat))).
  - exact (order_back _ _ _ _ O P (list_read _ _ (N 12%nat))).
  - exact (targets_read _ _ (N 13%nat)).
  - exact (bool_str_inj _ _ (N 14%nat)).
  - exact (bool_str_inj _ _ (N 15%nat)).
  - exact (bool_str_inj _ _ (N 16%nat)).
  - exact (bool_str_inj _ _ (N 17%nat)).
  - exact (fmt_inj _ _ (N 18%nat)).
Qed.

Lemma sorted_same l m : Permutation l m -> isort str_leb l = isort str_leb m.
Proof.
  intros H. apply (sorted_perm_eq str_leb str_leb_antisym).
  - apply isort_sorted; [apply str_leb_total|apply str_leb_trans].
  - apply isort_sorted; [apply str_leb_total|apply str_leb_trans].
  - rewrite !isort_perm. exact H.
Qed.

Lemma same_repr o a b : (forall l m, Permutation l m -> o l = o m) -> same_settings a b -> config_repr o a = config_repr o b.
Proof.
  intros O [? ? ? ? ? ? ? ? E1 E2 ? B F ? ? ? ? ? ?]. unfold config_repr, exclusions, exclusion_regex.
  rewrite (sorted_same _ _ E1), (sorted_same _ _ E2), (O _ _ B), (O _ _ F). congruence.
Qed.

Lemma sorted_names_eq l s : sorted_names l s -> l = isort str_leb s.
Proof.
  intros [P S]. apply (sorted_perm_eq str_leb str_leb_antisym); auto.
  - apply isort_sorted; [apply str_leb_total|apply str_leb_trans].
  - rewrite isort_perm. exact P.
Qed.

Lemma repr_shows o c n t : shows c n t -> In ("  " +++ n +++ " = " +++ t) (split_char (ascii_of_nat 10) (config_repr o c)).
Proof.
  intros H. destruct (repr_lines o c) as [E _]. rewrite E. apply in_or_app. right. apply in_or_app. left.
  apply in_map_iff. exists (n, t). split; [reflexivity|].
  inversion H as [| | | | | | | |l L|l L| | | | | |F|F]; subst; try apply sorted_names_eq in L; try subst l; unfold values, setting_names; cbn [combine]; rewrite ?F;
    repeat (first [left; reflexivity|right]).
Qed.
