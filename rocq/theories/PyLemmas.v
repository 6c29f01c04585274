(** Lemmas about the Python base notions of PyBase.v. *)
From Coq Require Import DecimalString DecimalZ DecimalPos DecimalFacts Permutation Sorted.
From Verif Require Import PyBase.

(** ** Strings *)

Lemma app_nil_s : forall s, s +++ "" = s.
Proof. unfold str_app. induction s; simpl; congruence. Qed.

Lemma app_assoc_s : forall a b c, (a +++ b) +++ c = a +++ (b +++ c).
Proof. unfold str_app. induction a; simpl; intros; congruence. Qed.

Lemma app_cons_s : forall c a b, String c a +++ b = String c (a +++ b).
Proof. reflexivity. Qed.

Lemma app_inj_l : forall a b c, a +++ b = a +++ c -> b = c.
Proof. unfold str_app. induction a; simpl; intros; auto. injection H; auto. Qed.

Lemma length_app_s : forall a b, String.length (a +++ b) = (String.length a + String.length b)%nat.
Proof. unfold str_app. induction a; simpl; intros; auto. Qed.

Lemma app_inj_r : forall a b c, a +++ c = b +++ c -> a = b.
Proof.
  induction a as [|x a IH]; destruct b as [|y b]; intros c H; auto.
  - apply (f_equal String.length) in H. rewrite !length_app_s in H. simpl in H. lia.
  - apply (f_equal String.length) in H. rewrite !length_app_s in H. simpl in H. lia.
  - cbn in H. injection H as -> H. f_equal. eapply IH; eauto.
Qed.

Fixpoint chars (s : string) : list ascii :=
  match s with EmptyString => [] | String c r => c :: chars r end.

Lemma chars_app : forall a b, chars (a +++ b) = chars a ++ chars b.
Proof. unfold str_app. induction a; simpl; intros; congruence. Qed.

Lemma chars_inj : forall a b, chars a = chars b -> a = b.
Proof. induction a; destruct b; simpl; intros; try congruence. injection H as -> H. f_equal; auto. Qed.

Lemma eqb_refl_s : forall s, String.eqb s s = true.
Proof. apply String.eqb_refl. Qed.

Lemma mem_In : forall x l, mem x l = true <-> In x l.
Proof.
  unfold mem; intros. rewrite existsb_exists. split.
  - intros [y [H E]]. apply String.eqb_eq in E. subst; auto.
  - intros H. exists x. split; auto. apply String.eqb_refl.
Qed.

Lemma mem_false : forall x l, mem x l = false <-> ~ In x l.
Proof.
  intros. rewrite <- mem_In. destruct (mem x l); split; intros; congruence.
Qed.

Lemma set_add_In : forall x y l, In y (set_add x l) <-> y = x \/ In y l.
Proof.
  unfold set_add; intros. destruct (mem x l) eqn:E.
  - apply mem_In in E. split; intros; auto. destruct H; subst; auto.
  - rewrite in_app_iff. simpl. intuition.
Qed.

Lemma NoDup_snoc : forall {A} (x : A) l, NoDup l -> ~ In x l -> NoDup (l ++ [x]).
Proof.
  intros A x l. induction l as [|h t IH]; simpl; intros N H.
  - constructor; [tauto | constructor].
  - inversion N; subst. constructor.
    + rewrite in_app_iff; simpl. intros [K|[K|[]]]; subst; tauto.
    + apply IH; auto.
Qed.

Lemma set_add_NoDup : forall x l, NoDup l -> NoDup (set_add x l).
Proof.
  unfold set_add; intros. destruct (mem x l) eqn:E; auto.
  apply mem_false in E. apply NoDup_snoc; auto.
Qed.

Lemma set_add_incl : forall x l, incl l (set_add x l).
Proof. intros x l y H. apply set_add_In. auto. Qed.

Lemma dedup_from_spec : forall l seen,
  NoDup (dedup_from seen l) /\ (forall x, In x (dedup_from seen l) <-> In x l /\ ~ In x seen).
Proof.
  induction l as [|h t IH]; simpl; intros seen.
  - split; [constructor|]. intuition.
  - destruct (mem h seen) eqn:E.
    + apply mem_In in E. destruct (IH seen) as [N I]. split; auto.
      intros x. rewrite I. split; intros [A B]; split; auto. destruct A; subst; tauto.
    + apply mem_false in E. destruct (IH (h :: seen)) as [N I]. split.
      * constructor; auto. rewrite I. simpl. tauto.
      * intros x. simpl. rewrite I. simpl. destruct (string_dec h x) as [->|D]; intuition.
Qed.

Lemma dedup_NoDup : forall l, NoDup (dedup l).
Proof. intros; apply dedup_from_spec. Qed.

Lemma dedup_In : forall l x, In x (dedup l) <-> In x l.
Proof. intros. unfold dedup. destruct (dedup_from_spec l []) as [_ H]. rewrite H. simpl. tauto. Qed.

Lemma dedup_from_id : forall l seen, NoDup l -> (forall x, In x l -> ~ In x seen) -> dedup_from seen l = l.
Proof.
  induction l as [|h t IH]; simpl; intros seen N D; auto.
  inversion N; subst. destruct (mem h seen) eqn:E.
  - apply mem_In in E. exfalso. eapply D; eauto.
  - f_equal. apply IH; auto. intros x Hx [<-|K]; auto. eapply D; eauto.
Qed.

Lemma dedup_id : forall l, NoDup l -> dedup l = l.
Proof. intros. apply dedup_from_id; auto. Qed.

(** ** Association lists *)

Lemma assoc_In : forall {A} k (v : A) l, assoc k l = Some v -> In (k, v) l.
Proof.
  induction l as [|[k' v'] r IH]; simpl; intros H; try discriminate.
  destruct (String.eqb k k') eqn:E.
  - apply String.eqb_eq in E. injection H as ->. subst. auto.
  - right; auto.
Qed.

Lemma In_assoc : forall {A} k (v : A) l, NoDup (map fst l) -> In (k, v) l -> assoc k l = Some v.
Proof.
  induction l as [|[k' v'] r IH]; simpl; intros N H; [tauto|].
  inversion N; subst. destruct H as [H|H].
  - injection H as -> ->. rewrite String.eqb_refl. auto.
  - destruct (String.eqb k k') eqn:E; auto. apply String.eqb_eq in E. subst.
    exfalso. apply H2. apply in_map_iff. exists (k', v). auto.
Qed.

Lemma assoc_None : forall {A} k (l : list (string * A)), assoc k l = None <-> ~ In k (map fst l).
Proof.
  induction l as [|[k' v'] r IH]; simpl; [tauto|].
  destruct (String.eqb k k') eqn:E.
  - apply String.eqb_eq in E. subst. split; [discriminate | tauto].
  - apply String.eqb_neq in E. rewrite IH. split; intros H; [intros [K|K]; congruence || tauto | tauto].
Qed.

Lemma assoc_dict_set : forall {A} k (v : A) k' l,
  assoc k' (dict_set k v l) = if String.eqb k' k then Some v else assoc k' l.
Proof.
  induction l as [|[k2 v2] r IH]; simpl.
  - destruct (String.eqb k' k); auto.
  - destruct (String.eqb k k2) eqn:E; simpl.
    + apply String.eqb_eq in E. subst. destruct (String.eqb k' k2); auto.
    + rewrite IH. destruct (String.eqb k' k2) eqn:E2; auto.
      apply String.eqb_eq in E2. subst. rewrite String.eqb_sym in E. rewrite E. auto.
Qed.

(** ** String order *)

Lemma code_inj : forall a b, code a = code b -> a = b.
Proof.
  unfold code. intros. apply N2Z.inj in H.
  rewrite <- (ascii_N_embedding a), <- (ascii_N_embedding b), H. auto.
Qed.

Lemma code_range : forall c, 0 <= code c < 256.
Proof.
  intros c. unfold code. split; [lia|].
  rewrite <- (ascii_N_embedding c). destruct c as [[] [] [] [] [] [] [] []]; vm_compute; reflexivity.
Qed.

Lemma str_compare_eq : forall a b, str_compare a b = Eq <-> a = b.
Proof.
  induction a as [|x a IH]; destruct b as [|y b]; simpl; split; intros; try congruence.
  - destruct (code x ?= code y) eqn:E; try discriminate.
    apply Z.compare_eq in E. apply code_inj in E. subst. f_equal. apply IH; auto.
  - injection H as -> ->. rewrite Z.compare_refl. apply IH; auto.
Qed.

Lemma str_compare_antisym : forall a b, str_compare b a = CompOpp (str_compare a b).
Proof.
  induction a as [|x a IH]; destruct b as [|y b]; simpl; auto.
  rewrite (Z.compare_antisym (code x) (code y)). destruct (code x ?= code y); simpl; auto.
Qed.

Lemma str_compare_trans : forall a b c o, str_compare a b = o -> str_compare b c = o -> str_compare a c = o.
Proof.
  induction a as [|x a IH]; destruct b as [|y b]; destruct c as [|z c]; simpl; intros o H K;
    subst; try congruence; auto.
  destruct (Z.compare_spec (code x) (code y)); destruct (Z.compare_spec (code y) (code z));
    destruct (Z.compare_spec (code x) (code z)); try (exfalso; lia); try congruence.
  eapply IH; eauto.
Qed.

Lemma str_leb_refl : forall a, str_leb a a = true.
Proof. intros. unfold str_leb. replace (str_compare a a) with Eq; auto. symmetry; apply str_compare_eq; auto. Qed.

Lemma str_leb_total : forall a b, str_leb a b = true \/ str_leb b a = true.
Proof. intros. unfold str_leb. rewrite (str_compare_antisym a b). destruct (str_compare a b); auto. Qed.

Lemma str_leb_trans : forall a b c, str_leb a b = true -> str_leb b c = true -> str_leb a c = true.
Proof.
  unfold str_leb. intros a b c H K.
  destruct (str_compare a b) eqn:E1; try discriminate; destruct (str_compare b c) eqn:E2; try discriminate.
  - apply str_compare_eq in E1. subst. rewrite E2. auto.
  - apply str_compare_eq in E1. subst. rewrite E2. auto.
  - apply str_compare_eq in E2. subst. rewrite E1. auto.
  - rewrite (str_compare_trans _ _ _ _ E1 E2). auto.
Qed.

Lemma str_leb_antisym : forall a b, str_leb a b = true -> str_leb b a = true -> a = b.
Proof.
  unfold str_leb. intros a b. rewrite (str_compare_antisym a b).
  destruct (str_compare a b) eqn:E; simpl; try discriminate. intros. apply str_compare_eq; auto.
Qed.

(** ** Sorting *)

Section SortFacts.
  Context {A : Type} (leb : A -> A -> bool).

  Lemma insert_perm : forall x l, Permutation (insert leb x l) (x :: l).
  Proof.
    induction l as [|y r IH]; simpl; auto. destruct (leb x y); auto.
    rewrite IH. constructor.
  Qed.

  Lemma isort_perm : forall l, Permutation (isort leb l) l.
  Proof. induction l; simpl; auto. rewrite insert_perm. auto. Qed.

  Lemma isort_In : forall x l, In x (isort leb l) <-> In x l.
  Proof.
    intros. split; apply Permutation_in; [|symmetry]; apply isort_perm.
  Qed.

  Lemma isort_length : forall l, List.length (isort leb l) = List.length l.
  Proof. intros. apply Permutation_length, isort_perm. Qed.

  Lemma isort_NoDup : forall l, NoDup l -> NoDup (isort leb l).
  Proof. intros. eapply Permutation_NoDup; [symmetry; apply isort_perm|auto]. Qed.

  Hypothesis total : forall a b, leb a b = true \/ leb b a = true.
  Hypothesis trans : forall a b c, leb a b = true -> leb b c = true -> leb a c = true.
  Let le a b := leb a b = true.

  Lemma insert_sorted : forall x l, StronglySorted le l -> StronglySorted le (insert leb x l).
  Proof.
    induction l as [|y r IH]; simpl; intros S.
    - constructor; constructor.
    - inversion S; subst. destruct (leb x y) eqn:E.
      + constructor; auto. constructor; auto.
        eapply Forall_impl; [|eauto]. intros z Hz. eapply trans; eauto.
      + constructor; auto. rewrite Forall_forall. intros z Hz.
        apply (Permutation_in z (insert_perm x r)) in Hz. destruct Hz as [<-|Hz].
        * destruct (total x y); auto. congruence.
        * rewrite Forall_forall in H2. auto.
  Qed.

  Lemma isort_sorted : forall l, StronglySorted le (isort leb l).
  Proof. induction l; simpl. constructor. apply insert_sorted; auto. Qed.

  Hypothesis antisym : forall a b, leb a b = true -> leb b a = true -> a = b.

  Lemma sorted_perm_eq : forall l m, StronglySorted le l -> StronglySorted le m -> Permutation l m -> l = m.
  Proof.
    induction l as [|x l IH]; intros m S T P.
    - apply Permutation_nil in P. auto.
    - destruct m as [|y m]; [symmetry in P; apply Permutation_nil in P; discriminate|].
      assert (x = y).
      { inversion S; inversion T; subst. rewrite Forall_forall in H2, H6.
        assert (In x (y :: m)) by (eapply Permutation_in; eauto; left; auto).
        assert (In y (x :: l)) by (eapply Permutation_in; [symmetry; eauto|left; auto]).
        destruct H as [->|H]; auto. destruct H0 as [->|H0]; auto.
        apply antisym; [apply H2 | apply H6]; auto. }
      subst. f_equal. apply IH.
      + inversion S; auto.
      + inversion T; auto.
      + eapply Permutation_cons_inv; eauto.
  Qed.

  Lemma isort_perm_eq : forall l m, Permutation l m -> isort leb l = isort leb m.
  Proof.
    intros. apply sorted_perm_eq; try apply isort_sorted.
    rewrite !isort_perm. auto.
  Qed.
End SortFacts.

Lemma isort_str_eq : forall l m, NoDup l -> NoDup m -> (forall x, In x l <-> In x m) ->
  isort str_leb l = isort str_leb m.
Proof.
  intros. apply isort_perm_eq.
  - apply str_leb_total.
  - apply str_leb_trans.
  - apply str_leb_antisym.
  - apply NoDup_Permutation; auto.
Qed.

(** ** Decimal numbers *)

Lemma digits_val_app : forall a b acc, digits_val acc (a +++ b) = digits_val (digits_val acc a) b.
Proof. unfold str_app. induction a; simpl; intros; auto. Qed.

Lemma digits_val_uint_acc : forall d p,
  digits_val (Z.pos p) (NilEmpty.string_of_uint d) = Z.pos (Pos.of_uint_acc d p).
Proof.
  induction d; intros p; [reflexivity|..];
    cbn [NilEmpty.string_of_uint digits_val Pos.of_uint_acc];
    rewrite <- IHd; f_equal;
    match goal with |- context [code ?c] => let v := eval vm_compute in (code c) in change (code c) with v end; lia.
Qed.

Lemma digits_val_uint : forall d,
  digits_val 0 (NilEmpty.string_of_uint d) = Z.of_N (Pos.of_uint d).
Proof.
  induction d; cbn [NilEmpty.string_of_uint digits_val Pos.of_uint];
    [reflexivity | exact IHd | ..];
    match goal with |- context [digits_val ?c _] =>
      let v := eval vm_compute in c in change c with v end; rewrite digits_val_uint_acc; reflexivity.
Qed.

(** The digits of a number, as characters. *)
Fixpoint all_digits (s : string) : bool :=
  match s with EmptyString => true | String c r => is_digit c && all_digits r end.

Lemma all_digits_uint : forall d, all_digits (NilEmpty.string_of_uint d) = true.
Proof. induction d; simpl; auto. Qed.

Lemma z_str_neg : forall p, z_str (Z.neg p) = String "-" (z_str (Z.pos p)).
Proof. reflexivity. Qed.

Lemma z_str_pos_uint : forall p, z_str (Z.pos p) = NilEmpty.string_of_uint (Pos.to_uint p).
Proof.
  intros. unfold z_str. simpl. unfold NilZero.string_of_uint.
  destruct (Pos.to_uint p) eqn:E; auto.
  exfalso. assert (Pos.of_uint (Pos.to_uint p) = N.pos p) by apply Unsigned.of_to.
  rewrite E in H. discriminate.
Qed.

Lemma digits_val_z_str : forall z, 0 <= z -> digits_val 0 (z_str z) = z.
Proof.
  intros [|p|p] H; try lia; auto.
  rewrite z_str_pos_uint, digits_val_uint, Unsigned.of_to. auto.
Qed.

Lemma all_digits_z_str : forall z, 0 <= z -> all_digits (z_str z) = true.
Proof.
  intros [|p|p] H; try lia; auto. rewrite z_str_pos_uint. apply all_digits_uint.
Qed.

Lemma z_str_nonempty : forall z, z_str z <> "".
Proof.
  intros [|p|p]; try discriminate.
  rewrite z_str_pos_uint. intros H. assert (digits_val 0 (NilEmpty.string_of_uint (Pos.to_uint p)) = 0).
  { rewrite H. auto. } rewrite digits_val_uint, Unsigned.of_to in H0. simpl in H0. lia.
Qed.

Lemma z_str_inj_nonneg : forall a b, 0 <= a -> 0 <= b -> z_str a = z_str b -> a = b.
Proof.
  intros a b Ha Hb H. rewrite <- (digits_val_z_str a Ha), <- (digits_val_z_str b Hb), H. auto.
Qed.

Lemma z_str_head : forall z, 0 <= z -> exists c r, z_str z = String c r /\ is_digit c = true.
Proof.
  intros. pose proof (all_digits_z_str z H). pose proof (z_str_nonempty z).
  destruct (z_str z) as [|c r]; [congruence|]. exists c, r. simpl in H0.
  apply andb_prop in H0. intuition.
Qed.

Lemma z_str_inj : forall a b, z_str a = z_str b -> a = b.
Proof.
  intros a b H.
  assert (K : forall p z, 0 <= z -> z_str (Z.neg p) <> z_str z).
  { intros p z Hz E. rewrite z_str_neg in E. destruct (z_str_head z Hz) as [c [r [E2 D]]].
    rewrite E2 in E. injection E as <- _. discriminate. }
  destruct a as [|p|p]; destruct b as [|q|q]; try (apply z_str_inj_nonneg; auto; lia).
  - exfalso; symmetry in H; revert H; apply K; lia.
  - exfalso; symmetry in H; revert H; apply K; lia.
  - exfalso; revert H; apply K; lia.
  - exfalso; revert H; apply K; lia.
  - rewrite !z_str_neg in H. injection H as H.
    apply z_str_inj_nonneg in H; try lia.
Qed.

(** A decimal followed by something that starts with no digit is read back. *)
Lemma span_digits_all : forall s t, all_digits s = true ->
  match t with String c _ => is_digit c = false | EmptyString => True end ->
  span_digits (s +++ t) = (s, t).
Proof.
  unfold str_app. induction s as [|c s IH]; simpl; intros t H K.
  - destruct t as [|d t]; simpl; auto. rewrite K. auto.
  - apply andb_prop in H as [-> H]. rewrite IH; auto.
Qed.

(** A string with no character in a class before a separator splits uniquely. *)
Lemma sep_split : forall (f : ascii -> bool) a b u v c d,
  sall (fun x => negb (f x)) a = true -> sall (fun x => negb (f x)) b = true ->
  f c = true -> f d = true ->
  a +++ String c u = b +++ String d v -> a = b /\ String c u = String d v.
Proof.
  intros f. induction a as [|x a IH]; intros b u v c d Ha Hb Hc Hd E.
  - destruct b as [|y b]; [auto|]. cbn in E. injection E as -> _.
    unfold sall in Hb. simpl in Hb. rewrite Hc in Hb. simpl in Hb. discriminate.
  - destruct b as [|y b].
    + cbn in E. injection E as -> _. unfold sall in Ha. simpl in Ha. rewrite Hd in Ha. discriminate.
    + cbn in E. injection E as -> E. unfold sall in *. simpl in Ha, Hb.
      apply negb_true_iff in Ha, Hb. apply orb_false_iff in Ha as [_ Ha]. apply orb_false_iff in Hb as [_ Hb].
      destruct (IH b u v c d) as [-> ->]; auto; rewrite ?Ha, ?Hb; auto.
Qed.

(** ** Versions *)

Lemma vltb_lt : forall a b, vltb a b = true <-> (fst a < fst b \/ (fst a = fst b /\ snd a < snd b)).
Proof. unfold vltb; intros. rewrite orb_true_iff, andb_true_iff, !Z.ltb_lt, Z.eqb_eq. tauto. Qed.

Lemma vltb_ge : forall a b, vltb a b = false <-> (fst b < fst a \/ (fst a = fst b /\ snd b <= snd a)).
Proof.
  intros. rewrite <- not_true_iff_false, vltb_lt. lia.
Qed.

Lemma veqb_eq : forall a b, veqb a b = true <-> a = b.
Proof.
  unfold veqb; intros [a1 a2] [b1 b2]; simpl. rewrite andb_true_iff, !Z.eqb_eq.
  split; [intros [-> ->]; auto | intros H; injection H; auto].
Qed.

Lemma vleb_le : forall a b, vleb a b = true <-> (fst a < fst b \/ (fst a = fst b /\ snd a <= snd b)).
Proof. unfold vleb; intros. rewrite negb_true_iff, vltb_ge. lia. Qed.

Lemma ver_eqb_opt_eq : forall a b, ver_eqb_opt a b = true <-> a = b.
Proof.
  destruct a, b; simpl; split; intros; try congruence; auto.
  - apply veqb_eq in H; congruence.
  - injection H as ->. apply veqb_eq; auto.
Qed.

Lemma mins_eqb_eq : forall a b, mins_eqb a b = true <-> a = b.
Proof.
  unfold mins_eqb; intros [a1 a2] [b1 b2]; simpl. rewrite andb_true_iff, !ver_eqb_opt_eq.
  split; [intros [-> ->]; auto | intros H; injection H; auto].
Qed.
