(** Proofs about the utility functions (C01-C12). *)
From Coq Require Import Floats.SpecFloat Permutation Sorted.
From Verif Require Import PyBase PyLemmas Utility Spec_Base Spec_Utility.

(** ** Order facts *)
Lemma ver_le_refl : forall a, ver_le a a. Proof. unfold ver_le; intros; lia. Qed.
Lemma ver_le_trans : forall a b c, ver_le a b -> ver_le b c -> ver_le a c.
Proof. unfold ver_le; intros; lia. Qed.
Lemma ver_le_antisym : forall a b, ver_le a b -> ver_le b a -> a = b.
Proof. unfold ver_le; intros [a1 a2] [b1 b2]; simpl; intros. f_equal; lia. Qed.
Lemma ver_le_total : forall a b, ver_le a b \/ ver_le b a.
Proof. unfold ver_le; intros; lia. Qed.

Lemma req_le_refl : forall a, req_le a a.
Proof. destruct a; simpl; auto. apply ver_le_refl. Qed.
Lemma req_le_trans : forall a b c, req_le a b -> req_le b c -> req_le a c.
Proof. destruct a, b, c; simpl; try tauto. apply ver_le_trans. Qed.
Lemma req_le_antisym : forall a b, req_le a b -> req_le b a -> a = b.
Proof. destruct a, b; simpl; try tauto. intros; f_equal; apply ver_le_antisym; auto. Qed.
Lemma mins_le_refl : forall a, mins_le a a.
Proof. split; apply req_le_refl. Qed.
Lemma mins_le_trans : forall a b c, mins_le a b -> mins_le b c -> mins_le a c.
Proof. intros a b c [H1 H2] [K1 K2]. split; eapply req_le_trans; eauto. Qed.
Lemma mins_le_antisym : forall a b, mins_le a b -> mins_le b a -> a = b.
Proof.
  intros [a1 a2] [b1 b2] [H1 H2] [K1 K2]; simpl in *. f_equal; apply req_le_antisym; auto.
Qed.

Lemma opt_max_join : forall a b, is_join a b (opt_max a b).
Proof.
  destruct a as [x|], b as [y|]; simpl; auto.
  exists (vmax x y). unfold vmax. destruct (vltb x y) eqn:E.
  - apply vltb_lt in E. unfold ver_le. repeat split; auto; lia.
  - apply vltb_ge in E. unfold ver_le. repeat split; auto; lia.
Qed.

Lemma is_join_unique : forall a b r r', is_join a b r -> is_join a b r' -> r = r'.
Proof.
  destruct a as [x|], b as [y|]; simpl; intros r r' H K; try congruence.
  destruct H as [z [-> [H [H1 H2]]]], K as [w [-> [K [K1 K2]]]]. f_equal.
  destruct H, K; subst; auto; apply ver_le_antisym; auto.
Qed.

Lemma opt_max_ub : forall a b, req_le a (opt_max a b) /\ req_le b (opt_max a b).
Proof.
  intros. pose proof (opt_max_join a b). destruct a, b; simpl in *; auto.
  destruct H as [z [E [H [H1 H2]]]]. injection E as <-. auto.
Qed.

Lemma opt_max_least : forall a b u, req_le a u -> req_le b u -> req_le (opt_max a b) u.
Proof.
  intros. pose proof (opt_max_join a b). destruct a, b; simpl in *; auto.
  destruct H1 as [z [E [H1 [H2 H3]]]]. injection E as <-.
  destruct u; simpl in *; auto. destruct H1 as [-> | ->]; auto.
Qed.

(** ** C01 *)
Lemma fixup_means : forall p o, means p o -> fixup p = Ok o.
Proof. intros p o H; inversion H; reflexivity. Qed.

Lemma means_none_iff : forall p o, means p o -> pv_is_none p = match o with None => true | _ => false end.
Proof. intros p o H; inversion H; reflexivity. Qed.

Lemma combine_versions_eq : forall ig a0 a1 b0 b1 x0 x1 y0 y1,
  means a0 x0 -> means a1 x1 -> means b0 y0 -> means b1 y1 ->
  combine_versions ig [a0; a1] [b0; b1] =
  if negb ig && clash (x0, x1) (y0, y1) then Err (InvalidVersion "Versions could not be combined")
  else Ok [opt_max x0 y0; opt_max x1 y1].
Proof.
  intros. unfold combine_versions. simpl.
  rewrite (means_none_iff _ _ H), (means_none_iff _ _ H0), (means_none_iff _ _ H1), (means_none_iff _ _ H2).
  rewrite (fixup_means _ _ H), (fixup_means _ _ H0), (fixup_means _ _ H1), (fixup_means _ _ H2).
  destruct ig, x0, x1, y0, y1; reflexivity.
Qed.

Lemma combine_versions_join : forall ig a0 a1 b0 b1 x0 x1 y0 y1 r,
  means a0 x0 -> means a1 x1 -> means b0 y0 -> means b1 y1 ->
  combine_versions ig [a0; a1] [b0; b1] = Ok r ->
  exists r0 r1, r = [r0; r1] /\ is_join x0 y0 r0 /\ is_join x1 y1 r1.
Proof.
  intros ig a0 a1 b0 b1 x0 x1 y0 y1 r H0 H1 H2 H3.
  rewrite (combine_versions_eq ig a0 a1 b0 b1 x0 x1 y0 y1) by auto.
  destruct (negb ig && clash (x0, x1) (y0, y1)); intros E; [discriminate|].
  injection E as <-. exists (opt_max x0 y0), (opt_max x1 y1). repeat split; auto using opt_max_join.
Qed.

Lemma combine_versions_shape : forall ig l1 l2 r,
  combine_versions ig l1 l2 = Ok r ->
  (List.length l1 = 2 /\ List.length l2 = 2 /\ List.length r = 2)%nat.
Proof.
  intros ig l1 l2 r. unfold combine_versions, py_assert.
  destruct l1 as [|a0 [|a1 [|a2 l1]]]; destruct l2 as [|b0 [|b1 [|b2 l2]]]; cbn [List.length Nat.eqb];
    try discriminate; try (destruct (_ =? _)%nat; discriminate).
  destruct (negb ig && _); [discriminate|].
  destruct (fixup a0); [|discriminate]; destruct (fixup b0); [|discriminate];
  destruct (fixup a1); [|discriminate]; destruct (fixup b1); [|discriminate]; cbn.
  intros E. injection E as <-. auto.
Qed.

Lemma combine2_join : forall ig refs a b r, combine2 ig refs a b = Ok r -> is_mins_join a b r.
Proof.
  unfold combine2. intros ig refs a b r. destruct (negb ig && clash a b); [discriminate|].
  intros E; injection E as <-. split; apply opt_max_join.
Qed.

(** ** C02 *)
Lemma clash_iff : forall a b, clash a b = true <-> clashing a b.
Proof.
  intros [[a0|] [a1|]] [[b0|] [b1|]]; unfold clashing, py2_only, py3_only; simpl;
    split; intros H; try congruence; try tauto;
    try (destruct H as [[[? ?] [? ?]] | [[? ?] [? ?]]]; congruence);
    try (left; repeat split; congruence); try (right; repeat split; congruence).
Qed.

Lemma combine2_clash : forall ig refs a b,
  (exists m, combine2 ig refs a b = Err (InvalidVersion m)) <-> (ig = false /\ clashing a b).
Proof.
  intros ig refs a b. unfold combine2. rewrite <- clash_iff. destruct ig, (clash a b); simpl;
    (split; intros H; [try (destruct H; discriminate); try split; auto |
                       destruct H; try congruence; eauto]).
Qed.

Lemma combine2_total : forall ig refs a b,
  (exists r, combine2 ig refs a b = Ok r) \/ (exists m, combine2 ig refs a b = Err (InvalidVersion m)).
Proof. intros. unfold combine2. destruct (negb ig && clash a b); eauto. Qed.

Lemma combine_versions_clash : forall ig a0 a1 b0 b1 x0 x1 y0 y1,
  means a0 x0 -> means a1 x1 -> means b0 y0 -> means b1 y1 ->
  ((exists e, combine_versions ig [a0; a1] [b0; b1] = Err e) <->
     (ig = false /\ clashing (x0, x1) (y0, y1))) /\
  (forall e, combine_versions ig [a0; a1] [b0; b1] = Err e -> exists m, e = InvalidVersion m).
Proof.
  intros. rewrite (combine_versions_eq ig a0 a1 b0 b1 x0 x1 y0 y1) by auto.
  rewrite <- clash_iff. destruct ig, (clash (x0, x1) (y0, y1)); simpl;
    (split; [split; intros K; [try (destruct K; discriminate); try split; auto |
                               destruct K; try congruence; eauto]
            | intros e E; inversion E; eauto]).
Qed.

(** ** C03 *)
Definition mjoin (a b : mins) : mins := (opt_max (fst a) (fst b), opt_max (snd a) (snd b)).

Lemma combine_all_true : forall l m, combine_all true m l = Ok (fold_left mjoin l m).
Proof. induction l as [|x l IH]; simpl; intros; [reflexivity | apply IH]. Qed.

Lemma mjoin_ub : forall a b, mins_le a (mjoin a b) /\ mins_le b (mjoin a b).
Proof.
  intros. unfold mins_le, mjoin; simpl.
  destruct (opt_max_ub (fst a) (fst b)), (opt_max_ub (snd a) (snd b)). auto.
Qed.
Lemma mjoin_least : forall a b u, mins_le a u -> mins_le b u -> mins_le (mjoin a b) u.
Proof. intros a b u [H1 H2] [K1 K2]. split; simpl; apply opt_max_least; auto. Qed.

Lemma fold_mjoin_lub : forall l m, is_lub (m :: l) (fold_left mjoin l m).
Proof.
  induction l as [|x l IH]; intros m; simpl.
  - split; [intros y [<-|[]]; apply mins_le_refl | intros u H; apply H; simpl; auto].
  - destruct (IH (mjoin m x)) as [U L]. destruct (mjoin_ub m x) as [A B]. split.
    + intros y [<-|[<-|Hy]].
      * eapply mins_le_trans; [apply A|]. apply U; simpl; auto.
      * eapply mins_le_trans; [apply B|]. apply U; simpl; auto.
      * apply U; simpl; auto.
    + intros u H. apply L. intros y [<-|Hy].
      * apply mjoin_least; apply H; simpl; auto.
      * apply H; simpl; auto.
Qed.

Lemma is_lub_unique : forall l r r', is_lub l r -> is_lub l r' -> r = r'.
Proof. intros l r r' [U L] [U' L']. apply mins_le_antisym; auto. Qed.

Lemma is_lub_ext : forall l l' r, (forall m, In m l <-> In m l') -> is_lub l r -> is_lub l' r.
Proof.
  intros l l' r E [U L]. split.
  - intros m H. apply U. apply E; auto.
  - intros u H. apply L. intros m K. apply H. apply E; auto.
Qed.

Lemma combine_all_lub : forall m l, exists r, combine_all true m l = Ok r /\ is_lub (m :: l) r.
Proof. intros. rewrite combine_all_true. eauto using fold_mjoin_lub. Qed.

Lemma combine_all_set : forall m m' l l', (forall x, In x (m :: l) <-> In x (m' :: l')) ->
  combine_all true m l = combine_all true m' l'.
Proof.
  intros. rewrite !combine_all_true. f_equal. eapply is_lub_unique; [apply fold_mjoin_lub|].
  eapply is_lub_ext; [|apply fold_mjoin_lub]. intros. rewrite H. tauto.
Qed.

Lemma combine2_true : forall refs a b, combine2 true refs a b = Ok (mjoin a b).
Proof. reflexivity. Qed.

Lemma mjoin_comm : forall a b, mjoin a b = mjoin b a.
Proof.
  intros. apply mins_le_antisym; apply mjoin_least; apply mjoin_ub.
Qed.
Lemma mjoin_assoc : forall a b c, mjoin (mjoin a b) c = mjoin a (mjoin b c).
Proof.
  intros.
  assert (U1 : forall x y, mins_le x (mjoin x y)) by (intros; apply mjoin_ub).
  assert (U2 : forall x y, mins_le y (mjoin x y)) by (intros; apply mjoin_ub).
  apply mins_le_antisym; repeat apply mjoin_least; eauto using mins_le_trans.
Qed.
Lemma mjoin_idem : forall a, mjoin a a = a.
Proof. intros. apply mins_le_antisym; [apply mjoin_least; apply mins_le_refl | apply mjoin_ub]. Qed.

(** With clashes reported: when no two members clash, the fold succeeds with the same join
    provided no prefix join clashes with the next member; a fold that succeeds gives the join. *)
Lemma combine_all_ok : forall ig l m r, combine_all ig m l = Ok r -> is_lub (m :: l) r.
Proof.
  intros ig l. induction l as [|x l IH]; simpl; intros m r H.
  - injection H as <-. apply (fold_mjoin_lub [] m).
  - unfold combine2 in H. destruct (negb ig && clash m x); [discriminate|].
    apply IH in H. destruct H as [U L]. destruct (mjoin_ub m x) as [A B].
    split.
    + intros y [<-|[<-|Hy]].
      * eapply mins_le_trans; [apply A|]. apply U; simpl; auto.
      * eapply mins_le_trans; [apply B|]. apply U; simpl; auto.
      * apply U; simpl; auto.
    + intros u H. apply L. intros y [<-|Hy].
      * apply mjoin_least; apply H; simpl; auto.
      * apply H; simpl; auto.
Qed.

(** ** C05 *)
Lemma opt_ver_str_writes : forall n o, writes n o (opt_ver_str n o).
Proof.
  intros n [[x y]|]; simpl; [|constructor].
  destruct (veqb (x, y) (0, 0)) eqn:E.
  - apply veqb_eq in E. rewrite E. constructor.
  - constructor. intros K. rewrite K in E. discriminate.
Qed.

Lemma writes_fun : forall n o s s', writes n o s -> writes n o s' -> s = s'.
Proof. intros n o s s' H K; inversion H; subst; inversion K; subst; congruence. Qed.

Lemma version_strings_pair : forall m sep, sep <> "" ->
  version_strings [vitem_of (fst m); vitem_of (snd m)] sep = Ok (mins_str sep m).
Proof.
  intros [o2 o3] sep H. unfold version_strings, version_strings_gen.
  destruct (String.eqb sep "") eqn:E; [apply String.eqb_eq in E; congruence|].
  cbn [List.length Nat.eqb Nat.ltb Nat.leb]. rewrite andb_false_r.
  unfold mins_str. cbn [fst snd].
  assert (K : forall i o, version_string1 no_float_str i (vitem_of o) = opt_ver_str (i + 2) o).
  { intros i [v|]; unfold version_string1; simpl; [destruct (veqb v (0, 0))|]; reflexivity. }
  cbn [version_strings_from join]. rewrite !K. auto.
Qed.

Lemma version_strings_writes : forall m sep, sep <> "" ->
  exists a b, version_strings [vitem_of (fst m); vitem_of (snd m)] sep = Ok (a +++ sep +++ b) /\
  writes 2 (fst m) a /\ writes 3 (snd m) b.
Proof.
  intros. exists (opt_ver_str 2 (fst m)), (opt_ver_str 3 (snd m)).
  split; [apply version_strings_pair; auto|]. split; apply opt_ver_str_writes.
Qed.

Lemma sall_app : forall f a b, sall f (a +++ b) = sall f a && sall f b.
Proof.
  unfold sall, str_app. induction a; simpl; intros; auto.
  rewrite !negb_orb, IHa, andb_assoc. auto.
Qed.
Lemma sall_cons : forall f c s, sall f (String c s) = f c && sall f s.
Proof. unfold sall; simpl; intros. rewrite negb_orb, negb_involutive. auto. Qed.
Lemma sall_impl : forall f g s, (forall c, f c = true -> g c = true) -> sall f s = true -> sall g s = true.
Proof.
  induction s; intros H K; auto. rewrite sall_cons in *. apply andb_prop in K. destruct K.
  rewrite (H a); auto.
Qed.
Lemma all_digits_sall : forall s, all_digits s = sall is_digit s.
Proof. induction s; auto. rewrite sall_cons. simpl. congruence. Qed.

Definition digit_minus (c : ascii) : bool := is_digit c || Ascii.eqb c "-".
Lemma z_str_chars : forall z, sall digit_minus (z_str z) = true.
Proof.
  intros z. destruct z as [|p|p].
  - reflexivity.
  - apply (sall_impl is_digit); [unfold digit_minus; intros c H; rewrite H; auto|].
    rewrite <- all_digits_sall. apply all_digits_z_str. lia.
  - rewrite z_str_neg, sall_cons. replace (digit_minus "-") with true by reflexivity. simpl.
    apply (sall_impl is_digit); [unfold digit_minus; intros c H; rewrite H; auto|].
    rewrite <- all_digits_sall. apply all_digits_z_str. lia.
Qed.

Lemma ver_str_inj : forall a b, ver_str a = ver_str b -> a = b.
Proof.
  intros [a1 a2] [b1 b2]. unfold ver_str; simpl. intros H.
  change ("." +++ z_str a2) with (String "." (z_str a2)) in H.
  change ("." +++ z_str b2) with (String "." (z_str b2)) in H.
  apply (sep_split (fun c => Ascii.eqb c ".")) in H; try reflexivity.
  - destruct H as [H K]. injection K as K. apply z_str_inj in H. apply z_str_inj in K. congruence.
  - apply (sall_impl digit_minus); [|apply z_str_chars].
    intros c E. destruct (Ascii.eqb_spec c "."); subst; auto.
  - apply (sall_impl digit_minus); [|apply z_str_chars].
    intros c E. destruct (Ascii.eqb_spec c "."); subst; auto.
Qed.

Lemma digit_minus_version : forall c, digit_minus c = true -> version_char c = true.
Proof.
  unfold digit_minus, version_char. intros c H. apply orb_prop in H. destruct H as [H|H]; rewrite H; simpl; auto.
  rewrite !orb_true_r; auto.
Qed.
Lemma opt_ver_str_chars : forall n o, sall version_char (opt_ver_str n o) = true.
Proof.
  assert (Z : forall z, sall version_char (z_str z) = true).
  { intros. apply (sall_impl digit_minus); [apply digit_minus_version | apply z_str_chars]. }
  intros n [v|]; cbn [opt_ver_str].
  - destruct (veqb v (0, 0)).
    + rewrite sall_app, Z. reflexivity.
    + unfold ver_str. rewrite !sall_app, !Z. reflexivity.
  - rewrite sall_app, Z. reflexivity.
Qed.

Lemma z_str_headc : forall z, exists c r, z_str z = String c r /\ digit_minus c = true.
Proof.
  intros. pose proof (z_str_chars z). pose proof (z_str_nonempty z).
  destruct (z_str z) as [|c r]; [congruence|]. rewrite sall_cons in H. apply andb_prop in H.
  exists c, r. intuition.
Qed.

Lemma opt_ver_str_inj : forall n o o', opt_ver_str n o = opt_ver_str n o' -> o = o'.
Proof.
  intros n o o' H.
  assert (V : forall v c s, In c ["~"%char; "!"%char] -> ver_str v <> String c s).
  { intros v c s Hc E. unfold ver_str in E. destruct (z_str_headc (fst v)) as [d [r [Hd D]]].
    rewrite Hd in E. injection E as -> _. destruct Hc as [<-|[<-|[]]]; discriminate. }
  destruct o as [v|], o' as [w|]; cbn [opt_ver_str] in H; auto.
  - destruct (veqb v (0, 0)) eqn:E1, (veqb w (0, 0)) eqn:E2.
    + apply veqb_eq in E1. apply veqb_eq in E2. congruence.
    + exfalso. symmetry in H. eapply V; [|apply H]. simpl; auto.
    + exfalso. eapply V; [|apply H]. simpl; auto.
    + f_equal. apply ver_str_inj; auto.
  - destruct (veqb v (0, 0)) eqn:E1; [discriminate|].
    exfalso. eapply V; [|apply H]. simpl; auto.
  - destruct (veqb w (0, 0)) eqn:E1; [discriminate|].
    exfalso. symmetry in H. eapply V; [|apply H]. simpl; auto.
Qed.

Lemma mins_str_inj : forall sep m m', good_sep sep -> mins_str sep m = mins_str sep m' -> m = m'.
Proof.
  intros sep [a b] [a' b'] G H. unfold mins_str in H. cbn [fst snd] in H.
  destruct sep as [|c sep]; [destruct G|]. cbn [good_sep] in G.
  rewrite !app_cons_s in H.
  apply (sep_split (fun c => negb (version_char c))) in H.
  - destruct H as [H K]. apply opt_ver_str_inj in H. injection K as K. apply app_inj_l in K.
    apply opt_ver_str_inj in K. congruence.
  - apply (sall_impl version_char); [|apply opt_ver_str_chars]. intros. rewrite negb_involutive. auto.
  - apply (sall_impl version_char); [|apply opt_ver_str_chars]. intros. rewrite negb_involutive. auto.
  - rewrite G; auto.
  - rewrite G; auto.
Qed.

(** ** C06 *)
Lemma split_on_nonempty : forall f s, split_on f s <> [].
Proof.
  induction s; simpl; try congruence. destruct (f a); try congruence.
  destruct (split_on f s); congruence.
Qed.

Lemma split_on_join : forall f s a l, split_on f s = a :: l ->
  sall (fun c => negb (f c)) a = true /\
  (l = [] -> s = a) /\
  (l <> [] -> exists c t, f c = true /\ s = a +++ String c t /\ split_on f t = l).
Proof.
  induction s as [|x s IH]; simpl; intros a l H.
  - injection H as <- <-. repeat split; auto; congruence.
  - destruct (f x) eqn:F.
    + injection H as <- <-. repeat split; auto.
      * intros E. exfalso. eapply split_on_nonempty; eauto.
      * intros _. exists x, s. auto.
    + destruct (split_on f s) as [|h t] eqn:E; [exfalso; eapply split_on_nonempty; eauto|].
      injection H as <- <-. destruct (IH h t eq_refl) as [A [B C]]. split; [|split].
      * rewrite sall_cons, F. auto.
      * intros K. rewrite (B K). auto.
      * intros K. destruct (C K) as [c [u [Fc [-> Hu]]]]. exists c, u. auto.
Qed.

Lemma split_on_none : forall f s, sall (fun c => negb (f c)) s = true -> split_on f s = [s].
Proof.
  induction s as [|x s IH]; intros H; auto. rewrite sall_cons in H. apply andb_prop in H.
  destruct H as [H K]. simpl. apply negb_true_iff in H. rewrite H, IH; auto.
Qed.

Lemma split_on_app : forall f a c t, sall (fun c => negb (f c)) a = true -> f c = true ->
  split_on f (a +++ String c t) = a :: split_on f t.
Proof.
  induction a as [|x a IH]; intros c t H K.
  - simpl. rewrite K. auto.
  - rewrite sall_cons in H. apply andb_prop in H. destruct H as [H H'].
    rewrite app_cons_s. simpl. apply negb_true_iff in H. rewrite H, IH; auto.
Qed.

(** Characters of what int() accepts. *)
Definition int_char (c : ascii) : bool :=
  is_space c || is_digit c || Ascii.eqb c "_" || Ascii.eqb c "-" || Ascii.eqb c "+".

Lemma int_body_chars : forall s p acc n, int_body p acc s = Some n ->
  sall (fun c => is_digit c || Ascii.eqb c "_") s = true.
Proof.
  induction s as [|c s IH]; simpl; intros p acc n H; auto. rewrite sall_cons.
  destruct (is_digit c) eqn:D.
  - simpl. eapply IH; eauto.
  - destruct (Ascii.eqb c "_" && p) eqn:E; [|discriminate].
    apply andb_prop in E. destruct E as [E _]. rewrite E. simpl. eapply IH; eauto.
Qed.

Lemma sall_lstrip : forall f s, (forall c, is_space c = true -> f c = true) ->
  sall f (lstrip s) = true -> sall f s = true.
Proof.
  induction s as [|c s IH]; intros H K; auto. simpl in K. destruct (is_space c) eqn:E; auto.
  rewrite sall_cons, H; auto.
Qed.
Lemma sall_rstrip : forall f s, (forall c, is_space c = true -> f c = true) ->
  sall f (rstrip s) = true -> sall f s = true.
Proof.
  induction s as [|c s IH]; intros H K; auto. simpl in K. rewrite sall_cons.
  destruct (rstrip s) eqn:E.
  - destruct (is_space c) eqn:S.
    + rewrite (H c S). apply IH; auto.
    + rewrite sall_cons in K. apply andb_prop in K. destruct K as [K _]. rewrite K. apply IH; auto.
  - rewrite sall_cons in K. apply andb_prop in K. destruct K as [K K2]. rewrite K. apply IH; auto.
Qed.

Lemma py_int_chars : forall s n, py_int s = Some n -> sall int_char s = true.
Proof.
  intros s n H. unfold py_int in H.
  apply sall_lstrip; [unfold int_char; intros c E; rewrite E; auto|].
  apply sall_rstrip; [unfold int_char; intros c E; rewrite E; auto|].
  fold (strip s). destruct (strip s) as [|c r]; [discriminate|].
  assert (B : forall u p m, int_body p 0 u = Some m -> sall int_char u = true).
  { intros u p m K. apply int_body_chars in K. eapply sall_impl; [|apply K].
    unfold int_char. intros d E. apply orb_prop in E. destruct E as [E|E]; rewrite E; rewrite ?orb_true_r; auto. }
  destruct (Ascii.eqb_spec c "-").
  - destruct (int_body false 0 r) eqn:E; [|discriminate]. rewrite sall_cons. subst. simpl. eapply B; eauto.
  - destruct (Ascii.eqb_spec c "+").
    + rewrite sall_cons. subst. simpl. eapply B; eauto.
    + eapply B; eauto.
Qed.

Lemma int_char_nosep : forall s, sall int_char s = true -> sall (fun c => negb (is_dot_comma c)) s = true.
Proof.
  intros s. apply sall_impl. intros c H. unfold is_dot_comma.
  destruct (Ascii.eqb_spec c "."); [subst; discriminate|].
  destruct (Ascii.eqb_spec c ","); [subst; discriminate|]. auto.
Qed.

Lemma endswith_minus : forall s, endswith "-" s = true <-> exists b, s = b +++ "-".
Proof.
  induction s as [|c s IH]; cbn [endswith].
  - split; [discriminate|]. intros [b H]. destruct b; discriminate.
  - split.
    + intros H. apply orb_prop in H. destruct H as [H|H].
      * apply String.eqb_eq in H. exists "". rewrite <- H. auto.
      * apply IH in H. destruct H as [b ->]. exists (String c b). auto.
    + intros [b H]. destruct b as [|d b].
      * rewrite H. auto.
      * rewrite app_cons_s in H. injection H as -> ->. rewrite (proj2 IH); [apply orb_true_r | eauto].
Qed.

Lemma sinit_app : forall b c, sinit (b +++ String c "") = b.
Proof.
  induction b as [|d b IH]; intros c; auto. rewrite app_cons_s. simpl.
  rewrite IH. destruct (b +++ String c "") eqn:E; auto. destruct b; discriminate.
Qed.

Lemma rstrip_minus : forall s, endswith "-" s = true -> endswith "-" (rstrip s) = true.
Proof.
  induction s as [|c s IH]; intros H; auto. cbn [endswith] in H. apply orb_prop in H. destruct H as [H|H].
  - apply String.eqb_eq in H. rewrite <- H. reflexivity.
  - apply IH in H. cbn [rstrip]. destruct (rstrip s) as [|d t] eqn:E; [discriminate|].
    cbn [endswith]. cbn [endswith] in H. rewrite H. apply orb_true_r.
Qed.
Lemma lstrip_minus : forall s, endswith "-" s = true -> endswith "-" (lstrip s) = true.
Proof.
  induction s as [|c s IH]; intros H; auto. simpl. destruct (is_space c) eqn:E; auto.
  apply IH. cbn [endswith] in H. apply orb_prop in H. destruct H as [H|H]; auto.
  apply String.eqb_eq in H. injection H as <- <-. discriminate.
Qed.

Lemma int_body_minus : forall s p acc, endswith "-" s = true -> int_body p acc s = None.
Proof.
  intros s p acc H. destruct (int_body p acc s) eqn:E; auto.
  apply int_body_chars in E. apply endswith_minus in H. destruct H as [b ->].
  rewrite sall_app in E. apply andb_prop in E. destruct E as [_ E]. discriminate.
Qed.

Lemma py_int_minus : forall s, endswith "-" s = true -> py_int s = None.
Proof.
  intros s H. unfold py_int. apply lstrip_minus in H. apply rstrip_minus in H.
  fold (strip s) in H. destruct (strip s) as [|c r]; auto.
  cbn [endswith] in H. apply orb_prop in H. destruct H as [H|H].
  - apply String.eqb_eq in H. injection H as <- <-. auto.
  - rewrite (int_body_minus r) by auto. rewrite (int_body_minus (String c r)).
    + destruct (Ascii.eqb c "-"); [|destruct (Ascii.eqb c "+")]; reflexivity.
    + cbn [endswith]. rewrite H. apply orb_true_r.
Qed.

Definition body_parse (exact : bool) (body : string) : option target :=
  match split_on is_dot_comma body with
  | [a] =>
      match target_elm a with
      | Some x => if vleb (2, 0) (x, 0) && vltb (x, 0) (4, 0) then Some (exact, (x, 0)) else None
      | None => None
      end
  | [a; b] =>
      match target_elm a, target_elm b with
      | Some x, Some y => if vleb (2, 0) (x, y) && vltb (x, y) (4, 0) then Some (exact, (x, y)) else None
      | _, _ => None
      end
  | _ => None
  end.

Lemma parse_target_body : forall s,
  parse_target s = if endswith "-" s then body_parse false (sinit s) else body_parse true s.
Proof. intros. unfold parse_target. destruct (endswith "-" s); reflexivity. Qed.

Lemma target_elm_iff : forall s n, target_elm s = Some n <-> component s n.
Proof.
  intros. unfold target_elm, component. destruct (py_int s) as [m|]; [|split; [discriminate | intros [H _]; discriminate]].
  destruct (Z.ltb_spec m 0); split; try discriminate.
  - intros [E K]. injection E as ->. lia.
  - intros E. injection E as ->. auto.
  - intros [E K]. auto.
Qed.

Lemma in_range_iff : forall v, vleb (2, 0) v && vltb v (4, 0) = true <-> in_range v.
Proof.
  intros. rewrite andb_true_iff, vleb_le, vltb_lt. unfold in_range, ver_le, ver_lt. simpl. tauto.
Qed.

Lemma is_dot_comma_iff : forall c, is_dot_comma c = true <-> (c = "."%char \/ c = ","%char).
Proof.
  intros. unfold is_dot_comma. rewrite orb_true_iff, !Ascii.eqb_eq. tauto.
Qed.

Lemma component_split : forall a x, component a x -> sall (fun c => negb (is_dot_comma c)) a = true.
Proof. intros a x [H _]. apply int_char_nosep. eapply py_int_chars; eauto. Qed.

Lemma body_parse_iff : forall exact s e v,
  body_parse exact s = Some (e, v) <-> e = exact /\ target_body s v /\ in_range v.
Proof.
  intros exact s e v. unfold body_parse. split.
  - destruct (split_on is_dot_comma s) as [|a [|b [|c l]]] eqn:E; try discriminate.
    + destruct (split_on_join _ _ _ _ E) as [_ [S _]]. specialize (S eq_refl). subst a.
      destruct (target_elm s) as [x|] eqn:T; [|discriminate]. apply target_elm_iff in T.
      destruct (vleb (2, 0) (x, 0) && vltb (x, 0) (4, 0)) eqn:R; [|discriminate].
      intros H. injection H as <- <-. apply in_range_iff in R. repeat split; auto; try apply R. constructor; auto.
    + destruct (split_on_join _ _ _ _ E) as [_ [_ S]].
      destruct S as [c [t [Fc [-> St]]]]; [discriminate|].
      destruct (split_on_join _ _ _ _ St) as [_ [S _]]. specialize (S eq_refl). subst t.
      destruct (target_elm a) as [x|] eqn:T; [|discriminate].
      destruct (target_elm b) as [y|] eqn:T2; [|discriminate].
      apply target_elm_iff in T. apply target_elm_iff in T2. apply is_dot_comma_iff in Fc.
      destruct (vleb (2, 0) (x, y) && vltb (x, y) (4, 0)) eqn:R; [|discriminate].
      intros H. injection H as <- <-. apply in_range_iff in R. repeat split; auto; try apply R.
      constructor; auto.
  - intros [-> [B R]]. apply in_range_iff in R. inversion B; subst.
    + rewrite split_on_none by (eapply component_split; eauto).
      rewrite (proj2 (target_elm_iff s x)), R; auto.
    + rewrite split_on_app; [|eapply component_split; eauto | apply is_dot_comma_iff; auto].
      rewrite split_on_none by (eapply component_split; eauto).
      rewrite (proj2 (target_elm_iff a x)), (proj2 (target_elm_iff b y)), R; auto.
Qed.

Lemma target_body_minus : forall s v, target_body s v -> endswith "-" s = false.
Proof.
  intros s v H. destruct (endswith "-" s) eqn:E; auto. exfalso. inversion H; subst.
  - apply py_int_minus in E. destruct H0. congruence.
  - assert (K : endswith "-" b = true).
    { apply endswith_minus in E. destruct E as [u E].
      assert (L : exists w, String c b = w +++ "-" /\ u = a +++ w).
      { revert E. clear. revert u. induction a as [|d a IH]; intros u E.
        - exists u. auto.
        - destruct u as [|d' u].
          + exfalso. rewrite app_cons_s in E. injection E as _ E. destruct a; discriminate.
          + rewrite !app_cons_s in E. injection E as -> E. destruct (IH u E) as [w [W ->]]. exists w. auto. }
      destruct L as [w [W _]]. destruct w as [|d w].
      - exfalso. injection W as -> _. destruct H0; discriminate.
      - rewrite app_cons_s in W. injection W as _ ->. apply endswith_minus. eauto. }
    apply py_int_minus in K. destruct H2. congruence.
Qed.

Lemma parse_target_iff : forall s t, parse_target s = Some t <-> writes_target s t /\ in_range (snd t).
Proof.
  intros s [e v]. rewrite parse_target_body. split.
  - destruct (endswith "-" s) eqn:E; intros H; apply body_parse_iff in H; destruct H as [-> [B R]].
    + split; auto. apply endswith_minus in E. destruct E as [b ->].
      change "-" with (String "-" "") in B. rewrite sinit_app in B. constructor; auto.
    + split; auto. constructor; auto.
  - intros [W R]. inversion W; subst.
    + rewrite (target_body_minus _ _ H1). apply body_parse_iff. auto.
    + rewrite (proj2 (endswith_minus _)) by eauto. change "-" with (String "-" "").
      rewrite sinit_app. apply body_parse_iff. auto.
Qed.

Lemma lstrip_id : forall s, match s with String c _ => is_space c = false | _ => True end -> lstrip s = s.
Proof. destruct s; simpl; auto. intros ->; auto. Qed.
Lemma rstrip_id : forall s, sall (fun c => negb (is_space c)) s = true -> rstrip s = s.
Proof.
  induction s as [|c s IH]; intros H; auto. rewrite sall_cons in H. apply andb_prop in H.
  destruct H as [H K]. simpl. rewrite IH; auto. apply negb_true_iff in H. rewrite H. destruct s; auto.
Qed.

Lemma is_digit_not : forall c, is_digit c = true ->
  is_space c = false /\ Ascii.eqb c "-" = false /\ Ascii.eqb c "+" = false.
Proof.
  intros c H. unfold is_digit in H. apply andb_prop in H. destruct H as [H1 H2].
  apply Z.leb_le in H1. apply Z.leb_le in H2.
  split; [|split].
  - unfold is_space. destruct (Z.leb_spec 9 (code c)), (Z.leb_spec (code c) 13), (Z.leb_spec 28 (code c)),
      (Z.leb_spec (code c) 32); simpl; auto; lia.
  - destruct (Ascii.eqb_spec c "-"); auto. subst. vm_compute in H1. exfalso; apply H1; auto.
  - destruct (Ascii.eqb_spec c "+"); auto. subst. vm_compute in H1. exfalso; apply H1; auto.
Qed.

Lemma int_body_digits : forall s acc p, all_digits s = true -> (p = true \/ s <> "") ->
  int_body p acc s = Some (digits_val acc s).
Proof.
  induction s as [|c s IH]; simpl; intros acc p H K.
  - destruct K as [->|K]; [auto | congruence].
  - apply andb_prop in H. destruct H as [-> H]. apply IH; auto.
Qed.

Lemma py_int_z_str : forall z, 0 <= z -> py_int (z_str z) = Some z.
Proof.
  intros z H. unfold py_int. destruct (z_str_head z H) as [c [r [E D]]].
  pose proof (all_digits_z_str z H) as A.
  assert (S : strip (z_str z) = z_str z).
  { unfold strip. rewrite lstrip_id.
    - apply rstrip_id. rewrite all_digits_sall in A. eapply sall_impl; [|apply A].
      intros d Hd. apply is_digit_not in Hd. destruct Hd as [-> _]. auto.
    - rewrite E. apply is_digit_not in D. tauto. }
  rewrite S. rewrite E at 1. destruct (is_digit_not c D) as [_ [-> ->]]. rewrite <- E.
  rewrite int_body_digits; auto.
  - f_equal. apply digits_val_z_str; auto.
  - right. apply z_str_nonempty.
Qed.

Lemma parse_target_roundtrip : forall (exact : bool) v, in_range v -> 0 <= snd v ->
  parse_target (ver_str v +++ (if exact then "" else "-")) = Some (exact, v).
Proof.
  intros exact [x y] R Y. apply parse_target_iff. split; auto. cbn [fst snd] in *.
  assert (B : target_body (ver_str (x, y)) (x, y)).
  { apply (tb_minor (z_str x) "." (z_str y) x y); auto; split; try apply py_int_z_str; auto;
      destruct R as [R _]; unfold ver_le in R; simpl in R; lia. }
  destruct exact; [rewrite app_nil_s|]; constructor; auto.
Qed.

(** ** C07 *)
Lemma last_by_major_In : forall {A} (maj : A -> Z) l m x, last_by_major maj l m = Some x -> In x l /\ maj x = m.
Proof.
  induction l as [|y l IH]; simpl; intros m x H; [discriminate|].
  destruct (last_by_major maj l m) eqn:E.
  - injection H as ->. apply IH in E. intuition.
  - destruct (Z.eqb_spec (maj y) m); [|discriminate]. injection H as ->. auto.
Qed.
Lemma last_by_major_None : forall {A} (maj : A -> Z) l m, last_by_major maj l m = None <-> ~ In m (map maj l).
Proof.
  induction l as [|y l IH]; simpl; intros m; [tauto|].
  destruct (last_by_major maj l m) eqn:E.
  - split; [discriminate|]. intros H. exfalso. apply H. right. apply last_by_major_In in E.
    destruct E as [E <-]. apply in_map; auto.
  - apply IH in E. destruct (Z.eqb_spec (maj y) m); split; intros H; try discriminate; auto; tauto.
Qed.
Lemma last_by_major_unique : forall {A} (maj : A -> Z) l x, NoDup (map maj l) -> In x l ->
  last_by_major maj l (maj x) = Some x.
Proof.
  induction l as [|y l IH]; simpl; intros x N H; [tauto|]. inversion N; subst.
  destruct H as [->|H].
  - rewrite (proj2 (last_by_major_None maj l (maj x))) by auto. rewrite Z.eqb_refl. auto.
  - rewrite IH; auto.
Qed.

Lemma filter_nil_iff : forall {A} (f : A -> bool) l, filter f l = [] <-> forall x, In x l -> f x = false.
Proof.
  induction l as [|y l IH]; simpl; [intuition|]. destruct (f y) eqn:E.
  - split; [discriminate|]. intros H. rewrite H in E; auto. discriminate.
  - rewrite IH. split; intros H x; [intros [<-|K]; auto | auto].
Qed.

Lemma compare_requirements_iff : forall reqs targets,
  one_per_major fst reqs -> one_per_major (fun t : target => fst (snd t)) targets ->
  (compare_requirements reqs targets = true <->
   targets <> [] /\ forall t, In t targets -> exists r, In r reqs /\ target_ok t r).
Proof.
  intros reqs targets NR NT. unfold compare_requirements. cbv zeta.
  set (maj := fun t : target => fst (snd t)) in *.
  set (has := fun m => match last_by_major fst reqs m with Some _ => true | None => false end).
  change (map (fun t : bool * (Z * Z) => fst (snd t)) targets) with (map maj targets).
  set (common := filter has (map maj targets)).
  assert (HAS : forall m, has m = true <-> In m (map fst reqs)).
  { intros m. unfold has. destruct (last_by_major fst reqs m) eqn:E.
    - split; auto. intros _. apply last_by_major_In in E. destruct E as [E <-]. apply in_map; auto.
    - split; [discriminate|]. apply last_by_major_None in E. tauto. }
  assert (CM : forall m, In m common <-> In m (map maj targets) /\ In m (map fst reqs)).
  { intros m. unfold common. rewrite filter_In, HAS. tauto. }
  assert (EX : existsb (fun m => negb (existsb (Z.eqb m) common)) (map maj targets) = true <->
               exists t, In t targets /\ ~ In (maj t) (map fst reqs)).
  { rewrite existsb_exists. split.
    - intros [m [Hm K]]. apply in_map_iff in Hm. destruct Hm as [t [<- Ht]]. exists t. split; auto.
      intros C. apply negb_true_iff in K. rewrite <- not_true_iff_false in K. apply K.
      apply existsb_exists. exists (maj t). split; [apply CM; split; auto; apply in_map; auto | apply Z.eqb_refl].
    - intros [t [Ht K]]. exists (maj t). split; [apply in_map; auto|]. apply negb_true_iff.
      apply not_true_iff_false. intros C. apply existsb_exists in C. destruct C as [m [Hm E]].
      apply Z.eqb_eq in E. subst m. apply CM in Hm. tauto. }
  clearbody common. destruct common as [|m0 cs] eqn:EC.
  - split; [discriminate|]. intros [NE H]. exfalso. destruct targets as [|t ts]; [congruence|].
    destruct (H t) as [r [Hr [Hf _]]]; [simpl; auto|].
    assert (In (maj t) []). { apply CM. split; [simpl; auto|]. unfold maj. rewrite <- Hf. apply in_map; auto. }
    auto.
  - assert (NC : common <> []) by congruence. rewrite <- EC in *. clear EC m0 cs.
    destruct (existsb _ (map maj targets)) eqn:EE.
    + split; [discriminate|]. intros [_ H]. exfalso. destruct (proj1 EX eq_refl) as [t [Ht K]].
      destruct (H t Ht) as [r [Hr [Hf _]]]. apply K. unfold maj. rewrite <- Hf. apply in_map; auto.
    + assert (ALL : forall t, In t targets -> In (maj t) (map fst reqs)).
      { intros t Ht. destruct (in_dec Z.eq_dec (maj t) (map fst reqs)); auto.
        assert (C : false = true) by (apply EX; eauto). discriminate. }
      rewrite forallb_forall. split.
      * intros H. split.
        { intros ->. destruct common as [|m ms]; [auto|]. destruct (proj1 (CM m)) as [[] _]. simpl; auto. }
        intros t Ht. specialize (H (maj t)).
        rewrite (last_by_major_unique maj targets t NT Ht) in H.
        destruct (last_by_major fst reqs (maj t)) as [r|] eqn:ER.
        -- apply last_by_major_In in ER. destruct ER as [Hr Hf]. exists r. split; auto.
           assert (K : In (maj t) common) by (apply CM; split; [apply in_map; auto | apply ALL; auto]).
           specialize (H K). destruct t as [ex v]. unfold target_ok, maj in *. cbn [fst snd] in *. split; auto.
           apply andb_prop in H. destruct H as [H1 H2]. destruct ex; cbn in *.
           ++ rewrite negb_involutive in H1. apply veqb_eq in H1. auto.
           ++ apply negb_true_iff in H2. apply vltb_ge in H2. unfold ver_le. lia.
        -- exfalso. apply last_by_major_None in ER. apply ER. apply ALL; auto.
      * intros [NE H] m Hm. apply CM in Hm. destruct Hm as [Hm _]. apply in_map_iff in Hm.
        destruct Hm as [t [<- Ht]]. rewrite (last_by_major_unique maj targets t NT Ht).
        destruct (H t Ht) as [r [Hr [Hf K]]].
        replace (maj t) with (fst r) by (rewrite Hf; reflexivity).
        rewrite (last_by_major_unique fst reqs r NR Hr). destruct t as [ex v]. cbn [fst snd] in *.
        destruct ex; cbn.
        -- subst. rewrite (proj2 (veqb_eq v v)); auto.
        -- unfold ver_le in K. rewrite (proj2 (vltb_ge v r)) by lia. auto.
Qed.

(** ** C08 *)
Lemma seq_strings_names : forall l, Forall plain l -> seq_strings l = Some (flat_map names1 l).
Proof.
  induction 1 as [|x l P _ IH]; auto. destruct x; simpl in *; try tauto; rewrite ?IH; auto.
Qed.

Lemma dotted_resolve_names : forall l, Forall name_ok l -> dotted_resolve l = Some (flat_map names l).
Proof.
  induction 1 as [|x l P _ IH]; auto. destruct x; simpl in *; rewrite ?IH; auto.
  rewrite seq_strings_names; auto.
Qed.

Lemma dotted_name_list : forall l, Forall name_ok l ->
  dotted_name (NSeq l) = Ok (join "." (flat_map names l)).
Proof. intros. simpl. rewrite dotted_resolve_names; auto. Qed.

Lemma flat_names1 : forall l, Forall plain l -> flat_map names l = flat_map names1 l.
Proof. induction 1 as [|x l P _ IH]; auto. destruct x; simpl in *; try tauto; congruence. Qed.

Lemma plain_ok : forall l, Forall plain l -> Forall name_ok l.
Proof. intros l H. eapply Forall_impl; [|apply H]. destruct a; simpl; tauto. Qed.

Lemma dotted_name_nesting : forall a b c, Forall name_ok a -> Forall plain b -> Forall name_ok c ->
  dotted_name (NSeq (a ++ [NSeq b] ++ c)) = dotted_name (NSeq (a ++ b ++ c)).
Proof.
  intros. rewrite !dotted_name_list.
  - f_equal. f_equal. rewrite !flat_map_app. simpl. rewrite app_nil_r.
    rewrite (flat_names1 b); auto.
  - rewrite !Forall_app. auto using plain_ok.
  - rewrite !Forall_app. auto.
Qed.

Lemma dotted_name_none : forall a c, Forall name_ok a -> Forall name_ok c ->
  dotted_name (NSeq (a ++ [NNone] ++ c)) = dotted_name (NSeq (a ++ c)).
Proof.
  intros. rewrite !dotted_name_list.
  - rewrite !flat_map_app. auto.
  - rewrite !Forall_app. auto.
  - rewrite !Forall_app. split; [auto | split; [constructor; [exact I | constructor] | auto]].
Qed.

(** ** C09 *)
Lemma bounded_str_hash_range : forall s, 0 <= bounded_str_hash s < 1000000.
Proof. intros. unfold bounded_str_hash. apply Z.mod_pos_bound. lia. Qed.

Lemma nondigit_colon : forall c : ascii, c = ":"%char -> is_digit c = false.
Proof. intros c ->. reflexivity. Qed.

Lemma match_line_col_render : forall l c t, 0 <= l -> (forall x, c = Some x -> 0 <= x) ->
  match_line_col (render l c t) = Some (z_str l, option_map z_str c, upto_newline t).
Proof.
  intros l c t Hl Hc. unfold render.
  change ("L" +++ ?x) with (String "L" x). unfold match_line_col at 1.
  rewrite Ascii.eqb_refl.
  destruct c as [c|].
  - change (":" +++ t) with (String ":" t).
    rewrite app_assoc_s. change (" C" +++ ?x) with (String " " (String "C" x)).
    rewrite span_digits_all; [| apply all_digits_z_str; auto | reflexivity].
    destruct (String.eqb_spec (z_str l) ""); [exfalso; eapply z_str_nonempty; eauto|].
    cbn [skip_space]. change (is_space " ") with true. cbn [skip_space]. change (is_space "C") with false.
    cbn iota. rewrite Ascii.eqb_refl.
    rewrite span_digits_all; [| apply all_digits_z_str; auto | reflexivity].
    destruct (String.eqb_spec (z_str c) ""); [exfalso; eapply z_str_nonempty; eauto|].
    rewrite Ascii.eqb_refl. reflexivity.
  - change ("" +++ ":" +++ t) with (String ":" t).
    rewrite span_digits_all; [| apply all_digits_z_str; auto | reflexivity].
    destruct (String.eqb_spec (z_str l) ""); [exfalso; eapply z_str_nonempty; eauto|].
    cbn [skip_space]. change (is_space ":") with false. cbn iota. reflexivity.
Qed.

Lemma sort_key_render : forall l c t, 0 <= l -> (forall x, c = Some x -> 0 <= x) ->
  sort_line_column (render l c t) = 1000000000 * l + 1000000 * col_of c + bounded_str_hash (upto_newline t).
Proof.
  intros l c t Hl Hc. unfold sort_line_column. rewrite match_line_col_render; auto.
  rewrite digits_val_z_str; auto. destruct c as [c|]; cbn [option_map col_of]; [rewrite digits_val_z_str by auto|]; lia.
Qed.

Lemma match_colons_render : forall l c t, 0 <= l -> (forall x, c = Some x -> 0 <= x) ->
  match_colons (render_parsable "" l c t) =
    Some (z_str l, match c with None => "" | Some c => z_str c end, upto_newline t).
Proof.
  intros l c t Hl Hc. unfold render_parsable.
  change ("" +++ ":" +++ ?x) with (String ":" x). unfold match_colons. rewrite Ascii.eqb_refl.
  change (":" +++ ?x) with (String ":" x).
  rewrite span_digits_all; [| apply all_digits_z_str; auto | reflexivity].
  destruct (String.eqb_spec (z_str l) ""); [exfalso; eapply z_str_nonempty; eauto|].
  rewrite Ascii.eqb_refl.
  destruct c as [c|].
  - rewrite span_digits_all; [| apply all_digits_z_str; auto | reflexivity].
    reflexivity.
  - reflexivity.
Qed.

Lemma match_parsable_render : forall path l c t, plain_path path -> 0 <= l ->
  (forall x, c = Some x -> 0 <= x) ->
  match_parsable (render_parsable path l c t) =
    Some (z_str l, match c with None => "" | Some c => z_str c end, upto_newline t).
Proof.
  unfold plain_path. induction path as [|p path IH]; intros l c t H Hl Hc.
  - assert (E := match_colons_render l c t Hl Hc).
    destruct (render_parsable "" l c t) eqn:R; [discriminate|]. cbn [match_parsable]. rewrite E. auto.
  - rewrite sall_cons in H. apply andb_prop in H. destruct H as [H K]. apply andb_prop in H.
    destruct H as [H1 H2]. apply negb_true_iff in H1. apply negb_true_iff in H2.
    change (render_parsable (String p path) l c t) with (String p (render_parsable path l c t)).
    cbn [match_parsable match_colons]. rewrite H1, H2. apply IH; auto.
Qed.

Lemma sort_key_parsable : forall path l c t, plain_path path -> 0 <= l -> (forall x, c = Some x -> 0 <= x) ->
  sort_line_column_parsable (render_parsable path l c t) =
    1000000000 * l + 1000000 * col_of c + bounded_str_hash (upto_newline t).
Proof.
  intros path l c t Hp Hl Hc. unfold sort_line_column_parsable. rewrite match_parsable_render; auto.
  rewrite digits_val_z_str; auto. destruct c as [c|]; cbn [col_of].
  - destruct (String.eqb_spec (z_str c) ""); [exfalso; eapply z_str_nonempty; eauto|].
    rewrite digits_val_z_str by auto. lia.
  - rewrite String.eqb_refl. lia.
Qed.

Lemma col_of_bound : forall l c, pos_ok l c -> 0 <= col_of c < 1000.
Proof. intros l [c|] [_ H]; simpl; [auto | lia]. Qed.

Lemma sort_by_position : forall l c t l' c' t', pos_ok l c -> pos_ok l' c' ->
  pos_lt l c l' c' -> sort_line_column (render l c t) < sort_line_column (render l' c' t').
Proof.
  intros l c t l' c' t' P P' H. pose proof (col_of_bound _ _ P). pose proof (col_of_bound _ _ P').
  destruct P as [P Q], P' as [P' Q'].
  rewrite !sort_key_render; auto; try (intros x E; apply Q in E; lia); try (intros x E; apply Q' in E; lia).
  pose proof (bounded_str_hash_range (upto_newline t)). pose proof (bounded_str_hash_range (upto_newline t')).
  unfold pos_lt in H. nia.
Qed.

Lemma sort_by_position_parsable : forall p l c t p' l' c' t', plain_path p -> plain_path p' ->
  pos_ok l c -> pos_ok l' c' -> pos_lt l c l' c' ->
  sort_line_column_parsable (render_parsable p l c t) < sort_line_column_parsable (render_parsable p' l' c' t').
Proof.
  intros p l c t p' l' c' t' Hp Hp' P P' H. pose proof (col_of_bound _ _ P). pose proof (col_of_bound _ _ P').
  destruct P as [P Q], P' as [P' Q'].
  rewrite !sort_key_parsable; auto; try (intros x E; apply Q in E; lia); try (intros x E; apply Q' in E; lia).
  pose proof (bounded_str_hash_range (upto_newline t)). pose proof (bounded_str_hash_range (upto_newline t')).
  unfold pos_lt in H. nia.
Qed.

(** ** C10 *)
Lemma hash_sum_code : forall s acc, hash_sum acc s = acc + 29 * code_sum s.
Proof. induction s; cbn [hash_sum code_sum]; intros; [lia|]. rewrite IHs. lia. Qed.

Lemma same_position_keys : forall l c t t', 0 <= l -> (forall x, c = Some x -> 0 <= x) ->
  (sort_line_column (render l c t) = sort_line_column (render l c t') <->
   (code_sum (upto_newline t) - code_sum (upto_newline t')) mod 1000000 = 0).
Proof.
  intros l c t t' Hl Hc. rewrite !sort_key_render; auto. unfold bounded_str_hash. rewrite !hash_sum_code.
  set (a := code_sum (upto_newline t)). set (b := code_sum (upto_newline t')).
  split; intros H.
  - assert (E : (13 + 29 * a) mod 1000000 = (13 + 29 * b) mod 1000000) by lia. clear H.
    assert (D : (1000000 | 29 * (a - b))).
    { apply Z.mod_divide; [lia|]. replace (29 * (a - b)) with ((13 + 29 * a) - (13 + 29 * b)) by lia.
      rewrite Zminus_mod, E, Z.sub_diag. reflexivity. }
    apply Z.mod_divide; [lia|]. eapply Z.gauss; [exact D|]. reflexivity.
  - apply Z.mod_divide in H; [|lia]. destruct H as [k H].
    replace (13 + 29 * a) with (13 + 29 * b + (29 * k) * 1000000) by lia.
    rewrite Z.mod_add by lia. auto.
Qed.

(** ** C11 *)
Lemma ws_class_iff : forall ex c, ws_class ex c = true <-> (whitespace c \/ In c ex).
Proof.
  intros ex c. unfold ws_class, whitespace. rewrite existsb_app, orb_true_iff, !existsb_exists.
  split.
  - intros [[x [H E]]|[x [H E]]]; apply Ascii.eqb_eq in E; subst x; auto.
    left. simpl in H. decompose [or] H; clear H; subst; try tauto; vm_compute; auto 10.
  - intros [H|H].
    + left. exists c. split; [|apply Ascii.eqb_refl].
      assert (C : forall a, code c = code a -> c = a) by (intros; apply code_inj; auto).
      simpl in H. decompose [or] H; clear H; try tauto;
        match goal with K : _ = code c |- _ => symmetry in K end.
      * rewrite (C (ascii_of_nat 32)); simpl; auto 10.
      * rewrite (C (ascii_of_nat 9)); simpl; auto 10.
      * rewrite (C (ascii_of_nat 10)); simpl; auto 10.
      * rewrite (C (ascii_of_nat 13)); simpl; auto 10.
      * rewrite (C (ascii_of_nat 12)); simpl; auto 10.
      * rewrite (C (ascii_of_nat 11)); simpl; auto 10.
    + right. exists c. split; auto. apply Ascii.eqb_refl.
Qed.

Lemma remove_whitespace_erased : forall s ex,
  erased (fun c => whitespace c \/ In c ex) (chars_of s) (chars_of (remove_whitespace s ex)).
Proof.
  unfold remove_whitespace. induction s as [|c s IH]; intros ex; cbn [sfilter chars_of]; [constructor|].
  destruct (ws_class ex c) eqn:E; cbn [negb].
  - apply er_drop; auto. apply ws_class_iff; auto.
  - cbn [chars_of]. apply er_keep; auto. rewrite <- ws_class_iff. congruence.
Qed.

Lemma sfilter_idem : forall f s, sfilter f (sfilter f s) = sfilter f s.
Proof.
  induction s as [|c s IH]; simpl; auto. destruct (f c) eqn:E; simpl; rewrite ?E; congruence.
Qed.

(** ** C12 *)
Lemma srepeat_space : forall n, all_spaces (srepeat " " n) /\ String.length (srepeat " " n) = n.
Proof.
  induction n as [|n [IH1 IH2]].
  - split; [intros c [] | reflexivity].
  - change (srepeat " " (S n)) with (String " " (srepeat " " n)). split.
    + intros c [<-|H]; [reflexivity | apply IH1; auto].
    + simpl. rewrite IH2. reflexivity.
Qed.

Lemma fold_max_ge : forall l n, (n <= fold_left (fun n t => Nat.max n (String.length t)) l n)%nat /\ (forall t, In t l -> (String.length t <= fold_left (fun n t => Nat.max n (String.length t)) l n)%nat).
Proof.
  induction l as [|x l IH]; simpl; intros n.
  - split; auto. intros t [].
  - destruct (IH (Nat.max n (String.length x))) as [A B]. split; [lia|].
    intros t [<-|H]; [lia | auto].
Qed.
Lemma fold_max_in : forall l n, (fold_left (fun n t => Nat.max n (String.length t)) l n = n) \/
  (exists t, In t l /\ String.length t = fold_left (fun n t => Nat.max n (String.length t)) l n).
Proof.
  induction l as [|x l IH]; simpl; intros n; auto.
  destruct (IH (Nat.max n (String.length x))) as [A|[t [Ht A]]].
  - rewrite A. destruct (Nat.max_spec n (String.length x)) as [[_ E]|[_ E]]; rewrite E; eauto.
  - right. exists t. auto.
Qed.

Lemma longest_title_spec : forall titles, titles <> [] ->
  (forall t, In t titles -> (String.length t <= longest_title titles)%nat) /\ (exists t, In t titles /\ String.length t = longest_title titles).
Proof.
  intros titles H. unfold longest_title. split; [apply fold_max_ge|].
  destruct (fold_max_in titles 0%nat) as [E|E]; auto.
  destruct titles as [|t ts]; [congruence|]. exists t. split; [simpl; auto|].
  destruct (fold_max_ge (t :: ts) 0%nat) as [_ B]. specialize (B t (or_introl eq_refl)). lia.
Qed.

Lemma title_desc_entry : forall indent w p, snd p <> [] -> (String.length (fst p) <= w)%nat ->
  exists ls, title_desc_lines indent w p = Ok ls /\ listing_entry indent w p ls.
Proof.
  intros indent w [title desc] H L. cbn [fst snd] in *. unfold title_desc_lines. cbn [fst snd].
  destruct desc as [|d ds]; [congruence|].
  destruct (srepeat_space indent) as [S1 S2].
  destruct (srepeat_space (w - String.length title)) as [S3 S4].
  set (t := srepeat " " indent +++ pad_right w title +++ " - ").
  destruct (srepeat_space (String.length t)) as [S5 S6].
  eexists. split; [reflexivity|].
  exists (srepeat " " indent), (srepeat " " (w - String.length title)), (srepeat " " (String.length t)), d, ds.
  repeat split; auto.
  - cbn [fst]. rewrite S4. lia.
  - rewrite S6. unfold t, pad_right. rewrite !length_app_s, S2, S4. simpl. lia.
  - cbn [fst]. f_equal. unfold t, pad_right. rewrite !app_assoc_s. reflexivity.
Qed.

Lemma format_title_descs_listing : forall pairs titles indent,
  titles <> [] -> (forall p, In p pairs -> In (fst p) titles /\ snd p <> []) ->
  exists w ls, format_title_descs pairs titles indent = Ok (join nl ls) /\ listing indent w pairs ls /\ (forall t, In t titles -> (String.length t <= w)%nat) /\ (exists t, In t titles /\ String.length t = w).
Proof.
  intros pairs titles indent NE H. destruct (longest_title_spec titles NE) as [L1 L2].
  exists (longest_title titles). unfold format_title_descs.
  assert (K : exists ls, concat_res (map (title_desc_lines indent (longest_title titles)) pairs) = Ok ls /\ listing indent (longest_title titles) pairs ls).
  { induction pairs as [|p ps IH]; simpl.
    - exists []. split; auto. constructor.
    - destruct (title_desc_entry indent (longest_title titles) p) as [l [E1 E2]].
      + apply H; simpl; auto.
      + apply L1. apply H; simpl; auto.
      + destruct IH as [ls [E3 E4]]; [intros; apply H; simpl; auto|].
        exists (l ++ ls). rewrite E1, E3. split; auto. constructor; auto. }
  destruct K as [ls [E1 E2]]. exists ls. rewrite E1. destruct titles; [congruence|]. auto.
Qed.
